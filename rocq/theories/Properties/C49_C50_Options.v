(** C49: generated parts. C50: independence of generations. *)
From stdpp Require Import list strings.
From Coq Require Import String.
From Verif.Model Require Import Options.
From Verif.Spec Require Import OptionsSpec.
From Verif.Proof Require Import OptionsProof.
Local Open Scope string_scope.

(** The flag is accepted exactly when it is a comma-separated list of the three words (possibly
    empty), and it chooses exactly the listed parts. *)
Theorem C49_flag s p : to_options s = Some p <->
  exists xs, s = comma_separated (map word xs) /\ forall x, chosen p x <-> x ∈ xs.
Proof. exact (to_options_spec s p). Qed.
Example C49_flag_ex :
  to_options "user,application,types" = Some (mkParts true true true) /\ to_options "types,types" = Some (mkParts false false true) /\
  to_options "" = Some (mkParts false false false) /\ to_options "user," = None /\ to_options "User" = None /\
  to_options "user, types" = None.
Proof. repeat split; vm_compute; reflexivity. Qed.

(** The chosen parts are written, each once, the application before the user before the types; the
    generation fails exactly when that of a chosen part does. *)
Theorem C49_written fails p :
  (forall l, write 4 fails p = Some l ->
     NoDup l /\ (forall x, x ∈ l <-> chosen p x) /\ l `sublist_of` [Application; User; Types]) /\
  (write 4 fails p = None <-> exists x, chosen p x /\ fails x = true).
Proof.
  rewrite write_spec. split.
  - intros l. case_match; [discriminate|]. intros [= <-].
    destruct p as [[] [] []]; cbn;
      (split; [apply (bool_decide_unpack _); vm_compute; exact I|]);
      (split; [intros []; cbn; (split; [intros E; first [reflexivity|apply (bool_decide_pack _) in E; vm_compute in E; destruct E]
        |intros E; first [discriminate|apply (bool_decide_unpack _); vm_compute; exact I]])
      |repeat constructor]).
  - destruct p as [a b c]. cbn. split.
    + destruct a, b, c; cbn; destruct (fails Application) eqn:?, (fails User) eqn:?, (fails Types) eqn:?; cbn; intros H;
        first [discriminate|now exists Application|now exists User|now exists Types].
    + intros [[] [H F]]; cbn in H; subst; rewrite F; cbn; [reflexivity| |]; now rewrite ?Bool.orb_true_r.
Qed.
Example C49_written_ex : write 4 (fun _ => false) (mkParts true false true) = Some [Application; Types].
Proof. reflexivity. Qed.

(** C50: a generation works with the settings its own options ask for. Refuted: the switches for
    dates and pointers stay on for the rest of the process. *)
Theorem C50_refuted : exists os o e,
  accepted o /\ generate o (after os initial) = (e, Some e) /\ e <> asked o.
Proof.
  exists [mkOptions "none" "none" true true], (mkOptions "none" "none" false false), (mkSettings "none" "none" false true).
  split; [split; apply (bool_decide_unpack _); vm_compute; exact I|]. split; [vm_compute; reflexivity|discriminate].
Qed.

(** What the settings of a generation are, after any sequence of generations in the same process: the
    naming functions are its own, each switch is on if it or an earlier accepted generation asked. *)
Theorem C50_settings os o : accepted o ->
  exists e, generate o (after os initial) = (e, Some e) /\
    g_convert e = o_convert o /\ g_namify e = o_namify o /\
    (g_dates e = false <-> exists o', o' ∈ os ++ [o] /\ accepted o' /\ o_ignore o' = true)%list /\
    (g_pointers e = true <-> exists o', o' ∈ os ++ [o] /\ accepted o' /\ o_force o' = true)%list.
Proof.
  intros A. destruct (generate_accepted o (after os initial) A) as [e E]. exists e. split; [exact E|].
  pose proof (generate_settings _ _ _ _ E) as (_ & _ & F).
  split; [now rewrite F|]. split; [now rewrite F|].
  assert (G : e = after (os ++ [o]) initial).
  { unfold after. rewrite fold_left_app. cbn. now change (fold_left _ os initial) with (after os initial); rewrite E. }
  rewrite G. split; [rewrite after_dates|rewrite after_pointers]; (split; [intros [H|H]; [discriminate|exact H]|auto]).
Qed.
Example C50_settings_ex :
  generate (mkOptions "camel" "none" false true) (after [mkOptions "snake" "camel" false false; mkOptions "bad" "none" true true] initial)
  = (mkSettings "camel" "none" true true, Some (mkSettings "camel" "none" true true)).
Proof. vm_compute. reflexivity. Qed.

(** So the statement holds when no earlier generation used a switch that this one does not use. *)
Theorem C50_independent_partial os o : accepted o ->
  (forall o', o' ∈ os -> accepted o' -> (o_ignore o' = true -> o_ignore o = true) /\ (o_force o' = true -> o_force o = true)) ->
  generate o (after os initial) = (asked o, Some (asked o)).
Proof.
  intros A H. destruct (C50_settings os o A) as (e & E & C & N & D & P). rewrite E.
  assert (e = asked o) as ->; [|reflexivity]. destruct e as [c n d p]. cbn in *. unfold asked. subst c n. f_equal.
  - destruct d, (o_ignore o) eqn:I; try reflexivity.
    + exfalso. assert (K : true = false); [|discriminate]. apply D. exists o. split; [apply elem_of_app; right; now apply elem_of_list_singleton|]. auto.
    + destruct (proj1 D eq_refl) as (o' & M & A' & I'). apply elem_of_app in M as [M|M%elem_of_list_singleton]; [|congruence].
      destruct (H _ M A') as [K _]. specialize (K I'); congruence.
  - destruct p, (o_force o) eqn:I; try reflexivity.
    + destruct (proj1 P eq_refl) as (o' & M & A' & I'). apply elem_of_app in M as [M|M%elem_of_list_singleton]; [|congruence].
      destruct (H _ M A') as [_ K]. specialize (K I'); congruence.
    + exfalso. assert (K : false = true); [|discriminate]. apply P. exists o. split; [apply elem_of_app; right; now apply elem_of_list_singleton|]. auto.
Qed.

(** This condition is exact: otherwise the generation does not get what it asked for. *)
Theorem C50_independent_exact os o : accepted o ->
  generate o (after os initial) = (asked o, Some (asked o)) <->
  (forall o', o' ∈ os -> accepted o' -> (o_ignore o' = true -> o_ignore o = true) /\ (o_force o' = true -> o_force o = true)).
Proof.
  intros A. split; [|apply C50_independent_partial, A]. intros G o' M A'. destruct (C50_settings os o A) as (e & E & _ & _ & D & P).
  rewrite E in G. injection G as ->. unfold asked in D, P. cbn in D, P. split; intros Q.
  - assert (K : negb (o_ignore o) = false) by (apply D; exists o'; split; [apply elem_of_app; now left|auto]). now apply negb_false_iff.
  - apply P. exists o'. split; [apply elem_of_app; now left|auto].
Qed.
Print Assumptions C50_independent_exact.
Example C50_independent_ex :
  generate (mkOptions "kebab" "camel" true false) (after [mkOptions "snake" "none" true false] initial)
  = (asked (mkOptions "kebab" "camel" true false), Some (asked (mkOptions "kebab" "camel" true false))).
Proof.
  apply C50_independent_partial.
  - split; apply (bool_decide_unpack _); vm_compute; exact I.
  - intros o' M%elem_of_list_singleton _. subst. cbn. auto.
Qed.

Print Assumptions C49_flag.
Print Assumptions C49_written.
Print Assumptions C50_refuted.
Print Assumptions C50_settings.
Print Assumptions C50_independent_partial.
