From stdpp Require Import list strings.
From Coq Require Import Ascii String.
From Verif.Model Require Import GoStrings Options.
From Verif.Spec Require Import OptionsSpec.
From Verif.Proof Require Import GoStringsProof.
Local Open Scope string_scope.

#[global] Instance part_eq_dec : EqDecision part.
Proof. solve_decision. Defined.

Lemma comma_cons w x r : comma_separated (w :: x :: r) = w ++ String "," (comma_separated (x :: r)).
Proof. reflexivity. Qed.

Lemma comma_split s : comma_separated (split "," s) = s.
Proof.
  induction s as [|c s IH]; [reflexivity|]. cbn [split].
  destruct (split_nonnil "," s) as (x & xs & E).
  destruct (Ascii.eqb_spec c ",") as [->|N]; rewrite E in IH |- *.
  - rewrite comma_cons, IH. reflexivity.
  - destruct xs as [|y ys]; [cbn in *; now rewrite IH|].
    rewrite comma_cons in *. rewrite sapp_cons. now rewrite IH.
Qed.

Lemma split_comma w r : Forall (lacks ",") (w :: r) -> split "," (comma_separated (w :: r)) = w :: r.
Proof.
  revert w. induction r as [|x r IH]; intros w F; apply Forall_cons in F as [Hw F].
  - cbn. now apply split_lacks.
  - rewrite comma_cons, split_app by exact Hw. now rewrite IH.
Qed.

Lemma split_has_no_sep s : Forall (lacks ",") (split "," s).
Proof.
  induction s as [|c s IH]; cbn [split].
  - constructor; [apply lacks_nil|constructor].
  - destruct (Ascii.eqb_spec c ",") as [->|N].
    + constructor; [apply lacks_nil|exact IH].
    + destruct (split "," s) as [|x xs]; [constructor; [|constructor]; apply lacks_cons; split; [congruence|apply lacks_nil]|].
      apply Forall_cons in IH as [Hx Hxs]. constructor; [|exact Hxs]. apply lacks_cons. split; [congruence|exact Hx].
Qed.

Lemma lacks_word x : lacks "," (word x).
Proof. unfold lacks. destruct x; apply (bool_decide_unpack _); vm_compute; exact I. Qed.

Lemma chosen_select x y p : chosen (match y with
    | Application => mkParts true (p_user p) (p_types p)
    | User => mkParts (p_application p) true (p_types p)
    | Types => mkParts (p_application p) (p_user p) true end) x <-> x = y \/ chosen p x.
Proof. destruct x, y; cbn; (split; [auto; fail|intros [E|E]; first [discriminate|assumption|reflexivity]] || (split; [auto|auto])). Qed.

Lemma select_words xs p q : select (map word xs) p = Some q ->
  forall x, chosen q x <-> x ∈ xs \/ chosen p x.
Proof.
  revert p. induction xs as [|y xs IH]; intros p; cbn [map select].
  - intros [= ->] x. rewrite elem_of_nil. tauto.
  - destruct y; cbn [word String.eqb Ascii.eqb Bool.eqb]; intros H x; rewrite (IH _ H x), elem_of_cons.
    + rewrite (chosen_select x Application p). tauto.
    + rewrite (chosen_select x User p). tauto.
    + rewrite (chosen_select x Types p). tauto.
Qed.
Lemma select_some xs p : exists q, select (map word xs) p = Some q.
Proof. revert p. induction xs as [|y xs IH]; intros p; [now eexists|]. destruct y; apply IH. Qed.
Lemma select_only ws p q : select ws p = Some q -> exists xs, ws = map word xs.
Proof.
  revert p. induction ws as [|w ws IH]; intros p; cbn [select]; [now exists []|].
  destruct (String.eqb_spec w "application") as [->|_]; [intros H; destruct (IH _ H) as [xs ->]; now exists (Application :: xs)|].
  destruct (String.eqb_spec w "user") as [->|_]; [intros H; destruct (IH _ H) as [xs ->]; now exists (User :: xs)|].
  destruct (String.eqb_spec w "types") as [->|_]; [intros H; destruct (IH _ H) as [xs ->]; now exists (Types :: xs)|].
  discriminate.
Qed.

Lemma chosen_ext p q : (forall x, chosen p x <-> chosen q x) -> p = q.
Proof.
  intros H. destruct p as [a b c], q as [a' b' c'].
  pose proof (H Application) as H1. pose proof (H User) as H2. pose proof (H Types) as H3. cbn in *.
  f_equal; [destruct a, a'|destruct b, b'|destruct c, c']; intuition congruence.
Qed.

Lemma word_nonempty x : word x <> "".
Proof. destruct x; discriminate. Qed.

Lemma to_options_spec s p : to_options s = Some p <->
  exists xs, s = comma_separated (map word xs) /\ forall x, chosen p x <-> x ∈ xs.
Proof.
  unfold to_options. destruct (String.eqb_spec s "") as [->|N].
  - split.
    + intros [= <-]. exists []. split; [reflexivity|]. intros x. rewrite elem_of_nil. now destruct x.
    + intros (xs & E & H). f_equal. apply chosen_ext. intros x. rewrite H.
      assert (xs = []) as ->.
      { destruct xs as [|y [|z xs]]; [reflexivity|..]; cbn in E.
        - now destruct (word_nonempty y).
        - destruct y; discriminate. }
      rewrite elem_of_nil. now destruct x.
  - split.
    + intros H. destruct (select_only _ _ _ H) as [xs E]. exists xs. split.
      * rewrite <- E. symmetry. apply comma_split.
      * rewrite E in H. intros x. rewrite (select_words _ _ _ H x). destruct x; cbn; intuition congruence.
    + intros (xs & -> & H). destruct xs as [|y xs]; [now destruct N|]. cbn [map].
      rewrite split_comma by (constructor; [apply lacks_word|apply Forall_map, Forall_true; intros; apply lacks_word]).
      destruct (select_some (y :: xs) no_parts) as [q E]. cbn [map] in E. rewrite E. f_equal. apply chosen_ext.
      intros x. rewrite H. rewrite (select_words (y :: xs) _ _ E x). destruct x; cbn; intuition congruence.
Qed.

(** *** The parts that are written *)
Lemma write_spec fails p : write 4 fails p =
  if (p_application p && fails Application) || (p_user p && fails User) || (p_types p && fails Types) then None
  else Some ((if p_application p then [Application] else []) ++ (if p_user p then [User] else []) ++ if p_types p then [Types] else [])%list.
Proof. destruct p as [[] [] []]; cbn; destruct (fails Application), (fails User), (fails Types); reflexivity. Qed.

(** *** Settings *)
Lemma generate_settings o g e g' : generate o g = (g', Some e) ->
  accepted o /\ g' = e /\ e = mkSettings (o_convert o) (o_namify o) (g_dates g && negb (o_ignore o)) (g_pointers g || o_force o).
Proof.
  unfold generate. case_bool_decide as C; [|discriminate]. case_bool_decide as N; [|discriminate].
  intros E. injection E as <- <-. split; [split; assumption|]. split; [reflexivity|].
  destruct g as [a b [] []], (o_ignore o), (o_force o); reflexivity.
Qed.
Lemma generate_accepted o g : accepted o -> exists e, generate o g = (e, Some e).
Proof. intros [C N]. unfold generate. rewrite !bool_decide_true by assumption. eauto. Qed.
Lemma generate_refused o g : ~ accepted o -> (generate o g).2 = None /\
  g_dates (generate o g).1 = g_dates g /\ g_pointers (generate o g).1 = g_pointers g.
Proof.
  intros A. unfold generate, convert_names, namify_names. case_bool_decide as C; [|auto]. case_bool_decide as N; [|auto].
  destruct A. split; assumption.
Qed.

Lemma after_dates os g : g_dates (after os g) = false <-> g_dates g = false \/ exists o, o ∈ os /\ accepted o /\ o_ignore o = true.
Proof.
  revert g. induction os as [|o os IH]; intros g; cbn [after fold_left].
  - split; [auto|]. intros [H|(o & H & _)]; [exact H|]. now apply elem_of_nil in H.
  - change (fold_left _ os ?x) with (after os x). rewrite IH. clear IH.
    assert (D : g_dates (generate o g).1 = false <-> g_dates g = false \/ (accepted o /\ o_ignore o = true)).
    { destruct (decide (o_convert o ∈ ["snake"; "kebab"; "camel"; "none"] /\ o_namify o ∈ ["camel"; "none"])) as [A|A].
      - destruct (generate_accepted o g A) as [e E]. destruct (generate_settings _ _ _ _ E) as (_ & _ & F).
        rewrite E. cbn [fst]. rewrite F. cbn. rewrite Bool.andb_false_iff, Bool.negb_false_iff. change (accepted o) in A. tauto.
      - destruct (generate_refused o g A) as (_ & -> & _). change (~ accepted o) in A. tauto. }
    rewrite D. split.
    + intros [[H|[A I]]|(o' & H & R)]; [now left|right; exists o; split; [left|auto]|right; exists o'; split; [now right|exact R]].
    + intros [H|(o' & H & R)]; [now left; left|]. apply elem_of_cons in H as [->|H]; [left; now right|right; eauto].
Qed.
Lemma after_pointers os g : g_pointers (after os g) = true <-> g_pointers g = true \/ exists o, o ∈ os /\ accepted o /\ o_force o = true.
Proof.
  revert g. induction os as [|o os IH]; intros g; cbn [after fold_left].
  - split; [auto|]. intros [H|(o & H & _)]; [exact H|]. now apply elem_of_nil in H.
  - change (fold_left _ os ?x) with (after os x). rewrite IH. clear IH.
    assert (D : g_pointers (generate o g).1 = true <-> g_pointers g = true \/ (accepted o /\ o_force o = true)).
    { destruct (decide (o_convert o ∈ ["snake"; "kebab"; "camel"; "none"] /\ o_namify o ∈ ["camel"; "none"])) as [A|A].
      - destruct (generate_accepted o g A) as [e E]. destruct (generate_settings _ _ _ _ E) as (_ & _ & F).
        rewrite E. cbn [fst]. rewrite F. cbn. rewrite Bool.orb_true_iff. change (accepted o) in A. tauto.
      - destruct (generate_refused o g A) as (_ & _ & ->). change (~ accepted o) in A. tauto. }
    rewrite D. split.
    + intros [[H|[A I]]|(o' & H & R)]; [now left|right; exists o; split; [left|auto]|right; exists o'; split; [now right|exact R]].
    + intros [H|(o' & H & R)]; [now left; left|]. apply elem_of_cons in H as [->|H]; [left; now right|right; eauto].
Qed.
