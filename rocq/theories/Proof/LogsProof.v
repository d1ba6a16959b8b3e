From stdpp Require Import list strings.
From Coq Require Import Ascii String.
From Verif.Model Require Import GoStrings Logs.
From Verif.Spec Require Import LogsSpec.
From Verif.Proof Require Import GoStringsProof.
Local Open Scope string_scope.

(** *** Keys *)
Lemma dotted_cons k x r : dotted (k :: x :: r) = k ++ String "." (dotted (x :: r)).
Proof. reflexivity. Qed.
Lemma dotted_split s : dotted (split "." s) = s.
Proof.
  induction s as [|c s IH]; [reflexivity|]. cbn [split].
  destruct (split_nonnil "." s) as (x & xs & E).
  destruct (Ascii.eqb_spec c ".") as [->|N]; rewrite E in IH |- *.
  - rewrite dotted_cons, IH. reflexivity.
  - destruct xs as [|y ys]; [cbn in *; now rewrite IH|]. rewrite dotted_cons in *. rewrite sapp_cons. now rewrite IH.
Qed.
Lemma split_dotted ks : ks <> [] -> Forall (lacks ".") ks -> split "." (dotted ks) = ks.
Proof.
  destruct ks as [|w r]; [easy|intros _]. revert w. induction r as [|x r IH]; intros w F; apply Forall_cons in F as [Hw F].
  - cbn. now apply split_lacks.
  - rewrite dotted_cons, split_app by exact Hw. now rewrite IH.
Qed.
Lemma split_no_dot s : Forall (lacks ".") (split "." s).
Proof.
  induction s as [|c s IH]; cbn [split].
  - constructor; [apply lacks_nil|constructor].
  - destruct (Ascii.eqb_spec c ".") as [->|N].
    + constructor; [apply lacks_nil|exact IH].
    + destruct (split "." s) as [|x xs]; [constructor; [|constructor]; apply lacks_cons; split; [congruence|apply lacks_nil]|].
      apply Forall_cons in IH as [Hx Hxs]. constructor; [|exact Hxs]. apply lacks_cons. split; [congruence|exact Hx].
Qed.
Lemma parts_split s ks : parts_of s ks <-> ks = split "." s.
Proof.
  split.
  - intros (N & F & ->). symmetry. now apply split_dotted.
  - intros ->. split; [destruct (split_nonnil "." s) as (x & xs & ->); discriminate|].
    split; [apply split_no_dot|symmetry; apply dotted_split].
Qed.
(** Splitting the joined rest again, as common.go:34 does, changes nothing. *)
Lemma split_join s k x rest : split "." s = k :: x :: rest -> split "." (dotted (x :: rest)) = x :: rest.
Proof. intros E. apply split_dotted; [discriminate|]. pose proof (split_no_dot s) as F. rewrite E in F. now apply Forall_cons in F as [_ F]. Qed.

(** *** Maps *)
Lemma lget_lput k v m k' : lget k' (lput k v m) = if String.eqb k' k then Some v else lget k' m.
Proof.
  induction m as [|[x w] m IH]; cbn [lput lget].
  - reflexivity.
  - destruct (String.eqb_spec k x) as [->|N]; cbn [lget].
    + destruct (String.eqb_spec k' x); reflexivity.
    + destruct (String.eqb_spec k' x) as [->|N']; [destruct (String.eqb_spec x k); congruence|exact IH].
Qed.
Lemma lget_in k v m : NoDup m.*1 -> lget k m = Some v <-> (k, v) ∈ m.
Proof.
  induction m as [|[x w] m IH]; cbn [lget].
  - intros _. split; [discriminate|intros H%elem_of_nil; destruct H].
  - rewrite fmap_cons. intros [N D]%NoDup_cons. rewrite elem_of_cons. destruct (String.eqb_spec k x) as [->|E].
    + split; [intros [= ->]; now left|]. intros [[= ->]|H]; [reflexivity|].
      destruct N. apply elem_of_list_fmap. now exists (x, v).
    + rewrite IH by exact D. split; [auto|intros [[= ? ?]|H]; [congruence|exact H]].
Qed.
Lemma lput_keys k v m k' : k' ∈ (lput k v m).*1 <-> k' = k \/ k' ∈ m.*1.
Proof.
  induction m as [|[x w] m IH]; cbn [lput].
  - cbn. rewrite elem_of_cons, elem_of_nil. tauto.
  - destruct (String.eqb_spec k x) as [->|N]; cbn [fmap list_fmap fst]; rewrite !elem_of_cons; [tauto|].
    change (list_fmap _ _ fst (lput k v m)) with ((lput k v m).*1). rewrite IH. tauto.
Qed.
Lemma lput_nodup k v m : NoDup m.*1 -> NoDup (lput k v m).*1.
Proof.
  induction m as [|[x w] m IH]; cbn [lput].
  - intros _. apply NoDup_singleton.
  - rewrite fmap_cons. intros [N D]%NoDup_cons. destruct (String.eqb_spec k x) as [->|E]; rewrite fmap_cons; apply NoDup_cons; [auto|].
    split; [|auto]. rewrite lput_keys. cbn in *. intros [H|H]; congruence.
Qed.
Lemma functional_inv m : functional m -> NoDup m.*1 /\ forall k sub, (k, LMap sub) ∈ m -> functional sub.
Proof. intros F. inversion F; subst. auto. Qed.
Lemma functional_get m k sub : functional m -> lget k m = Some (LMap sub) -> functional sub.
Proof. intros [D S]%functional_inv G. apply lget_in in G; [eauto|exact D]. Qed.
Lemma functional_nil : functional [].
Proof. constructor; [constructor|]. intros k sub H%elem_of_nil. destruct H. Qed.
Lemma functional_put k v m : functional m -> (forall sub, v = LMap sub -> functional sub) -> functional (lput k v m).
Proof.
  intros [D S]%functional_inv V. assert (D' := lput_nodup k v m D). constructor; [exact D'|].
  intros k' sub H. apply (lget_in k' (LMap sub) _ D') in H. rewrite lget_lput in H.
  destruct (String.eqb k' k); [injection H as ->; now apply V|]. apply lget_in in H; eauto.
Qed.

(** *** Insertion *)
Fixpoint find (ls : list string) (m : lmap) : option string :=
  match ls with
  | [] => None
  | [k] => match lget k m with Some (LText v) => Some v | _ => None end
  | k :: rest => match lget k m with Some (LMap sub) => find rest sub | _ => None end
  end.

Lemma says_find m ls v : functional m -> says m ls v <-> find ls m = Some v.
Proof.
  intros F. split.
  - intros S. revert F. induction S as [m k v H|m k sub ks v H S IH]; intros [D Q]%functional_inv.
    + cbn. apply (lget_in k (LText v) m D) in H. now rewrite H.
    + assert (G := H). apply (lget_in k (LMap sub) m D) in G. destruct ks as [|x ks]; [inversion S|].
      cbn [find]. rewrite G. apply IH. eauto.
  - revert m F. induction ls as [|k ls IH]; intros m F; [discriminate|]. destruct ls as [|x ls].
    + cbn. destruct (lget k m) as [[w|]|] eqn:G; try discriminate. intros [= ->]. apply functional_inv in F as [D Q].
      apply lget_in in G; [|exact D]. now constructor.
    + intros H. change (match lget k m with Some (LMap sub) => find (x :: ls) sub | _ => None end = Some v) in H.
      destruct (lget k m) as [[w|sub]|] eqn:G; try discriminate.
      assert (Fs := functional_get _ _ _ F G). apply functional_inv in F as [D Q]. apply lget_in in G; [|exact D].
      econstructor; [exact G|]. now apply IH.
Qed.

Lemma insert_cons k x rest v m : insert (k :: x :: rest) v m =
  lput k (LMap (insert (x :: rest) v (match lget k m with Some (LMap sub) => sub | _ => [] end))) m.
Proof. cbn [insert]. destruct (lget k m) as [[?|?]|]; reflexivity. Qed.

Lemma insert_functional ks v m : functional m -> functional (insert ks v m).
Proof.
  revert m. induction ks as [|k ks IH]; intros m F; [exact F|]. destruct ks as [|x ks].
  - cbn [insert]. apply functional_put; [exact F|discriminate].
  - rewrite insert_cons. apply functional_put; [exact F|]. intros sub [= <-]. apply IH.
    destruct (lget k m) as [[?|sub]|] eqn:G; [apply functional_nil|eapply functional_get; eauto|apply functional_nil].
Qed.

Lemma find_nil ls : find ls [] = None.
Proof. destruct ls as [|k [|x ls]]; reflexivity. Qed.

Lemma find_insert ks v m ls : ks <> [] -> ls <> [] ->
  (ls = ks -> find ls (insert ks v m) = Some v) /\
  (ls <> ks -> ks `prefix_of` ls \/ ls `prefix_of` ks -> find ls (insert ks v m) = None) /\
  (~ ks `prefix_of` ls -> ~ ls `prefix_of` ks -> find ls (insert ks v m) = find ls m).
Proof.
  revert m ls. induction ks as [|k ks IH]; intros m ls Nk Nl; [easy|]. destruct ls as [|l ls]; [easy|].
  destruct ks as [|x ks].
  - cbn [insert]. destruct (String.eqb_spec l k) as [->|E].
    + destruct ls as [|y ls]; (split; [|split]).
      * intros _. cbn. rewrite lget_lput, String.eqb_refl. reflexivity.
      * easy.
      * intros P. destruct P. reflexivity.
      * discriminate.
      * intros _ _. cbn [find]. rewrite lget_lput, String.eqb_refl. reflexivity.
      * intros P. destruct P. now exists (y :: ls).
    + split; [congruence|split].
      * intros _ [P|P]; apply prefix_cons_inv_1 in P; congruence.
      * intros _ _. destruct ls as [|y ls]; cbn [find]; rewrite lget_lput; destruct (String.eqb_spec l k); congruence.
  - rewrite insert_cons. set (sub := match lget k m with Some (LMap sub) => sub | _ => [] end).
    destruct (String.eqb_spec l k) as [->|E].
    + destruct ls as [|y ls].
      * split; [discriminate|split].
        -- intros _ _. cbn [find]. rewrite lget_lput, String.eqb_refl. reflexivity.
        -- intros _ P. destruct P. now exists (x :: ks).
      * assert (R : find (k :: y :: ls) (lput k (LMap (insert (x :: ks) v sub)) m) = find (y :: ls) (insert (x :: ks) v sub)).
        { cbn [find]. rewrite lget_lput, String.eqb_refl. reflexivity. }
        rewrite R. destruct (IH sub (y :: ls)) as (A & B & C); [discriminate..|]. split; [|split].
        -- intros [= -> ->]. now apply A.
        -- intros N P. apply B; [congruence|]. destruct P as [P|P]; apply prefix_cons_inv_2 in P; auto.
        -- intros P Q. rewrite C.
           ++ change (find (k :: y :: ls) m) with (match lget k m with Some (LMap sub) => find (y :: ls) sub | _ => None end).
              unfold sub. destruct (lget k m) as [[?|?]|]; [apply find_nil|reflexivity|apply find_nil].
           ++ intros H. apply P. now apply prefix_cons.
           ++ intros H. apply Q. now apply prefix_cons.
    + split; [congruence|split].
      * intros _ [P|P]; apply prefix_cons_inv_1 in P; congruence.
      * intros _ _. destruct ls as [|y ls]; cbn [find]; rewrite lget_lput; destruct (String.eqb_spec l k); congruence.
Qed.

Lemma clash_split a b : clash a b <-> split "." a `prefix_of` split "." b \/ split "." b `prefix_of` split "." a.
Proof.
  unfold clash. split.
  - intros (ks & ls & A & B & C). apply parts_split in A, B. now subst.
  - intros C. exists (split "." a), (split "." b). rewrite !parts_split. auto.
Qed.
Lemma split_inj a b : split "." a = split "." b -> a = b.
Proof. intros E. rewrite <- (dotted_split a), <- (dotted_split b). now rewrite E. Qed.
Lemma split_neq_nil a : split "." a <> [].
Proof. destruct (split_nonnil "." a) as (x & xs & ->). discriminate. Qed.

Lemma structure_snoc info kv : structure_logs (info ++ [kv]) = insert_log kv.1 kv.2 (structure_logs info).
Proof. unfold structure_logs. now rewrite fold_left_app. Qed.
Lemma structure_functional info : functional (structure_logs info).
Proof.
  induction info as [|kv info IH] using rev_ind; [apply functional_nil|]. rewrite structure_snoc. now apply insert_functional.
Qed.

Lemma structure_find info k v : find (split "." k) (structure_logs info) = Some v <->
  exists pre post, info = (pre ++ (k, v) :: post)%list /\ forall kv, kv ∈ post -> ~ clash kv.1 k.
Proof.
  induction info as [|[a w] info IH] using rev_ind.
  - cbn. rewrite find_nil. split; [discriminate|]. intros (pre & post & E & _). destruct pre; discriminate.
  - rewrite structure_snoc. unfold insert_log. cbn [fst snd].
    destruct (find_insert (split "." a) w (structure_logs info) (split "." k) (split_neq_nil a) (split_neq_nil k)) as (A & B & C).
    destruct (decide (k = a)) as [->|N].
    + rewrite A by reflexivity. split.
      * intros [= ->]. exists info, []. split; [reflexivity|]. intros kv H%elem_of_nil. destruct H.
      * intros (pre & post & E & H). destruct post as [|kv post] using rev_ind; [apply app_inj_tail in E as [_ E]; congruence|].
        clear IHpost. rewrite app_comm_cons, app_assoc in E. apply app_inj_tail in E as [_ <-].
        destruct (H (a, w)); [apply elem_of_app; right; now apply elem_of_list_singleton|]. apply clash_split. now left.
    + assert (N' : split "." k <> split "." a) by (intros E; apply N; now apply split_inj).
      destruct (decide (split "." a `prefix_of` split "." k \/ split "." k `prefix_of` split "." a)) as [P|P].
      * rewrite B by assumption. split; [discriminate|]. intros (pre & post & E & H).
        destruct post as [|kv post] using rev_ind; [apply app_inj_tail in E as [_ E]; congruence|].
        clear IHpost. rewrite app_comm_cons, app_assoc in E. apply app_inj_tail in E as [_ <-].
        destruct (H (a, w)); [apply elem_of_app; right; now apply elem_of_list_singleton|]. now apply clash_split.
      * rewrite C by tauto. rewrite IH. split.
        -- intros (pre & post & -> & H). exists pre, (post ++ [(a, w)])%list. split; [now rewrite <- app_assoc|].
           intros kv [M|M%elem_of_list_singleton]%elem_of_app; [auto|]. subst. rewrite clash_split. exact P.
        -- intros (pre & post & E & H).
           destruct post as [|kv post] using rev_ind; [apply app_inj_tail in E as [_ E]; congruence|].
           clear IHpost. rewrite app_comm_cons, app_assoc in E. apply app_inj_tail in E as [-> <-].
           exists pre, post. split; [reflexivity|]. intros kv M. apply H. apply elem_of_app. now left.
Qed.

Lemma structure_says info k ks v : parts_of k ks ->
  says (structure_logs info) ks v <->
  exists pre post, info = (pre ++ (k, v) :: post)%list /\ forall kv, kv ∈ post -> ~ clash kv.1 k.
Proof.
  intros P. apply parts_split in P as ->. rewrite says_find by apply structure_functional. apply structure_find.
Qed.

(** *** ECS lines *)
Definition clashb (a b : string) : bool :=
  bool_decide (split "." a `prefix_of` split "." b \/ split "." b `prefix_of` split "." a).
Lemma clashb_false a b : clashb a b = false -> ~ clash a b.
Proof. unfold clashb. intros H%bool_decide_eq_false. now rewrite clash_split. Qed.

Lemma sublist_nodup {A} (l1 l2 : list A) : l1 `sublist_of` l2 -> NoDup l2 -> NoDup l1.
Proof.
  induction 1 as [|x l1 l2 S IH|x l1 l2 S IH]; intros N; [constructor| |]; apply NoDup_cons in N as [N1 N2].
  - apply NoDup_cons. split; [|auto]. intros M. apply N1. eapply elem_of_submseteq; [exact M|]. now apply sublist_submseteq.
  - auto.
Qed.
Lemma sublist_elem {A} (l1 l2 : list A) x : l1 `sublist_of` l2 -> x ∈ l1 -> x ∈ l2.
Proof. intros S M. eapply elem_of_submseteq; [exact M|]. now apply sublist_submseteq. Qed.

Lemma ecs_no_clash a b : a ∈ ecs_keys -> b ∈ ecs_keys -> a <> b -> ~ clash a b.
Proof.
  intros A B N. apply clashb_false.
  assert (H : forallb (fun a => forallb (fun b => String.eqb a b || negb (clashb a b))%bool ecs_keys) ecs_keys = true) by (vm_compute; reflexivity).
  rewrite forallb_forall in H. apply elem_of_list_In in A, B. specialize (H _ A). rewrite forallb_forall in H. specialize (H _ B).
  apply Bool.orb_true_iff in H as [H|H]; [apply String.eqb_eq in H; congruence|]. now apply Bool.negb_true_iff in H.
Qed.

Lemma keeps info tail k v ks : parts_of k ks -> tail.*1 `sublist_of` ecs_keys -> (k, v) ∈ tail ->
  says (structure_logs (info ++ tail)) ks v.
Proof.
  intros P S M. apply (structure_says _ k ks v P). apply elem_of_list_split in M as (l1 & l2 & ->).
  exists (info ++ l1)%list, l2. split; [now rewrite <- app_assoc|]. intros [k' v'] M.
  assert (D : NoDup (l1 ++ (k, v) :: l2)%list.*1).
  { eapply sublist_nodup; [exact S|]. apply (bool_decide_unpack _). vm_compute. exact I. }
  assert (I : forall x, x ∈ (l1 ++ (k, v) :: l2)%list.*1 -> x ∈ ecs_keys) by (intros x; now apply sublist_elem).
  rewrite fmap_app, fmap_cons in D, I. apply NoDup_app in D as (_ & _ & D). apply NoDup_cons in D as [D _].
  assert (M' : k' ∈ l2.*1) by (apply elem_of_list_fmap; now exists (k', v')).
  change (~ clash k' k). apply ecs_no_clash.
  - apply I. apply elem_of_app. right. now right.
  - apply I. apply elem_of_app. right. left.
  - intros ->. now apply D.
Qed.

(** The entries added by the logger. *)
Definition ecs_tail (c : context) (now level msg : string) : list (string * string) :=
  ([("log.level", level)] ++ ecs_info c now msg [])%list.
Lemma ecs_line_tail c now level msg info : ecs_line c now level msg info = structure_logs (info ++ ecs_tail c now level msg).
Proof. unfold ecs_line, ecs_tail, ecs_info. now rewrite <- !app_assoc. Qed.
Lemma ecs_tail_keys c now level msg : (ecs_tail c now level msg).*1 `sublist_of` ecs_keys.
Proof.
  unfold ecs_tail, ecs_info. rewrite !fmap_app.
  assert (O : forall (k : string) (o : option string), (match o with Some v => [(k, v)] | None => [] end).*1 `sublist_of` [k]).
  { intros k [v|]; cbn; [apply sublist_skip, sublist_nil_l|apply sublist_nil_l]. }
  change ecs_keys with (["log.level"] ++ [] ++ ["asyncapi.provider"] ++ ["asyncapi.channel"] ++ ["event.action"]
    ++ ["event.original"] ++ ["trace.id"] ++ ["message"; "@timestamp"; "log.logger"])%list.
  repeat (apply sublist_app; [first [apply O|reflexivity|idtac]|]); [|reflexivity].
  destruct (c_direction c) as [d|]; [|apply sublist_nil_l].
  destruct (String.eqb d "publication"); [reflexivity|]. destruct (String.eqb d "reception"); [reflexivity|apply sublist_nil_l].
Qed.
