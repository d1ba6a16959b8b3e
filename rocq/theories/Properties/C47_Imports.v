(** C47: custom imports conflict detection; C70: every custom import is written. *)
From stdpp Require Import gmap list strings.
From Coq Require Import String.
From Verif.Model Require Import Reference Imports.
From Verif.Spec Require Import ImportsSpec.
From Verif.Proof Require Import ImportsProof.
Local Open Scope string_scope.

(** An error is reported exactly when two schemas give different names to one path. *)
Theorem C47_conflict iter v2 c :
  (custom_imports iter v2 c = Err <-> conflict v2 c) /\ custom_imports iter v2 c <> Panic.
Proof.
  rewrite <- collect_err. unfold custom_imports. pose proof (collect_no_panic v2 c).
  destruct (collect v2 c); [done|split; done|]. split; [split; done|done].
Qed.
Print Assumptions C47_conflict.

(** Without a conflict every path asked for is imported exactly once, under its name, and nothing else is. *)
Theorem C47_exactly_once iter v2 c :
  (forall m, iter m ≡ₚ map_to_list m) -> ~ conflict v2 c ->
  (forall i, asked_for v2 c i -> starts_plainly (i_name i)) ->
  exists l : list go_import,
    custom_imports iter v2 c = Ok (map import_text l) /\
    NoDup (map i_path l) /\
    (forall i, i ∈ l <-> asked_for v2 c i /\ i_path i <> "").
Proof.
  intros Hiter Hc Hs. rewrite <- collect_err in Hc. unfold custom_imports.
  destruct (collect v2 c) as [| |m] eqn:E; [by apply collect_no_panic in E|done|].
  pose proof (collect_ok _ _ _ E) as Hm.
  assert (forall i, i ∈ kept (iter m) <-> asked_for v2 c i /\ i_path i <> "") as Hk.
  { intros i. rewrite kept_elem, (Hiter m), elem_of_map_to_list, Hm. by destruct i. }
  exists (kept (iter m)). split; [|split; [|done]].
  - f_equal. rewrite map_to_lines_kept. apply map_ext_in. intros i Hi.
    apply import_line_text. apply elem_of_list_In, Hk in Hi as [Hi _]. by apply Hs.
  - apply kept_nodup. rewrite (Hiter m). apply NoDup_fst_map_to_list.
Qed.
Print Assumptions C47_exactly_once.

(** The result does not depend on the iteration orders, but for the order of the lines. *)
Theorem C47_order iter iter' v2 c c' :
  (forall m, iter m ≡ₚ map_to_list m) -> (forall m, iter' m ≡ₚ map_to_list m) ->
  reorders_components c c' ->
  (custom_imports iter v2 c = Err /\ custom_imports iter' v2 c' = Err) \/
  (exists l l', custom_imports iter v2 c = Ok l /\ custom_imports iter' v2 c' = Ok l' /\ l ≡ₚ l').
Proof.
  intros Hi Hi' Hr. pose proof (reorders_asked v2 _ _ Hr) as Ha.
  assert (conflict v2 c <-> conflict v2 c') as Hc.
  { unfold conflict. split; intros (i & j & H1 & H2 & H3); exists i, j; [rewrite <- !Ha|rewrite !Ha]; done. }
  rewrite <- !collect_err in Hc. unfold custom_imports.
  destruct (collect v2 c) as [| |m] eqn:E; [by apply collect_no_panic in E|left; split; [done|]|].
  - by rewrite (proj1 Hc).
  - right. destruct (collect v2 c') as [| |m'] eqn:E'.
    + by apply collect_no_panic in E'.
    + discriminate (proj2 Hc eq_refl).
    + eexists _, _. split; [done|]. split; [done|]. apply map_to_lines_perm.
      rewrite (Hi m), (Hi' m'). assert (m = m') as ->; [|done].
      apply map_eq. intros p. apply option_eq. intros n.
      by rewrite (collect_ok _ _ _ E), (collect_ok _ _ _ E'), Ha.
Qed.
Print Assumptions C47_order.

(** Two import paths, one shared by a property of the schema and the items of a payload. *)
Definition leaf47 (n p : string) : ischema := ISchema [] None [] (Some (mkImport n p)).
Definition plain47 (props : list (string * ischema)) (items : option ischema) : ischema := ISchema props items [] None.
Definition comps47 (n : string) : components :=
  mkComponents [("User", plain47 [("id", leaf47 "uuid" "g/uuid"); ("at", leaf47 "" "time")] None)]
    [("Ping", mkIMessage (Some (plain47 [] (Some (leaf47 n "g/uuid")))) None)] [].
Example C47_example_ok :
  custom_imports map_to_list false (comps47 "uuid") = Ok ["""time"""; "uuid ""g/uuid"""].
Proof. vm_compute. reflexivity. Qed.
Example C47_example_conflict : custom_imports map_to_list false (comps47 "guid") = Err.
Proof. vm_compute. reflexivity. Qed.
Example C47_example_hyps :
  ~ conflict false (comps47 "uuid") /\
  (forall i, asked_for false (comps47 "uuid") i -> starts_plainly (i_name i)).
Proof.
  split.
  - rewrite <- collect_err. vm_compute. discriminate.
  - intros i Hi. apply all_imports_asked in Hi. change (i ∈ [mkImport "uuid" "g/uuid"; mkImport "" "time"; mkImport "uuid" "g/uuid"]) in Hi.
    repeat (apply elem_of_cons in Hi; destruct Hi as [->|Hi]; [done|]). by apply elem_of_nil in Hi.
Qed.
Example C47_example_order :
  reorders_components (comps47 "uuid")
    (mkComponents [("User", plain47 [("at", leaf47 "" "time"); ("id", leaf47 "uuid" "g/uuid")] None)]
       [("Ping", mkIMessage (Some (plain47 [] (Some (leaf47 "uuid" "g/uuid")))) None)] []).
Proof.
  assert (forall n p, reorders (leaf47 n p) (leaf47 n p)) as L.
  { intros. constructor; constructor. }
  split; [|split].
  - apply (rmap_insert _ "User" _ _ [] [] []); [|constructor]. constructor; [|constructor].
    apply (reorders_insert "id" _ _ _ [("at", leaf47 "" "time")] []); [apply L|].
    apply (reorders_insert "at" _ _ _ [] []); [apply L|]. constructor.
  - apply (rmap_insert _ "Ping" _ _ [] [] []); [|constructor]. constructor; [|constructor].
    constructor. constructor; [constructor|]. constructor. apply L.
  - constructor.
Qed.

(** C70: the imports of the schemas of the components are written if they are met through properties and
    items only.  Full statement: every import anywhere in the specification is written; see the refutation. *)
Theorem C70_written_partial iter v2 c s i :
  (forall m, iter m ≡ₚ map_to_list m) -> ~ conflict v2 c ->
  looked_at v2 c s -> only_visible s -> asks_anywhere s i -> i_path i <> "" -> starts_plainly (i_name i) ->
  exists l, custom_imports iter v2 c = Ok l /\ import_text i ∈ l.
Proof.
  intros Hiter Hc Hl Hv Ha Hp Hn. rewrite <- collect_err in Hc. unfold custom_imports.
  destruct (collect v2 c) as [| |m] eqn:E; [by apply collect_no_panic in E|done|].
  eexists. split; [done|]. rewrite map_to_lines_kept. apply elem_of_list_fmap. exists i.
  split; [by rewrite import_line_text|]. apply kept_elem. split; [|done].
  rewrite (Hiter m). apply elem_of_map_to_list. apply (collect_ok _ _ _ E).
  exists s. split; [done|]. apply Hv in Ha. by destruct i.
Qed.
Print Assumptions C70_written_partial.
Example C70_example :
  only_visible (plain47 [("id", leaf47 "uuid" "g/uuid"); ("at", leaf47 "" "time")] None) /\
  asks_anywhere (plain47 [("id", leaf47 "uuid" "g/uuid"); ("at", leaf47 "" "time")] None) (mkImport "" "time").
Proof.
  split.
  - assert (forall n p i, asks_anywhere (leaf47 n p) i -> asks (leaf47 n p) i) as L.
    { intros n p i H. inversion H; subst; [constructor|by match goal with X : _ ∈ [] |- _ => apply elem_of_nil in X end..]. }
    intros i H. inversion H; subst; [|by match goal with X : _ ∈ [] |- _ => apply elem_of_nil in X end].
    eapply asks_property; [done|].
    match goal with X : (_, _) ∈ _ |- _ => rename X into Hi end.
    repeat (apply elem_of_cons in Hi; destruct Hi as [[= -> ->]|Hi]; [by apply L|]). by apply elem_of_nil in Hi.
  - eapply any_property; [right; left|]. constructor.
Qed.

(** The import asked for by additional properties is not written; the generated field has the type of
    that package all the same. *)
Theorem C70_written_refuted :
  exists c s i, looked_at false c s /\ asks_anywhere s i /\ i_path i <> "" /\
    ~ conflict false c /\ forall iter, (forall m, iter m ≡ₚ map_to_list m) ->
    exists l, custom_imports iter false c = Ok l /\ import_text i ∉ l.
Proof.
  set (s := ISchema [] None [leaf47 "uuid" "g/uuid"] None).
  exists (mkComponents [("Ids", s)] [] []), s, (mkImport "uuid" "g/uuid").
  split; [left; exists "Ids"; left|]. split; [eapply any_other; [left|constructor]|]. split; [done|].
  split; [rewrite <- collect_err; vm_compute; discriminate|].
  intros iter Hi. eexists. split; [reflexivity|].
  change (omap _ ∅) with (@nil string). unfold map_to_lines.
  assert (iter ∅ = []) as ->. { apply Permutation_nil_r. rewrite (Hi ∅). by rewrite map_to_list_empty. }
  apply not_elem_of_nil.
Qed.
Print Assumptions C70_written_refuted.

(** In version 3 the parameters are not looked at. *)
Theorem C70_parameters_refuted :
  exists c s i, looked_at true c s /\ asks s i /\ i_path i <> "" /\
    ~ conflict true c /\ forall iter, (forall m, iter m ≡ₚ map_to_list m) ->
    (exists l, custom_imports iter true c = Ok l /\ import_text i ∈ l) /\
    (exists l, custom_imports iter false c = Ok l /\ import_text i ∉ l).
Proof.
  set (s := leaf47 "uuid" "g/uuid").
  set (c := mkComponents [] [] [("id", Some s)]). set (i := mkImport "uuid" "g/uuid").
  assert (~ conflict true c) as Hc by (rewrite <- collect_err; vm_compute; discriminate).
  assert (looked_at true c s) as Hl by (right; right; split; [done|]; exists "id"; left).
  exists c, s, i. split; [done|]. split; [constructor|]. split; [done|]. split; [done|].
  intros iter Hi. split.
  - destruct (C47_exactly_once iter true c Hi Hc) as (l & El & _ & Hin).
    { intros j Hj. apply all_imports_asked in Hj. apply elem_of_list_singleton in Hj as ->. done. }
    eexists. split; [exact El|]. apply elem_of_list_fmap. exists i. split; [done|].
    apply Hin. split; [|done]. exists s. split; [done|constructor].
  - eexists. split; [reflexivity|]. unfold map_to_lines.
    assert (iter ∅ = []) as ->. { apply Permutation_nil_r. rewrite (Hi ∅). by rewrite map_to_list_empty. }
    apply not_elem_of_nil.
Qed.
Print Assumptions C70_parameters_refuted.
