From stdpp Require Import list strings.
From Coq Require Import Ascii String Lia.
From Verif.Model Require Import GoStrings.
Local Open Scope string_scope.

Definition lacks (c : ascii) (s : string) : Prop := c ∉ list_ascii_of_string s.

Lemma lacks_nil c : lacks c "".
Proof. unfold lacks. cbn. apply not_elem_of_nil. Qed.
Lemma lacks_cons c a s : lacks c (String a s) <-> c <> a /\ lacks c s.
Proof. unfold lacks. cbn [list_ascii_of_string]. apply not_elem_of_cons. Qed.

Lemma sapp_cons c a b : String c a ++ b = String c (a ++ b). Proof. reflexivity. Qed.
Lemma sapp_nil b : "" ++ b = b. Proof. reflexivity. Qed.
Lemma sapp_nil_r a : a ++ "" = a.
Proof. induction a as [|c a IH]; [reflexivity|]. rewrite sapp_cons. now rewrite IH. Qed.
Lemma sapp_assoc a b c : (a ++ b) ++ c = a ++ b ++ c.
Proof. induction a as [|x a IH]; [reflexivity|]. rewrite !sapp_cons. now rewrite IH. Qed.

Lemma lacks_app c a b : lacks c (a ++ b) <-> lacks c a /\ lacks c b.
Proof.
  induction a as [|x a IH].
  - rewrite sapp_nil. pose proof (lacks_nil c). tauto.
  - rewrite sapp_cons, !lacks_cons, IH. tauto.
Qed.

Lemma split_nonnil sep s : exists x xs, split sep s = x :: xs.
Proof. destruct s as [|c s]; cbn [split]; [eauto|]. case_match; [eauto|]. destruct (split sep s); eauto. Qed.

Lemma split_lacks sep s : lacks sep s -> split sep s = [s].
Proof.
  induction s as [|c s IH]; [reflexivity|]. rewrite lacks_cons. intros [N H]. cbn [split].
  destruct (Ascii.eqb_spec c sep); [congruence|]. now rewrite IH.
Qed.

Lemma split_app sep a b : lacks sep a -> split sep (a ++ String sep b) = a :: split sep b.
Proof.
  induction a as [|c a IH]; intros H.
  - rewrite sapp_nil. cbn [split]. now rewrite Ascii.eqb_refl.
  - apply lacks_cons in H as [N H]. rewrite sapp_cons. cbn [split].
    destruct (Ascii.eqb_spec c sep); [congruence|]. now rewrite IH.
Qed.

Lemma strip_prefix_app p s : strip_prefix p (p ++ s) = Some s.
Proof.
  induction p as [|c p IH]; [reflexivity|]. rewrite sapp_cons. cbn [strip_prefix]. now rewrite Ascii.eqb_refl.
Qed.
Lemma trim_prefix_app p s : trim_prefix p (p ++ s) = s.
Proof. unfold trim_prefix. now rewrite strip_prefix_app. Qed.
Lemma strip_prefix_some p s r : strip_prefix p s = Some r -> s = p ++ r.
Proof.
  revert s. induction p as [|c p IH]; intros s; cbn [strip_prefix].
  - intros [= ->]. reflexivity.
  - destruct s as [|d s]; [discriminate|]. destruct (Ascii.eqb_spec c d); [|discriminate]. subst.
    intros H. rewrite sapp_cons. now rewrite (IH s H).
Qed.
Lemma trim_prefix_lacks p s : strip_prefix p s = None -> trim_prefix p s = s.
Proof. unfold trim_prefix. now intros ->. Qed.
Lemma sapp_inj p a b : p ++ a = p ++ b -> a = b.
Proof.
  intros H. pose proof (strip_prefix_app p a) as E. rewrite H, strip_prefix_app in E. congruence.
Qed.

(** Splitting a joined path. *)
Fixpoint slashed (ns : list string) : string :=
  match ns with [] => "" | n :: r => String "/" (n ++ slashed r) end.

Lemma split_slashed n ns : Forall (lacks "/") (n :: ns) -> split "/" (n ++ slashed ns) = n :: ns.
Proof.
  revert n. induction ns as [|m ns IH]; intros n F; apply Forall_cons in F as [Hn F].
  - cbn [slashed]. rewrite sapp_nil_r. now apply split_lacks.
  - cbn [slashed]. rewrite split_app by exact Hn. now rewrite IH.
Qed.

Lemma lacks_slashed c ns : c <> "/"%char -> Forall (lacks c) ns -> lacks c (slashed ns).
Proof.
  intros N F. induction F as [|n ns Hn F IH]; [apply lacks_nil|]. cbn [slashed].
  rewrite lacks_cons, lacks_app. auto.
Qed.
