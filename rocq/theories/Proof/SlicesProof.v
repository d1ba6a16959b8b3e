From stdpp Require Import list strings.
From Coq Require Import String.
From Verif.Model Require Import Slices.
From Verif.Spec Require Import SlicesSpec.

Section slices.
  Context {A K : Type} `{EqDecision K} (key : A -> K).

  Lemma dedup_from_app seen l x :
    dedup_from key seen (l ++ [x]) =
    dedup_from key seen l ++ (if bool_decide (key x ∈ seen \/ key x ∈ key <$> l) then [] else [x]).
  Proof.
    revert seen. induction l as [|y l IH]; intros seen.
    - cbn. destruct (bool_decide_reflect (key x ∈ seen)) as [H|H].
      + rewrite bool_decide_true by auto. reflexivity.
      + rewrite bool_decide_false; [reflexivity|]. intros [?|E]; [auto|]. now apply elem_of_nil in E.
    - cbn [app dedup_from]. destruct (bool_decide_reflect (key y ∈ seen)) as [H|H]; rewrite IH.
      + f_equal. erewrite bool_decide_ext; [reflexivity|]. rewrite fmap_cons, elem_of_cons.
        split; [tauto|]. intros [?|[E|?]]; [tauto| |tauto]. rewrite E. tauto.
      + cbn [app]. f_equal. f_equal. erewrite bool_decide_ext; [reflexivity|].
        rewrite fmap_cons, !elem_of_cons. tauto.
  Qed.

  Lemma dedup_first l : first_occurrences key l (dedup_by key l).
  Proof.
    induction l as [|x l IH] using rev_ind; [constructor|]. unfold dedup_by in *. rewrite dedup_from_app.
    destruct (bool_decide_reflect (key x ∈ [] \/ key x ∈ key <$> l)) as [H|H].
    - rewrite app_nil_r. constructor; [exact IH|]. destruct H as [H|H]; [now apply elem_of_nil in H|exact H].
    - constructor; [exact IH|]. tauto.
  Qed.

  Lemma first_unique l a b : first_occurrences key l a -> first_occurrences key l b -> a = b.
  Proof.
    intros H. revert b. induction H as [|l a x H IH N|l a x H IH N]; intros b Hb.
    - inversion Hb as [|l' k y _ _ E|l' k y _ _ E]; [reflexivity| |]; destruct l'; discriminate.
    - inversion Hb as [E|l' k y H' N' E|l' k y H' N' E].
      + destruct l; discriminate.
      + apply app_inj_tail in E as [-> ->]. now rewrite (IH k).
      + apply app_inj_tail in E as [-> ->]. contradiction.
    - inversion Hb as [E|l' k y H' N' E|l' k y H' N' E].
      + destruct l; discriminate.
      + apply app_inj_tail in E as [-> ->]. contradiction.
      + apply app_inj_tail in E as [-> ->]. now apply IH.
  Qed.

  Lemma first_keys l a : first_occurrences key l a -> forall k, k ∈ key <$> a <-> k ∈ key <$> l.
  Proof.
    induction 1 as [|l a x H IH N|l a x H IH N]; intros k; [reflexivity| |].
    - rewrite !fmap_app, !elem_of_app, IH. reflexivity.
    - rewrite fmap_app, elem_of_app, IH. cbn. rewrite elem_of_list_singleton. split; [auto|].
      intros [?|E]; [assumption|]. now rewrite E.
  Qed.

  Lemma first_nodup l a : first_occurrences key l a -> NoDup (key <$> a).
  Proof.
    induction 1 as [|l a x H IH N|l a x H IH N]; [constructor| |exact IH].
    rewrite fmap_app. apply NoDup_app. split; [exact IH|]. split; [|apply NoDup_singleton].
    intros y Hy E. cbn in E. apply elem_of_list_singleton in E. subst y. apply N. now apply (first_keys l a H).
  Qed.

  Lemma first_sublist l a : first_occurrences key l a -> a `sublist_of` l.
  Proof.
    induction 1 as [|l a x H IH N|l a x H IH N]; [constructor| |].
    - apply sublist_app; [exact IH|reflexivity].
    - rewrite <- (app_nil_r a). apply sublist_app; [exact IH|apply sublist_nil_l].
  Qed.
End slices.

Lemma remove_duplicate_in l x : x ∈ remove_duplicate l <-> x ∈ l.
Proof. pose proof (first_keys id l _ (dedup_first id l) x) as H. rewrite !list_fmap_id in H. exact H. Qed.
Lemma remove_duplicate_nodup l : NoDup (remove_duplicate l).
Proof. pose proof (first_nodup id l _ (dedup_first id l)) as H. rewrite list_fmap_id in H. exact H. Qed.
Lemma remove_duplicate_first l : first_occurrences id l (remove_duplicate l).
Proof. apply dedup_first. Qed.

Lemma is_in_slice_spec l x : is_in_slice l x = true <-> x ∈ l.
Proof.
  induction l as [|y l IH]; cbn [is_in_slice]; [split; [discriminate|intros H; now apply elem_of_nil in H]|].
  rewrite elem_of_cons. destruct (String.eqb_spec y x) as [->|N]; [tauto|]. rewrite IH. split; [auto|].
  intros [->|H]; [congruence|exact H].
Qed.
