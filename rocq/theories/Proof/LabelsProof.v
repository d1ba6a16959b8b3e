From stdpp Require Import list list_numbers strings.
From Coq Require Import NArith Ascii String Lia.
From Verif.Model Require Import Naming Names Slices Labels.
From Verif.Spec Require Import NamingSpec NamesSpec SlicesSpec.
From Verif.Proof Require Import NamingProof NamesProof SlicesProof.

Local Notation lit := list_ascii_of_string.

Section labels.
  Variable ul ud : N -> bool.
  Variable uu : N -> bytes.

  Lemma dedup_distinct {A K} `{EqDecision K} (key : A -> K) l : NoDup (key <$> l) -> dedup_by key l = l.
  Proof.
    intros N. apply (first_unique key l); [apply dedup_first|]. induction l as [|x l IH] using rev_ind; [constructor|].
    rewrite fmap_app in N. apply NoDup_app in N as (N1 & N2 & _). apply fo_new; [by apply IH|]. intros Hin. apply (N2 _ Hin). left.
  Qed.
  Lemma fold_distinct {A K} `{EqDecision K} (key : A -> K) ts : forall acc, NoDup (key <$> (acc ++ List.concat ts)) ->
    fold_left (fun acc t => dedup_by key (acc ++ t)) ts acc = acc ++ List.concat ts.
  Proof.
    induction ts as [|t ts IH]; intros acc N; cbn [fold_left List.concat]; [by rewrite app_nil_r|].
    cbn [List.concat] in N. rewrite app_assoc in N. rewrite dedup_distinct.
    - rewrite IH by done. by rewrite <- app_assoc.
    - rewrite fmap_app in N. by apply NoDup_app in N as (? & _).
  Qed.

  Definition tagged (kind : list ascii) (i : nat) : list ascii := kind ++ itoa i.
  Lemma tagged_ok kind i : word_ok kind -> word_ok (tagged kind i).
  Proof.
    intros [He Hf]. split; [apply exported_app; [done|]|].
    - eapply Forall_impl; [apply itoa_digits|]. apply digit_word.
    - apply no_from_digits_app; [done|apply itoa_digits].
  Qed.
  Lemma tagged_inj kind i j : tagged kind i = tagged kind j -> i = j.
  Proof. intros E. apply app_inv_head in E. by apply itoa_inj. Qed.

  Lemma name_of_self p : exported p -> name_of p = p.
  Proof. intros H. apply name_of_camel; [by apply camel_exported|done]. Qed.
  Lemma full_name_number parent kind i : exported parent -> Forall is_ascii (lit kind) -> word_ok (name_of (lit kind)) ->
    full_name ul ud uu parent [] (lit kind) (Some i) = Some (tagged (name_of (lit kind)) i ++ from ++ parent).
  Proof.
    intros Hp Ak Hk. pose proof (exported_nonempty _ Hp) as Np.
    assert (E : from_text (name_of parent) = from ++ parent) by (rewrite name_of_self by done; unfold from_text; by destruct parent).
    rewrite full_name_eq; rewrite ?E; cbn [number_text]; change (name_of []) with (@nil ascii); cbn [app].
    - unfold tagged. by rewrite <- app_assoc.
    - by apply exported_ascii.
    - constructor.
    - done.
    - rewrite app_assoc. apply exported_app; [by apply tagged_ok|]. apply Forall_app. split; [apply exported_words, from_exported|by apply exported_words].
  Qed.
  Lemma numbered_exported kind i parent : word_ok kind -> exported parent -> exported (tagged kind i ++ from ++ parent).
  Proof.
    intros Hk Hp. apply exported_app; [by apply tagged_ok|]. apply Forall_app. split; [apply exported_words, from_exported|by apply exported_words].
  Qed.

  Lemma rename_spec parent kind : exported parent -> Forall is_ascii (lit kind) -> word_ok (name_of (lit kind)) -> forall ls i,
    exists r, rename ul ud uu parent kind i ls = Some r /\ map l_declared r = ls /\
      map l_name r = map (fun j => tagged (name_of (lit kind)) j ++ from ++ parent) (seq i (List.length ls)).
  Proof.
    intros Hp Ak Hk ls. induction ls as [|x ls IH]; intros i; cbn [rename]; [by exists []|].
    rewrite full_name_number by done. destruct (IH (S i)) as (r & -> & Hd & Hn). cbn. eexists. split; [reflexivity|]. cbn. by rewrite Hd, Hn.
  Qed.

  Lemma trait_ok : word_ok (name_of (lit "Trait")).
  Proof. split; [|apply from_b_spec; vm_compute; reflexivity]. exists "T"%char, (lit "rait"). split; [vm_compute; reflexivity|]. split; apply (bool_decide_unpack _); vm_compute; exact I. Qed.
  Lemma trait_ascii : Forall is_ascii (lit "Trait").
  Proof. apply lit_ascii_b. vm_compute. reflexivity. Qed.

  Definition trait_name (parent : list ascii) (j : nat) : list ascii := tagged (name_of (lit "Trait")) j ++ from ++ parent.

  Lemma rename_traits_spec parent kind : exported parent -> Forall is_ascii (lit kind) -> word_ok (name_of (lit kind)) -> forall ts i,
    exists r, rename_traits ul ud uu parent kind i ts = Some r /\ map l_declared (List.concat r) = List.concat ts /\
      NoDup (map l_name (List.concat r)) /\
      forall n, n ∈ map l_name (List.concat r) -> exists j k, (i <= j)%nat /\ n = tagged (name_of (lit kind)) k ++ from ++ trait_name parent j.
  Proof.
    intros Hp Ak Hk ts. induction ts as [|t ts IH]; intros i; cbn [rename_traits].
    - exists []. split; [done|]. split; [done|]. split; [constructor|]. intros n Hn. by apply elem_of_nil in Hn.
    - rewrite full_name_number by (done || apply trait_ascii || apply trait_ok). cbn [mbind option_bind]. fold (trait_name parent i).
      assert (Ht : exported (trait_name parent i)) by (apply numbered_exported; [apply trait_ok|done]).
      destruct (rename_spec (trait_name parent i) kind Ht Ak Hk t 0) as (r & -> & Hd & Hn). cbn [mbind option_bind].
      destruct (IH (S i)) as (rs & -> & Hds & Nds & Hns). cbn [mbind option_bind]. exists (r :: rs). split; [done|]. cbn [List.concat].
      rewrite !map_app, Hd, Hds. split; [done|].
      assert (Hself : forall n, n ∈ map l_name r -> exists k, n = tagged (name_of (lit kind)) k ++ from ++ trait_name parent i).
      { intros n Hin. rewrite Hn in Hin. apply elem_of_list_fmap in Hin as (k & -> & _). eauto. }
      split.
      + apply NoDup_app. split; [|split; [|done]].
        * rewrite Hn. apply NoDup_fmap_2_strong; [|apply NoDup_seq]. intros a b _ _ E. apply app_inv_tail in E. by apply tagged_inj in E.
        * intros n H1 H2. apply Hself in H1 as (k1 & ->). apply Hns in H2 as (j & k2 & Hj & E).
          apply from_split in E as [_ E]; [|by apply tagged_ok|by apply tagged_ok]. unfold trait_name in E. apply app_inv_tail in E. apply tagged_inj in E. lia.
      + intros n Hin. apply elem_of_app in Hin as [Hin|Hin].
        * apply Hself in Hin as (k & ->). exists i, k. split; [lia|done].
        * apply Hns in Hin as (j & k & Hj & ->). exists j, k. split; [lia|done].
  Qed.

  Lemma apply_labels_spec parent kind own traits : exported parent -> Forall is_ascii (lit kind) -> word_ok (name_of (lit kind)) ->
    exists r, apply_labels ul ud uu parent kind own traits = Some r /\ map l_declared r = own ++ List.concat traits.
  Proof.
    intros Hp Ak Hk. unfold apply_labels. destruct (rename_spec parent kind Hp Ak Hk own 0) as (r & -> & Hd & Hn). cbn [mbind option_bind].
    destruct (rename_traits_spec parent kind Hp Ak Hk traits 0) as (rs & -> & Hds & Nds & Hns). cbn [mbind option_bind]. eexists. split; [reflexivity|].
    rewrite fold_distinct; [by rewrite map_app, Hd, Hds|]. rewrite fmap_app. apply NoDup_app. split; [|split; [|done]].
    - change (l_name <$> r) with (map l_name r). rewrite Hn. apply NoDup_fmap_2_strong; [|apply NoDup_seq]. intros a b _ _ E. apply app_inv_tail in E. by apply tagged_inj in E.
    - intros n H1 H2. change (l_name <$> r) with (map l_name r) in H1. rewrite Hn in H1. apply elem_of_list_fmap in H1 as (k & -> & _). apply Hns in H2 as (j & k2 & _ & E).
      unfold trait_name in E. rewrite !app_assoc in E. apply app_inv_tail, app_inv_tail in E.
      destruct (tagged_ok _ k Hk) as [_ Hf]. apply Hf. rewrite E, <- app_assoc. by eexists _, _.
  Qed.
End labels.
