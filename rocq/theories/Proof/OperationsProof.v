From stdpp Require Import gmap list strings.
From Coq Require Import String.
From Verif.Model Require Import Reference Operations.
From Verif.Spec Require Import OperationsSpec.

Definition plain (o : operation) : Prop := o_refers o = None.

Lemma is_controller_receive_spec s o : plain o -> is_controller_receive s o = true <-> receives s o.
Proof. intros Hp. destruct s; simpl; unfold follow; rewrite Hp; apply String.eqb_eq. Qed.
Lemma is_controller_send_spec s o : plain o -> is_controller_send s o = true <-> sends s o.
Proof. intros Hp. destruct s; simpl; unfold sends, follow; simpl; unfold follow; rewrite Hp; apply String.eqb_eq. Qed.
Lemma should_respond_spec s o ch : plain o -> should_respond s o = Some ch <-> receives s o /\ answered_on o ch.
Proof.
  intros Hp. unfold should_respond, answered_on. rewrite <- is_controller_receive_spec by done.
  unfold follow. rewrite Hp. destruct (o_reply o) as [r|]; [|split; [done|intros (_ & ? & ? & _); done]].
  destruct (r_channel r) as [c|] eqn:E.
  - unfold is_controller_receive. destruct s.
    + destruct (is_receive _); split; [intros [= ->]; split; [done|]; by exists r|..].
      * intros (_ & r' & [= <-] & Hc). congruence.
      * done.
      * by intros [? _].
    + destruct (is_send _); split; [intros [= ->]; split; [done|]; by exists r|..].
      * intros (_ & r' & [= <-] & Hc). congruence.
      * done.
      * by intros [? _].
  - split; [done|]. intros (_ & r' & [= <-] & Hc). congruence.
Qed.
Lemma sends_receives s o : sends s o -> receives s o -> False.
Proof. destruct s; unfold sends; simpl; intros ? ?; congruence. Qed.

Definition maps_of (s : side) (ops : list (string * operation)) : gmap string gop * gmap string gop :=
  fold_left (add_operation s) ops (∅, ∅).
Lemma receive_maps s ops : receive (new_action_operations s ops) = (maps_of s ops).1.
Proof.
  unfold new_action_operations, maps_of. destruct (count_by_action ops), (fold_left _ _ _). by destruct s.
Qed.
Lemma send_maps s ops : send (new_action_operations s ops) = (maps_of s ops).2.
Proof.
  unfold new_action_operations, maps_of. destruct (count_by_action ops), (fold_left _ _ _). by destruct s.
Qed.
Lemma maps_of_snoc s ops ko : maps_of s (ops ++ [ko]) = add_operation s (maps_of s ops) ko.
Proof. unfold maps_of. by rewrite fold_left_app. Qed.

Lemma nodup_snoc {A} (l : list (string * A)) k a :
  NoDup (l ++ [(k, a)]).*1 -> NoDup l.*1 /\ forall b, (k, b) ∉ l.
Proof.
  rewrite fmap_app. intros H. apply NoDup_app in H as (H1 & H2 & _). split; [done|].
  intros b Hb. apply (H2 k). - apply elem_of_list_fmap. by exists (k, b). - by left.
Qed.

Lemma receive_spec s ops k g : NoDup ops.*1 -> no_reference ops ->
  (maps_of s ops).1 !! k = Some g <-> exists o, (k, o) ∈ ops /\ receives s o /\ g = GOp o.
Proof.
  revert k g. induction ops as [|[k0 o0] ops IH] using rev_ind; intros k g Hn Hr.
  - split; [done|]. intros (o & Ho & _). by apply elem_of_nil in Ho.
  - rewrite maps_of_snoc. destruct (maps_of s ops) as [rc sd] eqn:E. simpl.
    apply nodup_snoc in Hn as [Hn Hk0].
    assert (no_reference ops) as Hr' by (intros k' o' ?; eapply Hr; apply elem_of_app; by left).
    assert (plain o0) as Hp by (eapply (Hr k0); apply elem_of_app; right; left).
    specialize (IH k g Hn Hr'). simpl in IH.
    pose proof (is_controller_receive_spec s o0 Hp) as Hc. destruct (is_controller_receive s o0).
    + destruct (decide (k0 = k)) as [->|Hk].
      * rewrite lookup_insert. split.
        -- intros [= <-]. exists o0. split; [apply elem_of_app; right; left|]. split; [by apply Hc|done].
        -- intros (o & Ho & _ & ->). apply elem_of_app in Ho as [Ho|Ho]; [by apply Hk0 in Ho|].
           apply elem_of_list_singleton in Ho. congruence.
      * rewrite lookup_insert_ne by done. rewrite IH. split; intros (o & Ho & ? & ?); exists o.
        -- split; [apply elem_of_app; by left|done].
        -- apply elem_of_app in Ho as [Ho|Ho]; [done|]. apply elem_of_list_singleton in Ho. congruence.
    + rewrite IH. split; intros (o & Ho & H1 & ?); exists o.
      * split; [apply elem_of_app; by left|done].
      * apply elem_of_app in Ho as [Ho|Ho]; [done|]. apply elem_of_list_singleton in Ho. injection Ho as -> ->.
        apply Hc in H1. done.
Qed.

Lemma send_sound s ops k g : no_reference ops ->
  (maps_of s ops).2 !! k = Some g ->
  (exists o, (k, o) ∈ ops /\ sends s o /\ g = GOp o) \/
  (exists k' o ch, (k', o) ∈ ops /\ receives s o /\ answered_on o ch /\ k = ch_name ch /\ g = GReply o ch).
Proof.
  revert k g. induction ops as [|[k0 o0] ops IH] using rev_ind; intros k g Hr; [done|].
  rewrite maps_of_snoc. destruct (maps_of s ops) as [rc sd] eqn:E. simpl.
  assert (no_reference ops) as Hr' by (intros k' o' ?; eapply Hr; apply elem_of_app; by left).
  assert (plain o0) as Hp by (eapply (Hr k0); apply elem_of_app; right; left).
  assert (sd !! k = Some g ->
    (exists o, (k, o) ∈ ops ++ [(k0, o0)] /\ sends s o /\ g = GOp o) \/
    (exists k' o ch, (k', o) ∈ ops ++ [(k0, o0)] /\ receives s o /\ answered_on o ch /\ k = ch_name ch /\ g = GReply o ch)) as G.
  { intros H. destruct (IH k g Hr' H) as [(o & ? & ?)|(k' & o & ch & ? & ?)].
    - left. exists o. split; [apply elem_of_app; by left|done].
    - right. exists k', o, ch. split; [apply elem_of_app; by left|done]. }
  assert ((if is_controller_send s o0 then <[k0:=GOp o0]> sd else sd) !! k = Some g ->
    (exists o, (k, o) ∈ ops ++ [(k0, o0)] /\ sends s o /\ g = GOp o) \/
    (exists k' o ch, (k', o) ∈ ops ++ [(k0, o0)] /\ receives s o /\ answered_on o ch /\ k = ch_name ch /\ g = GReply o ch)) as G2.
  { pose proof (is_controller_send_spec s o0 Hp) as Hc. destruct (is_controller_send s o0); [|done].
    destruct (decide (k0 = k)) as [->|Hk]; [|by rewrite lookup_insert_ne].
    rewrite lookup_insert. intros [= <-]. left. exists o0.
    split; [apply elem_of_app; right; left|]. split; [by apply Hc|done]. }
  destruct (should_respond s o0) as [ch|] eqn:Es; [|done].
  destruct (decide (ch_name ch = k)) as [Hk|Hk]; [|by rewrite lookup_insert_ne].
  subst k. rewrite lookup_insert. intros [= <-]. right. exists k0, o0, ch.
  apply should_respond_spec in Es as [? ?]; [|done].
  split; [apply elem_of_app; right; left|done].
Qed.

Lemma no_mixture_prefix s ops ko : no_mixture s (ops ++ [ko]) -> no_mixture s ops.
Proof.
  intros H k o ch Ho Hs Ha. destruct (H k o ch) as [H1 H2]; [apply elem_of_app; by left|done|done|].
  split.
  - intros k' o' ? ?. apply (H1 k' o'); [apply elem_of_app; by left|done].
  - intros k' o' ch' ? ? ? ?. apply (H2 k' o' ch'); [apply elem_of_app; by left|done|done|done].
Qed.

Lemma send_complete_mixed s ops : NoDup ops.*1 -> no_reference ops -> no_mixture s ops ->
  (forall k o, (k, o) ∈ ops -> sends s o -> (maps_of s ops).2 !! k = Some (GOp o)) /\
  (forall k o ch, (k, o) ∈ ops -> receives s o -> answered_on o ch ->
     (maps_of s ops).2 !! ch_name ch = Some (GReply o ch)).
Proof.
  induction ops as [|[k0 o0] ops IH] using rev_ind; intros Hn Hr Hc.
  { split; intros ? ?; [intros Ho|intros ? Ho]; by apply elem_of_nil in Ho. }
  rewrite maps_of_snoc. destruct (maps_of s ops) as [rc sd] eqn:E. simpl.
  apply nodup_snoc in Hn as [Hn Hk0].
  assert (no_reference ops) as Hr' by (intros k' o' ?; eapply Hr; apply elem_of_app; by left).
  assert ((k0, o0) ∈ ops ++ [(k0, o0)]) as H0 by (apply elem_of_app; right; left).
  assert (plain o0) as Hp by (by eapply (Hr k0)).
  destruct (IH Hn Hr' (no_mixture_prefix _ _ _ Hc)) as [I1 I2]. simpl in I1, I2. clear IH.
  pose proof (is_controller_send_spec s o0 Hp) as Hs.
  split.
  - intros k o Ho Hso.
    assert (forall ch, should_respond s o0 = Some ch -> ch_name ch <> k) as Hne.
    { intros ch Es. apply should_respond_spec in Es as [? ?]; [|done].
      destruct (Hc k0 o0 ch H0) as [Hx _]; [done|done|]. apply not_eq_sym. by apply (Hx k o). }
    assert ((if is_controller_send s o0 then <[k0:=GOp o0]> sd else sd) !! k = Some (GOp o)) as G.
    { apply elem_of_app in Ho as [Ho|Ho].
      - assert (k0 <> k) by (intros ->; by apply Hk0 in Ho).
        destruct (is_controller_send s o0); [rewrite lookup_insert_ne by done|]; by apply I1.
      - apply elem_of_list_singleton in Ho. injection Ho as -> ->.
        rewrite (proj2 Hs Hso). apply lookup_insert. }
    destruct (should_respond s o0) as [ch|]; [|done]. rewrite lookup_insert_ne by (by apply Hne). done.
  - intros k o ch Ho Hro Ha. pose proof Ho as Ho'. apply elem_of_app in Ho as [Ho|Ho].
    + assert ((if is_controller_send s o0 then <[k0:=GOp o0]> sd else sd) !! ch_name ch = Some (GReply o ch)) as G.
      { destruct (is_controller_send s o0) eqn:Es; [|by eapply I2].
        rewrite lookup_insert_ne; [by eapply I2|].
        destruct (Hc k o ch Ho' Hro Ha) as [H1 _]. apply (H1 k0 o0); [done|]. by apply Hs. }
      destruct (should_respond s o0) as [ch0|] eqn:Er; [|done].
      destruct (decide (ch_name ch0 = ch_name ch)) as [En|En]; [|by rewrite lookup_insert_ne].
      apply should_respond_spec in Er as [Hr0 Ha0]; [|done].
      destruct (Hc k o ch Ho' Hro Ha) as [_ H2].
      assert (o0 = o) as -> by (by apply (H2 k0 o0 ch0)).
      assert (ch0 = ch) as -> by (destruct Ha0 as (r & R1 & R2), Ha as (r' & R1' & R2'); congruence). apply lookup_insert.
    + apply elem_of_list_singleton in Ho. injection Ho as -> ->.
      assert (should_respond s o0 = Some ch) as -> by (by apply should_respond_spec). apply lookup_insert.
Qed.

Lemma no_clash_mixture s ops : NoDup ops.*1 -> no_clash s ops -> no_mixture s ops.
Proof.
  intros Hn Hc k o ch Ho Hr Ha. destruct (Hc k o ch Ho Hr Ha) as [H1 H2]. split; [done|].
  intros k' o' ch' Ho' Hr' Ha' E. assert (k' = k) as -> by (by eapply H2).
  clear - Hn Ho Ho'. induction ops as [|[k1 o1] ops IH]; [by apply elem_of_nil in Ho|]. rewrite fmap_cons in Hn. apply NoDup_cons in Hn as [Hk Hn].
  apply elem_of_cons in Ho as [[= -> ->]|Ho]; apply elem_of_cons in Ho' as [E|Ho']; [by injection E as ->| | |by apply IH].
  - destruct Hk. apply elem_of_list_fmap. by exists (k1, o').
  - injection E as -> ->. destruct Hk. apply elem_of_list_fmap. by exists (k1, o).
Qed.
Lemma send_complete s ops : NoDup ops.*1 -> no_reference ops -> no_clash s ops ->
  (forall k o, (k, o) ∈ ops -> sends s o -> (maps_of s ops).2 !! k = Some (GOp o)) /\
  (forall k o ch, (k, o) ∈ ops -> receives s o -> answered_on o ch ->
     (maps_of s ops).2 !! ch_name ch = Some (GReply o ch)).
Proof. intros Hn Hr Hc. apply send_complete_mixed; [done|done|]. by apply no_clash_mixture. Qed.
Lemma send_exact s ops : NoDup ops.*1 -> no_reference ops ->
  (forall k o, (k, o) ∈ ops -> sends s o -> exists k', (maps_of s ops).2 !! k' = Some (GOp o) /\ k' = k) /\
  (forall k o ch, (k, o) ∈ ops -> receives s o -> answered_on o ch -> exists k', (maps_of s ops).2 !! k' = Some (GReply o ch)) <->
  no_mixture s ops.
Proof.
  intros Hn Hr. split.
  - intros [A B] k o ch Ho Hro Ha. destruct (B k o ch Ho Hro Ha) as (q & Hq).
    destruct (send_sound _ _ _ _ Hr Hq) as [(? & _ & _ & [=])|(? & ? & ? & _ & _ & _ & Eq & E)]. injection E as <- <-. subst q. split.
    + intros k' o' Ho' Hs' E. destruct (A k' o' Ho' Hs') as (q & Hq' & Eq). subst q. rewrite E, Hq in Hq'. done.
    + intros k' o' ch' Ho' Hr' Ha' E. destruct (B k' o' ch' Ho' Hr' Ha') as (q & Hq').
      destruct (send_sound _ _ _ _ Hr Hq') as [(? & _ & _ & [=])|(? & ? & ? & _ & _ & _ & Eq & E')]. injection E' as <- <-. subst q. rewrite E, Hq in Hq'. congruence.
  - intros M. destruct (send_complete_mixed s ops Hn Hr M) as [A B]. split.
    + intros k o Ho Hs. exists k. split; [by apply A|done].
    + intros k o ch Ho Hro Ha. exists (ch_name ch). by eapply B.
Qed.

(** * Counts *)
Lemma count_snoc ops k o :
  count_by_action (ops ++ [(k, o)]) =
    ((if is_send (o_action o) then S (count_by_action ops).1 else (count_by_action ops).1),
     (if is_receive (o_action o) then S (count_by_action ops).2 else (count_by_action ops).2)).
Proof. unfold count_by_action. rewrite fold_left_app. simpl. by destruct (fold_left _ _ _). Qed.
Lemma receive_count_size s ops : NoDup ops.*1 ->
  receive_count (new_action_operations s ops) = size (receive (new_action_operations s ops)).
Proof.
  intros Hn. rewrite receive_maps.
  transitivity (match s with Application => (count_by_action ops).2 | User => (count_by_action ops).1 end).
  { unfold new_action_operations. destruct (count_by_action ops), (fold_left _ _ _). by destruct s. }
  induction ops as [|[k0 o0] ops IH] using rev_ind; [by destruct s|].
  rewrite maps_of_snoc, count_snoc. destruct (maps_of s ops) as [rc sd] eqn:E. simpl.
  apply nodup_snoc in Hn as [Hn Hk0].
  assert (rc !! k0 = None) as Hrc.
  { clear IH. destruct (rc !! k0) as [g|] eqn:Hg; [|done]. exfalso.
    assert (exists o, (k0, o) ∈ ops) as [o Ho]; [|by apply Hk0 in Ho].
    clear Hn Hk0. revert rc sd E Hg. induction ops as [|[k1 o1] ops IH] using rev_ind; intros rc sd E Hg.
    - injection E as <- <-. done.
    - rewrite maps_of_snoc in E. destruct (maps_of s ops) as [rc1 sd1]. simpl in E. injection E as <- <-.
      destruct (is_controller_receive s o1).
      + destruct (decide (k1 = k0)) as [->|]; [exists o1; apply elem_of_app; right; left|].
        rewrite lookup_insert_ne in Hg by done. destruct (IH _ _ eq_refl Hg) as [o ?].
        exists o. apply elem_of_app. by left.
      + destruct (IH _ _ eq_refl Hg) as [o ?]. exists o. apply elem_of_app. by left. }
  specialize (IH Hn). simpl in IH.
  destruct s; simpl in *.
  - destruct (is_receive (o_action o0)); [rewrite map_size_insert_None by done; by rewrite IH|done].
  - destruct (is_send (o_action o0)); [rewrite map_size_insert_None by done; by rewrite IH|done].
Qed.

(** * Version 2 *)
Lemma fold_channels2 (f : channel2 -> bool) cs k c : NoDup cs.*1 ->
  fold_left (fun (m : gmap string channel2) (kc : string * channel2) => if f kc.2 then <[kc.1 := kc.2]> m else m) cs ∅ !! k = Some c
  <-> (k, c) ∈ cs /\ f c = true.
Proof.
  induction cs as [|[k0 c0] cs IH] using rev_ind; intros Hn.
  { split; [done|]. intros [H _]. by apply elem_of_nil in H. }
  apply nodup_snoc in Hn as [Hn Hk0]. specialize (IH Hn).
  rewrite fold_left_app. simpl. rewrite elem_of_app, elem_of_list_singleton.
  destruct (f c0) eqn:Ef.
  - destruct (decide (k0 = k)) as [->|Hk].
    + rewrite lookup_insert. split.
      * intros [= ->]. split; [by right|done].
      * intros [[H|H] _]; [by apply Hk0 in H|]. congruence.
    + rewrite lookup_insert_ne by done. rewrite IH. split; [intros [? ?]; split; [by left|done]|].
      intros [[H|H] ?]; [done|congruence].
  - rewrite IH. split; [intros [? ?]; split; [by left|done]|]. intros [[H|H] ?]; [done|congruence].
Qed.
Lemma fold_pair2 (f g : channel2 -> bool) cs m1 m2 :
  fold_left (fun '(sub, pub) (kc : string * channel2) =>
      ((if f kc.2 then <[kc.1 := kc.2]> sub else sub),
       (if g kc.2 then <[kc.1 := kc.2]> pub else pub))) cs (m1, m2)
  = (fold_left (fun (m : gmap string channel2) (kc : string * channel2) => if f kc.2 then <[kc.1 := kc.2]> m else m) cs m1,
     fold_left (fun (m : gmap string channel2) (kc : string * channel2) => if g kc.2 then <[kc.1 := kc.2]> m else m) cs m2).
Proof. revert m1 m2. induction cs as [|kc cs IH]; intros m1 m2; [done|]. simpl. apply IH. Qed.
Lemma count2_snoc cs kc :
  publish_subscribe_count (cs ++ [kc]) =
    ((if c2_publish kc.2 then S (publish_subscribe_count cs).1 else (publish_subscribe_count cs).1),
     (if c2_subscribe kc.2 then S (publish_subscribe_count cs).2 else (publish_subscribe_count cs).2)).
Proof. unfold publish_subscribe_count. rewrite fold_left_app. simpl. by destruct (fold_left _ _ _). Qed.
Lemma count2_size s cs : NoDup cs.*1 ->
  (match s with Application => (publish_subscribe_count cs).1 | User => (publish_subscribe_count cs).2 end)
  = size (fold_left (fun (m : gmap string channel2) (kc : string * channel2) =>
        if is_subscribe_channel s kc.2 then <[kc.1 := kc.2]> m else m) cs ∅).
Proof.
  induction cs as [|[k0 c0] cs IH] using rev_ind; intros Hn; [by destruct s|].
  apply nodup_snoc in Hn as [Hn Hk0]. specialize (IH Hn). rewrite count2_snoc, fold_left_app. simpl.
  set (m := fold_left _ cs ∅) in *.
  assert (m !! k0 = None) as Hm.
  { destruct (m !! k0) as [c|] eqn:Hg; [|done]. exfalso. unfold m in Hg. apply fold_channels2 in Hg as [Hg _]; [|done].
    by apply Hk0 in Hg. }
  destruct s; simpl in *.
  - destruct (c2_publish c0); [rewrite map_size_insert_None by done; by rewrite IH|done].
  - destruct (c2_subscribe c0); [rewrite map_size_insert_None by done; by rewrite IH|done].
Qed.
