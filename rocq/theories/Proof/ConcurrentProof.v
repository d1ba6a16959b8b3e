(** Proofs about calls made at once on a controller. *)
From stdpp Require Import gmap strings.
From Verif.Model Require Import Controller Concurrent.
From Verif.Spec Require Import ControllerSpec ConcurrentSpec.

(** * One call at a time per address: the calls could have been made one after the other *)
Definition agree (p : point) (k c : option nat) : Prop :=
  match p with
  | SCheck | UCheck => k = c
  | SAsk => k = None /\ c = None
  | SStore i => k = None /\ c = Some i
  | UCancel i => k = Some i /\ c = Some i
  | UDelete => c = None
  end.
Record linked (s : kst) (c : cst) : Prop := mkLinked {
  l_log : clog c = klog s;
  l_next : cnext c = knext s;
  l_one : forall t t' a p p', kcalls s !! t = Some (a, p) -> kcalls s !! t' = Some (a, p') -> t = t';
  l_call : forall t a p, kcalls s !! t = Some (a, p) -> agree p (kmap s !! a) (csubs c !! a);
  l_idle : forall a, idle s a -> kmap s !! a = csubs c !! a
}.

Lemma in_sequence_app c os os' :
  in_sequence c (os ++ os') =
  let '(c1, l1) := in_sequence c os in
  let '(c2, l2) := in_sequence c1 os' in (c2, l1 ++ l2).
Proof.
  revert c. induction os as [|o r IH]; intros c; cbn.
  - by destruct (in_sequence c os').
  - destruct (cstep [] c o) as [c1 res]. rewrite IH.
    destruct (in_sequence c1 r) as [c2 l1]. destruct (in_sequence c2 os') as [c3 l2].
    destruct o; done.
Qed.
Lemma in_sequence_run c os : fst (in_sequence c os) = crun [] os c.
Proof.
  revert c. induction os as [|o r IH]; intros c; [done|]. cbn. unfold crun in IH.
  destruct (cstep [] c o) as [c1 res] eqn:E. cbn.
  specialize (IH c1). destruct (in_sequence c1 r). cbn in *. done.
Qed.

(** What the rest of the state looks like when goroutine [t] moves to [p] on [a]. *)
Lemma moved_call s t a p0 p t' a' p' :
  kcalls s !! t = Some (a, p0) -> at_point s t a p !! t' = Some (a', p') ->
  (t' = t /\ a' = a /\ p' = p) \/ (t' <> t /\ kcalls s !! t' = Some (a', p')).
Proof.
  intros H H'. unfold at_point in H'. destruct (decide (t' = t)) as [->|Hn].
  - rewrite lookup_insert in H'. left. naive_solver.
  - rewrite lookup_insert_ne in H' by done. by right.
Qed.
Lemma ended_call s t t' a' p' :
  ended s t !! t' = Some (a', p') -> t' <> t /\ kcalls s !! t' = Some (a', p').
Proof. unfold ended. intros H. by apply lookup_delete_Some in H as [? ?]. Qed.

Lemma linked_move s c t a p0 p k' n' log' ans' c' :
  linked s c -> kcalls s !! t = Some (a, p0) ->
  clog c' = log' -> cnext c' = n' ->
  (forall b, b <> a -> k' !! b = kmap s !! b) -> (forall b, b <> a -> csubs c' !! b = csubs c !! b) ->
  agree p (k' !! a) (csubs c' !! a) ->
  linked (mkK k' n' log' (at_point s t a p) ans') c'.
Proof.
  intros [Hl Hn H1 Hc Hi] Ht El En Ek Ec Ha. split; cbn; [done|done| | |].
  - intros t1 t2 b p1 p2 G1 G2.
    apply (moved_call _ _ _ _ _ _ _ _ Ht) in G1 as [(-> & -> & ->)|[N1 G1]];
      apply (moved_call _ _ _ _ _ _ _ _ Ht) in G2 as [(-> & E & ->)|[N2 G2]]; eauto.
    + subst. by eapply H1.
  - intros t1 b p1 G1. apply (moved_call _ _ _ _ _ _ _ _ Ht) in G1 as [(-> & -> & ->)|[N1 G1]]; [done|].
    assert (b <> a) by (intros ->; apply N1; by eapply H1).
    rewrite Ek, Ec by done. by eapply Hc.
  - intros b Hb. assert (b <> a).
    { intros ->. apply (Hb t p). cbn. unfold at_point. by rewrite lookup_insert. }
    rewrite Ek, Ec by done. apply Hi. intros t1 p1 G1. apply (Hb t1 p1). cbn. unfold at_point.
    rewrite lookup_insert_ne; [done|]. intros <-. rewrite Ht in G1. congruence.
Qed.
Lemma linked_end s c t a p0 k' n' log' ans' c' :
  linked s c -> kcalls s !! t = Some (a, p0) ->
  clog c' = log' -> cnext c' = n' ->
  (forall b, b <> a -> k' !! b = kmap s !! b) -> (forall b, b <> a -> csubs c' !! b = csubs c !! b) ->
  k' !! a = csubs c' !! a ->
  linked (mkK k' n' log' (ended s t) ans') c'.
Proof.
  intros [Hl Hn H1 Hc Hi] Ht El En Ek Ec Ha. split; cbn; [done|done| | |].
  - intros t1 t2 b p1 p2 [N1 G1]%ended_call [N2 G2]%ended_call. eauto.
  - intros t1 b p1 [N1 G1]%ended_call.
    assert (b <> a) by (intros ->; apply N1; by eapply H1).
    rewrite Ek, Ec by done. by eapply Hc.
  - intros b Hb. destruct (decide (b = a)) as [->|Hn']; [done|]. rewrite Ek, Ec by done.
    apply Hi. intros t1 p1 G1. apply (Hb t1 p1). cbn. unfold ended.
    rewrite lookup_delete_ne; [done|]. intros <-. rewrite Ht in G1. congruence.
Qed.

Lemma linked_step s c x s' :
  linked s c -> kstep s x = Some s' ->
  match x with
  | Begin _ k => forall t a p, kcalls s !! t = Some (a, p) -> a <> call_addr k
  | Next _ _ => True
  end ->
  exists os, Forall single os /\ linked s' (fst (in_sequence c os)) /\
    kanswers s' = kanswers s ++ snd (in_sequence c os).
Proof.
  intros L Hs Hx. pose proof L as [Hl Hn H1 Hc Hi].
  destruct x as [t k|t bok]; cbn in Hs.
  - destruct (kcalls s !! t) as [q|] eqn:Et; [done|]. injection Hs as <-.
    exists []. split; [constructor|]. split; [|cbn; by rewrite app_nil_r].
    assert (Hfree : idle s (call_addr k)) by (intros t1 p1 G1; by eapply Hx).
    split; cbn; [done|done| | |].
    + intros t1 t2 b p1 p2 G1 G2. unfold at_point in *.
      destruct (decide (t1 = t)) as [->|N1]; destruct (decide (t2 = t)) as [->|N2]; [done| | |].
      * rewrite lookup_insert in G1. rewrite lookup_insert_ne in G2 by done. injection G1 as <- <-.
        destruct (Hfree t2 p2 G2).
      * rewrite lookup_insert in G2. rewrite lookup_insert_ne in G1 by done. injection G2 as <- <-.
        destruct (Hfree t1 p1 G1).
      * rewrite lookup_insert_ne in G1, G2 by done. eauto.
    + intros t1 b p1 G1. unfold at_point in G1. destruct (decide (t1 = t)) as [->|N1].
      * rewrite lookup_insert in G1. injection G1 as <- <-. specialize (Hi _ Hfree). by destruct k.
      * rewrite lookup_insert_ne in G1 by done. eauto.
    + intros b Hb. apply Hi. intros t1 p1 G1. apply (Hb t1 p1). cbn. unfold at_point.
      rewrite lookup_insert_ne; [done|]. congruence.
  - destruct (kcalls s !! t) as [[a p]|] eqn:Et; [|done].
    specialize (Hc t a p Et). destruct p as [| |i| |i|]; cbn in Hc.
    + destruct (kmap s !! a) as [i|] eqn:Ea; injection Hs as <-.
      * exists [OSubscribe a bok]. split; [by repeat constructor|]. cbn. unfold c_subscribe.
        rewrite <- Hc. cbn. split; [|done]. eapply linked_end; eauto. congruence.
      * exists []. split; [constructor|]. cbn. split; [|by rewrite app_nil_r].
        eapply linked_move; eauto. cbn. by rewrite Ea.
    + destruct Hc as [Hk Hc]. destruct bok; injection Hs as <-.
      * exists [OSubscribe a true]. split; [by repeat constructor|]. cbn. unfold c_subscribe.
        rewrite Hc. cbn. split; [|done]. eapply linked_move; eauto; cbn.
        { by rewrite Hl, Hn. } { by rewrite Hn. }
        { intros b Hb. by rewrite lookup_insert_ne. }
        { rewrite lookup_insert, Hn. done. }
      * exists [OSubscribe a false]. split; [by repeat constructor|]. cbn. unfold c_subscribe.
        rewrite Hc. cbn. split; [|done]. eapply linked_end; eauto; cbn; congruence.
    + destruct Hc as [Hk Hc]. injection Hs as <-. exists []. split; [constructor|]. cbn.
      split; [|by rewrite app_nil_r]. eapply linked_end; eauto.
      { intros b Hb. by rewrite lookup_insert_ne. }
      { by rewrite lookup_insert. }
    + destruct (kmap s !! a) as [i|] eqn:Ea; injection Hs as <-.
      * exists []. split; [constructor|]. cbn. split; [|by rewrite app_nil_r].
        eapply linked_move; eauto. cbn. by rewrite Ea.
      * exists [OUnsubscribe a]. split; [by repeat constructor|]. cbn. unfold c_unsubscribe.
        rewrite <- Hc. cbn. split; [|by rewrite app_nil_r]. eapply linked_end; eauto. congruence.
    + destruct Hc as [Hk Hc]. injection Hs as <-. exists [OUnsubscribe a]. split; [by repeat constructor|].
      cbn. unfold c_unsubscribe. rewrite Hc. cbn. split; [|by rewrite app_nil_r].
      eapply linked_move; eauto; cbn.
      { by rewrite Hl. }
      { intros b Hb. by rewrite lookup_delete_ne. }
      { by rewrite lookup_delete. }
    + injection Hs as <-. exists []. split; [constructor|]. cbn. split; [|by rewrite app_nil_r].
      eapply linked_end; eauto.
      { intros b Hb. by rewrite lookup_delete_ne. }
      { by rewrite lookup_delete. }
Qed.

Lemma linked_run xs : forall s c s',
  linked s c -> one_at_a_time s xs -> kruns s xs = Some s' ->
  exists os, Forall single os /\ linked s' (fst (in_sequence c os)) /\
    kanswers s' = kanswers s ++ snd (in_sequence c os).
Proof.
  induction xs as [|x r IH]; intros s c s' L Ho Hr; cbn in *.
  - injection Hr as <-. exists []. split; [constructor|]. cbn. by rewrite app_nil_r.
  - destruct Ho as [Hx Ho]. destruct (kstep s x) as [s1|] eqn:E; [|done].
    destruct (linked_step _ _ _ _ L E Hx) as (os1 & S1 & L1 & A1).
    destruct (IH _ _ _ L1 Ho Hr) as (os2 & S2 & L2 & A2).
    exists (os1 ++ os2). split; [by apply Forall_app|]. rewrite in_sequence_app.
    destruct (in_sequence c os1) as [c1 l1]. cbn in *. destruct (in_sequence c1 os2) as [c2 l2]. cbn in *.
    split; [done|]. by rewrite A2, A1, app_assoc.
Qed.
Lemma linked_init : linked kinit cinit.
Proof. split; try done. Qed.

(** * A stray subscription stays *)
Lemma live_keep a i l e :
  (a, i) ∈ l -> e <> CCancel i -> (a, i) ∈ live_step l e.
Proof.
  intros H Hn. destruct e as [b j|b|j]; cbn.
  - apply elem_of_app. by left.
  - done.
  - apply elem_of_list_filter. split; [|done]. cbn. congruence.
Qed.
Lemma stray_step s a i x s' : stray s a i -> kstep s x = Some s' -> stray s' a i.
Proof.
  intros (Hl & Hn & Hm & Hst & Hca) Hs.
  assert (Hgo : forall e, e <> CCancel i -> (a, i) ∈ live (klog s ++ [e])).
  { intros e He. unfold live. rewrite fold_left_app. cbn. by apply live_keep. }
  destruct x as [t k|t bok]; cbn in Hs.
  - destruct (kcalls s !! t) eqn:Et; [done|]. injection Hs as <-.
    split; [done|]. split; [done|]. split; [done|]. cbn. unfold at_point.
    split; intros t1 b; (destruct (decide (t1 = t)) as [->|]; [rewrite lookup_insert; by destruct k|
                                                               rewrite lookup_insert_ne by done; eauto]).
  - destruct (kcalls s !! t) as [[b p]|] eqn:Et; [|done].
    assert (Hmv : forall k n g an p', (forall c, k !! c <> Some i) -> (a, i) ∈ live g -> i < n ->
               p' <> SStore i -> p' <> UCancel i ->
               stray (mkK k n g (at_point s t b p') an) a i).
    { intros k n g an p' Hk Hg Hlt H1 H2. split; [done|]. split; [done|]. split; [done|]. cbn. unfold at_point.
      split; intros t1 b1; (destruct (decide (t1 = t)) as [->|];
        [rewrite lookup_insert; congruence|rewrite lookup_insert_ne by done; eauto]). }
    assert (Hen : forall k n g an, (forall c, k !! c <> Some i) -> (a, i) ∈ live g -> i < n ->
               stray (mkK k n g (ended s t) an) a i).
    { intros k n g an Hk Hg Hlt. split; [done|]. split; [done|]. split; [done|]. cbn. unfold ended.
      split; intros t1 b1 [_ H]%lookup_delete_Some; [by eapply Hst|by eapply Hca]. }
    destruct p as [| |j| |j|].
    + destruct (kmap s !! b); injection Hs as <-; [by apply Hen|by apply Hmv].
    + destruct bok; injection Hs as <-.
      * apply Hmv; try done; [by apply Hgo|lia|]. intros [=]. lia.
      * apply Hen; try done. by apply Hgo.
    + injection Hs as <-. apply Hen; try done. intros c Hc.
      apply lookup_insert_Some in Hc as [[-> ->]|[_ Hc]]; [by eapply Hst|by eapply Hm].
    + destruct (kmap s !! b) as [j|] eqn:Eb; injection Hs as <-; [|by apply Hen].
      apply Hmv; try done. intros [= ->]. by eapply Hm.
    + injection Hs as <-. apply Hmv; try done. apply Hgo. intros [= ->]. by eapply Hca.
    + injection Hs as <-. apply Hen; try done. intros c [_ Hc]%lookup_delete_Some. by eapply Hm.
Qed.
Lemma stray_run xs : forall s a i s', stray s a i -> kruns s xs = Some s' -> stray s' a i.
Proof.
  induction xs as [|x r IH]; intros s a i s' H Hr; cbn in Hr; [congruence|].
  destruct (kstep s x) as [s1|] eqn:E; [|done]. eapply IH; [|exact Hr]. by eapply stray_step.
Qed.

(** * Deciding exclusion (for the examples) *)
Fixpoint one_at_a_time_b (s : kst) (xs : list act) : bool :=
  match xs with
  | [] => true
  | x :: r =>
      match x with
      | Begin _ c => bool_decide (map_Forall (fun _ ap => ap.1 <> call_addr c) (kcalls s))
      | Next _ _ => true
      end &&
      match kstep s x with Some s' => one_at_a_time_b s' r | None => true end
  end.
Lemma one_at_a_time_sound xs : forall s, one_at_a_time_b s xs = true -> one_at_a_time s xs.
Proof.
  induction xs as [|x r IH]; intros s H; [exact I|]. cbn [one_at_a_time one_at_a_time_b] in *.
  apply andb_prop in H as [H1 H2]. split.
  - destruct x as [t c|]; [|exact I]. apply bool_decide_eq_true in H1. intros t' a p Ht.
    exact (H1 t' (a, p) Ht).
  - destruct (kstep s x); [by apply IH|exact I].
Qed.
