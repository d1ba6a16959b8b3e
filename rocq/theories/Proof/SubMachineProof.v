From Coq Require Import List Arith Lia.
From Verif.Model Require Import SubMachine.
Import ListNotations.

Section P.
  Context {M : Type}.
  Variable cap : nat.
  Implicit Types s : sub M.

  Lemma run_inv (P : sub M -> Prop) os s :
    (forall s o, P s -> P (step cap s o)) -> P s -> P (run cap os s).
  Proof.
    intros Hs; revert s; induction os as [|o os IH]; intros s H; cbn; [exact H|].
    apply IH, Hs, H.
  Qed.

  Lemma run_inv_forall (P : sub M -> Prop) (Q : op M -> Prop) os s :
    Forall Q os -> (forall s o, Q o -> P s -> P (step cap s o)) -> P s -> P (run cap os s).
  Proof.
    intros HQ Hs; revert s; induction HQ as [|o os Ho HQ IH]; intros s H; cbn; [exact H|].
    apply IH, Hs; assumption.
  Qed.

  (** Phase of the waiter determines what has been done. *)
  Definition phase_ok s : Prop :=
    match wst s with
    | WStart | WParked | WGot => cleanups s = 0 /\ mclosed s = false /\ cclosed s = false
    | WCleaned => cleanups s = 1 /\ mclosed s = false /\ cclosed s = false
    | WMsgsClosed => cleanups s = 1 /\ mclosed s = true /\ cclosed s = false
    | WDone => cleanups s = 1 /\ mclosed s = true /\ cclosed s = true
    end.

  (** The waiter is in the receive queue exactly when it is parked, at most once. *)
  Fixpoint nwaiter (q : list who) : nat :=
    match q with [] => 0 | Waiter :: q => S (nwaiter q) | _ :: q => nwaiter q end.

  Definition queue_ok s : Prop :=
    nwaiter (crecvq s) = match wst s with WParked => 1 | _ => 0 end.

  Definition fifo_ok s : Prop :=
    sent s = recvd s ++ mbuf s ++ mblocked s /\
    length (mbuf s) <= cap /\
    (mblocked s <> [] -> length (mbuf s) = cap) /\
    (mclosed s = true -> mblocked s = []) /\
    (eofs s <> 0 -> mclosed s = true /\ mbuf s = []).

  Definition crash_ok s : Prop := crashed s = true -> cleanups s = 1.

  Definition Inv s : Prop := phase_ok s /\ queue_ok s /\ fifo_ok s /\ crash_ok s.

  Lemma nwaiter_app q q' : nwaiter (q ++ q') = nwaiter q + nwaiter q'.
  Proof. induction q as [|[|i] q IH]; cbn; lia. Qed.

  Lemma nwaiter_filter i q : nwaiter (filter (fun p => negb (is_canceller i p)) q) = nwaiter q.
  Proof.
    induction q as [|[|j] q IH]; cbn; [reflexivity|lia|].
    destruct (Nat.eqb i j); cbn; exact IH.
  Qed.

  Lemma Inv_init : Inv init.
  Proof.
    unfold Inv, phase_ok, queue_ok, fifo_ok, crash_ok; cbn.
    repeat split; intros; try lia; try congruence; contradiction.
  Qed.

  Ltac split4 := refine (conj _ (conj _ (conj _ _))).

  Lemma Inv_crash s : Inv s -> cleanups s = 1 -> Inv (crash s).
  Proof.
    intros (H1 & H2 & H3 & H4) Hc. split4; [exact H1|exact H2|exact H3|].
    intros _; exact Hc.
  Qed.

  Ltac inv_core :=
    unfold Inv, phase_ok, queue_ok, crash_ok in *.

  Lemma Inv_cancel_send i s : Inv s -> cst s i = CIdle -> Inv (cancel_send i s).
  Proof.
    intros HI Hi. pose proof HI as (H1 & H2 & H3 & H4). unfold cancel_send.
    destruct (cclosed s) eqn:Hcl.
    - apply Inv_crash; [exact HI|]. unfold phase_ok in H1.
      destruct (wst s); destruct H1 as (?&?&?); congruence.
    - inv_core. rewrite Hcl in H1. destruct (crecvq s) as [|p q] eqn:Hq.
      + destruct (cfull s); split4; cbn; assumption.
      + destruct p as [|j]; cbn in *.
        * destruct (wst s); try lia. split4; cbn; try assumption; try lia.
        * split4; cbn; assumption.
  Qed.

  Lemma Inv_cancel_recv_waiter s : Inv s -> wst s = WStart -> Inv (cancel_recv Waiter s).
  Proof.
    intros (H1 & H2 & H3 & H4) Hw. inv_core. rewrite Hw in *.
    unfold cancel_recv. destruct (cfull s).
    - destruct (csendq s) as [|j q]; cbn; split4; assumption.
    - destruct (cclosed s) eqn:Hc; cbn.
      + destruct H1 as (_ & _ & H1); discriminate.
      + rewrite nwaiter_app, H2. split4; try assumption. reflexivity.
  Qed.

  Lemma Inv_cancel_recv_canc i s : Inv s -> Inv (cancel_recv (Canceller i) s).
  Proof.
    intros (H1 & H2 & H3 & H4). inv_core.
    unfold cancel_recv. destruct (cfull s).
    - destruct (csendq s) as [|j q]; cbn; split4; assumption.
    - destruct (cclosed s) eqn:Hc; cbn.
      + split4; assumption.
      + rewrite nwaiter_app. cbn. rewrite Nat.add_0_r. split4; assumption.
  Qed.

  Lemma fifo_transmit s m :
    mclosed s = false -> fifo_ok s -> fifo_ok (transmit cap m s).
  Proof.
    intros Hm (F1 & F2 & F3 & F4 & F5). unfold transmit, fifo_ok. rewrite Hm.
    assert (eofs s <> 0 -> False) as He by (intros He; apply F5 in He; destruct He; congruence).
    destruct (Nat.ltb_spec (length (mbuf s)) cap) as [Hl|Hl]; cbn.
    - assert (mblocked s = []) as Hb.
      { destruct (mblocked s); [reflexivity|].
        assert (length (mbuf s) = cap) by (apply F3; discriminate). lia. }
      rewrite F1, Hb, app_length. cbn. repeat split; try tauto; try lia; try congruence.
      rewrite !app_nil_r, app_assoc. reflexivity.
    - rewrite F1. repeat split; try tauto; try lia; try congruence.
      rewrite !app_assoc. reflexivity.
  Qed.

  Lemma fifo_receive s : fifo_ok s -> fifo_ok (receive s).
  Proof.
    intros (F1 & F2 & F3 & F4 & F5). unfold receive.
    destruct (mbuf s) as [|m b] eqn:Hb; destruct (mblocked s) as [|m' bl] eqn:Hbl.
    - destruct (mclosed s) eqn:Hm; unfold fifo_ok; cbn; rewrite ?Hm, ?Hb, ?Hbl;
        repeat split; try assumption; try (cbn; lia); try congruence;
        intros He; apply F5 in He; destruct He; congruence.
    - assert (mclosed s = false) as Hm by (destruct (mclosed s); [specialize (F4 eq_refl); discriminate|reflexivity]).
      unfold fifo_ok; cbn. rewrite Hm. repeat split; try lia; try congruence.
      + rewrite F1, <- app_assoc. reflexivity.
      + intros _. apply F3. discriminate.
      + apply F5 in H. destruct H; congruence.
    - unfold fifo_ok; cbn in *. repeat split; try lia; try congruence.
      + rewrite F1, <- app_assoc. reflexivity.
      + apply F5, H.
      + apply F5 in H. destruct H; congruence.
    - assert (mclosed s = false) as Hm by (destruct (mclosed s); [specialize (F4 eq_refl); discriminate|reflexivity]).
      assert (S (length b) = cap) as Hc by (apply F3; discriminate).
      unfold fifo_ok; cbn. rewrite Hm, app_length; cbn. repeat split; try lia; try congruence.
      + rewrite F1, <- !app_assoc. reflexivity.
      + apply F5 in H. destruct H; congruence.
      + apply F5 in H. destruct H; congruence.
  Qed.

  Lemma Inv_step s o : Inv s -> Inv (step cap s o).
  Proof.
    intros HI. unfold step. destruct (crashed s) eqn:Hcr; [exact HI|].
    pose proof HI as (H1 & H2 & H3 & H4).
    destruct o as [|i|i|m|].
    - destruct (wst s) eqn:Hw; try exact HI.
      + apply Inv_cancel_recv_waiter; assumption.
      + inv_core. rewrite Hw in *. destruct H1 as (H0 & ? & ?).
        unfold run_cleanup; split4; cbn; rewrite ?H0; try assumption; auto.
      + unfold close_msgs. destruct (mblocked s) as [|m0 bl] eqn:Hb.
        * inv_core. rewrite Hw in *. cbn. split4; try assumption; [cbn; tauto|].
          destruct H3 as (F1 & F2 & F3 & F4 & F5). unfold fifo_ok. rewrite Hb in *. cbn.
          repeat split; try assumption; try congruence.
          apply F5 in H. apply H.
        * apply Inv_crash; [exact HI|]. unfold phase_ok in H1. rewrite Hw in H1. apply H1.
      + unfold close_cancel. destruct (csendq s) as [|j q] eqn:Hsq.
        * inv_core. rewrite Hw in *.
          destruct (wake_all (crecvq s) WDone (cst s)) as [w' c']. cbn.
          split4; try assumption; try reflexivity. tauto.
        * apply Inv_crash; [exact HI|]. unfold phase_ok in H1. rewrite Hw in H1. apply H1.
    - destruct (cst s i) eqn:Hc; try exact HI.
      + apply Inv_cancel_send; assumption.
      + apply Inv_cancel_recv_canc; assumption.
    - destruct (cst s i) eqn:Hc; try exact HI.
      all: inv_core; cbn; rewrite ?nwaiter_filter; split4; assumption.
    - destruct (mclosed s) eqn:Hm.
      + unfold transmit. rewrite Hm. apply Inv_crash; [exact HI|]. unfold phase_ok in H1.
        destruct (wst s); destruct H1 as (?&?&?); congruence.
      + pose proof (fifo_transmit s m Hm H3) as Hf. unfold transmit in *. rewrite Hm in *.
        inv_core. rewrite Hm in H1.
        destruct (Nat.ltb (length (mbuf s)) cap); split4; cbn; assumption.
    - pose proof (fifo_receive s H3) as Hf. unfold receive in *.
      inv_core.
      destruct (mbuf s), (mblocked s); try (split4; assumption).
      destruct (mclosed s) eqn:Hm; split4; try assumption. rewrite Hm; exact H1.
  Qed.

  Lemma run_Inv (os : list (op M)) : Inv (run cap os init).
  Proof. apply run_inv; [apply Inv_step|apply Inv_init]. Qed.

  Lemma sub_cleanup_once (os : list (op M)) : cleanups (run cap os init) <= 1.
  Proof.
    destruct (run_Inv os) as (H & _). unfold phase_ok in H.
    destruct (wst (run cap os init)); lia.
  Qed.

  Lemma sub_fifo (os : list (op M)) :
    let s := run cap os init in
    sent s = recvd s ++ mbuf s ++ mblocked s /\
    length (mbuf s) <= cap /\
    (mblocked s <> [] -> length (mbuf s) = cap) /\
    (eofs s <> 0 -> cleanups s = 1 /\ mclosed s = true /\ recvd s = sent s).
  Proof.
    intros s. destruct (run_Inv os) as (H1 & _ & (F1 & F2 & F3 & F4 & F5) & _). fold s in H1, F1, F2, F3, F4, F5.
    repeat split; try assumption.
    - apply F5 in H. destruct H as [H _]. unfold phase_ok in H1.
      destruct (wst s); destruct H1 as (?&?&?); congruence.
    - apply F5, H.
    - apply F5 in H. destruct H as [Hm Hb]. rewrite F1, Hb, F4 by assumption.
      cbn. rewrite app_nil_r. reflexivity.
  Qed.

  Lemma sub_crash_after_cleanup (os : list (op M)) :
    crashed (run cap os init) = true -> cleanups (run cap os init) = 1.
  Proof. destruct (run_Inv os) as (_ & _ & _ & H). exact H. Qed.

  (** ** One Cancel call, waiter parked *)
  Definition only (i : nat) (o : op M) : Prop :=
    match o with OCancel j | OCtxDone j => j = i | _ => True end.

  Definition ok1 (i : nat) s : Prop :=
    phase_ok s /\ cfull s = false /\ csendq s = [] /\
    match wst s with
    | WStart => False
    | WParked => crecvq s = [Waiter] /\ cst s i = CIdle
    | WGot | WCleaned | WMsgsClosed =>
        (cst s i = CSent /\ crecvq s = []) \/
        (cst s i = CParked /\ crecvq s = [Canceller i]) \/
        (cst s i = CCtx /\ crecvq s = [])
    | WDone => crecvq s = [] /\ (cst s i = CSent \/ cst s i = CReturned \/ cst s i = CCtx)
    end.

  Lemma upd_same f i v : upd f i v i = v.
  Proof. unfold upd. rewrite Nat.eqb_refl. reflexivity. Qed.

  Lemma ok1_step i s o : only i o -> ok1 i s -> ok1 i (step cap s o).
  Proof.
    intros Ho (H1 & H2 & H3 & H4). unfold step.
    destruct (crashed s); [exact (conj H1 (conj H2 (conj H3 H4)))|].
    unfold ok1, phase_ok in *.
    destruct o as [|j|j|m|]; cbn in Ho; try subst j.
    - destruct (wst s) eqn:Hw; try contradiction; try rewrite Hw.
      + tauto.
      + cbn. repeat split; try apply H1; try assumption. lia.
      + unfold close_msgs. destruct (mblocked s).
        * cbn. repeat split; try apply H1; assumption.
        * cbn. rewrite Hw. repeat split; try apply H1; assumption.
      + unfold close_cancel. rewrite H3. destruct H4 as [[H4 H5]|[[H4 H5]|[H4 H5]]]; rewrite H5; cbn.
        * repeat split; try apply H1; auto.
        * rewrite upd_same. repeat split; try apply H1; auto.
        * repeat split; try apply H1; auto.
      + repeat split; try apply H1; assumption || apply H4.
    - destruct (wst s) eqn:Hw; try contradiction.
      + destruct H4 as [H4 H5]. rewrite H5. unfold cancel_send.
        destruct H1 as (? & ? & H6). rewrite H6, H4. cbn. rewrite upd_same.
        repeat split; auto.
      + destruct H4 as [[H4 H5]|[[H4 H5]|[H4 H5]]]; rewrite H4; try rewrite Hw; try tauto.
        unfold cancel_recv. destruct H1 as (? & ? & H6). rewrite H2, H6, H5. cbn.
        rewrite Hw, upd_same. repeat split; auto.
      + destruct H4 as [[H4 H5]|[[H4 H5]|[H4 H5]]]; rewrite H4; try rewrite Hw; try tauto.
        unfold cancel_recv. destruct H1 as (? & ? & H6). rewrite H2, H6, H5. cbn.
        rewrite Hw, upd_same. repeat split; auto.
      + destruct H4 as [[H4 H5]|[[H4 H5]|[H4 H5]]]; rewrite H4; try rewrite Hw; try tauto.
        unfold cancel_recv. destruct H1 as (? & ? & H6). rewrite H2, H6, H5. cbn.
        rewrite Hw, upd_same. repeat split; auto.
      + destruct H4 as [H5 [H4|[H4|H4]]]; rewrite H4; try rewrite Hw; try tauto.
        unfold cancel_recv. destruct H1 as (? & ? & H6). rewrite H2, H6, H5. cbn.
        rewrite Hw, upd_same. repeat split; auto.
    - destruct (wst s) eqn:Hw; try contradiction.
      + destruct H4 as [H4 H5]. rewrite H5, Hw. tauto.
      + destruct H4 as [[H4 H5]|[[H4 H5]|[H4 H5]]]; rewrite H4; cbn; rewrite ?Hw, ?upd_same, ?H5; cbn;
          rewrite ?Nat.eqb_refl; cbn; tauto.
      + destruct H4 as [[H4 H5]|[[H4 H5]|[H4 H5]]]; rewrite H4; cbn; rewrite ?Hw, ?upd_same, ?H5; cbn;
          rewrite ?Nat.eqb_refl; cbn; tauto.
      + destruct H4 as [[H4 H5]|[[H4 H5]|[H4 H5]]]; rewrite H4; cbn; rewrite ?Hw, ?upd_same, ?H5; cbn;
          rewrite ?Nat.eqb_refl; cbn; tauto.
      + destruct H4 as [H5 [H4|[H4|H4]]]; rewrite H4; cbn; rewrite ?Hw, ?upd_same, ?H5; cbn; tauto.
    - unfold transmit. destruct (mclosed s) eqn:Hm.
      + cbn. destruct (wst s); rewrite ?Hm in *; tauto.
      + destruct (Nat.ltb _ cap); cbn; destruct (wst s); rewrite ?Hm in *; tauto.
    - unfold receive. destruct (mbuf s), (mblocked s); cbn; try (destruct (wst s); tauto).
      destruct (mclosed s) eqn:Hm; cbn; rewrite ?Hm; destruct (wst s); rewrite ?Hm in *; tauto.
  Qed.

  Lemma ok1_parked i : ok1 i (step cap init OWaiter).
  Proof. repeat split. Qed.

  Lemma run_ok1 i (os : list (op M)) : Forall (only i) os -> ok1 i (run cap (OWaiter :: os) init).
  Proof.
    intros HF. change (ok1 i (run cap os (step cap init OWaiter))).
    apply run_inv_forall with (Q := only i); [exact HF|apply ok1_step|apply ok1_parked].
  Qed.

  Lemma sub_cancel_complete i (os : list (op M)) :
    Forall (only i) os ->
    let s := run cap (OWaiter :: os) init in
    cst s i = CReturned -> cleanups s = 1 /\ mclosed s = true.
  Proof.
    intros HF s Hs. destruct (run_ok1 i os HF) as (H1 & _ & _ & H4). fold s in H1, H4.
    unfold phase_ok in H1. rewrite Hs in H4.
    destruct (wst s); try contradiction; try (destruct H4 as [_ H4]; discriminate);
      try (destruct H4 as [[H4 _]|[[H4 _]|[H4 _]]]; discriminate). tauto.
  Qed.

  (** Unless somebody is blocked transmitting, three waiter steps and one canceller step are
      enough for Cancel to return. *)
  Lemma sub_cancel_progress i (os : list (op M)) :
    Forall (only i) os ->
    let s := run cap (OWaiter :: os) init in
    crashed s = false -> mblocked s = [] -> cst s i = CSent \/ cst s i = CParked ->
    let s' := run cap [OWaiter; OWaiter; OWaiter; OCancel i] s in
    cst s' i = CReturned /\ cleanups s' = 1 /\ mclosed s' = true /\ crashed s' = false.
  Proof.
    intros HF s Hcr Hb Hc. destruct (run_ok1 i os HF) as (H1 & H2 & H3 & H4).
    fold s in H1, H2, H3, H4. clearbody s. clear HF os.
    unfold run. cbn [fold_left].
    unfold phase_ok in H1. destruct s as [mb mc mbl cf cc rq sq w c cl sn rc eo cr]. cbn in *. subst.
    destruct w; try contradiction.
    - destruct H4 as [_ H4]. rewrite H4 in Hc. destruct Hc; discriminate.
    - destruct H1 as (-> & -> & ->).
      destruct H4 as [[H4 ->]|[[H4 ->]|[H4 ->]]].
      + cbn. rewrite H4. cbn. rewrite upd_same. auto.
      + cbn. rewrite upd_same. cbn. rewrite upd_same. auto.
      + rewrite H4 in Hc. destruct Hc; discriminate.
    - destruct H1 as (-> & -> & ->).
      destruct H4 as [[H4 ->]|[[H4 ->]|[H4 ->]]].
      + cbn. rewrite H4. cbn. rewrite upd_same. auto.
      + cbn. rewrite upd_same. cbn. rewrite upd_same. auto.
      + rewrite H4 in Hc. destruct Hc; discriminate.
    - destruct H1 as (-> & -> & ->).
      destruct H4 as [[H4 ->]|[[H4 ->]|[H4 ->]]].
      + cbn. rewrite H4. cbn. rewrite upd_same. auto.
      + cbn. rewrite upd_same. cbn. rewrite upd_same. auto.
      + rewrite H4 in Hc. destruct Hc; discriminate.
    - destruct H1 as (-> & -> & ->).
      destruct H4 as [-> [H4|[H4|H4]]].
      + cbn. rewrite H4. cbn. rewrite upd_same. auto.
      + rewrite H4 in Hc. destruct Hc; discriminate.
      + rewrite H4 in Hc. destruct Hc; discriminate.
  Qed.

  (** Without concurrent transmissions, a single Cancel call never crashes. *)
  Definition no_transmit (o : op M) : Prop := match o with OTransmit _ => False | _ => True end.

  Lemma ok1_nocrash_step i s o :
    only i o -> no_transmit o -> ok1 i s /\ mblocked s = [] /\ crashed s = false ->
    ok1 i (step cap s o) /\ mblocked (step cap s o) = [] /\ crashed (step cap s o) = false.
  Proof.
    intros Ho Hn (Hk & Hb & Hc). split; [apply ok1_step; assumption|].
    unfold step. rewrite Hc. destruct Hk as (H1 & H2 & H3 & H4). unfold phase_ok in H1.
    destruct o as [|j|j|m|]; cbn in Ho, Hn; try contradiction; try subst j.
    - destruct (wst s) eqn:Hw; try contradiction; auto.
      + unfold close_msgs. rewrite Hb. auto.
      + unfold close_cancel. rewrite H3. destruct (wake_all _ _ _). auto.
    - destruct (cst s i) eqn:Hi; auto.
      + unfold cancel_send. destruct (wst s) eqn:Hw; try contradiction;
          try (destruct H4 as [[H4 _]|[[H4 _]|[H4 _]]]; discriminate).
        * destruct H1 as (_ & _ & ->). destruct H4 as [-> _]. cbn. auto.
        * destruct H4 as [_ [H4|[H4|H4]]]; discriminate.
      + unfold cancel_recv. rewrite H2. destruct (cclosed s); cbn; auto.
    - destruct (cst s i); cbn; auto.
    - unfold receive. rewrite Hb. destruct (mbuf s); cbn; auto.
      destruct (mclosed s); cbn; auto.
  Qed.

  Lemma sub_single_cancel_safe i (os : list (op M)) :
    Forall (only i) os -> Forall no_transmit os ->
    crashed (run cap (OWaiter :: os) init) = false.
  Proof.
    intros H1 H2.
    change (crashed (run cap os (step cap init OWaiter)) = false).
    apply (run_inv_forall (fun s => ok1 i s /\ mblocked s = [] /\ crashed s = false)
             (fun o => only i o /\ no_transmit o) os).
    - apply Forall_and; assumption.
    - intros s o [Ha Hb] H. apply ok1_nocrash_step; assumption.
    - split; [apply ok1_parked|]. split; reflexivity.
  Qed.

  (** ** A request taken back by its canceller is lost *)
  Definition lost (i : nat) s : Prop :=
    cleanups s = 0 /\ cst s i = CReturned /\ cfull s = false /\ csendq s = [] /\
    cclosed s = false /\ (wst s = WStart \/ wst s = WParked).

  Lemma lost_step i s o : only i o -> lost i s -> lost i (step cap s o).
  Proof.
    intros Ho (H1 & H2 & H3 & H4 & H5 & H6). unfold step.
    destruct (crashed s); [repeat split; assumption|].
    destruct o as [|j|j|m|]; cbn in Ho; try subst j.
    - destruct (wst s) eqn:Hw; try (destruct H6; discriminate).
      + unfold cancel_recv. rewrite H3, H5. repeat split; try assumption. right; reflexivity.
      + repeat split; try assumption. right; assumption.
    - rewrite H2. repeat split; assumption.
    - rewrite H2. repeat split; assumption.
    - unfold transmit. destruct (mclosed s); [repeat split; assumption|].
      destruct (Nat.ltb _ cap); repeat split; assumption.
    - unfold receive. destruct (mbuf s), (mblocked s); try (repeat split; assumption).
      destruct (mclosed s); repeat split; assumption.
  Qed.

  Lemma sub_cancel_lost i (os : list (op M)) :
    Forall (only i) os -> cleanups (run cap os (run cap [OCancel i; OCancel i] init)) = 0.
  Proof.
    intros HF.
    assert (lost i (run cap os (run cap [OCancel i; OCancel i] init))) as H.
    { apply run_inv_forall with (Q := only i); [exact HF|apply lost_step|].
      cbn. rewrite !upd_same. cbn. repeat split; auto. cbn. rewrite upd_same; reflexivity. }
    apply H.
  Qed.

  (** ** Draining *)
  Lemma drain_gen n s :
    crashed s = false -> length (mbuf s ++ mblocked s) = n ->
    recvd (run cap (repeat OReceive n) s) = recvd s ++ mbuf s ++ mblocked s.
  Proof.
    revert s; induction n as [|n IH]; intros s Hc Hn.
    - destruct (mbuf s), (mblocked s); try discriminate. cbn. rewrite app_nil_r. reflexivity.
    - cbn [repeat run fold_left]. change (fold_left (step cap) (repeat OReceive n)) with (run cap (repeat (@OReceive M) n)).
      unfold step. rewrite Hc. unfold receive.
      destruct (mbuf s) as [|m b] eqn:Hb; destruct (mblocked s) as [|m' bl] eqn:Hbl; cbn in Hn; [discriminate| | |].
      + rewrite IH; cbn; [rewrite <- app_assoc; reflexivity|assumption|lia].
      + rewrite IH; cbn; [rewrite <- app_assoc; reflexivity|assumption|lia].
      + rewrite IH; cbn; [rewrite <- !app_assoc; reflexivity|assumption|].
        rewrite !app_length in *. cbn in *. lia.
  Qed.

  Lemma sub_drain (os : list (op M)) :
    let s := run cap os init in
    crashed s = false ->
    recvd (run cap (repeat OReceive (length (mbuf s ++ mblocked s))) s) = sent s.
  Proof.
    intros s Hc. rewrite (drain_gen _ s Hc eq_refl).
    destruct (run_Inv os) as (_ & _ & (F1 & _) & _). symmetry; exact F1.
  Qed.
  (** ** Any number of Cancel calls *)
  Lemma run_app os os' s : run cap (os ++ os') s = run cap os' (run cap os s).
  Proof. apply fold_left_app. Qed.

  (** What panics: sending on a closed channel, and being parked in a send when it is closed. *)
  Definition fatal s (o : op M) : Prop :=
    match o with
    | OTransmit _ => mclosed s = true
    | OCancel i => cst s i = CIdle /\ cclosed s = true
    | OWaiter => (wst s = WCleaned /\ mblocked s <> []) \/ (wst s = WMsgsClosed /\ csendq s <> [])
    | _ => False
    end.

  Lemma step_fatal s o : crashed s = false -> (crashed (step cap s o) = true <-> fatal s o).
  Proof.
    intros Hc. unfold step. rewrite Hc. destruct o as [|i|i|m|]; cbn [fatal].
    - destruct (wst s) eqn:Hw.
      + unfold cancel_recv. destruct (cfull s); [destruct (csendq s)|destruct (cclosed s)]; cbn; rewrite Hc;
          split; try discriminate; intros [[? _]|[? _]]; discriminate.
      + rewrite Hc. split; [discriminate|intros [[? _]|[? _]]; discriminate].
      + cbn. rewrite Hc. split; [discriminate|intros [[? _]|[? _]]; discriminate].
      + unfold close_msgs. destruct (mblocked s); cbn; [rewrite Hc|]; split; try discriminate.
        * intros [[_ ?]|[? _]]; [contradiction|discriminate].
        * intros _. left. split; [reflexivity|discriminate].
        * reflexivity.
      + unfold close_cancel. destruct (csendq s); cbn.
        * destruct (wake_all _ _ _); cbn; rewrite Hc. split; [discriminate|].
          intros [[? _]|[_ ?]]; [discriminate|contradiction].
        * split; [|reflexivity]. intros _. right. split; [reflexivity|discriminate].
      + rewrite Hc. split; [discriminate|intros [[? _]|[? _]]; discriminate].
    - destruct (cst s i) eqn:Hi; try (rewrite Hc; split; [discriminate|intros [? _]; discriminate]).
      + unfold cancel_send. destruct (cclosed s); [cbn; tauto|].
        destruct (crecvq s) as [|[|j] q]; [destruct (cfull s)| |]; cbn; rewrite Hc;
          (split; [discriminate|intros [_ ?]; discriminate]).
      + unfold cancel_recv. destruct (cfull s); [destruct (csendq s)|destruct (cclosed s)]; cbn; rewrite Hc;
          (split; [discriminate|intros [? _]; discriminate]).
    - destruct (cst s i); cbn; rewrite Hc; split; (discriminate || contradiction).
    - unfold transmit. destruct (mclosed s); [cbn; tauto|].
      destruct (Nat.ltb _ _); cbn; rewrite Hc; split; discriminate.
    - unfold receive. destruct (mbuf s), (mblocked s); cbn; rewrite ?Hc; try (split; [discriminate|contradiction]).
      destruct (mclosed s); cbn; rewrite ?Hc; split; (discriminate || contradiction).
  Qed.

  Lemma crashed_stays s os : crashed s = true -> crashed (run cap os s) = true.
  Proof.
    intros H. apply run_inv; [|exact H]. intros s' o H'. unfold step. rewrite H'. exact H'.
  Qed.

  Lemma run_fatal os s : crashed s = false ->
    (crashed (run cap os s) = true <->
     exists os1 o os2, os = os1 ++ o :: os2 /\ crashed (run cap os1 s) = false /\ fatal (run cap os1 s) o).
  Proof.
    revert s. induction os as [|o os IH]; intros s Hc.
    - cbn. rewrite Hc. split; [discriminate|]. intros ([|? ?] & ? & ? & ? & _); discriminate.
    - change (run cap (o :: os) s) with (run cap os (step cap s o)).
      destruct (crashed (step cap s o)) eqn:E.
      + split; [|intros _; apply crashed_stays, E]. intros _. exists [], o, os.
        split; [reflexivity|]. split; [exact Hc|]. apply step_fatal; assumption.
      + rewrite (IH _ E). split.
        * intros (os1 & o' & os2 & -> & H1 & H2). exists (o :: os1), o', os2. auto.
        * intros ([|o1 os1] & o' & os2 & Eq & H1 & H2).
          { injection Eq as <- <-. cbn in H2. apply step_fatal in H2; [|exact Hc]. congruence. }
          injection Eq as <- ->. exists os1, o', os2. auto.
  Qed.

  Lemma sub_crash_exact (os : list (op M)) :
    crashed (run cap os init) = true <->
    exists os1 o os2, os = os1 ++ o :: os2 /\ crashed (run cap os1 init) = false /\ fatal (run cap os1 init) o.
  Proof. apply run_fatal. reflexivity. Qed.

  (** One Cancel call: only transmissions crash. *)
  Lemma sub_one_cancel_crash i (os : list (op M)) :
    Forall (only i) os -> crashed (run cap (OWaiter :: os) init) = true ->
    exists os1 o os2, os = os1 ++ o :: os2 /\
      let s := run cap (OWaiter :: os1) init in
      cleanups s = 1 /\ ((exists m, o = OTransmit m /\ mclosed s = true) \/ (o = OWaiter /\ mclosed s = false /\ mblocked s <> [])).
  Proof.
    intros HF Hc. change (run cap (OWaiter :: os) init) with (run cap os (step cap init OWaiter)) in Hc.
    apply run_fatal in Hc; [|reflexivity]. destruct Hc as (os1 & o & os2 & -> & Hc & Hf).
    apply Forall_app in HF. destruct HF as [HF1 HF2]. inversion HF2 as [|? ? Ho _]; subst.
    exists os1, o, os2. split; [reflexivity|].
    change (run cap (OWaiter :: os1) init) with (run cap os1 (step cap init OWaiter)).
    destruct (run_ok1 i os1 HF1) as (H1 & H2 & H3 & H4).
    change (run cap (OWaiter :: os1) init) with (run cap os1 (step cap init OWaiter)) in *.
    set (s := run cap os1 (step cap init OWaiter)) in *. cbn zeta. unfold phase_ok in H1.
    destruct o as [|j|j|m|]; cbn in Hf, Ho; try contradiction.
    - destruct Hf as [[Hw Hb]|[Hw Hq]]; [|congruence]. rewrite Hw in H1. destruct H1 as (? & ? & _). split; [assumption|]. right. auto.
    - subst j. destruct Hf as [Hi Hcc]. destruct (wst s); try (destruct H1 as (_ & _ & ?); congruence).
      destruct H4 as [_ [H4|[H4|H4]]]; congruence.
    - split.
      + destruct (wst s); destruct H1 as (? & ? & _); congruence.
      + left. exists m. auto.
  Qed.

  (** The request reaches the clean-up goroutine that is ready. *)
  Definition told s : Prop := wst s <> WStart /\ wst s <> WParked.
  Definition ready s : Prop :=
    wst s = WParked /\ (exists q, crecvq s = Waiter :: q) /\ cclosed s = false /\ mclosed s = false /\ crashed s = false /\ forall i, cst s i = CIdle.
  Lemma ready_step s o : ready s -> match o with OCancel _ => told (step cap s o) | _ => ready (step cap s o) end.
  Proof.
    intros (Hw & (q & Hq) & Hcc & Hm & Hc & Hi). unfold step. rewrite Hc. destruct o as [|i|i|m|].
    - rewrite Hw. repeat split; eauto.
    - rewrite Hi. unfold cancel_send. rewrite Hcc, Hq. cbn. unfold told. cbn. split; discriminate.
    - rewrite Hi. repeat split; eauto.
    - unfold transmit. rewrite Hm. destruct (Nat.ltb _ _); repeat split; cbn; eauto.
    - unfold receive. rewrite Hm. destruct (mbuf s), (mblocked s); repeat split; cbn; eauto.
  Qed.
  Lemma told_step s o : Inv s -> told s -> told (step cap s o).
  Proof.
    intros (_ & Hq & _ & _) [T1 T2]. unfold step. destruct (crashed s); [split; assumption|]. destruct o as [|i|i|m|].
    - destruct (wst s) eqn:Hw; try congruence; try (split; cbn; congruence).
      + unfold close_msgs. destruct (mblocked s); split; cbn; congruence.
      + unfold close_cancel. destruct (csendq s); [destruct (wake_all _ _ _)|]; split; cbn; congruence.
    - destruct (cst s i); try (split; assumption).
      + unfold cancel_send. destruct (cclosed s); [split; assumption|].
        destruct (crecvq s) as [|[|j] q]; [destruct (cfull s)| |]; split; cbn; congruence.
      + unfold cancel_recv. destruct (cfull s); [destruct (csendq s)|destruct (cclosed s)]; split; cbn; assumption.
    - destruct (cst s i); split; assumption.
    - unfold transmit. destruct (mclosed s); [split; assumption|]. destruct (Nat.ltb _ _); split; assumption.
    - unfold receive. destruct (mbuf s), (mblocked s); try (split; assumption). destruct (mclosed s); split; assumption.
  Qed.
  Lemma told_run os s : Inv s -> told s -> told (run cap os s).
  Proof.
    intros HI HT. apply (run_inv (fun s => Inv s /\ told s)); [|split; assumption].
    intros s' o [H1 H2]. split; [apply Inv_step, H1|apply told_step; assumption].
  Qed.
  Lemma ready_told os s i : Inv s -> ready s -> In (OCancel i) os -> told (run cap os s).
  Proof.
    revert s. induction os as [|o os IH]; intros s HI HR Hin; [contradiction|].
    change (run cap (o :: os) s) with (run cap os (step cap s o)).
    pose proof (ready_step s o HR) as Hs. pose proof (Inv_step s o HI) as HI'.
    destruct Hin as [->|Hin]; [apply told_run; assumption|].
    destruct o; try (apply IH; assumption). apply told_run; assumption.
  Qed.
  Lemma sub_cleanup_happens i (os : list (op M)) :
    In (OCancel i) os -> cleanups (run cap (OWaiter :: os ++ [OWaiter]) init) = 1.
  Proof.
    intros Hin. change (cleanups (run cap (os ++ [OWaiter]) (step cap init OWaiter)) = 1). rewrite run_app.
    assert (HI : Inv (step cap init OWaiter)) by apply (run_Inv [OWaiter]).
    assert (HR : ready (step cap init OWaiter)) by (repeat split; cbn; eauto).
    pose proof (ready_told os _ i HI HR Hin) as [T1 T2].
    assert (HI' : Inv (run cap os (step cap init OWaiter))) by apply (run_Inv (OWaiter :: os)).
    set (s := run cap os (step cap init OWaiter)) in *. destruct HI' as (H1 & _ & _ & H4).
    unfold run. cbn [fold_left]. unfold step. destruct (crashed s) eqn:Hc; [apply H4, Hc|].
    unfold phase_ok in H1. destruct (wst s); try congruence.
    - cbn. lia.
    - unfold close_msgs. destruct (mblocked s); cbn; lia.
    - unfold close_cancel. destruct (csendq s); [destruct (wake_all _ _ _)|]; cbn; lia.
    - lia.
  Qed.

  (** A Cancel that returns too early was overtaken by another one. *)
  Definition alone (i : nat) (o : op M) : Prop := match o with OCancel j => j = i | _ => True end.
  Lemma idle_step i s o : alone i o -> (forall j, j <> i -> cst s j = CIdle) ->
    csendq s = [] -> (forall j, In (Canceller j) (crecvq s) -> j = i) ->
    forall j, j <> i -> cst (step cap s o) j = CIdle.
  Proof.
    intros Ho Hid Hsq Hrq j Hj. unfold step. destruct (crashed s); [auto|].
    assert (U : forall f v, f j = CIdle -> upd f i v j = CIdle).
    { intros f v Hf. unfold upd. destruct (Nat.eqb_spec j i); [contradiction|exact Hf]. }
    assert (WA : forall q w c, (forall k, In (Canceller k) q -> k = i) -> c j = CIdle -> snd (wake_all q w c) j = CIdle).
    { induction q as [|[|k] q IH]; intros w c Hq Hcj; cbn; [exact Hcj| |].
      - apply IH; [intros k Hk; apply Hq; right; exact Hk|exact Hcj].
      - apply IH; [intros k' Hk; apply Hq; right; exact Hk|]. rewrite (Hq k) by (left; reflexivity). apply U, Hcj. }
    destruct o as [|k|k|m|]; cbn in Ho.
    - destruct (wst s); try (cbn; auto; fail).
      + unfold cancel_recv. destruct (cfull s); [rewrite Hsq; cbn; auto|]. destruct (cclosed s); cbn; auto.
      + unfold close_msgs. destruct (mblocked s); cbn; auto.
      + unfold close_cancel. rewrite Hsq. pose proof (WA (crecvq s) WDone (cst s) Hrq (Hid j Hj)) as Hwa.
        destruct (wake_all _ _ _); exact Hwa.
    - subst k. destruct (cst s i); auto.
      + unfold cancel_send. destruct (cclosed s); [cbn; auto|].
        destruct (crecvq s) as [|[|k] q]; [destruct (cfull s); cbn; auto|cbn; auto|].
        cbn. apply U. rewrite (Hrq k) by (left; reflexivity). auto.
      + unfold cancel_recv. destruct (cfull s); [rewrite Hsq; cbn; auto|]. destruct (cclosed s); cbn; auto.
    - destruct (Nat.eq_dec k i) as [->|Hk].
      + destruct (cst s i); cbn; auto.
      + rewrite (Hid k Hk). auto.
    - unfold transmit. destruct (mclosed s); [cbn; auto|]. destruct (Nat.ltb _ _); cbn; auto.
    - unfold receive. destruct (mbuf s), (mblocked s); cbn; auto. destruct (mclosed s); cbn; auto.
  Qed.
  Lemma ok1_rq i s : ok1 i s -> forall j, In (Canceller j) (crecvq s) -> j = i.
  Proof.
    intros (_ & _ & _ & H4) j Hj. destruct (wst s); try contradiction.
    - destruct H4 as [H4 _]. rewrite H4 in Hj. destruct Hj as [?|[]]; congruence.
    - destruct H4 as [[_ H4]|[[_ H4]|[_ H4]]]; rewrite H4 in Hj; try contradiction. destruct Hj as [?|[]]; congruence.
    - destruct H4 as [[_ H4]|[[_ H4]|[_ H4]]]; rewrite H4 in Hj; try contradiction. destruct Hj as [?|[]]; congruence.
    - destruct H4 as [[_ H4]|[[_ H4]|[_ H4]]]; rewrite H4 in Hj; try contradiction. destruct Hj as [?|[]]; congruence.
    - destruct H4 as [H4 _]. rewrite H4 in Hj. contradiction.
  Qed.
  Lemma run_alone i (os : list (op M)) : Forall (alone i) os ->
    ok1 i (run cap (OWaiter :: os) init).
  Proof.
    intros HF. change (ok1 i (run cap os (step cap init OWaiter))).
    apply (run_inv_forall (fun s => ok1 i s /\ forall j, j <> i -> cst s j = CIdle) (alone i)).
    - exact HF.
    - intros s o Ho [H1 H2]. split.
      + destruct o as [|k|k|m|]; try (apply ok1_step; [|exact H1]; cbn; auto; fail).
        destruct (Nat.eq_dec k i) as [->|Hk]; [apply ok1_step; [reflexivity|exact H1]|].
        unfold step. destruct (crashed s); [exact H1|]. rewrite (H2 k Hk). exact H1.
      + apply idle_step; try assumption; [apply H1|apply ok1_rq, H1].
    - split; [apply ok1_parked|]. reflexivity.
  Qed.
  Lemma alone_dec i (os : list (op M)) : Forall (alone i) os \/ exists j, j <> i /\ In (OCancel j) os.
  Proof.
    induction os as [|o os [IH|(j & Hj & Hin)]]; [left; constructor| |right; exists j; split; [exact Hj|right; exact Hin]].
    destruct o as [|k|k|m|]; try (left; constructor; [exact I|exact IH]).
    destruct (Nat.eq_dec k i) as [->|Hk]; [left; constructor; [reflexivity|exact IH]|].
    right. exists k. split; [exact Hk|left; reflexivity].
  Qed.
  Lemma sub_early_overtaken i (os : list (op M)) :
    let s := run cap (OWaiter :: os) init in
    cst s i = CReturned -> (cleanups s = 1 /\ mclosed s = true) \/ exists j, j <> i /\ In (OCancel j) os.
  Proof.
    intros s Hs. destruct (alone_dec i os) as [HF|?]; [left|right; assumption].
    destruct (run_alone i os HF) as (H1 & _ & _ & H4). fold s in H1, H4.
    unfold phase_ok in H1. rewrite Hs in H4.
    destruct (wst s); try contradiction; try (destruct H4 as [_ H4]; discriminate);
      try (destruct H4 as [[H4 _]|[[H4 _]|[H4 _]]]; discriminate). tauto.
  Qed.
End P.
