(** Proofs about JetStream messages and their acknowledgement. *)
From Coq Require Import List.
From stdpp Require Import gmap strings list.
From Verif.Model Require Import Ack Middleware Listener JetStream Durable.
From Verif.Spec Require Import MiddlewareSpec ListenerSpec JetStreamSpec DurableSpec.
From Verif.Proof Require Import MiddlewareProof ListenerProof JetStreamProof JetStreamExactProof.

Section Approved.
  Context {C M E D : Type}.
  Variables (decode : M -> D + E) (addctx : D -> C -> C) (fn : C -> D -> result E) (handler : E -> list settle * bool).

  Definition ainv (x : lst C E D) : Prop := In (LTold SAck) (llog x) -> exists c d, In (LCallback c d) (llog x) /\ fn c d = ROk None.

  Lemma settle_x_llog (x : lst C E D) k : llog (settle_x x k) = llog x \/ llog (settle_x x k) = llog x ++ [LTold k].
  Proof.
    destruct (acked (lack x)) eqn:Ha; [left; rewrite settle_x_acked by exact Ha; reflexivity|right; rewrite settle_x_not by exact Ha; reflexivity].
  Qed.

  Lemma ainv_callback c m x : ainv x -> ainv (snd (fst (op_callback decode addctx fn c m x))).
  Proof.
    intros H. unfold op_callback. destruct (decode m) as [d|e]; [|exact H].
    assert (Hlog : ainv (log1 (LCallback (addctx d c) d) x)).
    { unfold ainv, log1. cbn. intros Hin. apply in_app_iff in Hin as [Hin|[[=]|[]]]. destruct (H Hin) as (c' & d' & A & B).
      exists c', d'. split; [apply in_app_iff; left; exact A|exact B]. }
    destruct (fn (addctx d c) d) as [[e|]|] eqn:Hf; cbn; [exact Hlog| |exact Hlog].
    intros _. exists (addctx d c), d. split; [|exact Hf].
    assert (Hc : In (LCallback (addctx d c) d) (llog (log1 (LCallback (addctx d c) d) x))) by (unfold log1; cbn; apply in_app_iff; right; left; reflexivity).
    destruct (settle_x_llog (log1 (LCallback (addctx d c) d) x) SAck) as [->| ->]; [exact Hc|apply in_app_iff; left; exact Hc].
  Qed.

  Lemma settles_llog ks : forall x ev, In ev (llog (fold_left (settle_x (C:=C) (E:=E) (D:=D)) ks x)) ->
    In ev (llog x) \/ exists k, In k ks /\ ev = LTold k.
  Proof.
    induction ks as [|k ks IH]; intros x ev H; cbn in H; [left; exact H|]. destruct (IH _ _ H) as [A|(k' & A & B)].
    - destruct (settle_x_llog x k) as [E1|E1]; rewrite E1 in A; [left; exact A|]. apply in_app_iff in A as [A|[A|[]]]; [left; exact A|].
      right. exists k. split; [left; reflexivity|symmetry; exact A].
    - right. exists k'. split; [right; exact A|exact B].
  Qed.
  Lemma settles_keep ks : forall x ev, In ev (llog x) -> In ev (llog (fold_left (settle_x (C:=C) (E:=E) (D:=D)) ks x)).
  Proof.
    induction ks as [|k ks IH]; intros x ev H; cbn; [exact H|]. apply IH. destruct (settle_x_llog x k) as [->| ->]; [exact H|apply in_app_iff; left; exact H].
  Qed.

  Lemma process_approved mws c m :
    In (LTold SAck) (llog (fst (fst (process decode addctx fn handler mws c m)))) ->
    approved handler fn (fst (fst (process decode addctx fn handler mws c m))).
  Proof.
    unfold process.
    pose proof (execute_ext_inv ainv (op_callback decode addctx fn) mws c m (mkLst ack_new []) ainv_callback) as H.
    assert (H0 : ainv (mkLst (C:=C) (E:=E) (D:=D) ack_new [])) by (intros []). specialize (H H0).
    destruct (execute mws _ c m _) as [s r]. cbn [fst] in H. destruct r as [[e|]|]; cbn [fst]; [|intros Hin; left; exact (H Hin)|intros Hin; left; exact (H Hin)].
    destruct (handler e) as [ks pan] eqn:Hh.
    assert (G : forall y, (forall ev, In ev (llog y) -> In ev (llog (fold_left (settle_x (C:=C)) ks (log1 (LHandler e) (ext s)))) \/ ev = LTold SNak) ->
              (forall ev, In ev (llog (fold_left (settle_x (C:=C)) ks (log1 (LHandler e) (ext s)))) -> In ev (llog y)) ->
              In (LTold SAck) (llog y) -> approved handler fn y).
    { intros y Hy Hk Hin. destruct (Hy _ Hin) as [A|A]; [|discriminate A]. destruct (settles_llog ks _ _ A) as [B|(k & B & Bk)].
      - unfold log1 in B. cbn in B. apply in_app_iff in B as [B|[B|[]]]; [|discriminate B]. left. destruct (H B) as (c' & d & B1 & B2).
        exists c', d. split; [|exact B2]. apply Hk, settles_keep. unfold log1. cbn. apply in_app_iff. left. exact B1.
      - injection Bk as <-. right. exists e. split; [|rewrite Hh; exact B]. apply Hk, settles_keep. unfold log1. cbn. apply in_app_iff. right. left. reflexivity. }
    destruct pan; cbn [fst]; apply G.
    - intros ev Hin. left. exact Hin.
    - intros ev Hin. exact Hin.
    - intros ev Hin. destruct (settle_x_llog (fold_left (settle_x (C:=C)) ks (log1 (LHandler e) (ext s))) SNak) as [E1|E1]; rewrite E1 in Hin; [left; exact Hin|].
      apply in_app_iff in Hin as [A|[A|[]]]; [left; exact A|right; symmetry; exact A].
    - intros ev Hin. destruct (settle_x_llog (fold_left (settle_x (C:=C)) ks (log1 (LHandler e) (ext s))) SNak) as [->| ->]; [exact Hin|apply in_app_iff; left; exact Hin].
  Qed.
End Approved.

Section Durable.
  Context {C M E D : Type}.
  Variables (decode : M -> D + E) (addctx : D -> C -> C) (handler : E -> list settle * bool).
  Variables (msg_ctx : M -> C) (mws : list (middleware C M E)) (stream : list (string * M)).
  Let dstep := dstep decode addctx handler msg_ctx mws stream.
  Let drun := drun decode addctx handler msg_ctx mws stream.

  Lemma is_ack_spec (x : lst C E D) : is_ack x = true <-> In (LTold SAck) (llog x).
  Proof.
    unfold is_ack. rewrite existsb_exists. split.
    - intros ([| |[|]] & A & B); try discriminate. exact A.
    - intros H. exists (LTold SAck). split; [exact H|reflexivity].
  Qed.

  Lemma enumerates_perm order (m : gmap string nat) : enumerates order m = true -> order ≡ₚ (map_to_list m).*1.
  Proof.
    unfold enumerates. intros [H1 H2]%andb_prop. apply bool_decide_eq_true in H1, H2. apply NoDup_Permutation; [exact H1|apply NoDup_fst_map_to_list|].
    intros c. assert (A : c ∈ order <-> c ∈ (list_to_set order : gset string)) by (rewrite elem_of_list_to_set; reflexivity).
    rewrite A, H2, elem_of_dom, elem_of_list_fmap. split.
    - intros [g Hg]. exists (c, g). split; [reflexivity|]. apply elem_of_map_to_list. exact Hg.
    - intros ([c' g] & -> & Hg). exists g. apply elem_of_map_to_list. exact Hg.
  Qed.

  (** What is known of a record. *)
  Definition rec_ok (r : drec C E D) : Prop :=
    match r with
    | DDropped i l => exists subject m, stream !! i = Some (subject, m) /\ unwanted subject l
    | DHandled i fn x => exists subject m, stream !! i = Some (subject, m) /\ x = fst (fst (process decode addctx fn handler mws (msg_ctx m) m))
    end.

  Definition dinv (s : dst C E D) : Prop :=
    (jpanic (djet s) = false -> exists os, djet s = jrun os jinit) /\
    (forall r, r ∈ dhist s -> rec_ok r) /\
    (forall i, i ∈ dacked s <-> exists r, r ∈ dhist s /\ about i r /\ done_with r) /\
    (forall i pre r post, dhist s = pre ++ r :: post -> about i r -> done_with r -> forall r', r' ∈ post -> ~ about i r').

  Lemma snoc_split {A} (pre post l : list A) r r0 : l ++ [r0] = pre ++ r :: post ->
    (post = [] /\ pre = l /\ r = r0) \/ exists post', post = post' ++ [r0] /\ l = pre ++ r :: post'.
  Proof.
    destruct post as [|a post' _] using rev_ind; intros H.
    - left. apply app_inj_2 in H as [-> [= ->]]; [|reflexivity]. repeat split.
    - right. exists post'. rewrite app_comm_cons, app_assoc in H. apply app_inj_2 in H as [-> [= ->]]; [|reflexivity]. split; reflexivity.
  Qed.

  Lemma dinv_add s j b a r i : dinv s -> rec_ok r -> about i r -> i ∉ dacked s ->
    (jpanic j = false -> exists os, j = jrun os jinit) ->
    (forall k, k ∈ a <-> k ∈ dacked s \/ (k = i /\ done_with r)) ->
    dinv (mkD j b a (dhist s ++ [r])).
  Proof.
    intros (H1 & H2 & H3 & H4) Hr Hi Hn Hj Ha. split; [exact Hj|]. split; [|split]; cbn [dhist dacked].
    - intros r' [Hin|Hin]%elem_of_app; [exact (H2 r' Hin)|]. apply elem_of_list_singleton in Hin as ->. exact Hr.
    - intros k. rewrite Ha, H3. split.
      + intros [(r' & A & B)|[-> B]]; [exists r'; split; [apply elem_of_app; left; exact A|exact B]|].
        exists r. split; [apply elem_of_app; right; left|split; assumption].
      + intros (r' & A & B & B'). apply elem_of_app in A as [A|A]; [left; exists r'; split; [exact A|split; assumption]|].
        apply elem_of_list_singleton in A as ->. right. split; [|exact B']. destruct r; cbn in *; congruence.
    - intros k pre r1 post Hs B B' r' Hr'. apply snoc_split in Hs as [(-> & _)|(post' & -> & Hs)]; [inversion Hr'|].
      apply elem_of_app in Hr' as [Hr'|Hr']; [exact (H4 k pre r1 post' Hs B B' r' Hr')|]. apply elem_of_list_singleton in Hr' as ->.
      intros Hk. assert (k = i) as -> by (destruct r; cbn in *; congruence). apply Hn, H3. exists r1.
      split; [rewrite Hs; apply elem_of_app; right; left|split; assumption].
  Qed.

  Lemma dinv_step s ev : dinv s -> dinv (dstep s ev).
  Proof.
    intros Hi. pose proof Hi as (H1 & H2 & H3 & H4). destruct ev as [o|i order fn|]; unfold dstep, Durable.dstep.
    - split; [|split; [exact H2|split; [exact H3|exact H4]]]. cbn [djet]. intros Hp.
      destruct (jpanic (djet s)) eqn:Hq; [unfold jstep in Hp; rewrite Hq in Hp; congruence|]. destruct (H1 eq_refl) as [os Ho].
      exists (os ++ [o]). rewrite Ho. unfold jrun. rewrite fold_left_app. reflexivity.
    - destruct (jpanic (djet s)) eqn:Hq; [exact Hi|]. cbn [orb]. destruct (jrunning (djet s)); [|exact Hi]. cbn [negb orb].
      destruct (dblocked s); [exact Hi|]. cbn [orb]. destruct (bool_decide (i ∈ dacked s)) eqn:Hb; [exact Hi|]. cbn [orb].
      destruct (enumerates order (jchans (djet s))) eqn:He; [|exact Hi]. cbn [negb].
      destruct (stream !! i) as [[subject m]|] eqn:Hst; [|exact Hi]. apply bool_decide_eq_false in Hb. destruct (H1 eq_refl) as [os Ho].
      destruct (j_consume order subject (djet s)) as [|l|] eqn:Hc.
      + apply (dinv_add s (djet s) false (i :: dacked s) (DDropped i (jlog (djet s))) i Hi); [|reflexivity|exact Hb|intros _; exists os; exact Ho|].
        * exists subject, m. split; [exact Hst|]. pose proof (consume_exact os order subject) as Hx. cbv zeta in Hx. rewrite <- Ho, Hc in Hx.
          exact (Hx Hq (enumerates_perm _ _ He)).
        * intros k. rewrite elem_of_cons. cbn. split; [intros [A|A]; [right; split; [exact A|exact I]|left; exact A]|intros [A|[A _]]; [right; exact A|left; exact A]].
      + destruct (process decode addctx fn handler mws (msg_ctx m) m) as [[x tr] pan] eqn:Hp.
        apply (dinv_add s _ false _ (DHandled i fn x) i Hi); [|reflexivity|exact Hb| |].
        * exists subject, m. split; [exact Hst|rewrite Hp; reflexivity].
        * destruct pan; [discriminate|]. intros _. exists os. exact Ho.
        * intros k. cbn. rewrite <- is_ack_spec. destruct (is_ack x).
          -- rewrite elem_of_cons. split; [intros [A|A]; [right; split; [exact A|reflexivity]|left; exact A]|intros [A|[A _]]; [right; exact A|left; exact A]].
          -- split; [intros A; left; exact A|intros [A|[_ [=]]]; exact A].
      + split; [intros _; exists os; exact Ho|]. split; [exact H2|split; [exact H3|exact H4]].
    - split; [intros _; exists []; reflexivity|]. split; [exact H2|split; [exact H3|exact H4]].
  Qed.

  Lemma dinv_run evs : dinv (drun evs dinit).
  Proof.
    unfold drun, Durable.drun. assert (G : forall s, dinv s -> dinv (fold_left dstep evs s)).
    { induction evs as [|ev evs IH]; intros s H; cbn; [exact H|]. apply IH, dinv_step, H. }
    apply G. split; [intros _; exists []; reflexivity|]. split; [intros r H; inversion H|]. split.
    - intros i. split; [intros H; inversion H|]. intros (r & H & _). inversion H.
    - intros i [|? ?] r post [=].
  Qed.
End Durable.
