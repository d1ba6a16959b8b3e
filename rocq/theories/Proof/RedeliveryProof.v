(** Proofs about restarts of Kafka subscribers. *)
From Coq Require Import List Arith Lia.
From Verif.Model Require Import Ack Middleware Listener Kafka Redelivery.
From Verif.Spec Require Import MiddlewareSpec ListenerSpec.
From Verif.Proof Require Import ListenerProof.
Import ListNotations.

Section Proof.
  Context {C M E D : Type}.
  Variables (decode : M -> D + E) (addctx : D -> C -> C) (fn : C -> D -> result E) (handler : E -> list settle * bool).
  Variables (uninit : M -> bool) (zero : M) (msg_ctx : M -> C) (mws : list (middleware C M E)).
  Variable topic : list M.
  Hypothesis zero_uninit : uninit zero = true.
  Let one m := process decode addctx fn handler mws (msg_ctx m) m.
  Let session := session decode addctx fn handler uninit zero msg_ctx mws topic.
  Let sessions := sessions decode addctx fn handler uninit zero msg_ctx mws topic.

  Lemma told_commits_told (x : lst C E D) : told_commits x = length (filter is_told (llog x)).
  Proof. unfold told_commits. f_equal. apply filter_ext. intros [| |[|]]; reflexivity. Qed.

  Lemma last_commit off l o : fold_left (fun _ i => S i) (l ++ [o]) off = S o.
  Proof. rewrite fold_left_app. reflexivity. Qed.

  Lemma one_once m : told_commits (fst (fst (one m))) <= 1.
  Proof. rewrite told_commits_told. apply process_at_most_once. Qed.

  Hypothesis Hm : forall mw, In mw mws -> forall c, passes_on false (mw c).

  Lemma one_settled m r : one m = (r, false) -> told_commits (fst r) = 1.
  Proof.
    rewrite told_commits_told. destruct r as [x tr]. intros H. exact (process_passes decode addctx fn handler mws (msg_ctx m) m x tr Hm H).
  Qed.

  (** The stored offset lies behind the settled messages, which come first. *)
  Lemma commits_handled q rs rest (H : handled one q rs rest) : forall off,
    exists s, fold_left (fun _ i => S i) (commits off (map fst rs)) off = off + s /\ s <= length rs /\
      forall j x, nth_error (map fst rs) j = Some x -> (j < s <-> told_commits x = 1) /\ (told_commits x = 0 \/ told_commits x = 1).
  Proof.
    induction H as [|m q r rs rest H1 H IH|m q r H1]; intros off.
    - exists 0. cbn. rewrite Nat.add_0_r. split; [reflexivity|]. split; [lia|]. intros [|j] x Hj; discriminate.
    - pose proof (one_settled m r H1) as H2. destruct (IH (S off)) as (s & Hs & Hl & Ha). exists (S s). cbn [map commits]. rewrite H2. cbn [repeat].
      split; [|split; [cbn; lia|]].
      + cbn [app fold_left]. rewrite Hs. lia.
      + intros [|j] x Hj; cbn in Hj; [injection Hj as <-; split; [split; [intros _; exact H2|lia]|right; exact H2]|].
        destruct (Ha j x Hj) as [[A1 A2] A3]. split; [split; [intros; apply A1; lia|intros A; apply A2 in A; lia]|exact A3].
    - pose proof (one_once m) as H2. rewrite H1 in H2. cbn in H2.
      destruct (told_commits (fst r)) as [|[|t]] eqn:Ht; [| |lia].
      + exists 0. cbn. rewrite Ht. cbn. rewrite Nat.add_0_r. split; [reflexivity|]. split; [lia|].
        intros [|[|j]] x Hj; cbn in Hj; [injection Hj as <-; rewrite Ht; split; [split; [lia|discriminate]|left; reflexivity]|discriminate|discriminate].
      + exists 1. cbn. rewrite Ht. cbn. split; [lia|]. split; [lia|].
        intros [|[|j]] x Hj; cbn in Hj; [injection Hj as <-; rewrite Ht; split; [split; [reflexivity|lia]|right; reflexivity]|discriminate|discriminate].
  Qed.

  Lemma nth_combine {A} (l : list A) : forall start j x, In (j, x) (combine (seq start (length l)) l) <-> exists i, j = start + i /\ nth_error l i = Some x.
  Proof.
    induction l as [|a l IH]; intros start j x; cbn.
    - split; [intros []|intros ([|i] & _ & H); discriminate].
    - rewrite IH. split.
      + intros [[= <- <-]|(i & -> & Hi)]; [exists 0; split; [lia|reflexivity]|exists (S i); split; [lia|exact Hi]].
      + intros ([|i] & -> & Hi); cbn in Hi; [left; injection Hi as <-; f_equal; lia|right; exists i; split; [lia|exact Hi]].
  Qed.

  Lemma session_manual off n k h off' : session KManual off (n, k) = (h, off') ->
    map fst h = seq off (length h) /\ off <= off' <= off + length h /\
    forall j x, In (j, x) h ->
      (j < off' <-> length (filter is_told (llog x)) = 1) /\ (length (filter is_told (llog x)) = 0 \/ length (filter is_told (llog x)) = 1).
  Proof.
    intros H. unfold session, Redelivery.session in H. cbn [fst snd] in H.
    destruct (listen_all decode addctx fn handler uninit zero msg_ctx mws (firstn k (firstn n (skipn off topic))) false) as [rs e] eqn:Hl. cbn [fst] in H.
    destruct (listen_all_handled decode addctx fn handler uninit zero msg_ctx zero_uninit mws _ false rs e Hl) as (rest & Hh & _).
    destruct (commits_handled _ rs rest Hh off) as (s & Hs & Hle & Ha). injection H as <- <-. rewrite Hs.
    assert (Hlen : length (combine (seq off (length (map fst rs))) (map fst rs)) = length rs).
    { rewrite combine_length, seq_length, map_length. lia. }
    split; [|split].
    - rewrite Hlen. clear. rewrite map_length. remember (map fst rs) as l eqn:Hml. assert (length l = length rs) as <- by (subst; apply map_length). clear.
      revert off. induction l as [|a l IH]; intros off; cbn; [reflexivity|]. f_equal. apply IH.
    - rewrite Hlen. lia.
    - intros j x Hj. apply nth_combine in Hj as (i & -> & Hi). rewrite <- told_commits_told. destruct (Ha i x Hi) as [[A1 A2] A3].
      split; [|exact A3]. split; [intros; apply A1; lia|intros A; apply A2 in A; lia].
  Qed.

  Lemma sessions_manual nks : forall off hs off', sessions KManual off nks = (hs, off') ->
    off <= off' /\ forall j, off <= j < off' -> exists h x, In h hs /\ In (j, x) h /\ length (filter is_told (llog x)) = 1.
  Proof.
    induction nks as [|[n k] nks IH]; intros off hs off' H; unfold sessions in H; cbn [Redelivery.sessions] in H.
    - injection H as <- <-. split; [lia|]. intros j Hj. lia.
    - fold session in H. fold sessions in H. destruct (session KManual off (n, k)) as [h off1] eqn:Hs. destruct (sessions KManual off1 nks) as [hs' off2] eqn:Hss.
      injection H as <- <-. destruct (session_manual off n k h off1 Hs) as (Hf & Hr & Ha). destruct (IH off1 hs' off2 Hss) as [Hle Hj].
      split; [lia|]. intros j Hjj. destruct (le_lt_dec off1 j) as [Hge|Hlt].
      + destruct (Hj j ltac:(lia)) as (h' & x & A & B & B'). exists h', x. split; [right; exact A|]. split; [exact B|exact B'].
      + assert (Hin : In j (map fst h)) by (rewrite Hf; apply in_seq; lia).
        apply in_map_iff in Hin as ([j' x] & Hjx & Hin). cbn in Hjx. subst j'. exists h, x. split; [left; reflexivity|]. split; [exact Hin|].
        apply (Ha j x Hin). exact Hlt.
  Qed.

  (** A message that ends the program before it is settled is never passed. *)
  Lemma handled_stop q rs rest (H : handled one q rs rest) : forall i m, nth_error q i = Some m -> snd (one m) = true ->
    length rs <= S i.
  Proof.
    induction H as [|m' q r rs rest H1 H IH|m' q r H1]; intros i m Hi Hp.
    - cbn. lia.
    - destruct i as [|i]; cbn in Hi; [injection Hi as ->; rewrite H1 in Hp; discriminate|]. cbn. specialize (IH i m Hi Hp). lia.
    - cbn. lia.
  Qed.
  Lemma handled_nth q rs rest (H : handled one q rs rest) : forall i r, nth_error rs i = Some r -> exists m, nth_error q i = Some m /\ fst (one m) = r.
  Proof.
    induction H as [|m' q r' rs rest H1 H IH|m' q r' H1]; intros i r Hi.
    - destruct i; discriminate.
    - destruct i as [|i]; cbn in Hi; [injection Hi as <-; exists m'; split; [reflexivity|rewrite H1; reflexivity]|apply (IH i r Hi)].
    - destruct i as [|[|i]]; cbn in Hi; [injection Hi as <-; exists m'; split; [reflexivity|rewrite H1; reflexivity]|discriminate|discriminate].
  Qed.

  Lemma nth_firstn_skipn {A} (l : list A) n k off i x :
    nth_error (firstn k (firstn n (skipn off l))) i = Some x -> nth_error l (off + i) = Some x.
  Proof.
    rewrite firstn_firstn. generalize (Nat.min k n). intros m H.
    assert (H' : nth_error (skipn off l) i = Some x).
    { revert H. generalize (skipn off l). clear. intros l. revert m i. induction l as [|a l IH]; intros [|m] [|i] H; cbn in *; try discriminate; eauto. }
    revert H'. clear. revert l. induction off as [|off IH]; intros [|a l] H; cbn in *; try discriminate; eauto. destruct i; discriminate.
  Qed.

  Lemma session_poison off n k h off' p m : nth_error topic p = Some m -> snd (one m) = true -> told_commits (fst (fst (one m))) = 0 ->
    off <= p -> session KManual off (n, k) = (h, off') -> off' <= p.
  Proof.
    intros Hp Hpan Hno Hoff H. pose proof (session_manual off n k h off' H) as (Hf & Hr & Ha).
    destruct (le_lt_dec off' p) as [Hd|Hd]; [exact Hd|]. exfalso.
    assert (Hin : In p (map fst h)) by (rewrite Hf; apply in_seq; lia).
    apply in_map_iff in Hin as ([j x] & Hjx & Hin). cbn in Hjx. subst j. apply (Ha p x Hin) in Hd. rewrite <- told_commits_told in Hd.
    unfold session, Redelivery.session in H. cbn [fst snd] in H.
    destruct (listen_all decode addctx fn handler uninit zero msg_ctx mws (firstn k (firstn n (skipn off topic))) false) as [rs e] eqn:Hl. cbn [fst] in H.
    destruct (listen_all_handled decode addctx fn handler uninit zero msg_ctx zero_uninit mws _ false rs e Hl) as (rest & Hh & _).
    injection H as <- _. apply nth_combine in Hin as (i & -> & Hi). rewrite nth_error_map in Hi. destruct (nth_error rs i) as [r|] eqn:Hri; [|discriminate].
    cbn in Hi. injection Hi as <-. destruct (handled_nth _ _ _ Hh i r Hri) as (m' & Hm' & Hr'). apply nth_firstn_skipn in Hm'. rewrite Hp in Hm'.
    injection Hm' as <-. rewrite Hr' in Hno. congruence.
  Qed.

  Lemma sessions_poison nks p m : nth_error topic p = Some m -> snd (one m) = true -> told_commits (fst (fst (one m))) = 0 ->
    forall off hs off', off <= p -> sessions KManual off nks = (hs, off') -> off' <= p.
  Proof.
    intros Hp Hpan Hno. induction nks as [|[n k] nks IH]; intros off hs off' Hoff H; unfold sessions in H; cbn [Redelivery.sessions] in H; [injection H as <- <-; exact Hoff|].
    fold session in H. fold sessions in H. destruct (session KManual off (n, k)) as [h off1] eqn:Hs. destruct (sessions KManual off1 nks) as [hs' off2] eqn:Hss.
    injection H as <- <-. apply (IH off1 hs' off2); [|exact Hss]. exact (session_poison off n k h off1 p m Hp Hpan Hno Hoff Hs).
  Qed.
  Lemma handled_length {R} (f : M -> R * bool) q rs rest : handled f q rs rest -> length rs <= length q.
  Proof. induction 1; cbn; lia. Qed.
  Lemma fold_seq n : forall off, fold_left (fun _ i => S i) (seq off n) off = off + n.
  Proof. destruct n as [|n]; intros off; [cbn; lia|]. rewrite seq_S, last_commit. lia. Qed.
  Lemma combine_fst {A} (l : list A) : forall off, map fst (combine (seq off (length l)) l) = seq off (length l).
  Proof. induction l as [|a l IH]; intros off; cbn; [reflexivity|]. f_equal. apply IH. Qed.

  (** With automatic commits a message is handled at most once. *)
  Lemma session_auto off n k h off' : session KAuto off (n, k) = (h, off') ->
    map fst h = seq off (length h) /\ off + length h <= off' /\ off' = off + Nat.min n (length topic - off).
  Proof.
    intros H. unfold session, Redelivery.session in H. cbn [fst snd] in H.
    destruct (listen_all decode addctx fn handler uninit zero msg_ctx mws (firstn k (firstn n (skipn off topic))) false) as [rs e] eqn:Hl. cbn [fst] in H.
    destruct (listen_all_handled decode addctx fn handler uninit zero msg_ctx zero_uninit mws _ false rs e Hl) as (rest & Hh & _).
    pose proof (handled_length _ _ _ _ Hh) as Hlen. rewrite fold_seq in H. injection H as <- <-. rewrite combine_fst, combine_length, seq_length, map_length.
    rewrite Nat.min_id. split; [reflexivity|]. pose proof (firstn_le_length k (firstn n (skipn off topic))) as H1.
    rewrite firstn_length in Hlen. split; [lia|]. rewrite firstn_length, skipn_length. reflexivity.
  Qed.

  Lemma sessions_auto nks : forall off hs off', sessions KAuto off nks = (hs, off') ->
    off <= off' /\ NoDup (map fst (concat hs)) /\ forall j x, In (j, x) (concat hs) -> off <= j < off'.
  Proof.
    induction nks as [|[n k] nks IH]; intros off hs off' H; unfold sessions in H; cbn [Redelivery.sessions] in H.
    - injection H as <- <-. split; [lia|]. split; [constructor|]. intros j x [].
    - fold session in H. fold sessions in H. destruct (session KAuto off (n, k)) as [h off1] eqn:Hs. destruct (sessions KAuto off1 nks) as [hs' off2] eqn:Hss.
      injection H as <- <-. destruct (session_auto off n k h off1 Hs) as (Hf & Hr & _). destruct (IH off1 hs' off2 Hss) as (Hle & Hn & Hj).
      assert (Hh : forall j, In j (map fst h) -> off <= j < off1) by (intros j Hin; rewrite Hf in Hin; apply in_seq in Hin; lia).
      split; [lia|]. split.
      + cbn [concat]. rewrite map_app. revert Hh. assert (Hnd : NoDup (map fst h)) by (rewrite Hf; apply seq_NoDup). revert Hnd.
        generalize (map fst h). intros l. induction l as [|a l IHl]; intros Hnd Hh; cbn; [exact Hn|]. inversion Hnd as [|? ? Ha Hl]. subst. constructor.
        * rewrite in_app_iff. intros [A|A]; [exact (Ha A)|]. apply in_map_iff in A as ([j x] & E1 & A). cbn in E1. subst j.
          apply Hj in A. specialize (Hh a (or_introl eq_refl)). lia.
        * apply IHl; [exact Hl|]. intros j Hin. apply Hh. right. exact Hin.
      + cbn [concat]. intros j x Hin. apply in_app_iff in Hin as [A|A]; [|apply Hj in A; lia].
        assert (B : In j (map fst h)) by (apply in_map_iff; exists (j, x); split; [reflexivity|exact A]). apply Hh in B. lia.
  Qed.
End Proof.
