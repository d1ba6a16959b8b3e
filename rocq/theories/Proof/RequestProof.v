From Coq Require Import List String.
From Verif.Model Require Import Ack Middleware Request.
From Verif.Spec Require Import RequestSpec.
Import ListNotations.

Section P.
  Context {C M E D : Type}.
  Variable decode : M -> D * option E.
  Variable corr : D -> string.
  Implicit Types mws : list (middleware C M E).

  (** Exhaustive description of one iteration with correlation ID. *)
  Lemma wait_next_corr sent mws c ev r a :
    wait_next decode corr true sent mws c ev = (r, a) ->
    a = match ev with WRecv _ => [SAck] | _ => [] end /\
    match r with
    | WSome d => exists m, ev = WRecv m /\ answers decode corr sent mws c m d
    | WPanic => exists m, ev = WRecv m /\ carries decode corr sent m /\ panics mws c m
    | WNone => forall m, ev = WRecv m ->
        (forall d, ~ answers decode corr sent mws c m d) /\ ~ (carries decode corr sent m /\ panics mws c m)
    end.
  Proof.
    destruct ev as [m| |]; cbn; intros H.
    2,3: injection H as <- <-; split; [reflexivity|intros m Hm; discriminate].
    destruct (string_dec sent (corr (fst (decode m)))) as [Heq|Hne].
    - destruct (execute mws None c m tt) as [s [[e|]|]] eqn:Ex.
      + injection H as <- <-. split; [reflexivity|]. intros m' Hm. injection Hm as <-. split.
        * intros d (_ & s' & Hs & _). congruence.
        * intros (_ & s' & Hs). congruence.
      + destruct (decode (msg s)) as [d [e|]] eqn:Ed; injection H as <- <-; (split; [reflexivity|]).
        * intros m' Hm. injection Hm as <-. split.
          -- intros d' (_ & s' & Hs & Hd). assert (s' = s) by congruence. subst. congruence.
          -- intros (_ & s' & Hs). congruence.
        * exists m. split; [reflexivity|]. split; [unfold carries; congruence|]. exists s; auto.
      + injection H as <- <-. split; [reflexivity|]. exists m. split; [reflexivity|].
        split; [unfold carries; congruence|]. exists s; auto.
    - injection H as <- <-. split; [reflexivity|]. intros m' Hm. injection Hm as <-. split.
      + intros d (Hc & _). unfold carries in Hc. congruence.
      + intros (Hc & _). unfold carries in Hc. congruence.
  Qed.

  Lemma wait_loop_spec sent mws c evs : forall o told,
    wait_loop decode corr true sent mws c evs = (o, told) ->
    match o with
    | OPending => inconclusive decode corr sent mws c evs /\ acknowledged evs told
    | OReturned d => exists pre m post, evs = pre ++ WRecv m :: post /\
        inconclusive decode corr sent mws c pre /\ answers decode corr sent mws c m d /\
        acknowledged (pre ++ [WRecv m]) told
    | OPanicked => exists pre m post, evs = pre ++ WRecv m :: post /\
        inconclusive decode corr sent mws c pre /\ carries decode corr sent m /\ panics mws c m /\
        acknowledged (pre ++ [WRecv m]) told
    end.
  Proof.
    induction evs as [|ev rest IH]; intros o told H; cbn in H.
    - injection H as <- <-. split; [intros m []|reflexivity].
    - destruct (wait_next decode corr true sent mws c ev) as [r a] eqn:Hn.
      pose proof (wait_next_corr _ _ _ _ _ _ Hn) as [Ha Hr]. destruct r as [d| |].
      + injection H as <- <-. destruct Hr as (m & -> & Hans). subst a.
        exists [], m, rest. repeat split; try apply Hans; auto; destruct H.
      + destruct (wait_loop decode corr true sent mws c rest) as [o' told'] eqn:Hl.
        injection H as <- <-. specialize (IH o' told' eq_refl).
        assert (forall pre, inconclusive decode corr sent mws c pre ->
                  inconclusive decode corr sent mws c (ev :: pre)) as Hcons.
        { intros pre Hp m [->|Hin]; [apply Hr; reflexivity|apply Hp, Hin]. }
        destruct o' as [|d|].
        * destruct IH as [Hi Hk]. split; [apply Hcons, Hi|].
          unfold acknowledged in *. cbn. rewrite Hk, Ha. reflexivity.
        * destruct IH as (pre & m & post & -> & Hi & Hans & Hk).
          exists (ev :: pre), m, post. split; [reflexivity|]. split; [apply Hcons, Hi|].
          split; [exact Hans|]. unfold acknowledged in *. cbn. rewrite Hk, Ha. reflexivity.
        * destruct IH as (pre & m & post & -> & Hi & Hca & Hpa & Hk).
          exists (ev :: pre), m, post. split; [reflexivity|]. split; [apply Hcons, Hi|].
          split; [exact Hca|]. split; [exact Hpa|]. unfold acknowledged in *. cbn. rewrite Hk, Ha. reflexivity.
      + injection H as <- <-. destruct Hr as (m & -> & Hca & Hpa). subst a.
        exists [], m, rest. split; [reflexivity|]. split; [intros m' []|]. split; [exact Hca|].
        split; [exact Hpa|reflexivity].
  Qed.

  Lemma answers_fun sent mws c m d d' :
    answers decode corr sent mws c m d -> answers decode corr sent mws c m d' -> d = d'.
  Proof.
    intros (_ & s & H1 & H2) (_ & s' & H1' & H2'). assert (s' = s) by congruence. subst. congruence.
  Qed.

  (** The first answer is returned, whatever follows. *)
  Lemma wait_loop_first sent mws c pre m post d :
    inconclusive decode corr sent mws c pre -> answers decode corr sent mws c m d ->
    wait_loop decode corr true sent mws c (pre ++ WRecv m :: post) =
    (OReturned d, map (fun ev => match ev with WRecv _ => [SAck] | _ => [] end) (pre ++ [WRecv m])).
  Proof.
    intros Hi Ha. induction pre as [|ev pre IH]; cbn [app wait_loop].
    - destruct (wait_next decode corr true sent mws c (WRecv m)) as [r a] eqn:Hn.
      pose proof (wait_next_corr _ _ _ _ _ _ Hn) as [-> Hr]. destruct r as [d'| |].
      + destruct Hr as (m' & Hm & Ha'). injection Hm as <-.
        rewrite (answers_fun _ _ _ _ _ _ Ha Ha'). reflexivity.
      + destruct (Hr m eq_refl) as [Hno _]. destruct (Hno d Ha).
      + destruct Hr as (m' & Hm & _ & s & Hp). injection Hm as <-.
        destruct Ha as (_ & s' & Hs & _). congruence.
    - destruct (wait_next decode corr true sent mws c ev) as [r a] eqn:Hn.
      pose proof (wait_next_corr _ _ _ _ _ _ Hn) as [-> Hr]. destruct r as [d'| |].
      + destruct Hr as (m' & -> & Ha'). destruct (Hi m' (or_introl eq_refl)) as [Hno _]. destruct (Hno d' Ha').
      + rewrite IH by (intros m' Hm'; apply Hi; right; exact Hm'). reflexivity.
      + destruct Hr as (m' & -> & Hc & Hp). destruct (Hi m' (or_introl eq_refl)) as [_ Hno]. tauto.
  Qed.

  (** Without conclusive reply the request is still running, whatever else happens. *)
  Lemma wait_loop_pending sent mws c evs :
    inconclusive decode corr sent mws c evs ->
    fst (wait_loop decode corr true sent mws c evs) = OPending.
  Proof.
    intros Hi. destruct (wait_loop decode corr true sent mws c evs) as [o told] eqn:H.
    pose proof (wait_loop_spec _ _ _ _ _ _ H) as Hs. destruct o as [|d|]; [reflexivity| |].
    - destruct Hs as (pre & m & post & -> & _ & Ha & _).
      destruct (Hi m) as [Hno _]; [apply in_or_app; right; left; reflexivity|]. destruct (Hno d Ha).
    - destruct Hs as (pre & m & post & -> & _ & Hc & Hp & _).
      destruct (Hi m) as [_ Hno]; [apply in_or_app; right; left; reflexivity|]. tauto.
  Qed.

  Lemma inconclusive_no_message sent mws c (evs : list (wev M)) :
    Forall (fun ev => ev = WClosed \/ ev = WCtxDone) evs -> inconclusive decode corr sent mws c evs.
  Proof.
    intros HF m Hm. rewrite Forall_forall in HF. destruct (HF _ Hm); discriminate.
  Qed.

  (** Without correlation ID nothing is ever told to the broker. *)
  Lemma wait_loop_nocorr_told sent mws c evs o told :
    wait_loop decode corr false sent mws c evs = (o, told) -> Forall (fun a => a = []) told.
  Proof.
    revert o told; induction evs as [|ev rest IH]; intros o told H; cbn in H.
    - injection H as <- <-. constructor.
    - assert (forall r a, wait_next decode corr false sent mws c ev = (r, a) -> a = []) as Hn.
      { intros r a Ha. destruct ev as [m| |]; cbn in Ha; try congruence.
        destruct (execute mws None c m tt) as [s [[e|]|]]; try congruence.
        destruct (decode (msg s)) as [d [e|]]; congruence. }
      destruct (wait_next decode corr false sent mws c ev) as [r a]. specialize (Hn r a eq_refl). subst a.
      destruct r as [d| |].
      + injection H as <- <-. repeat constructor.
      + destruct (wait_loop decode corr false sent mws c rest) as [o' told'].
        injection H as <- <-. constructor; [reflexivity|]. eapply IH; reflexivity.
      + injection H as <- <-. repeat constructor.
  Qed.

  Lemma wait_loop_told_length hc sent mws c evs o told :
    wait_loop decode corr hc sent mws c evs = (o, told) ->
    (o = OPending -> List.length told = List.length evs).
  Proof.
    revert o told; induction evs as [|ev rest IH]; intros o told H Ho; cbn in H.
    - injection H as <- <-. reflexivity.
    - destruct (wait_next decode corr hc sent mws c ev) as [[d| |] a]; try congruence.
      destruct (wait_loop decode corr hc sent mws c rest) as [o' told'] eqn:El.
      injection H as <- <-. cbn. f_equal. apply (IH o' told'); auto.
  Qed.

  (** ** Correlation IDs on the sending side *)
  Variable set_corr : string -> D -> D.
  Hypothesis corr_set : forall id d, corr (set_corr id d) = id.

  Lemma send_corr_spec isreply uuid d r :
    uuid <> ""%string -> send_corr corr set_corr isreply uuid d = r ->
    match r with
    | None => corr d = ""%string /\ isreply = true
    | Some d' => corr d' <> ""%string /\
        ((corr d <> ""%string /\ d' = d) \/ (corr d = ""%string /\ isreply = false /\ d' = set_corr uuid d))
    end.
  Proof.
    intros Hu <-. unfold send_corr. destruct (string_dec (corr d) "") as [Ec|Ec].
    - destruct isreply; [auto|]. split; [rewrite corr_set; exact Hu|]. right; auto.
    - split; [exact Ec|]. left; auto.
  Qed.

  Lemma reply_to_spec zero newid uuid req fn :
    (forall d, corr (fn d) = corr d) ->
    match reply_to corr set_corr zero newid uuid req fn with
    | Some d => corr req <> ""%string /\ corr d = corr req
    | None => corr req = ""%string
    end.
  Proof.
    intros Hfn. unfold reply_to, send_corr. rewrite Hfn, corr_set.
    destruct (string_dec (corr req) "") as [Ec|Ec]; [exact Ec|].
    split; [exact Ec|]. rewrite Hfn, corr_set. reflexivity.
  Qed.

  (** Whatever the user's function does, a reply without correlation ID is not sent. *)
  Lemma reply_to_refused zero newid uuid req fn d :
    reply_to corr set_corr zero newid uuid req fn = Some d -> corr d <> ""%string.
  Proof.
    unfold reply_to, send_corr. destruct (string_dec _ _); [discriminate|]. intros H.
    injection H as <-. assumption.
  Qed.

  (** ** The whole request *)
  Lemma request_spec hascorr uuid bsub send mws c d evs out calls told :
    request decode corr set_corr hascorr uuid bsub send mws c d evs = (out, calls, told) ->
    match bsub with
    | Some e => out = QErrSubscribe e /\ calls = [QSubscribe] /\ told = []
    | None => exists d1,
        d1 = (if hascorr then match send_corr corr set_corr false uuid d with Some x => x | None => d end else d) /\
        match send d1 with
        | Some e => out = QErrSend e /\ calls = [QSubscribe; QSend d1; QCancel] /\ told = []
        | None => exists o, out = QOut o /\ wait_loop decode corr hascorr (corr d1) mws c evs = (o, told) /\
            calls = [QSubscribe; QSend d1] ++ match o with OPending => [] | _ => [QCancel] end
        end
    end.
  Proof.
    unfold request. destruct bsub as [e|]; intros H; [injection H as <- <- <-; auto|].
    set (d1 := if hascorr then if string_dec (corr d) "" then set_corr uuid d else d else d) in *.
    exists d1. split.
    { unfold d1, send_corr. destruct hascorr; [|reflexivity]. destruct (string_dec (corr d) ""); reflexivity. }
    destruct (send d1) as [e|]; [injection H as <- <- <-; auto|].
    destruct (wait_loop decode corr hascorr (corr d1) mws c evs) as [o acks] eqn:Hl.
    injection H as <- <- <-. exists o. auto.
  Qed.

  (** From reply to requester: if messages survive the wire, the reply to a request is accepted
      by the requester (whose middlewares let messages pass). *)
  Lemma reply_answers (encode : D -> M) zero newid uuid req fn d mws c :
    (forall x, decode (encode x) = (x, None)) ->
    (forall x, corr (fn x) = corr x) ->
    (forall m, exists s, execute mws None c m tt = (s, ROk None) /\ msg s = m) ->
    reply_to corr set_corr zero newid uuid req fn = Some d ->
    answers decode corr (corr req) mws c (encode d) d.
  Proof.
    intros Hrt Hfn Hmw Hr. pose proof (reply_to_spec zero newid uuid req fn Hfn) as G. rewrite Hr in G.
    destruct G as [_ G]. split.
    - unfold carries. rewrite Hrt. exact G.
    - destruct (Hmw (encode d)) as (s & Hs & Hm). exists s. split; [exact Hs|]. rewrite Hm. apply Hrt.
  Qed.
End P.
