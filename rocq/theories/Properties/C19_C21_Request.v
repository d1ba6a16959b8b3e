(** C19-C21, C56, C57: request and reply. *)
From Coq Require Import List String.
From Verif.Model Require Import Ack Middleware Request.
From Verif.Spec Require Import RequestSpec.
From Verif.Proof Require Import RequestProof.
Import ListNotations.

(** ** C19 *)

(** Whatever the request receives: if it returns a message, it is the first answer of the
    stream (right correlation ID as received, accepted by the middlewares, decodable), and all
    the messages consumed have been acknowledged once; as long as it returns nothing, there was
    no answer. *)
Theorem C19_matching_reply {C M E D} (decode : M -> D * option E) (corr : D -> string)
    sent (mws : list (middleware C M E)) c evs o told :
  wait_loop decode corr true sent mws c evs = (o, told) ->
  match o with
  | OPending => inconclusive decode corr sent mws c evs /\ acknowledged evs told
  | OReturned d => exists pre m post, evs = pre ++ WRecv m :: post /\
      inconclusive decode corr sent mws c pre /\ answers decode corr sent mws c m d /\
      acknowledged (pre ++ [WRecv m]) told
  | OPanicked => exists pre m post, evs = pre ++ WRecv m :: post /\
      inconclusive decode corr sent mws c pre /\ carries decode corr sent m /\ panics mws c m /\
      acknowledged (pre ++ [WRecv m]) told
  end.
Proof. exact (wait_loop_spec decode corr sent mws c evs o told). Qed.
Print Assumptions C19_matching_reply.

(** Conversely the first answer in the stream is returned, whatever comes before (unrelated or
    rejected replies, closed channel or end of context seen by the select) and after. *)
Theorem C19_first_answer_returned {C M E D} (decode : M -> D * option E) (corr : D -> string)
    sent (mws : list (middleware C M E)) c pre m post d :
  inconclusive decode corr sent mws c pre -> answers decode corr sent mws c m d ->
  wait_loop decode corr true sent mws c (pre ++ WRecv m :: post) =
  (OReturned d, map (fun ev => match ev with WRecv _ => [SAck] | _ => [] end) (pre ++ [WRecv m])).
Proof. exact (wait_loop_first decode corr sent mws c pre m post d). Qed.
Print Assumptions C19_first_answer_returned.

(** A small instance: messages are (correlation ID, payload), "bad" does not decode. *)
Definition xdecode (m : string * string) : (string * string) * option nat :=
  if string_dec (snd m) "bad" then (("", ""), Some 1)%string else (m, None).

Example C19_example :
  let evs := [WRecv ("7", "x"); WRecv ("9", "bad"); WRecv ("9", "y"); WRecv ("9", "z")]%string in
  wait_loop xdecode fst true "9" [logging] tt evs = (OReturned ("9", "y"), [[SAck]; [SAck]; [SAck]])%string /\
  answers xdecode fst "9" [logging (C:=unit)] tt ("9", "y")%string ("9", "y")%string.
Proof. split; [reflexivity|]. split; [reflexivity|]. eexists. split; reflexivity. Qed.

(** ** C20 *)

(** A request whose context is done, or whose subscription is closed, never returns: it keeps
    looping, whatever the number of times it observes it. *)
Theorem C20_ends_with_context_refuted :
  forall {C M E D} (decode : M -> D * option E) (corr : D -> string) sent (mws : list (middleware C M E)) c
         (evs : list (wev M)),
    Forall (fun ev => ev = WClosed \/ ev = WCtxDone) evs ->
    fst (wait_loop decode corr true sent mws c evs) = OPending.
Proof.
  exact (fun C M E D decode corr sent mws c evs H =>
    wait_loop_pending decode corr sent mws c evs (inconclusive_no_message decode corr sent mws c evs H)).
Qed.
Print Assumptions C20_ends_with_context_refuted.

(** It does return with an error when the subscription or the publication fails; in the second
    case the reply subscription is released. *)
Theorem C20_early_errors_partial {C M E D} (decode : M -> D * option E) (corr : D -> string) set_corr
    hascorr uuid bsub send (mws : list (middleware C M E)) c d evs out calls told :
  request decode corr set_corr hascorr uuid bsub send mws c d evs = (out, calls, told) ->
  (forall e, bsub = Some e -> out = QErrSubscribe e) /\
  (forall e, bsub = None -> (forall x, send x = Some e) -> out = QErrSend e /\ In QCancel calls).
Proof.
  intros H. pose proof (request_spec decode corr set_corr hascorr uuid bsub send mws c d evs out calls told H) as G.
  split.
  - intros e ->. apply G.
  - intros e -> Hs. destruct G as (d1 & _ & G). rewrite Hs in G. destruct G as (-> & -> & _).
    split; [reflexivity|]. right; right; left; reflexivity.
Qed.
Print Assumptions C20_early_errors_partial.

(** Exactly: a request is still running if and only if subscription and publication succeeded and nothing received so far is an answer or
    makes a middleware panic; the ends of the context and of the subscription do not count. *)
Theorem C20_exact {C M E D} (decode : M -> D * option E) (corr : D -> string) set_corr
    uuid bsub send (mws : list (middleware C M E)) c d evs out calls told :
  request decode corr set_corr true uuid bsub send mws c d evs = (out, calls, told) ->
  (out = QOut OPending <->
   bsub = None /\ exists d1, In (QSend d1) calls /\ send d1 = None /\
     forall m, In (WRecv m) evs -> (forall r, ~ answers decode corr (corr d1) mws c m r) /\ ~ (carries decode corr (corr d1) m /\ panics mws c m)).
Proof.
  unfold request. destruct bsub as [e|].
  - intros [= <- <- <-]. split; [discriminate|]. intros [[=] _].
  - cbv zeta. set (d1 := if string_dec (corr d) "" then _ else _). destruct (send d1) as [e|] eqn:Es.
    + intros [= <- <- <-]. split; [discriminate|]. intros (_ & d2 & [[=]|[[= <-]|[[=]|[]]]] & E2 & _). congruence.
    + destruct (wait_loop decode corr true (corr d1) mws c evs) as [o a] eqn:Ew. intros [= <- <- <-]. split.
      * intros [= ->]. split; [reflexivity|]. exists d1. split; [right; left; reflexivity|]. split; [exact Es|]. apply (wait_loop_spec _ _ _ _ _ _ _ _ Ew).
      * intros (_ & d2 & Hin & _ & Hi). assert (d2 = d1) as ->.
        { destruct Hin as [[=]|[[= <-]|Hin]]; [reflexivity|]. destruct o; cbn in Hin; [destruct Hin| |]; destruct Hin as [[=]|[]]. }
        pose proof (wait_loop_pending decode corr (corr d1) mws c evs Hi) as P. rewrite Ew in P. cbn in P. congruence.
Qed.
Print Assumptions C20_exact.

(** Leaving the ends of the context and of the subscription out of a run changes nothing, with and without correlation IDs. *)
Theorem C20_unheard {C M E D} (decode : M -> D * option E) (corr : D -> string) hascorr sent (mws : list (middleware C M E)) c evs :
  fst (wait_loop decode corr hascorr sent mws c evs) =
  fst (wait_loop decode corr hascorr sent mws c (filter (fun ev => match ev with WRecv _ => true | _ => false end) evs)).
Proof.
  induction evs as [|[m| |] evs IH]; [reflexivity| | |]; cbn [filter wait_loop].
  - destruct (wait_next decode corr hascorr sent mws c (WRecv m)) as [[d| |] a]; [reflexivity| |reflexivity].
    destruct (wait_loop decode corr hascorr sent mws c evs), (wait_loop decode corr hascorr sent mws c (filter _ evs)). exact IH.
  - rewrite <- IH. cbn. destruct (wait_loop decode corr hascorr sent mws c evs). reflexivity.
  - rewrite <- IH. cbn. destruct (wait_loop decode corr hascorr sent mws c evs). reflexivity.
Qed.
Print Assumptions C20_unheard.
Example C20_unheard_ex :
  wait_loop xdecode fst true "9" [logging (C := unit)] tt [WCtxDone; WRecv ("9", "bad"); WClosed; WRecv ("9", "y")]%string =
  (OReturned ("9", "y"), [[]; [SAck]; []; [SAck]])%string.
Proof. reflexivity. Qed.

Example C20_example :
  let r send := request xdecode fst (fun id m => (id, snd m)) true "u1" None send ([] : list (middleware unit _ nat))
                  tt ("", "q")%string [WRecv ("u1", "r")%string] in
  r (fun _ => Some 3) = (QErrSend 3, [QSubscribe; QSend ("u1", "q"); QCancel], [])%string /\
  r (fun _ => None) = (QOut (OReturned ("u1", "r")), [QSubscribe; QSend ("u1", "q"); QCancel], [[SAck]])%string.
Proof. split; reflexivity. Qed.

(** ** C21 *)

(** Sending: a correlation ID that is set is kept with the whole message; a missing one is
    replaced by a fresh non-empty one, except for a reply, which is refused. *)
Theorem C21_send_correlation {D} (corr : D -> string) set_corr isreply uuid d r :
  (forall id d, corr (set_corr id d) = id) ->
  uuid <> ""%string -> send_corr corr set_corr isreply uuid d = r ->
  match r with
  | None => corr d = ""%string /\ isreply = true
  | Some d' => corr d' <> ""%string /\
      ((corr d <> ""%string /\ d' = d) \/ (corr d = ""%string /\ isreply = false /\ d' = set_corr uuid d))
  end.
Proof. exact (fun H => send_corr_spec corr set_corr H isreply uuid d r). Qed.
Print Assumptions C21_send_correlation.

(** Replying: the reply that is sent has the correlation ID of the request (when the user's
    function does not touch it); no reply is sent to a request without one. *)
Theorem C21_reply_correlation {D} (corr : D -> string) set_corr zero newid uuid req fn :
  (forall id d, corr (set_corr id d) = id) -> (forall d, corr (fn d) = corr d) ->
  match reply_to corr set_corr zero newid uuid req fn with
  | Some d => corr req <> ""%string /\ corr d = corr req
  | None => corr req = ""%string
  end.
Proof. exact (fun H => reply_to_spec corr set_corr H zero newid uuid req fn). Qed.
Print Assumptions C21_reply_correlation.

(** Even a user function that erases the correlation ID cannot send an uncorrelated reply. *)
Theorem C21_uncorrelated_reply_refused {D} (corr : D -> string) set_corr zero newid uuid req fn d :
  reply_to corr set_corr zero newid uuid req fn = Some d -> corr d <> ""%string.
Proof. exact (reply_to_refused corr set_corr zero newid uuid req fn d). Qed.
Print Assumptions C21_uncorrelated_reply_refused.

(** End to end: over a faithful wire the reply is an answer for the requester (C19). *)
Theorem C21_end_to_end {C M E D} (decode : M -> D * option E) (corr : D -> string) set_corr (encode : D -> M)
    zero newid uuid req fn d (mws : list (middleware C M E)) c :
  (forall id d, corr (set_corr id d) = id) ->
  (forall x, decode (encode x) = (x, None)) ->
  (forall x, corr (fn x) = corr x) ->
  (forall m, exists s, execute mws None c m tt = (s, ROk None) /\ msg s = m) ->
  reply_to corr set_corr zero newid uuid req fn = Some d ->
  answers decode corr (corr req) mws c (encode d) d.
Proof. exact (fun H => reply_answers decode corr set_corr H encode zero newid uuid req fn d mws c). Qed.
Print Assumptions C21_end_to_end.

Example C21_example :
  reply_to fst (fun id (m : string * string) => (id, snd m)) ("", "")%string "n" "u" ("42", "q")%string
    (fun m => (fst m, "answer")%string) = Some ("42", "answer")%string.
Proof. reflexivity. Qed.

(** ** C56: replies consumed by a request are settled *)

(** Without correlation ID in the specification no reply is ever acknowledged, whatever is
    received. *)
Theorem C56_uncorrelated_never_settled_refuted {C M E D} (decode : M -> D * option E) (corr : D -> string)
    sent (mws : list (middleware C M E)) c evs o told :
  wait_loop decode corr false sent mws c evs = (o, told) -> Forall (fun a => a = []) told.
Proof. exact (wait_loop_nocorr_told decode corr sent mws c evs o told). Qed.
Print Assumptions C56_uncorrelated_never_settled_refuted.

(** With a correlation ID: every message consumed is acknowledged exactly once. *)
Theorem C56_correlated_settled_partial {C M E D} (decode : M -> D * option E) (corr : D -> string)
    sent (mws : list (middleware C M E)) c evs o told :
  wait_loop decode corr true sent mws c evs = (o, told) ->
  exists consumed rest, evs = consumed ++ rest /\ acknowledged consumed told /\ (o = OPending -> rest = []).
Proof.
  intros H. pose proof (wait_loop_spec decode corr sent mws c evs o told H) as G. destruct o as [|d|].
  - destruct G as [_ G]. exists evs, []. rewrite app_nil_r. auto.
  - destruct G as (pre & m & post & -> & _ & _ & G). exists (pre ++ [WRecv m]), post.
    rewrite <- app_assoc. split; [reflexivity|]. split; [exact G|discriminate].
  - destruct G as (pre & m & post & -> & _ & _ & _ & G). exists (pre ++ [WRecv m]), post.
    rewrite <- app_assoc. split; [reflexivity|]. split; [exact G|discriminate].
Qed.
Print Assumptions C56_correlated_settled_partial.

Example C56_example :
  wait_loop xdecode fst false "" ([] : list (middleware unit _ nat)) tt [WRecv ("", "y")%string]
  = (OReturned ("", "y")%string, [[]]).
Proof. reflexivity. Qed.

(** ** C57: a request subscribes before it sends, and releases on return *)
Theorem C57_subscribe_send_release {C M E D} (decode : M -> D * option E) (corr : D -> string) set_corr
    hascorr uuid send (mws : list (middleware C M E)) c d evs out calls told :
  request decode corr set_corr hascorr uuid None send mws c d evs = (out, calls, told) ->
  exists d1, calls = [QSubscribe; QSend d1] ++ match out with QOut OPending => [] | _ => [QCancel] end.
Proof.
  intros H. pose proof (request_spec decode corr set_corr hascorr uuid None send mws c d evs out calls told H) as G.
  cbn in G. destruct G as (d1 & _ & G). exists d1. destruct (send d1) as [e|].
  - destruct G as (-> & -> & _). reflexivity.
  - destruct G as (o & -> & _ & ->). destruct o; reflexivity.
Qed.
Print Assumptions C57_subscribe_send_release.
