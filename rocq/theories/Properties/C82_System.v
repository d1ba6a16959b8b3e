(** C82: when everybody subscribed gets each reply, requests made at once each return with the answer to themselves.
    C83: the same when the broker gives each reply to one member of a group. *)
From stdpp Require Import list sets strings.
From Coq Require Import String Lia.
From Verif.Model Require Import Ack Middleware Request System.
From Verif.Spec Require Import SystemSpec.
From Verif.Proof Require Import SystemProof.

Section claims.
  Context {C M E D : Type}.
  Variable decode : M -> D * option E.
  Variable encode : D -> M.
  Variable corr : D -> string.
  Variable set_corr : string -> D -> D.
  Variable mws : list (middleware C M E).
  Variable ctx : C.
  Variable zero : D.
  Variable answer : D -> D -> D.
  Variable n : nat.

  (** What becomes of a message on its way, which messages can be sent as requests and as answers, and which identifiers they can have. *)
  Variable arrived : D -> D.
  Variables good ready : D -> Prop.
  Variable fine : string -> Prop.

  (** What is assumed of the generated code around, the function of the responder and the middlewares: messages that can be sent survive the wire, with
      their identifier, the identifier set is the one read, the function keeps it and gives a message that can be sent, the middlewares let messages pass
      unchanged. C110 proves the part about the generated code. *)
  Definition assumed : Prop :=
    (forall d, good d \/ ready d -> decode (encode d) = (arrived d, None) /\ corr (arrived d) = corr d) /\
    (forall id d, fine id -> good d -> good (set_corr id d) /\ corr (set_corr id d) = id) /\
    (forall newid d, good d -> corr d <> ""%string ->
       let r := answer (arrived d) (set_corr (corr d) (set_corr newid zero)) in ready r /\ corr r = corr d) /\
    (forall m, exists s, execute mws None ctx m tt = (s, ROk None) /\ msg s = m).

  Definition stepping := sstep decode encode corr set_corr mws ctx zero answer.
  Definition running := srun decode encode corr set_corr mws ctx zero answer.

  (** Whatever the order of things and the sharing of the replies: a request that returns does so with the answer to the message it sent, which is
      the one it was given, identified; and none panics. *)
  Theorem C82_own_reply mode os :
    assumed -> distinct corr os -> fit good fine os ->
    (forall i, requester (running mode n os start) i <> RPanicked) /\
    (forall i sent d, requester (running mode n os start) i = RDone sent d ->
       answer_to corr set_corr zero answer arrived sent d /\
       exists d0 uuid, In (SSubscribe i d0) os /\ In (SSend i uuid) os /\ identified corr set_corr uuid d0 sent).
  Proof.
    intros (H0 & H2 & H3 & H4) Hd0 Hf. pose proof (conj Hd0 Hf) as Hd.
    pose proof (fun d H => proj1 (H0 d H)) as H1. pose proof (fun d H => proj2 (H0 d H)) as H5. pose proof (inv_run decode encode corr set_corr mws ctx zero answer mode n arrived good ready fine H1 H5 H2 H3 H4 os Hd) as Hi.
    split; [apply (i_panic _ _ _ _ _ _ _ _ _ _ Hi)|]. intros i sent d Hr. split; [eapply (i_done _ _ _ _ _ _ _ _ _ _ Hi); eauto|].
    apply (i_asked _ _ _ _ _ _ _ _ _ _ Hi). right. eauto.
  Qed.

  (** Nobody is forgotten: after any schedule, whatever the responder, the broker and the requests then do, one thing at a time, they have no more
      to do after a bounded number of steps, and when they have not, each request that was waiting has returned with its answer. *)
  Theorem C82_everyone os :
    assumed -> distinct corr os -> fit good fine os ->
    let s := running Everyone n os start in
    (exists k, forall os', busy (stepping Everyone n) Everyone s os' -> List.length os' <= k) /\
    (exists os', busy (stepping Everyone n) Everyone s os' /\ idle Everyone (running Everyone n os' s)) /\
    (forall os', busy (stepping Everyone n) Everyone s os' -> idle Everyone (running Everyone n os' s) ->
       forall i d, requester s i = RWaiting d ->
       exists r, requester (running Everyone n os' s) i = RDone d r /\ answer_to corr set_corr zero answer arrived d r).
  Proof.
    intros (H0 & H2 & H3 & H4) Hd0 Hf s. pose proof (conj Hd0 Hf) as Hd.
    pose proof (fun d H => proj1 (H0 d H)) as H1. pose proof (fun d H => proj2 (H0 d H)) as H5.
    pose proof (inv_run decode encode corr set_corr mws ctx zero answer Everyone n arrived good ready fine H1 H5 H2 H3 H4 os Hd) as Hi.
    split; [|split].
    - exists (work n s). intros os' Hb.
      destruct (busy_inv decode encode corr set_corr mws ctx zero answer Everyone n arrived good ready fine H1 H5 H2 H3 H4 os' os s Hi Hd Hb) as [_ H]. lia.
    - eapply (can_finish decode encode corr set_corr mws ctx zero answer Everyone n arrived good ready fine H1 H5 H2 H3 H4 (work n s) os s Hi Hd). lia.
    - apply (finishes decode encode corr set_corr mws ctx zero answer Everyone n arrived good ready fine H1 H5 H2 H3 H4 os Hd). discriminate.
  Qed.

  (** Full statement of C83: C82_everyone with [OneOfGroup]. False: C83_group_refuted. Proved here when at most one request is subscribed to the
      replies at any time of the schedule. *)
  Theorem C83_group_partial os :
    assumed -> distinct corr os -> fit good fine os ->
    (forall os1 os2, os = os1 ++ os2 -> alone (running OneOfGroup n os1 start)) ->
    let s := running OneOfGroup n os start in
    (exists k, forall os', busy (stepping OneOfGroup n) OneOfGroup s os' -> List.length os' <= k) /\
    (exists os', busy (stepping OneOfGroup n) OneOfGroup s os' /\ idle OneOfGroup (running OneOfGroup n os' s)) /\
    (forall os', busy (stepping OneOfGroup n) OneOfGroup s os' -> idle OneOfGroup (running OneOfGroup n os' s) ->
       forall i d, requester s i = RWaiting d ->
       exists r, requester (running OneOfGroup n os' s) i = RDone d r /\ answer_to corr set_corr zero answer arrived d r).
  Proof.
    intros (H0 & H2 & H3 & H4) Hd0 Hf Ha s. pose proof (conj Hd0 Hf) as Hd.
    pose proof (fun d H => proj1 (H0 d H)) as H1. pose proof (fun d H => proj2 (H0 d H)) as H5.
    pose proof (inv_run decode encode corr set_corr mws ctx zero answer OneOfGroup n arrived good ready fine H1 H5 H2 H3 H4 os Hd) as Hi.
    split; [|split].
    - exists (work n s). intros os' Hb.
      destruct (busy_inv decode encode corr set_corr mws ctx zero answer OneOfGroup n arrived good ready fine H1 H5 H2 H3 H4 os' os s Hi Hd Hb) as [_ H]. lia.
    - eapply (can_finish decode encode corr set_corr mws ctx zero answer OneOfGroup n arrived good ready fine H1 H5 H2 H3 H4 (work n s) os s Hi Hd). lia.
    - apply (finishes decode encode corr set_corr mws ctx zero answer OneOfGroup n arrived good ready fine H1 H5 H2 H3 H4 os Hd). intros _. exact Ha.
  Qed.
End claims.
Print Assumptions C82_own_reply.
Print Assumptions C82_everyone.
Print Assumptions C83_group_partial.

(** Messages with an identifier and a text; the responder adds a mark. *)
Definition xmsg : Type := string * string.
Definition xdec (m : xmsg) : xmsg * option unit := (m, None).
Definition xset (id : string) (d : xmsg) : xmsg := (id, snd d).
Definition xanswer (req d : xmsg) : xmsg := (fst d, snd req ++ "!")%string.
Definition xzero : xmsg := ("", "")%string.
Definition xrun := @running unit xmsg unit xmsg xdec id fst xset [] tt xzero xanswer.
Definition xstep := @stepping unit xmsg unit xmsg xdec id fst xset [] tt xzero xanswer.
Lemma xassumed : @assumed unit xmsg unit xmsg xdec id fst xset [] tt xzero xanswer id (fun _ => True) (fun _ => True) (fun _ => True).
Proof. split; [done|]. split; [done|]. split; [done|]. intros m. eexists. split; reflexivity. Qed.

Open Scope string_scope.
(** Two requests at once, both sent. *)
Definition both : list (sop xmsg) := [SSubscribe 0 ("", "a"); SSubscribe 1 ("", "b"); SSend 1 "u1"; SSend 0 "u0"].
Lemma both_distinct : distinct fst both.
Proof. split; apply (bool_decide_unpack _); vm_compute; exact I. Qed.

(** The replies come in the order of the sendings; each request drops the other's and returns with its own. *)
Example C82_example :
  let service := [SServe "n" "x"; SServe "n" "x"; SDeliver 0; SReceive 0; SDeliver 0; SReceive 0; SReceive 1] in
  let s := xrun Everyone 2 (both ++ service) start in
  requester s 0 = RDone ("u0", "a") ("u0", "a!") /\ requester s 1 = RDone ("u1", "b") ("u1", "b!") /\
  busy (xstep Everyone 2) Everyone (xrun Everyone 2 both start) service.
Proof.
  split; [reflexivity|]. split; [reflexivity|]. cbn [busy possible].
  repeat split; try discriminate; try (intros; discriminate); eexists; reflexivity.
Qed.

(** Without distinct identifiers, which the caller may set, a request returns with the answer to another. *)
Example C82_needs_distinct :
  requester (xrun Everyone 2 [SSubscribe 0 ("k", "a"); SSubscribe 1 ("k", "b"); SSend 1 "u1"; SSend 0 "u0"; SServe "n" "x"; SDeliver 0; SReceive 0]
               start) 0 = RDone ("k", "a") ("k", "b!").
Proof. reflexivity. Qed.

Example C83_example :
  let s := xrun OneOfGroup 2 [SSubscribe 0 ("", "a"); SSend 0 "u0"; SServe "n" "x"; SDeliver 0; SReceive 0;
                              SSubscribe 1 ("", "b"); SSend 1 "u1"; SServe "n" "x"; SDeliver 1; SReceive 1] start in
  requester s 0 = RDone ("u0", "a") ("u0", "a!") /\ requester s 1 = RDone ("u1", "b") ("u1", "b!").
Proof. split; reflexivity. Qed.

(** With a queue group, or with JetStream: both replies go to the second request, which returns with its own and is gone with the first's. The first
    request never returns, whatever happens next. *)
Theorem C83_group_refuted :
  exists service,
    busy (xstep OneOfGroup 2) OneOfGroup (xrun OneOfGroup 2 both start) service /\
    idle OneOfGroup (xrun OneOfGroup 2 (both ++ service) start) /\
    forall later, requester (xrun OneOfGroup 2 ((both ++ service) ++ later) start) 0 = RWaiting ("u0", "a").
Proof.
  exists [SServe "n" "x"; SServe "n" "x"; SDeliver 1; SDeliver 1; SReceive 1].
  assert (forall s : sys xmsg xmsg, requests s = [] -> replies s = [] -> inbox s 0 = [] -> inbox s 1 = [] -> requester s 0 = RWaiting ("u0", "a") ->
            requester s 1 = RDone ("u1", "b") ("u1", "b!") -> (forall i, 2 <= i -> requester s i = RIdle) -> forall o, xstep OneOfGroup 2 s o = s) as G.
  { intros s H1 H2 H3 H3' H4 H5 H6 o. unfold xstep, stepping.
    assert (forall i, i = 0 \/ i = 1 \/ 2 <= i) as Hcases by lia.
    destruct o as [i d|i u|a b|i|i]; cbn.
    - destruct (Hcases i) as [->|[->|Hi]]; [rewrite H4|rewrite H5|rewrite (H6 i Hi)]; try reflexivity.
      destruct (Nat.leb_spec i 1); [lia|reflexivity].
    - destruct (Hcases i) as [->|[->|Hi]]; [rewrite H4|rewrite H5|rewrite (H6 i Hi)]; reflexivity.
    - rewrite H1. reflexivity.
    - rewrite H2. reflexivity.
    - destruct (Hcases i) as [->|[->|Hi]]; [rewrite H4, H3|rewrite H5|rewrite (H6 i Hi)]; reflexivity. }
  split; [|split].
  - cbn [busy possible]. repeat split; try discriminate; try (intros; left; reflexivity); eexists; reflexivity.
  - intros o. destruct o as [i d|i u|a b|i|i]; cbn; try tauto.
    intros [[sent H] Hin]. destruct i as [|[|i]]; [apply Hin; reflexivity|discriminate|discriminate].
  - intros later. unfold xrun, running, srun. rewrite fold_left_app.
    change (fold_left _ (both ++ _) start) with (xrun OneOfGroup 2 (both ++ [SServe "n" "x"; SServe "n" "x"; SDeliver 1; SDeliver 1; SReceive 1]) start).
    set (s := xrun _ _ _ _).
    assert (forall os, fold_left (xstep OneOfGroup 2) os s = s) as Hs.
    { induction os as [|o os IH]; [reflexivity|]. cbn [fold_left]. rewrite (G s); try reflexivity; [exact IH|].
      intros i Hi. destruct i as [|[|i]]; [lia|lia|reflexivity]. }
    change (requester (fold_left (xstep OneOfGroup 2) later s) 0 = RWaiting ("u0", "a")). rewrite Hs. reflexivity.
Qed.
Print Assumptions C83_group_refuted.
