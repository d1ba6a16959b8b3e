(** C07-C10: one broker subscription under every schedule of its goroutines. *)
From Coq Require Import List Arith.
From Verif.Model Require Import SubMachine.
From Verif.Proof Require Import SubMachineProof.
Import ListNotations.

(** C07 is false: if the clean-up goroutine has not reached its receive yet, the canceller
    takes back its own request and returns although nothing was cleaned up. *)
Theorem C07_cancel_waits_refuted :
  exists os : list (op nat),
    let s := run 64 os init in
    cst s 0 = CReturned /\ cleanups s = 0 /\ mclosed s = false /\ crashed s = false.
Proof.
  exact (ex_intro _ [OCancel 0; OCancel 0] (conj eq_refl (conj eq_refl (conj eq_refl eq_refl)))).
Qed.
Print Assumptions C07_cancel_waits_refuted.

(** After that race the request is lost for good: however the clean-up goroutine, the broker and
    the consumer are scheduled afterwards, the clean-up never runs. *)
Theorem C07_cancel_lost_refuted :
  forall os : list (op nat),
    Forall (fun o => match o with OCancel j | OCtxDone j => j = 0 | _ => True end) os ->
    cleanups (run 64 os (run 64 [OCancel 0; OCancel 0] init)) = 0.
Proof. exact (sub_cancel_lost 64 0). Qed.
Print Assumptions C07_cancel_lost_refuted.

(** Even when the clean-up goroutine is ready, a second concurrent Cancel wakes up the first one
    before the clean-up. *)
Theorem C07_concurrent_cancel_refuted :
  exists os : list (op nat),
    let s := run 64 (OWaiter :: os) init in
    cst s 0 = CReturned /\ cleanups s = 0 /\ mclosed s = false /\ crashed s = false.
Proof.
  exact (ex_intro _ [OCancel 0; OCancel 0; OCancel 1]
           (conj eq_refl (conj eq_refl (conj eq_refl eq_refl)))).
Qed.
Print Assumptions C07_concurrent_cancel_refuted.

(** C07, true part: with the clean-up goroutine ready and a single Cancel call, under every
    schedule, a Cancel that returned without its context being done has cleaned up. *)
Theorem C07_cancel_waits_partial {M} cap i (os : list (op M)) :
  Forall (only i) os ->
  let s := run cap (OWaiter :: os) init in
  cst s i = CReturned -> cleanups s = 1 /\ mclosed s = true.
Proof. exact (sub_cancel_complete cap i os). Qed.
Print Assumptions C07_cancel_waits_partial.

(** … and it does not hang: unless a broker goroutine is blocked transmitting, three more steps
    of the clean-up goroutine suffice. *)
Theorem C07_cancel_returns_partial {M} cap i (os : list (op M)) :
  Forall (only i) os ->
  let s := run cap (OWaiter :: os) init in
  crashed s = false -> mblocked s = [] -> cst s i = CSent \/ cst s i = CParked ->
  let s' := run cap [OWaiter; OWaiter; OWaiter; OCancel i] s in
  cst s' i = CReturned /\ cleanups s' = 1 /\ mclosed s' = true /\ crashed s' = false.
Proof. exact (sub_cancel_progress cap i os). Qed.
Print Assumptions C07_cancel_returns_partial.

(** A Cancel returns before the clean-up only when another Cancel was called. *)
Theorem C07_early_overtaken {M} cap i (os : list (op M)) :
  let s := run cap (OWaiter :: os) init in
  cst s i = CReturned -> (cleanups s = 1 /\ mclosed s = true) \/ exists j, j <> i /\ In (OCancel j) os.
Proof. exact (sub_early_overtaken cap i os). Qed.
Print Assumptions C07_early_overtaken.

(** However many Cancel calls there are: once one was made, the clean-up goroutine that was ready runs the clean-up. *)
Theorem C07_cleanup_happens {M} cap i (os : list (op M)) :
  In (OCancel i) os -> cleanups (run cap (OWaiter :: os ++ [OWaiter]) init) = 1.
Proof. exact (sub_cleanup_happens cap i os). Qed.
Print Assumptions C07_cleanup_happens.

Example C07_many_example :
  let os := [OTransmit 5; OCancel 3; OCancel 3; OCancel 4; OCancel 4; OCtxDone 4] in
  In (OCancel 4) os /\ cst (run 64 (OWaiter :: os) init) 3 = CReturned /\ cleanups (run 64 (OWaiter :: os) init) = 0.
Proof. repeat split. right. right. right. left. reflexivity. Qed.

Example C07_example :
  let os := [OTransmit 5; OCancel 3; OWaiter; OReceive; OCancel 3; OWaiter; OWaiter; OReceive] in
  Forall (only 3) os /\ cst (run 64 (OWaiter :: os) init) 3 = CReturned /\
  recvd (run 64 (OWaiter :: os) init) = [5] /\
  (let s := run 64 (OWaiter :: firstn 2 os) init in
   crashed s = false /\ mblocked s = [] /\ cst s 3 = CSent).
Proof. repeat constructor. Qed.

(** C08: the clean-up runs at most once, under every schedule of any number of cancellers. *)
Theorem C08_cleanup_at_most_once {M} cap (os : list (op M)) :
  cleanups (run cap os init) <= 1.
Proof. exact (sub_cleanup_once cap os). Qed.
Print Assumptions C08_cleanup_at_most_once.

(** C08 is false for crashes: cancelling again after a completed cancellation panics. *)
Theorem C08_cancel_twice_refuted :
  exists os : list (op nat),
    let s := run 64 (OWaiter :: os) init in
    cst s 0 = CReturned /\ crashed s = false /\ crashed (run 64 [OCancel 1] s) = true.
Proof.
  exact (ex_intro _ [OCancel 0; OCancel 0; OWaiter; OWaiter; OWaiter]
           (conj eq_refl (conj eq_refl eq_refl))).
Qed.
Print Assumptions C08_cancel_twice_refuted.

(** C08, true part: a single Cancel call (without concurrent transmissions) never crashes. *)
Theorem C08_cancel_safe_partial {M} cap i (os : list (op M)) :
  Forall (only i) os -> Forall no_transmit os ->
  crashed (run cap (OWaiter :: os) init) = false.
Proof. exact (sub_single_cancel_safe cap i os). Qed.
Print Assumptions C08_cancel_safe_partial.

(** A single Cancel call crashes because of transmissions only: one that comes after the clean-up, or one that waits for room when the
    channel is closed. *)
Theorem C08_one_cancel_crash {M} cap i (os : list (op M)) :
  Forall (only i) os -> crashed (run cap (OWaiter :: os) init) = true ->
  exists os1 o os2, os = os1 ++ o :: os2 /\
    let s := run cap (OWaiter :: os1) init in
    cleanups s = 1 /\
    ((exists m, o = OTransmit m /\ mclosed s = true) \/ (o = OWaiter /\ mclosed s = false /\ mblocked s <> [])).
Proof. exact (sub_one_cancel_crash cap i os). Qed.
Print Assumptions C08_one_cancel_crash.

Example C08_crash_example :
  let os := [OTransmit 1; OCancel 2; OWaiter; OWaiter; OTransmit 5] in
  Forall (only 2) os /\ crashed (run 1 (OWaiter :: os) init) = true.
Proof. repeat constructor. Qed.

Example C08_example :
  Forall (only 2) [OCancel 2; @OReceive nat; OWaiter] /\
  Forall no_transmit [OCancel 2; @OReceive nat; OWaiter].
Proof. repeat constructor. Qed.

(** C09: FIFO without loss or duplication, bounded buffer, transmitters blocked only when it
    is full, end of stream only after clean-up and after everything was delivered. *)
Theorem C09_fifo {M} cap (os : list (op M)) :
  let s := run cap os init in
  sent s = recvd s ++ mbuf s ++ mblocked s /\
  length (mbuf s) <= cap /\
  (mblocked s <> [] -> length (mbuf s) = cap) /\
  (eofs s <> 0 -> cleanups s = 1 /\ mclosed s = true /\ recvd s = sent s).
Proof. exact (sub_fifo cap os). Qed.
Print Assumptions C09_fifo.

(** C09: whatever is buffered is delivered, in order, once the consumer reads enough. *)
Theorem C09_drain {M} cap (os : list (op M)) :
  let s := run cap os init in
  crashed s = false ->
  recvd (run cap (repeat OReceive (length (mbuf s ++ mblocked s))) s) = sent s.
Proof. exact (sub_drain cap os). Qed.
Print Assumptions C09_drain.

Example C09_example :
  let s := run 2 [OTransmit 1; OTransmit 2; OTransmit 3; OReceive; OTransmit 4] init in
  sent s = [1; 2; 3; 4] /\ recvd s = [1] /\ mbuf s = [2; 3] /\ mblocked s = [4] /\
  eofs (run 2 [OWaiter; OTransmit 1; OCancel 0; OWaiter; OWaiter; OReceive; OReceive] (init (M:=nat))) = 1.
Proof. repeat split. Qed.

(** C10 is false: a transmission after the cancellation crashes … *)
Theorem C10_transmit_safe_refuted :
  exists os : list (op nat),
    let s := run 64 (OWaiter :: os) init in
    crashed s = false /\ crashed (run 64 [OTransmit 1] s) = true.
Proof.
  exact (ex_intro _ [OCancel 0; OWaiter; OWaiter] (conj eq_refl eq_refl)).
Qed.
Print Assumptions C10_transmit_safe_refuted.

(** … and so does cancelling while a transmitter waits for room in a full buffer. *)
Theorem C10_blocked_transmit_refuted :
  exists os : list (op nat),
    let s := run 64 (OWaiter :: os) init in
    mblocked s <> [] /\ crashed s = false /\
    crashed (run 64 [OCancel 0; OWaiter; OWaiter] s) = true.
Proof.
  exact (ex_intro _ (repeat (OTransmit 0) 65)
           (conj (fun H : [0] = [] => eq_rect [0] (fun l => match l with [] => False | _ => True end) I [] H)
              (conj eq_refl eq_refl))).
Qed.
Print Assumptions C10_blocked_transmit_refuted.

(** C10, true part: nothing ever crashes before the broker-side clean-up has run. *)
Theorem C10_safe_before_cleanup_partial {M} cap (os : list (op M)) :
  crashed (run cap os init) = true -> cleanups (run cap os init) = 1.
Proof. exact (sub_crash_after_cleanup cap os). Qed.
Print Assumptions C10_safe_before_cleanup_partial.

(** Exactly what crashes, whatever the number of cancellers: a transmission or a new Cancel when the channel is closed already, and
    closing a channel on which somebody waits to send. *)
Definition panics {M} (s : sub M) (o : op M) : Prop :=
  match o with
  | OTransmit _ => mclosed s = true
  | OCancel i => cst s i = CIdle /\ cclosed s = true
  | OWaiter => (wst s = WCleaned /\ mblocked s <> []) \/ (wst s = WMsgsClosed /\ csendq s <> [])
  | OCtxDone _ | OReceive => False
  end.
Theorem C10_crash_exact {M} cap (os : list (op M)) :
  crashed (run cap os init) = true <->
  exists os1 o os2, os = os1 ++ o :: os2 /\ crashed (run cap os1 init) = false /\ panics (run cap os1 init) o.
Proof. exact (sub_crash_exact cap os). Qed.
Print Assumptions C10_crash_exact.

Example C10_exact_example :
  panics (run 64 [OWaiter; OCancel 0; OWaiter; OWaiter] init) (OTransmit 1) /\
  panics (run 0 [OWaiter; OTransmit 1; OCancel 0; OWaiter] init) OWaiter /\
  panics (run 64 [OWaiter; OCancel 0; OWaiter; OWaiter; OWaiter] (@init nat)) (OCancel 1) /\
  panics (run 64 [OWaiter; OCancel 0; OCancel 1; OCancel 2; OWaiter; OWaiter] (@init nat)) OWaiter.
Proof.
  split; [reflexivity|]. split; [left; split; [reflexivity|discriminate]|]. split; [split; reflexivity|].
  right. split; [reflexivity|discriminate].
Qed.

Example C10_example :
  crashed (run 64 [OWaiter; OCancel 0; OWaiter; OWaiter; OTransmit 1] init) = true.
Proof. reflexivity. Qed.
