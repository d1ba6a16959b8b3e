(** One broker subscription: its two Go channels and the goroutines that use them.

    Modelled code: pkg/extensions/broker.go:10-69 (BrokerChannelSubscription), with the channel
    sizes used by the brokers (messages: brokers.BrokerMessagesQueueSize = 64, here any [cap];
    cancel: 1, e.g. pkg/extensions/brokers/nats/nats.go:110-113).

    A schedule is a list of [op]; each op is one atomic action of one goroutine. Channel
    operations follow the Go runtime (runtime/chan.go): a send hands its value directly to the
    first parked receiver if there is one, else fills the buffer, else parks the sender in FIFO
    order; sending on a closed channel, or being parked in a send when it is closed, panics
    (and crashes the process). The consumer of the messages channel is one goroutine
    (generated listener); whether it is parked is irrelevant to the order, so it is not tracked. *)
From Coq Require Import List Arith.
Import ListNotations.

Section SubMachine.
  Context {M : Type}.
  Variable cap : nat.

  (** The goroutine started by WaitForCancellationAsync (broker.go:41-55), by line:
      [WStart] not yet at 44; [WParked] blocked at 44; [WGot] before cleanup (47);
      [WCleaned] before 50; [WMsgsClosed] before 53; [WDone] finished. *)
  Inductive wstate := WStart | WParked | WGot | WCleaned | WMsgsClosed | WDone.

  (** A goroutine calling Cancel (broker.go:60-69): [CIdle] before 62; [CSendBlocked] blocked
      at 62; [CSent] before the select (65); [CParked] blocked in the select;
      [CReturned] Cancel returned through 66; [CCtx] returned through 67. *)
  Inductive cstate := CIdle | CSendBlocked | CSent | CParked | CReturned | CCtx.

  Inductive who := Waiter | Canceller (i : nat).

  Record sub := mkSub {
    mbuf : list M;          (* buffer of the messages channel *)
    mclosed : bool;
    mblocked : list M;      (* values of the goroutines blocked in TransmitReceivedMessage *)
    cfull : bool;           (* the buffer (size 1) of the cancel channel *)
    cclosed : bool;
    crecvq : list who;      (* goroutines parked receiving on cancel *)
    csendq : list nat;      (* cancellers parked sending on cancel *)
    wst : wstate;
    cst : nat -> cstate;
    cleanups : nat;         (* how many times cleanup() ran *)
    sent : list M;          (* history: messages transmitted by the broker *)
    recvd : list M;         (* history: messages received by the consumer *)
    eofs : nat;             (* how many times the consumer saw the end of the stream *)
    crashed : bool          (* a goroutine panicked *)
  }.

  (** State after [broker.Subscribe] called WaitForCancellationAsync: the goroutine exists but
      has not run yet. *)
  Definition init : sub :=
    mkSub [] false [] false false [] [] WStart (fun _ => CIdle) 0 [] [] 0 false.

  Definition upd (f : nat -> cstate) (i : nat) (v : cstate) : nat -> cstate :=
    fun j => if Nat.eqb j i then v else f j.

  Definition set_c (s : sub) (full closed : bool) (rq : list who) (sq : list nat)
             (w : wstate) (c : nat -> cstate) : sub :=
    mkSub (mbuf s) (mclosed s) (mblocked s) full closed rq sq w c (cleanups s)
          (sent s) (recvd s) (eofs s) (crashed s).
  Definition crash (s : sub) : sub :=
    mkSub (mbuf s) (mclosed s) (mblocked s) (cfull s) (cclosed s) (crecvq s) (csendq s)
          (wst s) (cst s) (cleanups s) (sent s) (recvd s) (eofs s) true.

  (** A goroutine gets a value (or the closed signal) from the cancel channel. *)
  Definition wake (p : who) (w : wstate) (c : nat -> cstate) : wstate * (nat -> cstate) :=
    match p with
    | Waiter => (WGot, c)
    | Canceller i => (w, upd c i CReturned)
    end.

  (** [cancel <- true] by canceller [i] (broker.go:62). *)
  Definition cancel_send (i : nat) (s : sub) : sub :=
    if cclosed s then crash s
    else match crecvq s with
         | p :: q =>
             let '(w', c') := wake p (wst s) (cst s) in
             set_c s (cfull s) false q (csendq s) w' (upd c' i CSent)
         | [] =>
             if cfull s
             then set_c s true false [] (csendq s ++ [i]) (wst s) (upd (cst s) i CSendBlocked)
             else set_c s true false [] (csendq s) (wst s) (upd (cst s) i CSent)
         end.

  (** [<-cancel] by [p] (broker.go:44 and 66). *)
  Definition cancel_recv (p : who) (s : sub) : sub :=
    if cfull s then
      match csendq s with
      | [] => let '(w', c') := wake p (wst s) (cst s) in
              set_c s false (cclosed s) (crecvq s) [] w' c'
      | j :: q => let '(w', c') := wake p (wst s) (upd (cst s) j CSent) in
                  set_c s true (cclosed s) (crecvq s) q w' c'
      end
    else if cclosed s then
      let '(w', c') := wake p (wst s) (cst s) in
      set_c s false true (crecvq s) (csendq s) w' c'
    else
      match p with
      | Waiter => set_c s false false (crecvq s ++ [Waiter]) (csendq s) WParked (cst s)
      | Canceller i =>
          set_c s false false (crecvq s ++ [Canceller i]) (csendq s) (wst s) (upd (cst s) i CParked)
      end.

  Definition wake_all (q : list who) (w : wstate) (c : nat -> cstate) : wstate * (nat -> cstate) :=
    fold_left (fun wc p => wake p (fst wc) (snd wc)) q (w, c).

  (** [close(cancel)] (broker.go:53), the waiter then finishes. *)
  Definition close_cancel (s : sub) : sub :=
    match csendq s with
    | _ :: _ => crash s
    | [] => let '(_, c') := wake_all (crecvq s) WDone (cst s) in
            set_c s (cfull s) true [] [] WDone c'
    end.

  (** [close(messages)] (broker.go:50). *)
  Definition close_msgs (s : sub) : sub :=
    match mblocked s with
    | _ :: _ => crash s
    | [] => mkSub (mbuf s) true [] (cfull s) (cclosed s) (crecvq s) (csendq s)
                  WMsgsClosed (cst s) (cleanups s) (sent s) (recvd s) (eofs s) (crashed s)
    end.

  Definition run_cleanup (s : sub) : sub :=
    mkSub (mbuf s) (mclosed s) (mblocked s) (cfull s) (cclosed s) (crecvq s) (csendq s)
          WCleaned (cst s) (S (cleanups s)) (sent s) (recvd s) (eofs s) (crashed s).

  (** [messages <- msg] (broker.go:30). *)
  Definition transmit (m : M) (s : sub) : sub :=
    if mclosed s then crash s
    else if Nat.ltb (length (mbuf s)) cap
    then mkSub (mbuf s ++ [m]) false (mblocked s) (cfull s) (cclosed s) (crecvq s) (csendq s)
               (wst s) (cst s) (cleanups s) (sent s ++ [m]) (recvd s) (eofs s) (crashed s)
    else mkSub (mbuf s) false (mblocked s ++ [m]) (cfull s) (cclosed s) (crecvq s) (csendq s)
               (wst s) (cst s) (cleanups s) (sent s ++ [m]) (recvd s) (eofs s) (crashed s).

  (** [<-sub.MessagesChannel()] by the consumer (controller.tmpl:207); blocks (no effect) when
      the channel is open and empty. *)
  Definition receive (s : sub) : sub :=
    match mbuf s, mblocked s with
    | m :: b, [] =>
        mkSub b (mclosed s) [] (cfull s) (cclosed s) (crecvq s) (csendq s)
              (wst s) (cst s) (cleanups s) (sent s) (recvd s ++ [m]) (eofs s) (crashed s)
    | m :: b, m' :: bl =>
        mkSub (b ++ [m']) (mclosed s) bl (cfull s) (cclosed s) (crecvq s) (csendq s)
              (wst s) (cst s) (cleanups s) (sent s) (recvd s ++ [m]) (eofs s) (crashed s)
    | [], m' :: bl => (* unbuffered channel *)
        mkSub [] (mclosed s) bl (cfull s) (cclosed s) (crecvq s) (csendq s)
              (wst s) (cst s) (cleanups s) (sent s) (recvd s ++ [m']) (eofs s) (crashed s)
    | [], [] =>
        if mclosed s
        then mkSub [] true [] (cfull s) (cclosed s) (crecvq s) (csendq s)
                   (wst s) (cst s) (cleanups s) (sent s) (recvd s) (S (eofs s)) (crashed s)
        else s
    end.

  Inductive op :=
  | OWaiter              (* the clean-up goroutine executes its next line *)
  | OCancel (i : nat)    (* canceller i executes its next line (starting Cancel if idle) *)
  | OCtxDone (i : nat)   (* the select of canceller i takes the ctx.Done() branch *)
  | OTransmit (m : M)    (* a broker goroutine transmits a message *)
  | OReceive.            (* the consumer receives *)

  Definition is_canceller (i : nat) (p : who) : bool :=
    match p with Waiter => false | Canceller j => Nat.eqb i j end.

  (** One atomic step; a blocked or finished goroutine does nothing, and nothing happens any
      more after a crash. *)
  Definition step (s : sub) (o : op) : sub :=
    if crashed s then s
    else match o with
    | OWaiter =>
        match wst s with
        | WStart => cancel_recv Waiter s
        | WParked => s
        | WGot => run_cleanup s
        | WCleaned => close_msgs s
        | WMsgsClosed => close_cancel s
        | WDone => s
        end
    | OCancel i =>
        match cst s i with
        | CIdle => cancel_send i s
        | CSent => cancel_recv (Canceller i) s
        | _ => s
        end
    | OCtxDone i =>
        match cst s i with
        | CSent => set_c s (cfull s) (cclosed s) (crecvq s) (csendq s) (wst s) (upd (cst s) i CCtx)
        | CParked =>
            set_c s (cfull s) (cclosed s) (filter (fun p => negb (is_canceller i p)) (crecvq s))
                  (csendq s) (wst s) (upd (cst s) i CCtx)
        | _ => s
        end
    | OTransmit m => transmit m s
    | OReceive => receive s
    end.

  Definition run (os : list op) (s : sub) : sub := fold_left step os s.
End SubMachine.
Arguments sub : clear implicits.
Arguments op : clear implicits.
