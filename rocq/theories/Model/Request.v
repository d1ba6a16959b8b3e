(** Request/reply of the generated controllers.

    Modelled code: pkg/codegen/generators/v3/templates/controller.tmpl:254-280 (ReplyTo…),
    323-372 (Send…), 386-456 (Request…), 458-526 (waitFor…NextResponse);
    v3/templates/message.tmpl:41-51, 281-304 (New…, CorrelationID, SetCorrelationID,
    SetAsResponseFrom). v2/templates/controller.tmpl WaitFor… and waitFor…NextMessage have the
    same loop, with a publication function given by the caller instead of Send…. *)
From Coq Require Import List String.
From Verif.Model Require Import Ack Middleware.
Import ListNotations.

Section Request.
  Context {C M E D : Type}.
  (** [D]: decoded messages, [M]: broker messages. *)

  (** brokerMessageTo… (message.tmpl:54-172): gives a message in every case, and an error or
      not. *)
  Variable decode : M -> D * option E.
  (** CorrelationID() of a decoded message. *)
  Variable corr : D -> string.

  (** What the select of 477-525 can choose: a message, a closed channel (receive gives the
      zero value), the end of the caller's context. A run of the request is a list of such
      choices, in order. *)
  Inductive wev := WRecv (m : M) | WClosed | WCtxDone.

  (** Result of waitFor…: a message; no message (with an error, which the caller only logs,
      or without); a panicking middleware. *)
  Inductive wres := WSome (d : D) | WNone | WPanic.

  (** 458-526. [hascorr]: the messages have a correlation ID in the specification; [sent]: the
      one of the request. Also gives what is told to the broker about the received message. *)
  Definition wait_next (hascorr : bool) (sent : string) (mws : list (middleware C M E)) (c : C)
             (ev : wev) : wres * list settle :=
    match ev with
    | WClosed => (WNone, [])                                     (* 482-485 *)
    | WCtxDone => (WNone, [])                                    (* 522-524 *)
    | WRecv m =>
        let continue (acks : list settle) :=
          (* 508-521 *)
          match execute mws None c m tt with
          | (s, RPanic) => (WPanic, acks)
          | (s, ROk (Some e)) => (WNone, acks)
          | (s, ROk None) =>
              match decode (msg s) with
              | (d, None) => (WSome d, acks)
              | (d, Some e) => (WNone, acks)
              end
          end in
        if hascorr then
          (* 487-500: the decoding error is only logged *)
          if string_dec sent (corr (fst (decode m))) then continue [SAck] else (WNone, [SAck])
        else continue []
    end.

  Inductive outcome := OPending | OReturned (d : D) | OPanicked.

  (** 441-455: the loop, over the choices made so far. [OPending]: still running. Also what
      was told to the broker for each event consumed. *)
  Fixpoint wait_loop (hascorr : bool) (sent : string) (mws : list (middleware C M E)) (c : C)
           (evs : list wev) : outcome * list (list settle) :=
    match evs with
    | [] => (OPending, [])
    | ev :: rest =>
        match wait_next hascorr sent mws c ev with
        | (WSome d, a) => (OReturned d, [a])
        | (WPanic, a) => (OPanicked, [a])
        | (WNone, a) => let '(o, l) := wait_loop hascorr sent mws c rest in (o, a :: l)
        end
    end.

  (** Calls to the broker made by a request. *)
  Inductive qev := QSubscribe | QSend (d : D) | QCancel.
  Inductive qout := QErrSubscribe (e : E) | QErrSend (e : E) | QOut (o : outcome).

  Variable set_corr : string -> D -> D.

  (** 386-456: [bsub] is the broker's answer to Subscribe, [send d] the result of Send… on the
      message, [uuid] the identifier generated if needed. The deferred Cancel runs whenever the
      function leaves after a successful subscription, panics included; while the loop is
      pending it has not run. *)
  Definition request (hascorr : bool) (uuid : string) (bsub : option E) (send : D -> option E)
             (mws : list (middleware C M E)) (c : C) (d : D) (evs : list wev)
    : qout * list qev * list (list settle) :=
    match bsub with
    | Some e => (QErrSubscribe e, [QSubscribe], [])
    | None =>
        let d1 := if hascorr then (if string_dec (corr d) "" then set_corr uuid d else d) else d in
        match send d1 with
        | Some e => (QErrSend e, [QSubscribe; QSend d1; QCancel], [])
        | None =>
            let '(o, acks) := wait_loop hascorr (corr d1) mws c evs in
            (QOut o,
             [QSubscribe; QSend d1] ++ match o with OPending => [] | _ => [QCancel] end,
             acks)
        end
    end.

  (** 340-350: what Send… does with the correlation ID: [None] is ErrNoCorrelationIDSet.
      [isreply]: the operation is the reply of another one. *)
  Definition send_corr (isreply : bool) (uuid : string) (d : D) : option D :=
    if string_dec (corr d) "" then
      if isreply then None else Some (set_corr uuid d)
    else Some d.

  (** 254-280: ReplyTo…: New… (message.tmpl:41-51) followed by SetAsResponseFrom (301-304), then
      the user's function, then Send…AsReplyTo…; gives the message handed to the broker. *)
  Definition reply_to (zero : D) (newid uuid : string) (req : D) (fn : D -> D) : option D :=
    send_corr true uuid (fn (set_corr (corr req) (set_corr newid zero))).
End Request.
Arguments wev : clear implicits.
Arguments wres : clear implicits.
Arguments outcome : clear implicits.
Arguments qev : clear implicits.
Arguments qout : clear implicits.
