(** Acknowledgement of a received message. *)
From Coq Require Import List.
Import ListNotations.

(** The two ways of settling a message with the broker:
    pkg/extensions/broker.go:119-134 (Ack calls AckMessage, Nak calls NakMessage). *)
Inductive settle := SAck | SNak.

(** pkg/extensions/broker.go:102-107 [AcknowledgeableBrokerMessage], restricted to the
    acknowledgement part: the [acked] flag, and (observable effect) the list of calls made
    to the [BrokerAcknowledgment] handler, oldest first.
    Simplification: handlers are assumed to return (a panicking handler is not modelled). *)
Record ackst := mkAck { acked : bool; told : list settle }.

(** pkg/extensions/broker.go:111-116 [NewAcknowledgeableBrokerMessage]: [acked] is the zero value. *)
Definition ack_new : ackst := mkAck false [].

(** pkg/extensions/broker.go:120-125 [Ack]. *)
Definition do_ack (s : ackst) : ackst :=
  if negb (acked s) then mkAck true (told s ++ [SAck]) else s.

(** pkg/extensions/broker.go:129-134 [Nak]. *)
Definition do_nak (s : ackst) : ackst :=
  if negb (acked s) then mkAck true (told s ++ [SNak]) else s.

(** One of the two calls. *)
Definition do_settle (k : settle) : ackst -> ackst :=
  match k with SAck => do_ack | SNak => do_nak end.

(** A caller's sequence of Ack/Nak calls on one message. *)
Definition do_settles (ks : list settle) (s : ackst) : ackst :=
  fold_left (fun st k => do_settle k st) ks s.
