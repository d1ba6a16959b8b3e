(** Broker messages. *)
From stdpp Require Import gmap strings.

(** pkg/extensions/broker.go:72-75 [BrokerMessage]: Headers map[string][]byte and Payload []byte,
    either possibly nil ([None]). *)
Record bmsg := mkBmsg { headers : option (gmap string string); payload : option string }.

(** [msg.Headers\[k\]]: reading a nil map gives no value. *)
Definition header (m : bmsg) (k : string) : option string :=
  match headers m with Some h => h !! k | None => None end.

(** pkg/extensions/broker.go:79-81 [IsUninitialized]. *)
Definition is_uninitialized (m : bmsg) : bool :=
  match headers m, payload m with None, None => true | _, _ => false end.

#[global] Instance bmsg_eq_dec : EqDecision bmsg.
Proof. solve_decision. Defined.
