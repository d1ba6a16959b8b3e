(** Subscriptions of a generated controller.

    Modelled code: pkg/codegen/generators/v3/templates/controller.tmpl:95-131 (Close,
    SubscribeToAllChannels, UnsubscribeFromAllChannels), 143-193 (SubscribeTo…), 286-311
    (UnsubscribeFrom…); v2/templates/controller.tmpl has the same functions (SubscribeAll,
    UnsubscribeAll, Subscribe…, Unsubscribe…).
    Simplifications: calls on the controller are made one after the other (its map has no
    lock), Cancel of a broker subscription returns. *)
From stdpp Require Import gmap strings.

(** Calls received by the broker, oldest first. An accepted subscription gets a number. *)
Inductive cev :=
| CSub (addr : string) (i : nat)     (* Subscribe(addr) accepted *)
| CRefused (addr : string)           (* Subscribe(addr) returned an error *)
| CCancel (i : nat).                 (* Cancel of subscription i *)

Record cst := mkC {
  csubs : gmap string nat;   (* c.subscriptions *)
  cnext : nat;               (* next subscription number given by the broker *)
  clog : list cev
}.

Definition cinit : cst := mkC ∅ 0 [].

Inductive cres := CrOk | CrAlready | CrBroker.

(** 143-193. [bok]: does the broker accept. The goroutine reading the subscription is in
    Listener.v. *)
Definition c_subscribe (s : cst) (addr : string) (bok : bool) : cst * cres :=
  match csubs s !! addr with
  | Some _ => (s, CrAlready)                                              (* 161-166 *)
  | None =>
      if bok
      then (mkC (<[addr := cnext s]> (csubs s)) (S (cnext s)) (clog s ++ [CSub addr (cnext s)]), CrOk)
      else (mkC (csubs s) (cnext s) (clog s ++ [CRefused addr]), CrBroker) (* 170-173 *)
  end.

(** 286-311. *)
Definition c_unsubscribe (s : cst) (addr : string) : cst :=
  match csubs s !! addr with
  | None => s
  | Some i => mkC (delete addr (csubs s)) (cnext s) (clog s ++ [CCancel i])
  end.

(** A receive operation of the specification: has its channel parameters, and the address of
    the channel (meaningful when it has no parameter). *)
Record recvop := mkRecv { rparams : bool; raddr : string }.

(** 113-119: the addresses enumerated by the generated code, in order. *)
Definition plain (ops : list recvop) : list string :=
  map raddr (filter (fun o => rparams o = false) ops).

(** 108-122 after the nil check; [bok] is the broker's answer per address. *)
Fixpoint c_subscribe_list (s : cst) (addrs : list string) (bok : string -> bool) : cst * cres :=
  match addrs with
  | [] => (s, CrOk)
  | a :: l =>
      match c_subscribe s a (bok a) with
      | (s1, CrOk) => c_subscribe_list s1 l bok
      | (s1, e) => (s1, e)
      end
  end.
Definition c_subscribe_all (ops : list recvop) (s : cst) (bok : string -> bool) : cst * cres :=
  c_subscribe_list s (plain ops) bok.

(** 125-131. *)
Definition c_unsubscribe_all (ops : list recvop) (s : cst) : cst :=
  fold_left c_unsubscribe (plain ops) s.

(** 95-102: when there is no receive operation nothing is generated in Close (and nothing can
    be subscribed). *)
Definition c_close (ops : list recvop) (s : cst) : cst := c_unsubscribe_all ops s.

Inductive cop :=
| OSubscribe (addr : string) (bok : bool)
| OUnsubscribe (addr : string)
| OSubscribeAll (bok : string -> bool)
| OUnsubscribeAll
| OClose.

Definition cstep (ops : list recvop) (s : cst) (o : cop) : cst * cres :=
  match o with
  | OSubscribe a b => c_subscribe s a b
  | OUnsubscribe a => (c_unsubscribe s a, CrOk)
  | OSubscribeAll b => c_subscribe_all ops s b
  | OUnsubscribeAll => (c_unsubscribe_all ops s, CrOk)
  | OClose => (c_close ops s, CrOk)
  end.

Definition crun (ops : list recvop) (os : list cop) (s : cst) : cst :=
  fold_left (fun s o => fst (cstep ops s o)) os s.
