(** Operations on the two sides: pkg/asyncapi/v3/operation.go, pkg/codegen/generators/v3/common.go and
    controller.go; pkg/codegen/generators/v2/controller.go and subscriber.go. *)
From stdpp Require Import gmap list strings.
From Coq Require Import String.
From Verif.Model Require Import Reference.
Local Open Scope string_scope.

(** * Version 3 *)

(** A channel after Follow (channel.go:148-153): its name and its messages (numbered), the map
    being listed in key order. *)
Record channel := mkChannel { ch_name : string; ch_messages : list nat }.
(** operation_reply.go:6-18; the channel is [None] when it is absent, in particular when the reply
    is itself a reference (its own fields are empty). *)
Record reply := mkReply { r_channel : option channel; r_messages : list nat }.
(** operation.go:26-49, the fields used here; [o_messages]: the messages, followed; [o_refers]:
    ReferenceTo (an operation that is a reference has no other field set than its name). *)
Inductive operation := mkOperation {
  o_name : string; o_action : string; o_channel : channel;
  o_messages : list nat; o_reply : option reply; o_refers : option operation }.
(** operation.go:238-243 [Follow] *)
Definition follow (o : operation) : operation := match o_refers o with Some p => p | None => o end.

(** What the generator works on: an operation of the document, or the artificial reply of one
    (operation.go:178-182: its name, channel and origin; action, messages and reply are empty). *)
Inductive gop := GOp (o : operation) | GReply (o : operation) (ch : channel).
(** templates: [$value.Follow.Name] *)
Definition gop_name (g : gop) : string :=
  match g with GOp o => o_name (follow o) | GReply o _ => String.append "ReplyTo" (o_name o) end.

(** operation.go:14-21 *)
Definition is_send (a : string) : bool := String.eqb a "send".
Definition is_receive (a : string) : bool := String.eqb a "receive".

(** operation.go:170-183 [generateReply]: the value of ReplyIs.  Follow reads a field of the
    channel: a nil pointer panics. *)
Definition generate_reply (o : operation) : res (option gop) :=
  match o_reply o with
  | None => Ok None
  | Some r => match r_channel r with Some ch => Ok (Some (GReply o ch)) | None => Panic end
  end.
(** specification.go: the operations are processed one after the other. *)
Fixpoint generate_replies (ops : list (string * operation)) : res unit :=
  match ops with
  | [] => Ok tt
  | (_, o) :: r => match generate_reply o with Ok _ => generate_replies r | Err => Err | Panic => Panic end
  end.

Inductive side := Application | User.

(** controller.go:38-51 *)
Definition should_respond (s : side) (o : operation) : option channel :=
  match o_reply o with
  | None => None
  | Some r =>
      match r_channel r with
      | None => None
      | Some ch =>
          match s with
          | Application => if is_receive (o_action o) then Some ch else None
          | User => if is_send (o_action o) then Some ch else None
          end
      end
  end.
(** controller.go:53-62 *)
Definition is_controller_receive (s : side) (o : operation) : bool :=
  match s with
  | Application => is_receive (o_action o)
  | User => is_send (o_action o)
  end.
(** controller.go:64-73 *)
Definition is_controller_send (s : side) (o : operation) : bool :=
  match s with
  | Application => is_send (o_action o)
  | User => is_receive (o_action o)
  end.

(** common.go:9-14 *)
Record action_operations := mkAO {
  send_count : nat; receive_count : nat;
  receive : gmap string gop; send : gmap string gop }.

(** specification.go:181-195 [GetOperationCountByAction] *)
Definition count_by_action (ops : list (string * operation)) : nat * nat :=
  fold_left (fun '(s, r) (ko : string * operation) =>
    ((if is_send (o_action ko.2) then S s else s), (if is_receive (o_action ko.2) then S r else r))) ops (0, 0)%nat.

(** common.go:33-49: one round of the loop. *)
Definition add_operation (s : side) (ao : gmap string gop * gmap string gop) (ko : string * operation)
    : gmap string gop * gmap string gop :=
  let '(rc, sd) := ao in
  let '(name, o) := ko in
  let rc := if is_controller_receive s o then <[name := GOp o]> rc else rc in
  let sd := if is_controller_send s o then <[name := GOp o]> sd else sd in
  let sd := match should_respond s o with Some ch => <[ch_name ch := GReply o ch]> sd | None => sd end in
  (rc, sd).

(** common.go:17-52 [NewActionOperations]; [ops]: the operations in the order of the iteration. *)
Definition new_action_operations (s : side) (ops : list (string * operation)) : action_operations :=
  let '(sc, rc) := count_by_action ops in
  let '(rcv, snd) := fold_left (add_operation s) ops (∅, ∅) in
  match s with
  | Application => mkAO sc rc rcv snd
  | User => mkAO rc sc rcv snd
  end.

(** channel.go:156-161 [GetMessage]: the first message of one iteration over the map. *)
Definition channel_get_message (order : list nat) : option nat := head order.
(** operation.go:186-192 [GetMessage], [order]: the order in which the messages of the channel are iterated. *)
Definition get_message (g : gop) (order : list nat) : option nat :=
  match g with
  | GOp o => match o_messages o with m :: _ => Some m | [] => channel_get_message order end
  | GReply _ _ => channel_get_message order
  end.
Definition gop_channel (g : gop) : channel := match g with GOp o => o_channel o | GReply _ ch => ch end.

(** * Version 2 *)

(** A channel of version 2 (v2/channel.go): whether Publish and Subscribe are present. *)
Record channel2 := mkChannel2 { c2_publish : bool; c2_subscribe : bool }.

(** v2/controller.go:60-69 *)
Definition is_subscribe_channel (s : side) (c : channel2) : bool :=
  match s with Application => c2_publish c | User => c2_subscribe c end.
(** v2/controller.go:71-80 *)
Definition is_publish_channel (s : side) (c : channel2) : bool :=
  match s with Application => c2_subscribe c | User => c2_publish c end.
(** v2/specification.go:112-126 [GetPublishSubscribeCount] *)
Definition publish_subscribe_count (cs : list (string * channel2)) : nat * nat :=
  fold_left (fun '(p, s) (kc : string * channel2) =>
    ((if c2_publish kc.2 then S p else p), (if c2_subscribe kc.2 then S s else s))) cs (0, 0)%nat.
(** v2/controller.go:21-45 *)
Record controller2 := mkController2 {
  method_count : nat; subscribe_channels : gmap string channel2; publish_channels : gmap string channel2 }.
Definition new_controller2 (s : side) (cs : list (string * channel2)) : controller2 :=
  let '(p, sb) := publish_subscribe_count cs in
  let '(sub, pub) := fold_left (fun '(sub, pub) (kc : string * channel2) =>
      ((if is_subscribe_channel s kc.2 then <[kc.1 := kc.2]> sub else sub),
       (if is_publish_channel s kc.2 then <[kc.1 := kc.2]> pub else pub))) cs (∅, ∅) in
  mkController2 (match s with Application => p | User => sb end) sub pub.
(** v2/subscriber.go:19-39 *)
Definition new_subscriber2 (s : side) (cs : list (string * channel2)) : nat * gmap string channel2 :=
  let '(p, sb) := publish_subscribe_count cs in
  (match s with Application => p | User => sb end,
   fold_left (fun m (kc : string * channel2) =>
     match s with
     | Application => if c2_publish kc.2 then <[kc.1 := kc.2]> m else m
     | User => if c2_subscribe kc.2 then <[kc.1 := kc.2]> m else m
     end) cs ∅).
