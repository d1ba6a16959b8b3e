(** The address of a reply, given by a field of the request.
    Modelled code: pkg/asyncapi/v3/operation_reply_address.go:36-75, operation.go:186-192, 238-244, channel.go:156-161,
    pkg/codegen/generators/v3/templates/controller.tmpl:265-278, 393-405, helpers.go:81-87 (the type of the request).
    The messages of a channel are given in the order in which the map is iterated, the channel and the operation are already followed. *)
From stdpp Require Import gmap list strings.
From Coq Require Import Ascii String.
From Verif.Model Require Import GoStrings Reference Slices Schema Location Message.
Local Open Scope string_scope.

(** An operation: its messages, and those of its channel. *)
Record operation := mkOperation { op_messages : list nat; op_channel : list nat }.
(** operation.go:186-192: the first message as it stands; channel.go:156-161: any message, followed. *)
Definition get_message (d : doc) (op : operation) : option nat :=
  match op_messages op, op_channel op with
  | m :: _, _ => Some m
  | [], m :: _ => Some (follow_message d m)
  | [], [] => None
  end.
(** helpers.go:81-87: the message whose type is generated for the request. *)
Definition request_type (d : doc) (op : operation) : option nat := option_map (follow_message d) (get_message d op).

(** operation_reply_address.go:61-75. *)
Definition location_required (location : string) (op : operation) (d : doc) : out (bool * doc) :=
  if String.eqb location "" then ODone (false, d)
  else match get_message d op with
       | None => OErr
       | Some m =>
           let '(p, ps, h) := create_tree location (m_parts (message d m)) (d_heap d) in
           match p with
           | Some parent => ODone (is_in_slice (s_required (cell h parent)) (List.last (split "/" location) ""),
                                   upd_message m (with_parts ps) (set_heap h d))
           | None => OPanic
           end
       end.

(** The address object; operation_reply_address.go:36-59: the location that is looked at is its own, also when it is a reference.
    The templates take the path from its own location as well. *)
Record address := mkAddress { ad_location : string; ad_refto : option string (* the location of the address it refers to *) }.
Definition address_required (a : address) (op : operation) (d : doc) : out (bool * doc) := location_required (ad_location a) op d.
Definition address_steps (a : address) : list string := attribute_steps (ad_location a).
