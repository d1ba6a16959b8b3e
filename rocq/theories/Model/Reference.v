(** Resolution of "$ref".
    Modelled code: pkg/asyncapi/v3/specification.go:62-79 (AddDependency), 653-752
    (getDependencyBasedOnRef, reference) and the Reference... accessors; pkg/asyncapi/v2/
    specification.go:49-65, 200-255; referenceFrom of v2/v3 schemas and messages
    (v3/schema.go:310-316, v3/message.go:385-398). *)
From stdpp Require Import gmap list strings.
From Coq Require Import Ascii String.
From Verif.Model Require Import GoStrings.
Local Open Scope string_scope.

(** Outcome of a call: a panic (index out of range, nil dereference), an error, a value. *)
Inductive res (A : Type) := Panic | Err | Ok (a : A).
Arguments Panic {A}. Arguments Err {A}. Arguments Ok {A} a.

(** Pointers are numbers, nil is [None]. The components of one kind are a map from names to
    pointers (a null entry is the same as no entry). *)
Record spec := mkSpec {
  comps : string -> gmap string nat;
  channels : gmap string nat;
  deps : gmap string nat;
}.

(** What the pointers point to, as far as references look into it. *)
Record world := mkWorld {
  specs : nat -> spec;
  schema_props : nat -> gmap string nat;
  msg_payload : nat -> option nat;
  msg_headers : nat -> option nat;
  chan_msgs : nat -> gmap string nat;
}.

(** The objects a reference may lead to: a (typed, possibly nil) pointer. *)
Inductive obj :=
| OSchema (p : option nat)
| OMessage (p : option nat)
| OChannel (p : option nat)
| OOther (kind : string) (p : option nat).

(** v3/specification.go:63-79, v2:49-65 (the cast of the added specification succeeding). *)
Definition add_dependency (path : string) (d : nat) (s : spec) : spec :=
  mkSpec (comps s) (channels s) (<[trim_prefix "./" path := d]> (deps s)).

(** v3 653-678, v2 200-225: the specification designated by the file part and the rest. *)
Definition get_dependency (w : world) (s : spec) (ref : string) : res (spec * string) :=
  match split "#" ref with
  | [file; r] =>
      if String.eqb file "" then Ok (s, r)
      else match deps s !! trim_prefix "./" file with
           | Some d => Ok (specs w d, r)
           | None => Err
           end
  | _ => Err
  end.

(** Schema.referenceFrom: a nil receiver is returned when the path is empty, dereferenced
    otherwise. *)
Fixpoint schema_from (w : world) (p : option nat) (path : list string) : res (option nat) :=
  match path with
  | [] => Ok p
  | x :: rest =>
      match p with
      | None => Panic
      | Some l => schema_from w (schema_props w l !! x) rest
      end
  end.

(** Message.referenceFrom (v3/message.go:385-398, v2/message.go:306-319): the receiver is only
    dereferenced for the two known fields. *)
Definition message_from (w : world) (p : option nat) (path : list string) : res obj :=
  match path with
  | [] => Ok (OMessage p)
  | x :: rest =>
      let down next := match schema_from w next rest with
                       | Ok q => Ok (OSchema q) | Err => Err | Panic => Panic
                       end in
      if String.eqb x "payload" then match p with None => Panic | Some m => down (msg_payload w m) end
      else if String.eqb x "header" then match p with None => Panic | Some m => down (msg_headers w m) end
      else down None
  end.

(** The component kinds of the switch, other than schemas and messages. *)
Definition v3_kinds : list string :=
  ["servers"; "channels"; "operations"; "securitySchemes"; "serverVariables"; "parameters";
   "correlationIds"; "replies"; "replyAddresses"; "externalDocs"; "tags"; "operationTraits";
   "messageTraits"; "serverBindings"; "channelBindings"; "operationBindings"; "messageBindings"].
Definition v2_kinds : list string := ["parameters"].

(** [refPath[i]] *)
Definition at_ {A} (path : list string) (i : nat) (f : string -> res A) : res A :=
  match path !! i with Some x => f x | None => Panic end.

(** v3 681-752 with [kinds = v3_kinds] and [v3 = true]; v2 227-255 with [kinds = v2_kinds] and
    [v3 = false] (no references into channels). *)
Definition reference (v3 : bool) (kinds : list string) (w : world) (s : spec) (ref : string) : res obj :=
  match get_dependency w s ref with
  | Panic => Panic
  | Err => Err
  | Ok (used, r) =>
      let path := split "/" (trim_prefix "/" r) in
      at_ path 0 (fun p0 =>
        if String.eqb p0 "components" then
          at_ path 1 (fun kind =>
            if String.eqb kind "schemas" then
              at_ path 2 (fun n =>
                match schema_from w (comps used "schemas" !! n) (drop 3 path) with
                | Ok q => Ok (OSchema q) | Err => Err | Panic => Panic
                end)
            else if String.eqb kind "messages" then
              at_ path 2 (fun n => message_from w (comps used "messages" !! n) (drop 3 path))
            else if bool_decide (kind ∈ kinds) then
              at_ path 2 (fun n =>
                Ok ((if String.eqb kind "channels" then OChannel else OOther kind) (comps used kind !! n)))
            else Err)
        else if (v3 && String.eqb p0 "channels")%bool then
          if (List.length path <? 3)%nat then at_ path 1 (fun n => Ok (OChannel (channels used !! n)))
          else at_ path 1 (fun n => at_ path 2 (fun what =>
            if String.eqb what "messages" then
              match channels used !! n with
              | None => Panic
              | Some c => at_ path 3 (fun m => message_from w (chan_msgs w c !! m) (drop 4 path))
              end
            else Err))
        else Err)
  end.

(** The accessors (ReferenceSchema, ReferenceMessage, ...): another type or a nil pointer is an
    error. *)
Definition non_nil (p : option nat) : res nat := match p with Some l => Ok l | None => Err end.
Definition as_schema (o : res obj) : res nat :=
  match o with Ok (OSchema p) => non_nil p | Ok _ => Err | Err => Err | Panic => Panic end.
Definition as_message (o : res obj) : res nat :=
  match o with Ok (OMessage p) => non_nil p | Ok _ => Err | Err => Err | Panic => Panic end.
Definition as_channel (o : res obj) : res nat :=
  match o with Ok (OChannel p) => non_nil p | Ok _ => Err | Err => Err | Panic => Panic end.
Definition as_other (kind : string) (o : res obj) : res nat :=
  match o with
  | Ok (OOther k p) => if String.eqb k kind then non_nil p else Err
  | Ok _ => Err | Err => Err | Panic => Panic
  end.

Definition reference3 := reference true v3_kinds.
Definition reference2 := reference false v2_kinds.
