(** The linking of the objects of a document (version 3): setDependencies of every object but the schemas, which are in Schema.v.
    Modelled code: setDependencies and setReference in pkg/asyncapi/v3: specification.go:127-175, components.go:64-101, 184-300, info.go, server.go,
    server_variable.go, channel.go, parameter.go, message.go:122-300, message_trait.go, message_example.go, operation.go:87-192, operation_trait.go,
    operation_reply.go, operation_reply_address.go, correlation_id.go, tag.go, external_documentation.go, security_scheme.go and the bindings.
    Simplified: the linking of a schema either succeeds, fails or panics and is given; merging alternatives and traits into messages and operations is
    left out (Message.v) but for correlation identifiers, as are null entries of lists and maps. *)
From stdpp Require Import gmap list strings.
From Coq Require Import Ascii String.
From Verif.Model Require Import GoStrings Reference.
Local Open Scope string_scope.

Inductive kind :=
| KSpecification | KComponents | KInfo | KServer | KServerVariable | KChannel | KParameter | KMessage | KMessageTrait | KMessageExample
| KOperation | KOperationTrait | KReply | KReplyAddress | KCorrelationID | KTag | KDocs | KSecurity
| KServerBindings | KChannelBindings | KOperationBindings | KMessageBindings | KSchema.

(** An object: its address, its kind, its "$ref", its location (of correlation identifiers and reply addresses), and its fields that hold objects. A
    pointer, a list and a map all are lists of objects; the order in which Go visits a map is that of the list. *)
Inductive object := Object (id : nat) (k : kind) (ref location : string) (fields : list (string * list object)).
Definition o_id (o : object) : nat := let 'Object i _ _ _ _ := o in i.
Definition o_kind (o : object) : kind := let 'Object _ k _ _ _ := o in k.
Definition o_ref (o : object) : string := let 'Object _ _ r _ _ := o in r.
Definition o_location (o : object) : string := let 'Object _ _ _ l _ := o in l.
Definition o_fields (o : object) : list (string * list object) := let 'Object _ _ _ _ f := o in f.
Fixpoint entry {A} (fs : list (string * list A)) (f : string) : list A :=
  match fs with [] => [] | (n, l) :: r => if String.eqb n f then l else entry r f end.

(** The fields of the Go structures that hold objects, by their JSON keys: specification.go:27-34, components.go:9-27, info.go:14-15, server.go:16-20,
    channel.go:24-31, message.go:39-53, message_trait.go:9-20, operation.go:30-40, operation_trait.go:12-15, operation_reply.go:9-11, tag.go:11. *)
Definition declares (k : kind) : list (string * kind) :=
  match k with
  | KSpecification => [("info", KInfo); ("servers", KServer); ("channels", KChannel); ("operations", KOperation); ("components", KComponents)]
  | KComponents =>
      [("schemas", KSchema); ("servers", KServer); ("channels", KChannel); ("operations", KOperation); ("messages", KMessage);
       ("securitySchemes", KSecurity); ("serverVariables", KServerVariable); ("parameters", KParameter); ("correlationIds", KCorrelationID);
       ("replies", KReply); ("replyAddresses", KReplyAddress); ("externalDocs", KDocs); ("tags", KTag); ("operationTraits", KOperationTrait);
       ("messageTraits", KMessageTrait); ("serverBindings", KServerBindings); ("channelBindings", KChannelBindings);
       ("operationBindings", KOperationBindings); ("messageBindings", KMessageBindings)]
  | KInfo => [("tags", KTag); ("externalDocs", KDocs)]
  | KServer => [("variables", KServerVariable); ("security", KSecurity); ("tags", KTag); ("externalDocs", KDocs); ("bindings", KServerBindings)]
  | KChannel =>
      [("messages", KMessage); ("servers", KServer); ("parameters", KParameter); ("tags", KTag); ("externalDocs", KDocs); ("bindings", KChannelBindings)]
  | KMessage =>
      [("headers", KSchema); ("payload", KSchema); ("oneOf", KMessage); ("correlationID", KCorrelationID); ("tags", KTag); ("externalDocs", KDocs);
       ("bindings", KMessageBindings); ("examples", KMessageExample); ("traits", KMessageTrait)]
  | KMessageTrait =>
      [("headers", KSchema); ("payload", KSchema); ("correlationID", KCorrelationID); ("tags", KTag); ("externalDocs", KDocs);
       ("bindings", KMessageBindings); ("examples", KMessageExample)]
  | KOperation =>
      [("channel", KChannel); ("security", KSecurity); ("tags", KTag); ("externalDocs", KDocs); ("bindings", KOperationBindings);
       ("traits", KOperationTrait); ("messages", KMessage); ("reply", KReply)]
  | KOperationTrait => [("security", KSecurity); ("tags", KTag); ("externalDocs", KDocs); ("bindings", KOperationBindings)]
  | KReply => [("address", KReplyAddress); ("channel", KChannel); ("messages", KMessage)]
  | KTag => [("externalDocs", KDocs)]
  | _ => []
  end.

(** What setDependencies does, in order: link the object itself ([Own]), go into a field ([Into]), look for the field of the location ([Locate],
    operation_reply_address.go:52-57), make the operation of the reply ([Answer], operation.go:135-137). *)
Inductive step := Own | Into (field : string) | Locate | Answer.
Definition steps (k : kind) : list step :=
  match k with
  | KSpecification => [Into "components"; Into "info"; Into "servers"; Into "channels"; Into "operations"]
  | KComponents =>
      [Into "schemas"; Into "servers"; Into "channels"; Into "operations"; Into "messages"; Into "securitySchemes"; Into "serverVariables";
       Into "parameters"; Into "correlationIds"; Into "externalDocs"; Into "tags"; Into "operationTraits"; Into "messageTraits"; Into "serverBindings";
       Into "channelBindings"; Into "operationBindings"; Into "messageBindings"; Into "replies"; Into "replyAddresses"]
  | KInfo => [Into "tags"; Into "externalDocs"]
  | KServer => [Own; Into "variables"; Into "security"; Into "tags"; Into "externalDocs"; Into "bindings"]
  | KChannel => [Own; Into "messages"; Into "servers"; Into "parameters"; Into "tags"; Into "externalDocs"; Into "bindings"]
  | KMessage =>
      [Own; Into "payload"; Into "headers"; Into "oneOf"; Into "tags"; Into "externalDocs"; Into "bindings"; Into "examples"; Into "traits"]
  | KMessageTrait => [Own; Into "headers"; Into "payload"; Into "tags"; Into "externalDocs"; Into "bindings"; Into "examples"]
  | KOperation =>
      [Own; Into "channel"; Into "security"; Into "externalDocs"; Into "bindings"; Into "traits"; Into "messages"; Into "reply"; Answer]
  | KOperationTrait => [Own; Into "security"; Into "externalDocs"; Into "tags"; Into "bindings"]
  | KReply => [Own; Into "channel"; Into "messages"; Into "address"]
  | KReplyAddress => [Own; Locate]
  | KTag => [Into "externalDocs"; Own]
  | KSchema => []
  | _ => [Own]
  end.

(** Where an object is linked to: ReferenceTo, by the address of the object. *)
Notation links := (gmap nat nat).

Section linking.
  Variable w : world.
  (** The objects by their addresses, and what becomes of the linking of a schema. *)
  Variable at_address : nat -> option object.
  Variable schema : nat -> res unit.

  Section document.
    Variable s : spec.

    (** The accessor that setDependencies calls: specification.go:198-651. No reference leads to an example (specification.go:681-752), and the
        accessor of correlation identifiers is that of channels (correlation_id.go:39). *)
    Definition target (k : kind) (ref : string) : res nat :=
      let o := reference3 w s ref in
      match k with
      | KServer => as_other "servers" o
      | KServerVariable => as_other "serverVariables" o
      | KChannel => as_channel o
      | KParameter => as_other "parameters" o
      | KMessage => as_message o
      | KMessageTrait => as_other "messageTraits" o
      | KMessageExample => as_other "messageExamples" o
      | KOperation => as_other "operations" o
      | KOperationTrait => as_other "operationTraits" o
      | KReply => as_other "replies" o
      | KReplyAddress => as_other "replyAddresses" o
      | KCorrelationID => as_channel o
      | KTag => as_other "tags" o
      | KDocs => as_other "externalDocs" o
      | KSecurity => as_other "securitySchemes" o
      | KServerBindings => as_other "serverBindings" o
      | KChannelBindings => as_other "channelBindings" o
      | KOperationBindings => as_other "operationBindings" o
      | KMessageBindings => as_other "messageBindings" o
      | KSchema => as_schema o
      | KSpecification | KComponents | KInfo => Err
      end.

    (** The Follow methods, one step: channel.go:148-153, operation.go:238-243. *)
    Definition followed (l : links) (o : object) : object :=
      match l !! o_id o with Some p => default o (at_address p) | None => o end.

    (** message.go:305-380: the parent of the location is nil when nothing comes after the "#", and reading its list of required fields panics. *)
    Definition parent_of (location : string) : res unit :=
      if ((has_prefix "$message.header#" location || has_prefix "$message.payload#" location) && (List.length (split "/" location) <=? 1)%nat)%bool
      then Panic else Ok tt.
    (** operation_reply_address.go:62-76, operation.go:186-192, channel.go:156-161; for replies and addresses of the components the operation is an
        empty one (components.go:84, 91), whose channel is nil. *)
    Definition locate (op : option object) (location : string) (l : links) : res unit :=
      if String.eqb location "" then Ok tt else
      match op with
      | None => Panic
      | Some op =>
          match entry (o_fields (followed l op)) "messages", entry (o_fields (followed l op)) "channel" with
          | _ :: _, _ => parent_of location
          | [], [] => Panic
          | [], ch :: _ => match entry (o_fields (followed l ch)) "messages" with [] => Err | _ :: _ => parent_of location end
          end
      end.
    (** operation.go:170-183: the channel of the reply is followed. *)
    Definition answer (op : object) : res unit :=
      match entry (o_fields op) "reply" with
      | [] => Ok tt
      | r :: _ => match entry (o_fields r) "channel" with [] => Panic | _ :: _ => Ok tt end
      end.

    Notation visit := (option object -> links -> res links).
    Fixpoint each (vs : list visit) (op : option object) (l : links) : res links :=
      match vs with
      | [] => Ok l
      | v :: r => match v op l with Ok l => each r op l | Err => Err | Panic => Panic end
      end.
    Definition keep (r : res unit) (l : links) : res links := match r with Ok _ => Ok l | Err => Err | Panic => Panic end.
    (** The operation given to replies and their addresses: operation.go:131, operation_reply.go:66. *)
    Definition operation_for (o : object) (op : option object) : option object :=
      match o_kind o with KOperation => Some o | KReply => op | _ => None end.
    Definition do_step (o : object) (fs : list (string * list visit)) (op : option object) (st : step) (l : links) : res links :=
      match st with
      | Own =>
          if String.eqb (o_ref o) "" then Ok l
          else match target (o_kind o) (o_ref o) with Ok p => Ok (<[o_id o := p]> l) | Err => Err | Panic => Panic end
      | Into f => each (entry fs f) (operation_for o op) l
      | Locate => keep (locate op (o_location o) l) l
      | Answer => keep (answer o) l
      end.
    Fixpoint do_steps (o : object) (fs : list (string * list visit)) (op : option object) (ss : list step) (l : links) : res links :=
      match ss with
      | [] => Ok l
      | st :: r => match do_step o fs op st l with Ok l => do_steps o fs op r l | Err => Err | Panic => Panic end
      end.
    Fixpoint link (o : object) : visit :=
      let 'Object i k r loc fields := o in
      match k with
      | KSchema => fun _ l => keep (schema i) l
      | _ => fun op l => do_steps o (map (fun '(f, cs) => (f, map link cs)) fields) op (steps k) l
      end.
  End document.

  (** A document with those it refers to (specification.go:41-43, 133-140): they are linked first. *)
  Inductive file := File (s : spec) (root : object) (others : list file).
  Fixpoint set_all (f : file) (l : links) : res links :=
    let 'File s root others := f in
    match each (map (fun o (_ : option object) => set_all o) others) None l with
    | Ok l => link s root None l
    | Err => Err
    | Panic => Panic
    end.

  (** The correlation identifier of a message is its own or that of the first trait that has one: message.go:516-520, applied to what the traits lead to
      (message.go:279). *)
  Definition correlation_of (l : links) (m : object) : list object :=
    (entry (o_fields m) "correlationID" ++ List.concat (map (fun t => entry (o_fields (followed l t)) "correlationID") (entry (o_fields m) "traits")))%list.
  (** message.go:490-495, 599-601, correlation_id.go:50-53: whether the generated message has accessors for its correlation identifier. *)
  Definition have_correlation_id (l : links) (m : object) : bool :=
    match correlation_of l (followed l m) with
    | c :: _ => negb (String.eqb (o_location c) "")
    | [] => false
    end.
End linking.
