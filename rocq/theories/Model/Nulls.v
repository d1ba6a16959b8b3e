(** Documents with empty entries: a key of a map, or an element of a list, whose value is null (in YAML, a key
    with nothing after it). encoding/json stores a nil pointer for it (Decoding.v).
    Modelled code: which pointers the walks over a document go through, and whether they test them for nil:
    pkg/asyncapi/v2: specification.go:76-91, channel.go:22-55, operation.go:25-38, message.go:58-82, 116-173,
    209-306, components.go:16-38, schema.go:63-108, 162-173, 185-193, 205-213, 231-239, 257-265, 283-291,
    parameter.go:22-26 (generateMetadata); pkg/asyncapi/v3: the generateMetadata and setDependencies functions of
    specification.go, components.go, channel.go, operation.go, operation_reply.go, message.go, message_trait.go and
    schema.go; extensions.go:37-102 (the collection of imports) and specification.go:181-195 (the count of
    operations).
    Simplified: a walk is whether it gets to a place where it panics, if no error stops it before; what the walks
    write is left out, but for the fields that they make for locations (they are never null). So are the panics of
    later steps on what other steps have linked or merged: a reference to a schema that has a null property when it
    is merged (v3/schema.go:452), null tags and securities when traits are applied (v3/tag.go:63), references to what is null
    (v3/schema.go:302), replies without a channel or with an address (Operations.v, C71). *)
From stdpp Require Import gmap list strings.
From Coq Require Import ZArith Ascii String.
From Verif.Model Require Import GoStrings Reference Parser Decoding.
Local Open Scope string_scope.

(** What a walk does with a field: go into the structure if it is there, go into each entry that is not nil, or go
    into each entry without testing it. *)
Inductive how :=
| Part (n : string)
| Entries (n : string)
| EntriesUsed (n : string).

(** The fields that a walk goes through, by structure. *)
Definition walk := list (string * list (string * how)).
Definition visit (w : walk) (n f : string) : option how := assoc f (default [] (assoc n w)).

Definition str_of (v : value) : string := match v with VStr s => s | _ => "" end.

Section walking.
  (** What the walk goes through, and where it panics on a structure itself. *)
  Context (w : walk) (local : string -> list (string * value) -> bool).

  (** Whether the walk panics on a structure of the name. *)
  Fixpoint panics (v : value) (n : string) {struct v} : bool :=
    local n (fields_of v) ||
    match v with
    | VStruct fs =>
        (fix through (fs : list (string * value)) : bool :=
           match fs with
           | [] => false
           | (f, x) :: r =>
               match visit w n f with
               | None => false
               | Some (Part m) =>
                   match x with VPtr y => panics y m | VStruct _ => panics x m | _ => false end
               | Some (Entries m) =>
                   match x with
                   | VMap es =>
                       (fix each (es : list (string * value)) : bool :=
                          match es with
                          | [] => false
                          | (_, e) :: r => match e with VPtr y => panics y m | _ => false end || each r
                          end) es
                   | VSlice es =>
                       (fix each (es : list value) : bool :=
                          match es with
                          | [] => false
                          | e :: r => match e with VPtr y => panics y m | _ => false end || each r
                          end) es
                   | _ => false
                   end
               | Some (EntriesUsed m) =>
                   match x with
                   | VMap es =>
                       (fix each (es : list (string * value)) : bool :=
                          match es with
                          | [] => false
                          | (_, e) :: r => match e with VPtr y => panics y m | _ => true end || each r
                          end) es
                   | VSlice es =>
                       (fix each (es : list value) : bool :=
                          match es with
                          | [] => false
                          | e :: r => match e with VPtr y => panics y m | _ => true end || each r
                          end) es
                   | _ => false
                   end
               end || through r
           end) fs
    | _ => false
    end.
End walking.

(** ** Version 2: generateMetadata. The methods begin with [x.Name = ...], without testing x. *)
Definition metadata2_walk : walk :=
  [ (* specification.go:84-90; Components is no pointer *)
    ("Specification", [("channels", EntriesUsed "Channel"); ("components", Part "Components")]);
    (* channel.go:36-52 *)
    ("Channel", [("subscribe", Part "Operation"); ("publish", Part "Operation");
                 ("parameters", EntriesUsed "Parameter")]);
    (* operation.go:37; Message is no pointer *)
    ("Operation", [("message", Part "Message")]);
    (* message.go:63-67, 116-126, 164-173 *)
    ("Message", [("payload", Part "Schema"); ("headers", Part "Schema"); ("oneOf", EntriesUsed "Message")]);
    (* components.go:19-35 *)
    ("Components", [("schemas", EntriesUsed "Schema"); ("messages", EntriesUsed "Message");
                    ("parameters", EntriesUsed "Parameter")]);
    (* schema.go:162-173, 185-193, 205-213, 231-239, 257-265, 283-291 *)
    ("Schema", [("properties", EntriesUsed "Schema"); ("items", Part "Schema"); ("anyOf", EntriesUsed "Schema");
                ("oneOf", EntriesUsed "Schema"); ("allOf", EntriesUsed "Schema");
                ("additionalProperties", Part "Schema")]) ].

(** The location of the correlation identifier of a message. *)
Definition location_of (fs : list (string * value)) : string :=
  str_of (get "location" (fields_of (pointee (get "correlationID" fs)))).

(** The part of the message that the location points into (v2/message.go:240-248, v3/message.go:311-319). *)
Definition located_in (l : string) : option string :=
  if has_prefix "$message.header#" l then Some "headers"
  else if has_prefix "$message.payload#" l then Some "payload" else None.

(** operation.go:31: [strings.Split(ref, "/")[3]]; message.go:209-217, 280-306: without a "/" in the location there
    is no parent, and IsFieldRequired is called on a nil pointer. The properties on the way are not null: the walk
    has gone through them before. *)
Definition metadata2_local (n : string) (fs : list (string * value)) : bool :=
  if String.eqb n "Operation" then
    let r := str_of (get "$ref" (fields_of (get "message" fs))) in
    negb (String.eqb r "") && Nat.leb (List.length (split "/" r)) 3
  else if String.eqb n "Message" then
    match located_in (location_of fs) with
    | Some _ => match tl (split "/" (location_of fs)) with [] => true | _ => false end
    | None => false
    end
  else false.

Definition metadata2 (v : value) : bool := panics metadata2_walk metadata2_local v "Specification".

(** ** Version 3: generateMetadata. The methods begin with [if x == nil { return }]; only the ways to messages are
    listed, what happens on the others cannot panic. *)
Definition metadata3_walk : walk :=
  [ (* specification.go:98, 113 *)
    ("Specification", [("components", Part "Components"); ("channels", Entries "Channel")]);
    (* components.go:110, 124 *)
    ("Components", [("channels", Entries "Channel"); ("messages", Entries "Message")]);
    (* channel.go:55 *)
    ("Channel", [("messages", Entries "Message")]);
    (* message.go:239 *)
    ("Message", [("oneOf", Entries "Message")]) ].

(** message.go:353-380, downToLocation: the parent of the next step is the child, which may be a null property; a
    property that is missing is made. *)
Fixpoint down (path : list string) (schema : value) : bool :=
  match path with
  | p :: (_ :: _) as rest =>
      match assoc p (members_of (get "properties" (fields_of schema))) with
      | None => false
      | Some (VPtr c) => down rest c
      | Some _ => true
      end
  | _ => false
  end.

(** message.go:111-113, 285-300, 303-351 *)
Definition metadata3_local (n : string) (fs : list (string * value)) : bool :=
  if String.eqb n "Message" then
    match located_in (location_of fs) with
    | Some part =>
        match tl (split "/" (location_of fs)) with
        | [] => true
        | path => down path (pointee (get part fs))
        end
    | None => false
    end
  else false.

Definition metadata3 (v : value) : bool := panics metadata3_walk metadata3_local v "Specification".

(** ** Version 3: setDependencies. The methods test their receiver, but what is merged is dereferenced: [*v]
    (schema.go:252, 267, 282, message.go:256), as are traits: [t.Follow()] (message.go:279, operation.go:164). *)
Definition dependencies3_walk : walk :=
  [ (* specification.go:146, 163, 170 *)
    ("Specification", [("components", Part "Components"); ("channels", Entries "Channel");
                       ("operations", Entries "Operation")]);
    (* components.go:74, 86, 205, 212, 219, 275 *)
    ("Components", [("schemas", Entries "Schema"); ("replies", Entries "OperationReply");
                    ("channels", Entries "Channel"); ("operations", Entries "Operation");
                    ("messages", Entries "Message"); ("messageTraits", Entries "MessageTrait")]);
    (* channel.go:96 *)
    ("Channel", [("messages", Entries "Message")]);
    (* operation.go:99, 159, 126, 133 *)
    ("Operation", [("channel", Part "Channel"); ("traits", EntriesUsed "OperationTrait");
                   ("messages", Entries "Message"); ("reply", Part "OperationReply")]);
    (* operation_reply.go:53, 58 *)
    ("OperationReply", [("channel", Part "Channel"); ("messages", Entries "Message")]);
    (* message.go:128, 235, 249-259, 275-282 *)
    ("Message", [("payload", Part "Schema"); ("headers", Part "Schema"); ("oneOf", EntriesUsed "Message");
                 ("traits", EntriesUsed "MessageTrait")]);
    (* message_trait.go:87, 90 *)
    ("MessageTrait", [("headers", Part "Schema"); ("payload", Part "Schema")]);
    (* schema.go:183, 190, 198, 204, 211, 216, 245-288, 238 *)
    ("Schema", [("properties", Entries "Schema"); ("patternProperties", Entries "Schema");
                ("additionalProperties", Part "Schema"); ("additionalItems", Entries "Schema");
                ("items", Part "Schema"); ("contains", Entries "Schema"); ("anyOf", EntriesUsed "Schema");
                ("oneOf", EntriesUsed "Schema"); ("allOf", EntriesUsed "Schema"); ("not", Part "Schema")]) ].

Definition nowhere (n : string) (fs : list (string * value)) : bool := false.
Definition dependencies3 (v : value) : bool := panics dependencies3_walk nowhere v "Specification".

(** ** Version 3: the collection of imports (extensions.go:37-45, 75-97), done for every generation. *)
Definition imports3_walk : walk :=
  [ ("Specification", [("components", Part "Components")]);
    ("Components", [("schemas", EntriesUsed "Schema"); ("messages", EntriesUsed "Message")]);
    ("Message", [("payload", Part "Schema"); ("headers", Part "Schema")]);
    ("Schema", [("properties", EntriesUsed "Schema"); ("items", Part "Schema")]) ].
Definition imports3 (v : value) : bool := panics imports3_walk nowhere v "Specification".

(** ** Version 3: the operations are counted and sorted when an application or a user is generated
    (specification.go:181-195, generators/v3/common.go:18-50). *)
Definition operations3_walk : walk := [("Specification", [("operations", EntriesUsed "Operation")])].
Definition operations3 (v : value) : bool := panics operations3_walk nowhere v "Specification".
