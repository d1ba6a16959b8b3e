(** Where an empty entry of a document matters.
    The places are those of the document: objects of a kind (named as in the AsyncAPI specification) and their keys.
    A key is taken up to case, as encoding/json does. *)
From stdpp Require Import gmap list strings.
From Coq Require Import Ascii String.
From Verif.Model Require Import GoStrings Reference Parser Decoding.
Local Open Scope string_scope.

(** [x] is the value of the key [k]. *)
Definition has (k : string) (kvs : list (string * json)) (x : json) : Prop :=
  exists k', (k', x) ∈ kvs /\ fold k' = fold k.
(** [e] is a value of the map, or an element of the list, [x]. *)
Definition entry (x e : json) : Prop :=
  match x with
  | JObj es => exists k, (k, e) ∈ es
  | JArr l => e ∈ l
  | _ => False
  end.

(** No key is given twice: up to case in what is read as a structure, exactly in what is read as a map. *)
Inductive tidy (fields : string -> list (string * ty)) : ty -> json -> Prop :=
| tidy_ptr t j : tidy fields t j -> tidy fields (TPtr t) j
| tidy_slice t l : (forall j, j ∈ l -> tidy fields t j) -> tidy fields (TSlice t) (JArr l)
| tidy_map t kvs :
    NoDup (map fst kvs) -> (forall k j, (k, j) ∈ kvs -> tidy fields t j) -> tidy fields (TMap t) (JObj kvs)
| tidy_struct n kvs :
    NoDup (map (fun kj => fold kj.1) kvs) ->
    (forall k j f t, (k, j) ∈ kvs -> find_field (fields n) k = Some (f, t) -> tidy fields t j) ->
    tidy fields (TStruct n) (JObj kvs)
| tidy_null t : tidy fields t JNull
| tidy_bool t b : tidy fields t (JBool b)
| tidy_num t n : tidy fields t (JNum n)
| tidy_str t s : tidy fields t (JStr s)
| tidy_any j : tidy fields TAny j.

(** The keys under which an object of a kind has another one, several ones, or several ones that may not be null:
    (kind, key, kind of what is there). *)
Record places := mkPlaces {
  one : list (string * string * string);
  several : list (string * string * string);
  needed : list (string * string * string);
}.

(** [y], of kind [o'], stands in [j], of kind [o]. *)
Inductive stands (P : places) : string -> json -> string -> json -> Prop :=
| stands_here o j : stands P o j o j
| stands_one o kvs k o1 x o' y :
    (o, k, o1) ∈ one P -> has k kvs x -> stands P o1 x o' y -> stands P o (JObj kvs) o' y
| stands_several o kvs k o1 x e o' y :
    (o, k, o1) ∈ several P \/ (o, k, o1) ∈ needed P -> has k kvs x -> entry x e -> stands P o1 e o' y ->
    stands P o (JObj kvs) o' y.

(** An entry that may not be null is. *)
Definition null_entry (P : places) (doc : json) : Prop :=
  exists o kvs k o' x,
    stands P "Specification" doc o (JObj kvs) /\ (o, k, o') ∈ needed P /\ has k kvs x /\ entry x JNull.

(** ** Version 2 *)
Definition places2 : places := mkPlaces
  [("Specification", "components", "Components");
   ("Channel", "subscribe", "Operation"); ("Channel", "publish", "Operation");
   ("Operation", "message", "Message");
   ("Message", "payload", "Schema"); ("Message", "headers", "Schema");
   ("Schema", "items", "Schema"); ("Schema", "additionalProperties", "Schema")]
  []
  [("Specification", "channels", "Channel");
   ("Channel", "parameters", "Parameter");
   ("Components", "schemas", "Schema"); ("Components", "messages", "Message");
   ("Components", "parameters", "Parameter");
   ("Message", "oneOf", "Message");
   ("Schema", "properties", "Schema"); ("Schema", "anyOf", "Schema"); ("Schema", "oneOf", "Schema");
   ("Schema", "allOf", "Schema")].

(** The message of an operation is a reference with less than three slashes. *)
Definition slashes (s : string) : nat := List.length (List.filter (Ascii.eqb "/") (list_ascii_of_string s)).
Definition short_reference (operation : json) : Prop :=
  exists kvs ms r, operation = JObj kvs /\ has "message" kvs (JObj ms) /\ has "$ref" ms (JStr r) /\ r <> "" /\
    (slashes r < 3)%nat.

(** The location of the correlation identifier of a message. *)
Definition location (message : json) (l : string) : Prop :=
  exists kvs cs, message = JObj kvs /\ has "correlationId" kvs (JObj cs) /\ has "location" cs (JStr l).
(** It points into a part of the message, and there is no path in it. *)
Definition no_path (message : json) : Prop :=
  exists l r, location message l /\ (l = "$message.header#" ++ r \/ l = "$message.payload#" ++ r) /\ slashes l = O.

(** ** Version 3 *)
(** The schema that a property on the way of a location has, not the last one, is null. *)
Inductive null_on_the_way : list string -> json -> Prop :=
| null_here p q r kvs ps :
    has "properties" kvs (JObj ps) -> (p, JNull) ∈ ps -> null_on_the_way (p :: q :: r) (JObj kvs)
| null_below p q r kvs ps x :
    has "properties" kvs (JObj ps) -> (p, x) ∈ ps -> null_on_the_way (q :: r) x ->
    null_on_the_way (p :: q :: r) (JObj kvs).
(** [l] is a location in the part [k] of a message, with this path. *)
Definition leads (l k : string) (path : list string) : Prop :=
  exists root, (k = "headers" /\ root = "$message.header#" \/ k = "payload" /\ root = "$message.payload#") /\
    exists r, l = root ++ r /\ path = tl (split "/" l).
Definition lost_location (message : json) : Prop :=
  exists kvs l k p path x, message = JObj kvs /\ location message l /\ leads l k (p :: path) /\ has k kvs x /\
    null_on_the_way (p :: path) x.

(** Where messages stand. *)
Definition messages3 : places := mkPlaces
  [("Specification", "components", "Components")]
  [("Specification", "channels", "Channel"); ("Components", "channels", "Channel");
   ("Components", "messages", "Message"); ("Channel", "messages", "Message"); ("Message", "oneOf", "Message")]
  [].
(** What is composed or applied: alternatives and traits. *)
Definition composed3 : places := mkPlaces
  [("Specification", "components", "Components");
   ("Operation", "channel", "Channel"); ("Operation", "reply", "OperationReply");
   ("OperationReply", "channel", "Channel");
   ("Message", "payload", "Schema"); ("Message", "headers", "Schema");
   ("MessageTrait", "payload", "Schema"); ("MessageTrait", "headers", "Schema");
   ("Schema", "items", "Schema"); ("Schema", "additionalProperties", "Schema"); ("Schema", "not", "Schema")]
  [("Specification", "channels", "Channel"); ("Specification", "operations", "Operation");
   ("Components", "schemas", "Schema"); ("Components", "replies", "OperationReply");
   ("Components", "channels", "Channel"); ("Components", "operations", "Operation");
   ("Components", "messages", "Message"); ("Components", "messageTraits", "MessageTrait");
   ("Channel", "messages", "Message"); ("Operation", "messages", "Message");
   ("OperationReply", "messages", "Message");
   ("Schema", "properties", "Schema"); ("Schema", "patternProperties", "Schema");
   ("Schema", "additionalItems", "Schema"); ("Schema", "contains", "Schema")]
  [("Operation", "traits", "OperationTrait"); ("Message", "traits", "MessageTrait");
   ("Message", "oneOf", "Message");
   ("Schema", "anyOf", "Schema"); ("Schema", "oneOf", "Schema"); ("Schema", "allOf", "Schema")].
(** Components and their properties. *)
Definition components3 : places := mkPlaces
  [("Specification", "components", "Components");
   ("Message", "payload", "Schema"); ("Message", "headers", "Schema"); ("Schema", "items", "Schema")]
  []
  [("Components", "schemas", "Schema"); ("Components", "messages", "Message");
   ("Schema", "properties", "Schema")].
(** Operations. *)
Definition operations_of3 : places := mkPlaces [] [] [("Specification", "operations", "Operation")].

(** No entry of a map or a list is null; the value of a key of a structure may be. *)
Inductive full (fields : string -> list (string * ty)) : ty -> json -> Prop :=
| full_ptr t j : full fields t j -> full fields (TPtr t) j
| full_slice t l : (forall j, j ∈ l -> j <> JNull /\ full fields t j) -> full fields (TSlice t) (JArr l)
| full_map t kvs : (forall k j, (k, j) ∈ kvs -> j <> JNull /\ full fields t j) -> full fields (TMap t) (JObj kvs)
| full_struct n kvs :
    (forall k j f t, (k, j) ∈ kvs -> find_field (fields n) k = Some (f, t) -> full fields t j) ->
    full fields (TStruct n) (JObj kvs)
| full_null t : full fields t JNull
| full_bool t b : full fields t (JBool b)
| full_num t n : full fields t (JNum n)
| full_str t s : full fields t (JStr s)
| full_any j : full fields TAny j.
