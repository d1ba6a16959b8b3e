(** What may be written in an AsyncAPI document, stated from the AsyncAPI specification (3.0.0 and
    2.6.0) and JSON Schema draft 07, and what of it the tool reads. Nothing here refers to the
    structures of the tool. *)
From stdpp Require Import list strings.
From Coq Require Import ZArith Ascii String.
From Verif.Model Require Import Parser Decoding.
Local Open Scope string_scope.

(** The shape of a JSON value: anything, a string, a boolean, a number, a non-negative integer (below
    2^64), null, an array, a free map, an object of a kind, an alternative, nothing at all. *)
Inductive shape :=
| AAny | AStr | ABool | ANum | ANat | ANull
| AList (s : shape) | AMap (s : shape) | AObj (kind : string) | AOr (a b : shape) | AFalse.

(** A grammar: the fixed fields of every kind of object. *)
Definition grammar := string -> list (string * shape).

(** A key of an extension: it begins with x- and is none of those that the tool defines. *)
Definition tool_extensions : list string := ["x-go-type"; "x-go-type-import"; "x-omitempty"].
Definition extension (k : string) : Prop :=
  (exists r, k = String.append "x-" r) /\ fold k ∉ tool_extensions.

(** [j] is of shape [s]. The keys of an object are fixed fields or extensions; no field is required
    here, so that parts of documents are covered too. *)
Inductive valid (g : grammar) : shape -> json -> Prop :=
| valid_any j : valid g AAny j
| valid_str s : valid g AStr (JStr s)
| valid_bool b : valid g ABool (JBool b)
| valid_num n : valid g ANum (JNum n)
| valid_nat z : (0 <= z < 2 ^ 64)%Z -> valid g ANat (JNum (Int z))
| valid_null : valid g ANull JNull
| valid_list s l : (forall j, j ∈ l -> valid g s j) -> valid g (AList s) (JArr l)
| valid_map s kvs : (forall k j, (k, j) ∈ kvs -> valid g s j) -> valid g (AMap s) (JObj kvs)
| valid_obj o kvs :
    (forall k j, (k, j) ∈ kvs -> extension k \/ exists s, (k, s) ∈ g o) ->
    (forall k j s, (k, j) ∈ kvs -> (k, s) ∈ g o -> valid g s j) ->
    valid g (AObj o) (JObj kvs)
| valid_left a b j : valid g a j -> valid g (AOr a b) j
| valid_right a b j : valid g b j -> valid g (AOr a b) j.

(** A schema is an object or a boolean (draft 07). *)
Definition a_schema : shape := AOr (AObj "Schema") ABool.
(** AsyncAPI 3: "Multi Format Schema Object | Schema Object | Reference Object". *)
Definition a_formatted : shape := AOr (AOr (AObj "Schema") ABool) (AObj "MultiFormatSchema").

(** The fields of a schema: JSON Schema draft 07, with those that AsyncAPI adds and those that the
    tool adds (README, "Extensions"). *)
Definition schema_fields : list (string * shape) :=
  [("$ref", AStr); ("$id", AStr); ("$schema", AStr); ("$comment", AStr);
   ("title", AStr); ("description", AStr); ("default", AAny); ("readOnly", ABool);
   ("writeOnly", ABool); ("examples", AList AAny);
   ("multipleOf", ANum); ("maximum", ANum); ("exclusiveMaximum", ANum);
   ("minimum", ANum); ("exclusiveMinimum", ANum);
   ("maxLength", ANat); ("minLength", ANat); ("pattern", AStr);
   ("additionalItems", a_schema); ("items", AOr a_schema (AList a_schema));
   ("maxItems", ANat); ("minItems", ANat); ("uniqueItems", ABool); ("contains", a_schema);
   ("maxProperties", ANat); ("minProperties", ANat); ("required", AList AStr);
   ("additionalProperties", a_schema); ("definitions", AMap a_schema);
   ("properties", AMap a_schema); ("patternProperties", AMap a_schema);
   ("dependencies", AMap (AOr a_schema (AList AStr))); ("propertyNames", a_schema);
   ("const", AAny); ("enum", AList AAny); ("type", AOr AStr (AList AStr)); ("format", AStr);
   ("contentMediaType", AStr); ("contentEncoding", AStr);
   ("if", a_schema); ("then", a_schema); ("else", a_schema);
   ("allOf", AList a_schema); ("anyOf", AList a_schema); ("oneOf", AList a_schema);
   ("not", a_schema);
   ("discriminator", AStr); ("externalDocs", AObj "ExternalDocumentation"); ("deprecated", ABool);
   ("x-go-type", AStr); ("x-go-type-import", AObj "GoTypeImport"); ("x-omitempty", ABool)].

Definition protocols : list (string * shape) :=
  [("http", AAny); ("ws", AAny); ("kafka", AAny); ("anypointmq", AAny); ("amqp", AAny);
   ("amqp1", AAny); ("mqtt", AAny); ("mqtt5", AAny); ("nats", AAny); ("jms", AAny); ("sns", AAny);
   ("solace", AAny); ("sqs", AAny); ("stomp", AAny); ("redis", AAny); ("mercure", AAny);
   ("ibmmq", AAny); ("googlepubsub", AAny); ("pulsar", AAny); ("$ref", AStr)].

(** AsyncAPI 3.0.0, "Schema" (the fixed fields of every object). An object that may be replaced by a
    reference has the field "$ref". *)
Definition asyncapi3_table : list (string * list (string * shape)) :=
  [("AsyncAPI",
    [("asyncapi", AStr); ("id", AStr); ("info", AObj "Info"); ("servers", AMap (AObj "Server"));
     ("defaultContentType", AStr); ("channels", AMap (AObj "Channel"));
     ("operations", AMap (AObj "Operation")); ("components", AObj "Components")]);
   ("Info",
    [("title", AStr); ("version", AStr); ("description", AStr); ("termsOfService", AStr);
     ("contact", AObj "Contact"); ("license", AObj "License"); ("tags", AList (AObj "Tag"));
     ("externalDocs", AObj "ExternalDocumentation")]);
   ("Contact", [("name", AStr); ("url", AStr); ("email", AStr)]);
   ("License", [("name", AStr); ("url", AStr)]);
   ("Server",
    [("host", AStr); ("protocol", AStr); ("protocolVersion", AStr); ("pathname", AStr);
     ("description", AStr); ("title", AStr); ("summary", AStr);
     ("variables", AMap (AObj "ServerVariable")); ("security", AList (AObj "SecurityScheme"));
     ("tags", AList (AObj "Tag")); ("externalDocs", AObj "ExternalDocumentation");
     ("bindings", AObj "ServerBindings"); ("$ref", AStr)]);
   ("ServerVariable",
    [("enum", AList AStr); ("default", AStr); ("description", AStr); ("examples", AList AStr);
     ("$ref", AStr)]);
   ("Channel",
    [("address", AOr AStr ANull); ("messages", AMap (AObj "Message")); ("title", AStr);
     ("summary", AStr); ("description", AStr); ("servers", AList (AObj "Server"));
     ("parameters", AMap (AObj "Parameter")); ("tags", AList (AObj "Tag"));
     ("externalDocs", AObj "ExternalDocumentation"); ("bindings", AObj "ChannelBindings");
     ("$ref", AStr)]);
   ("Operation",
    [("action", AStr); ("channel", AObj "Channel"); ("title", AStr); ("summary", AStr);
     ("description", AStr); ("security", AList (AObj "SecurityScheme")); ("tags", AList (AObj "Tag"));
     ("externalDocs", AObj "ExternalDocumentation"); ("bindings", AObj "OperationBindings");
     ("traits", AList (AObj "OperationTrait")); ("messages", AList (AObj "Message"));
     ("reply", AObj "OperationReply"); ("$ref", AStr)]);
   ("OperationTrait",
    [("title", AStr); ("summary", AStr); ("description", AStr);
     ("security", AList (AObj "SecurityScheme")); ("tags", AList (AObj "Tag"));
     ("externalDocs", AObj "ExternalDocumentation"); ("bindings", AObj "OperationBindings");
     ("$ref", AStr)]);
   ("OperationReply",
    [("address", AObj "OperationReplyAddress"); ("channel", AObj "Channel");
     ("messages", AList (AObj "Message")); ("$ref", AStr)]);
   ("OperationReplyAddress", [("description", AStr); ("location", AStr); ("$ref", AStr)]);
   ("Parameter",
    [("enum", AList AStr); ("default", AStr); ("description", AStr); ("examples", AList AStr);
     ("location", AStr); ("$ref", AStr)]);
   ("Message",
    [("headers", a_formatted); ("payload", a_formatted); ("correlationId", AObj "CorrelationID");
     ("contentType", AStr); ("name", AStr); ("title", AStr); ("summary", AStr);
     ("description", AStr); ("tags", AList (AObj "Tag"));
     ("externalDocs", AObj "ExternalDocumentation"); ("bindings", AObj "MessageBindings");
     ("examples", AList (AObj "MessageExample")); ("traits", AList (AObj "MessageTrait"));
     ("$ref", AStr)]);
   ("MessageTrait",
    [("headers", a_formatted); ("correlationId", AObj "CorrelationID"); ("contentType", AStr);
     ("name", AStr); ("title", AStr); ("summary", AStr); ("description", AStr);
     ("tags", AList (AObj "Tag")); ("externalDocs", AObj "ExternalDocumentation");
     ("bindings", AObj "MessageBindings"); ("examples", AList (AObj "MessageExample"));
     ("$ref", AStr)]);
   ("MessageExample", [("headers", AMap AAny); ("payload", AAny); ("name", AStr); ("summary", AStr)]);
   ("ServerBindings", protocols); ("ChannelBindings", protocols);
   ("OperationBindings", protocols); ("MessageBindings", protocols);
   ("Components",
    [("schemas", AMap a_formatted); ("servers", AMap (AObj "Server"));
     ("channels", AMap (AObj "Channel")); ("operations", AMap (AObj "Operation"));
     ("messages", AMap (AObj "Message")); ("securitySchemes", AMap (AObj "SecurityScheme"));
     ("serverVariables", AMap (AObj "ServerVariable")); ("parameters", AMap (AObj "Parameter"));
     ("correlationIds", AMap (AObj "CorrelationID")); ("replies", AMap (AObj "OperationReply"));
     ("replyAddresses", AMap (AObj "OperationReplyAddress"));
     ("externalDocs", AMap (AObj "ExternalDocumentation")); ("tags", AMap (AObj "Tag"));
     ("operationTraits", AMap (AObj "OperationTrait"));
     ("messageTraits", AMap (AObj "MessageTrait"));
     ("serverBindings", AMap (AObj "ServerBindings"));
     ("channelBindings", AMap (AObj "ChannelBindings"));
     ("operationBindings", AMap (AObj "OperationBindings"));
     ("messageBindings", AMap (AObj "MessageBindings"))]);
   ("Tag",
    [("name", AStr); ("description", AStr); ("externalDocs", AObj "ExternalDocumentation");
     ("$ref", AStr)]);
   ("ExternalDocumentation", [("description", AStr); ("url", AStr); ("$ref", AStr)]);
   ("CorrelationID", [("description", AStr); ("location", AStr); ("$ref", AStr)]);
   ("SecurityScheme",
    [("type", AStr); ("description", AStr); ("name", AStr); ("in", AStr); ("scheme", AStr);
     ("bearerFormat", AStr); ("flows", AObj "OAuthFlows"); ("openIdConnectUrl", AStr);
     ("scopes", AList AStr); ("$ref", AStr)]);
   ("OAuthFlows",
    [("implicit", AObj "OAuthFlow"); ("password", AObj "OAuthFlow");
     ("clientCredentials", AObj "OAuthFlow"); ("authorizationCode", AObj "OAuthFlow")]);
   ("OAuthFlow",
    [("authorizationUrl", AStr); ("tokenUrl", AStr); ("refreshUrl", AStr);
     ("availableScopes", AMap AStr)]);
   ("MultiFormatSchema", [("schemaFormat", AStr); ("schema", AAny); ("$ref", AStr)]);
   ("Schema", schema_fields);
   ("GoTypeImport", [("name", AStr); ("path", AStr)])].
Definition asyncapi3 : grammar := fun o => default [] (assoc o asyncapi3_table).

(** AsyncAPI 2.6.0. The fields that no part of the tool looks into are given as "anything". *)
Definition asyncapi2_table : list (string * list (string * shape)) :=
  [("AsyncAPI",
    [("asyncapi", AStr); ("id", AAny); ("info", AObj "Info"); ("servers", AAny);
     ("defaultContentType", AAny); ("channels", AMap (AObj "Channel"));
     ("components", AObj "Components"); ("tags", AAny); ("externalDocs", AAny)]);
   ("Info",
    [("title", AStr); ("version", AStr); ("description", AStr); ("termsOfService", AAny);
     ("contact", AAny); ("license", AAny)]);
   ("Channel",
    [("$ref", AAny); ("description", AAny); ("servers", AAny); ("subscribe", AObj "Operation");
     ("publish", AObj "Operation"); ("parameters", AMap (AObj "Parameter")); ("bindings", AAny)]);
   ("Operation",
    [("operationId", AStr); ("summary", AAny); ("description", AAny); ("security", AAny);
     ("tags", AAny); ("externalDocs", AAny); ("bindings", AAny); ("traits", AAny);
     ("message", AObj "Message")]);
   ("Parameter", [("description", AStr); ("schema", a_schema); ("location", AStr); ("$ref", AStr)]);
   ("Message",
    [("oneOf", AList (AObj "Message")); ("messageId", AAny); ("headers", a_schema);
     ("payload", a_schema); ("correlationId", AObj "CorrelationID"); ("schemaFormat", AAny);
     ("contentType", AAny); ("name", AAny); ("title", AAny); ("summary", AAny);
     ("description", AStr); ("tags", AAny); ("externalDocs", AAny); ("bindings", AAny);
     ("examples", AAny); ("traits", AAny); ("$ref", AStr)]);
   ("CorrelationID", [("description", AStr); ("location", AStr); ("$ref", AStr)]);
   ("Components",
    [("schemas", AMap a_schema); ("servers", AAny); ("serverVariables", AAny); ("channels", AAny);
     ("messages", AMap (AObj "Message")); ("securitySchemes", AAny);
     ("parameters", AMap (AObj "Parameter")); ("correlationIds", AMap (AObj "CorrelationID"));
     ("operationTraits", AAny); ("messageTraits", AAny); ("serverBindings", AAny);
     ("channelBindings", AAny); ("operationBindings", AAny); ("messageBindings", AAny)]);
   ("ExternalDocumentation", [("description", AStr); ("url", AStr); ("$ref", AStr)]);
   ("Schema", schema_fields);
   ("GoTypeImport", [("name", AStr); ("path", AStr)])].
Definition asyncapi2 : grammar := fun o => default [] (assoc o asyncapi2_table).

(** A grammar with other shapes for some fields. *)
Definition change := (string * string * shape)%type.
Fixpoint changed (cs : list change) (o k : string) : option shape :=
  match cs with
  | [] => None
  | (o', k', s) :: r => if (String.eqb o' o && String.eqb k' k)%bool then Some s else changed r o k
  end.
Definition restrict (cs : list change) (g : grammar) : grammar :=
  fun o => map (fun ks => (ks.1, default ks.2 (changed cs o ks.1))) (g o).

(** What the tool reads of it. First the fields of which only some values, or none, can be read. *)
Definition narrow_schema : list change :=
  [("Schema", "type", AStr);
   ("Schema", "multipleOf", AFalse);
   ("Schema", "additionalProperties", AObj "Schema");
   ("Schema", "items", AObj "Schema");
   ("Schema", "properties", AMap (AObj "Schema"));
   ("Schema", "allOf", AList (AObj "Schema"));
   ("Schema", "anyOf", AList (AObj "Schema"));
   ("Schema", "oneOf", AList (AObj "Schema"))].
Definition narrow3 : list change :=
  narrow_schema ++
  [("Schema", "additionalItems", AFalse);
   ("Schema", "contains", AFalse);
   ("Schema", "propertyNames", AFalse);
   ("Schema", "patternProperties", AMap (AObj "Schema"));
   ("Schema", "not", AObj "Schema");
   ("Message", "headers", AOr (AObj "Schema") (AObj "MultiFormatSchema"));
   ("Message", "payload", AOr (AObj "Schema") (AObj "MultiFormatSchema"));
   ("MessageTrait", "headers", AOr (AObj "Schema") (AObj "MultiFormatSchema"));
   ("Components", "schemas", AMap (AOr (AObj "Schema") (AObj "MultiFormatSchema")));
   ("MessageExample", "payload", AOr ANull (AMap AAny));
   ("Server", "security", AFalse)]%list.
Definition narrow2 : list change :=
  narrow_schema ++
  [("Message", "headers", AObj "Schema");
   ("Message", "payload", AObj "Schema");
   ("Components", "schemas", AMap (AObj "Schema"))]%list.

(** Then the fields that are never looked at, whatever they hold. *)
Definition unread_schema : list (string * string) :=
  map (pair "Schema")
    ["$id"; "$schema"; "$comment"; "definitions"; "dependencies"; "contentMediaType";
     "contentEncoding"; "if"; "then"; "else"; "discriminator"; "externalDocs"; "deprecated"].
Definition unread3 : list (string * string) :=
  unread_schema ++
  [("MultiFormatSchema", "schemaFormat"); ("MultiFormatSchema", "schema");
   ("Operation", "description"); ("OAuthFlows", "clientCredentials")]%list.
Definition unread2 : list (string * string) :=
  unread_schema ++
  map (pair "Schema")
    ["title"; "default"; "readOnly"; "writeOnly"; "examples"; "additionalItems"; "contains";
     "patternProperties"; "propertyNames"; "not"] ++
  map (pair "AsyncAPI") ["id"; "servers"; "defaultContentType"; "tags"; "externalDocs"] ++
  map (pair "Info") ["termsOfService"; "contact"; "license"] ++
  map (pair "Channel") ["$ref"; "description"; "servers"; "bindings"] ++
  map (pair "Operation")
    ["summary"; "description"; "security"; "tags"; "externalDocs"; "bindings"; "traits"] ++
  map (pair "Parameter") ["schema"] ++
  map (pair "Message")
    ["messageId"; "schemaFormat"; "contentType"; "name"; "title"; "summary"; "tags"; "externalDocs";
     "bindings"; "examples"; "traits"] ++
  map (pair "CorrelationID") ["$ref"] ++
  map (pair "ExternalDocumentation") ["description"; "url"; "$ref"] ++
  map (pair "Components")
    ["servers"; "serverVariables"; "channels"; "securitySchemes"; "correlationIds";
     "operationTraits"; "messageTraits"; "serverBindings"; "channelBindings"; "operationBindings";
     "messageBindings"]%list.
Definition never_read (l : list (string * string)) : list change :=
  map (fun ok => (ok, AAny)) l.

Definition readable3 : grammar := restrict (narrow3 ++ never_read unread3) asyncapi3.
Definition readable2 : grammar := restrict (narrow2 ++ never_read unread2) asyncapi2.

Definition asyncapi (m : major) : grammar := match m with V2 => asyncapi2 | V3 => asyncapi3 end.
Definition readable (m : major) : grammar := match m with V2 => readable2 | V3 => readable3 end.
Definition unread (m : major) : list (string * string) := match m with V2 => unread2 | V3 => unread3 end.

(** The values of the specification that cannot be read, field by field. *)
Inductive unreadable : major -> string -> string -> json -> Prop :=
| un_boolean m k b :
    k ∈ ["additionalProperties"; "items"] -> unreadable m "Schema" k (JBool b)
| un_boolean3 k b :
    k ∈ ["additionalItems"; "contains"; "propertyNames"; "not"] -> unreadable V3 "Schema" k (JBool b)
| un_items m l : unreadable m "Schema" "items" (JArr l)
| un_types m l : unreadable m "Schema" "type" (JArr l)
| un_multiple m n : unreadable m "Schema" "multipleOf" (JNum n)
| un_contains k kvs :
    k ∈ ["additionalItems"; "contains"; "propertyNames"] -> unreadable V3 "Schema" k (JObj kvs)
| un_payload m k b : k ∈ ["payload"; "headers"] -> unreadable m "Message" k (JBool b)
| un_security l : unreadable V3 "Server" "security" (JArr l)
| un_example s : unreadable V3 "MessageExample" "payload" (JStr s)
| un_example_number n : unreadable V3 "MessageExample" "payload" (JNum n)
| un_example_list l : unreadable V3 "MessageExample" "payload" (JArr l).

(** [j], read with shape [s], has in it the object [kvs] of kind [o]. *)
Inductive inside (g : grammar) : shape -> json -> string -> list (string * json) -> Prop :=
| inside_here o kvs : inside g (AObj o) (JObj kvs) o kvs
| inside_list s l j o kvs : j ∈ l -> inside g s j o kvs -> inside g (AList s) (JArr l) o kvs
| inside_map s l k j o kvs : (k, j) ∈ l -> inside g s j o kvs -> inside g (AMap s) (JObj l) o kvs
| inside_obj o' l k s j o kvs :
    (k, j) ∈ l -> (k, s) ∈ g o' -> inside g s j o kvs -> inside g (AObj o') (JObj l) o kvs
| inside_left a b j o kvs : inside g a j o kvs -> inside g (AOr a b) j o kvs
| inside_right a b j o kvs : inside g b j o kvs -> inside g (AOr a b) j o kvs.

(** The second value is the first one without one field of the list [fs] (kind, key), somewhere in it. *)
Inductive without (g : grammar) (fs : list (string * string)) : shape -> json -> json -> Prop :=
| without_here o a k x b :
    (o, k) ∈ fs -> without g fs (AObj o) (JObj (a ++ (k, x) :: b)%list) (JObj (a ++ b)%list)
| without_list s a j j' b :
    without g fs s j j' -> without g fs (AList s) (JArr (a ++ j :: b)%list) (JArr (a ++ j' :: b)%list)
| without_map s a k j j' b :
    without g fs s j j' -> without g fs (AMap s) (JObj (a ++ (k, j) :: b)%list) (JObj (a ++ (k, j') :: b)%list)
| without_obj o a k s j j' b :
    (k, s) ∈ g o -> without g fs s j j' ->
    without g fs (AObj o) (JObj (a ++ (k, j) :: b)%list) (JObj (a ++ (k, j') :: b)%list)
| without_left a b j j' : without g fs a j j' -> without g fs (AOr a b) j j'
| without_right a b j j' : without g fs b j j' -> without g fs (AOr a b) j j'.

(** No object has the same key twice. *)
Inductive no_duplicates : json -> Prop :=
| nd_null : no_duplicates JNull
| nd_bool b : no_duplicates (JBool b)
| nd_num n : no_duplicates (JNum n)
| nd_str s : no_duplicates (JStr s)
| nd_arr l : (forall j, j ∈ l -> no_duplicates j) -> no_duplicates (JArr l)
| nd_obj kvs :
    NoDup (map fst kvs) -> (forall k j, (k, j) ∈ kvs -> no_duplicates j) -> no_duplicates (JObj kvs).

(** [v] holds what [j] says, except the fields of the list [fs]: strings, booleans and numbers are
    there, a list has the same elements in the same order, a map the same keys, and an object has a
    field of the name of every key (up to case) that holds its value. *)
Inductive holds (g : grammar) (fs : list (string * string)) : shape -> json -> value -> Prop :=
| holds_ptr s j v : holds g fs s j v -> holds g fs s j (VPtr v)
| holds_any j : holds g fs AAny j (VAny j)
| holds_any_null : holds g fs AAny JNull VZero
| holds_null : holds g fs ANull JNull VZero
| holds_str s : holds g fs AStr (JStr s) (VStr s)
| holds_bool b : holds g fs ABool (JBool b) (VBool b)
| holds_num n : holds g fs ANum (JNum n) (VNum n)
| holds_nat z : holds g fs ANat (JNum (Int z)) (VNum (Int z))
| holds_list s l vs :
    List.length l = List.length vs ->
    (forall i j v, l !! i = Some j -> vs !! i = Some v -> holds g fs s j v) ->
    holds g fs (AList s) (JArr l) (VSlice vs)
| holds_map s kvs m :
    map fst m = map fst kvs ->
    (forall k j v, (k, j) ∈ kvs -> assoc k m = Some v -> holds g fs s j v) ->
    holds g fs (AMap s) (JObj kvs) (VMap m)
| holds_obj o kvs vs (name : string -> string) :
    (forall k, fold (name k) = fold k) ->
    (forall k j s, (k, j) ∈ kvs -> (k, s) ∈ g o -> (o, k) ∉ fs -> holds g fs s j (get (name k) vs)) ->
    holds g fs (AObj o) (JObj kvs) (VStruct vs)
| holds_left a b j v : holds g fs a j v -> holds g fs (AOr a b) j v
| holds_right a b j v : holds g fs b j v -> holds g fs (AOr a b) j v.
