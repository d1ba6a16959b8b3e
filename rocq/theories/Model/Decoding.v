(** Reading a document into the structures of the specification.
    Modelled code: the structures of pkg/asyncapi/v3/*.go and pkg/asyncapi/v2/*.go with their json
    tags, pkg/asyncapi/schema.go:5-32 (the embedded validations), extensions.go:10-30 of both versions
    (the embedded extensions), and pkg/asyncapi/parser/parse.go:111-140 (json.Unmarshal into the
    structure of the major version), with encoding/json's rules for these kinds of types.
    Simplified: a number is an integer literal or another literal; numbers that do not fit in a
    float64 are not modelled; two keys are the same up to case when they are so in ASCII; a slice is
    decoded from an empty one (this matters only if a key is given twice). Not modelled: the syntax of
    JSON and YAML; a document that is only [null]. Unexported fields and fields tagged "-" are not
    listed: encoding/json never touches them. *)
From stdpp Require Import gmap list strings.
From Coq Require Import ZArith Ascii String.
From Verif.Model Require Import GoStrings Reference Parser.
Local Open Scope string_scope.

(** An integer literal, or a literal with a fraction or an exponent. *)
Inductive num := Int (z : Z) | Frac (lit : string).

(** A JSON value; the keys of an object in the order of the text. *)
Inductive json :=
| JNull
| JBool (b : bool)
| JNum (n : num)
| JStr (s : string)
| JArr (l : list json)
| JObj (kvs : list (string * json)).

(** The Go types of the fields: string (and types defined as string), bool, uint, float64, any,
    pointers, slices, map[string]T and structures by name. *)
Inductive ty :=
| TStr | TBool | TUint | TFloat | TAny
| TPtr (t : ty) | TSlice (t : ty) | TMap (t : ty)
| TStruct (name : string).

(** What is stored; [VZero] is the zero value of any type (nil for pointers, slices, maps and
    interfaces), a field that a [VStruct] does not list is zero. *)
Inductive value :=
| VZero
| VStr (s : string) | VBool (b : bool) | VNum (n : num) | VAny (j : json)
| VPtr (v : value) | VSlice (l : list value)
| VMap (m : list (string * value)) | VStruct (fs : list (string * value)).

Fixpoint assoc {A} (k : string) (l : list (string * A)) : option A :=
  match l with
  | [] => None
  | (k', a) :: r => if String.eqb k' k then Some a else assoc k r
  end.

(** Sets [k] in [l], in place if it is there. *)
Fixpoint put {A} (k : string) (a : A) (l : list (string * A)) : list (string * A) :=
  match l with
  | [] => [(k, a)]
  | (k', a') :: r => if String.eqb k' k then (k, a) :: r else (k', a') :: put k a r
  end.

(** The comparison of names by encoding/json, in ASCII. *)
Definition lower_ascii (c : ascii) : ascii :=
  let n := nat_of_ascii c in
  if (Nat.leb 65 n && Nat.leb n 90)%bool then ascii_of_nat (n + 32) else c.
Fixpoint fold (s : string) : string :=
  match s with "" => "" | String c r => String (lower_ascii c) (fold r) end.

(** encoding/json, object: the field of the name, or else the first one that is the same up to case. *)
Fixpoint find_fold (k : string) (fs : list (string * ty)) : option (string * ty) :=
  match fs with
  | [] => None
  | (f, t) :: r => if String.eqb (fold f) (fold k) then Some (f, t) else find_fold k r
  end.
Definition find_field (fs : list (string * ty)) (k : string) : option (string * ty) :=
  match assoc k fs with
  | Some t => Some (k, t)
  | None => find_fold k fs
  end.

(** encoding/json: strconv.ParseUint(literal, 10, 64). *)
Definition fits_uint (n : num) : bool :=
  match n with
  | Int z => ((0 <=? z) && (z <? 18446744073709551616))%Z
  | Frac _ => false
  end.

Definition members_of (v : value) : list (string * value) :=
  match v with VMap m => m | _ => [] end.
Definition fields_of (v : value) : list (string * value) :=
  match v with VStruct fs => fs | _ => [] end.
Definition pointee (v : value) : value := match v with VPtr v => v | _ => VZero end.
Definition get (f : string) (fs : list (string * value)) : value := default VZero (assoc f fs).

Section decode.
  (** The fields of the structure of a name. *)
  Context (fields : string -> list (string * ty)).

  (** encoding/json, value: stores [j] in a variable of type [t] that holds [old]; [None]: an
      UnmarshalTypeError. A null empties pointers, interfaces, maps and slices and leaves the others
      as they are. *)
  Fixpoint decode (j : json) : ty -> value -> option value :=
    fix into (t : ty) : value -> option value := fun old =>
      match t, j with
      | (TPtr _ | TSlice _ | TMap _ | TAny), JNull => Some VZero
      | _, JNull => Some old
      | TPtr t', _ => match into t' (pointee old) with Some v => Some (VPtr v) | None => None end
      | TStr, JStr s => Some (VStr s)
      | TBool, JBool b => Some (VBool b)
      | TUint, JNum n => if fits_uint n then Some (VNum n) else None
      | TFloat, JNum n => Some (VNum n)
      | TAny, _ => Some (VAny j)
      | TSlice t', JArr l =>
          match (fix elements (l : list json) : option (list value) :=
                   match l with
                   | [] => Some []
                   | x :: r =>
                       match decode x t' VZero, elements r with
                       | Some v, Some vs => Some (v :: vs)
                       | _, _ => None
                       end
                   end) l with
          | Some vs => Some (VSlice vs)
          | None => None
          end
      | TMap t', JObj kvs =>
          match (fix entries (kvs : list (string * json)) (m : list (string * value))
                   : option (list (string * value)) :=
                   match kvs with
                   | [] => Some m
                   | (k, x) :: r =>
                       match decode x t' VZero with
                       | Some v => entries r (put k v m)
                       | None => None
                       end
                   end) kvs (members_of old) with
          | Some m => Some (VMap m)
          | None => None
          end
      | TStruct n, JObj kvs =>
          match (fix keys (kvs : list (string * json)) (fs : list (string * value))
                   : option (list (string * value)) :=
                   match kvs with
                   | [] => Some fs
                   | (k, x) :: r =>
                       match find_field (fields n) k with
                       | None => keys r fs
                       | Some (f, t') =>
                           match decode x t' (get f fs) with
                           | Some v => keys r (put f v fs)
                           | None => None
                           end
                       end
                   end) kvs (fields_of old) with
          | Some fs => Some (VStruct fs)
          | None => None
          end
      | _, _ => None
      end.
End decode.

(** pkg/asyncapi/schema.go:5-32: the fields of Validations[Schema]. In version 3 the fields allOf,
    anyOf and oneOf of Schema itself come first: encoding/json takes the least nested one. *)
Definition validations : list (string * ty) :=
  [("required", TSlice TStr);
   ("multipleOf", TSlice TStr);
   ("maximum", TFloat);
   ("exclusiveMaximum", TFloat);
   ("minimum", TFloat);
   ("exclusiveMinimum", TFloat);
   ("maxLength", TUint);
   ("minLength", TUint);
   ("pattern", TStr);
   ("maxItems", TUint);
   ("minItems", TUint);
   ("uniqueItems", TBool);
   ("maxProperties", TUint);
   ("minProperties", TUint);
   ("enum", TSlice TAny);
   ("const", TAny);
   ("allOf", TSlice (TPtr (TStruct "Schema")));
   ("anyOf", TSlice (TPtr (TStruct "Schema")));
   ("oneOf", TSlice (TPtr (TStruct "Schema")))].

(** pkg/asyncapi/v2/extensions.go:10-20, v3/extensions.go:10-20 *)
Definition extensions : list (string * ty) :=
  [("x-go-type", TStr);
   ("x-go-type-import", TPtr (TStruct "GoTypeImportExtension"));
   ("x-omitempty", TPtr TBool)].

(** pkg/asyncapi/v3/channel.go:22-41 *)
Definition v3_channel : list (string * ty) :=
  ([("address", TStr);
   ("messages", TMap (TPtr (TStruct "Message")));
   ("title", TStr);
   ("summary", TStr);
   ("description", TStr);
   ("servers", TSlice (TPtr (TStruct "Server")));
   ("parameters", TMap (TPtr (TStruct "Parameter")));
   ("tags", TSlice (TPtr (TStruct "Tag")));
   ("externalDocs", TPtr (TStruct "ExternalDocumentation"));
   ("bindings", TPtr (TStruct "ChannelBindings"));
   ("$ref", TStr)])%list.

(** pkg/asyncapi/v3/channel_bindings.go:6-34 *)
Definition v3_channel_bindings : list (string * ty) :=
  ([("http", TAny);
   ("ws", TAny);
   ("kafka", TAny);
   ("anypointmq", TAny);
   ("amqp", TAny);
   ("amqp1", TAny);
   ("mqtt", TAny);
   ("mqtt5", TAny);
   ("nats", TAny);
   ("jms", TAny);
   ("sns", TAny);
   ("solace", TAny);
   ("sqs", TAny);
   ("stomp", TAny);
   ("redis", TAny);
   ("mercure", TAny);
   ("ibmmq", TAny);
   ("googlepubsub", TAny);
   ("pulsar", TAny);
   ("$ref", TStr)])%list.

(** pkg/asyncapi/v3/components.go:6-30 *)
Definition v3_components : list (string * ty) :=
  ([("schemas", TMap (TPtr (TStruct "Schema")));
   ("servers", TMap (TPtr (TStruct "Server")));
   ("channels", TMap (TPtr (TStruct "Channel")));
   ("operations", TMap (TPtr (TStruct "Operation")));
   ("messages", TMap (TPtr (TStruct "Message")));
   ("securitySchemes", TMap (TPtr (TStruct "SecurityScheme")));
   ("serverVariables", TMap (TPtr (TStruct "ServerVariable")));
   ("parameters", TMap (TPtr (TStruct "Parameter")));
   ("correlationIds", TMap (TPtr (TStruct "CorrelationID")));
   ("replies", TMap (TPtr (TStruct "OperationReply")));
   ("replyAddresses", TMap (TPtr (TStruct "OperationReplyAddress")));
   ("externalDocs", TMap (TPtr (TStruct "ExternalDocumentation")));
   ("tags", TMap (TPtr (TStruct "Tag")));
   ("operationTraits", TMap (TPtr (TStruct "OperationTrait")));
   ("messageTraits", TMap (TPtr (TStruct "MessageTrait")));
   ("serverBindings", TMap (TPtr (TStruct "ServerBindings")));
   ("channelBindings", TMap (TPtr (TStruct "ChannelBindings")));
   ("operationBindings", TMap (TPtr (TStruct "OperationBindings")));
   ("messageBindings", TMap (TPtr (TStruct "MessageBindings")))])%list.

(** pkg/asyncapi/v3/contact.go:6-14 *)
Definition v3_contact : list (string * ty) :=
  ([("name", TStr);
   ("url", TStr);
   ("email", TStr)])%list.

(** pkg/asyncapi/v3/correlation_id.go:6-17 *)
Definition v3_correlation_id : list (string * ty) :=
  ([("description", TStr);
   ("location", TStr);
   ("$ref", TStr)])%list.

(** pkg/asyncapi/v3/extensions.go:26-29 *)
Definition v3_go_type_import_extension : list (string * ty) :=
  ([("name", TStr);
   ("path", TStr)])%list.

(** pkg/asyncapi/v3/external_documentation.go:11-22 *)
Definition v3_external_documentation : list (string * ty) :=
  ([("description", TStr);
   ("url", TStr);
   ("$ref", TStr)])%list.

(** pkg/asyncapi/v3/info.go:6-19 *)
Definition v3_info : list (string * ty) :=
  ([("title", TStr);
   ("version", TStr);
   ("description", TStr);
   ("termsOfService", TStr);
   ("contact", TPtr (TStruct "Contact"));
   ("license", TPtr (TStruct "License"));
   ("tags", TSlice (TPtr (TStruct "Tag")));
   ("externalDocs", TPtr (TStruct "ExternalDocumentation"))])%list.

(** pkg/asyncapi/v3/license.go:6-13 *)
Definition v3_license : list (string * ty) :=
  ([("name", TStr);
   ("url", TStr)])%list.

(** pkg/asyncapi/v3/message.go:37-63 *)
Definition v3_message : list (string * ty) :=
  ([("headers", TPtr (TStruct "Schema"));
   ("payload", TPtr (TStruct "Schema"));
   ("oneOf", TSlice (TPtr (TStruct "Message")));
   ("correlationID", TPtr (TStruct "CorrelationID"));
   ("contentType", TStr);
   ("name", TStr);
   ("title", TStr);
   ("summary", TStr);
   ("description", TStr);
   ("tags", TSlice (TPtr (TStruct "Tag")));
   ("externalDocs", TPtr (TStruct "ExternalDocumentation"));
   ("bindings", TPtr (TStruct "MessageBindings"));
   ("examples", TSlice (TPtr (TStruct "MessageExample")));
   ("traits", TSlice (TPtr (TStruct "MessageTrait")));
   ("$ref", TStr)])%list.

(** pkg/asyncapi/v3/message_bindings.go:6-34 *)
Definition v3_message_bindings : list (string * ty) :=
  ([("http", TAny);
   ("ws", TAny);
   ("kafka", TAny);
   ("anypointmq", TAny);
   ("amqp", TAny);
   ("amqp1", TAny);
   ("mqtt", TAny);
   ("mqtt5", TAny);
   ("nats", TAny);
   ("jms", TAny);
   ("sns", TAny);
   ("solace", TAny);
   ("sqs", TAny);
   ("stomp", TAny);
   ("redis", TAny);
   ("mercure", TAny);
   ("ibmmq", TAny);
   ("googlepubsub", TAny);
   ("pulsar", TAny);
   ("$ref", TStr)])%list.

(** pkg/asyncapi/v3/message_example.go:6-18 *)
Definition v3_message_example : list (string * ty) :=
  ([("headers", TMap TAny);
   ("payload", TMap TAny);
   ("name", TStr);
   ("summary", TStr);
   ("$ref", TStr)])%list.

(** pkg/asyncapi/v3/message_trait.go:6-31 *)
Definition v3_message_trait : list (string * ty) :=
  ([("headers", TPtr (TStruct "Schema"));
   ("payload", TPtr (TStruct "Schema"));
   ("correlationID", TPtr (TStruct "CorrelationID"));
   ("contentType", TStr);
   ("name", TStr);
   ("title", TStr);
   ("summary", TStr);
   ("description", TStr);
   ("tags", TSlice (TPtr (TStruct "Tag")));
   ("externalDocs", TPtr (TStruct "ExternalDocumentation"));
   ("bindings", TPtr (TStruct "MessageBindings"));
   ("examples", TSlice (TPtr (TStruct "MessageExample")));
   ("$ref", TStr)])%list.

(** pkg/asyncapi/v3/operation.go:26-49 *)
Definition v3_operation : list (string * ty) :=
  ([("action", TStr);
   ("channel", TPtr (TStruct "Channel"));
   ("title", TStr);
   ("summary", TStr);
   ("string", TStr);
   ("security", TSlice (TPtr (TStruct "SecurityScheme")));
   ("tags", TSlice (TPtr (TStruct "Tag")));
   ("externalDocs", TPtr (TStruct "ExternalDocumentation"));
   ("bindings", TPtr (TStruct "OperationBindings"));
   ("traits", TSlice (TPtr (TStruct "OperationTrait")));
   ("messages", TSlice (TPtr (TStruct "Message")));
   ("reply", TPtr (TStruct "OperationReply"));
   ("$ref", TStr)])%list.

(** pkg/asyncapi/v3/operation_bindings.go:6-34 *)
Definition v3_operation_bindings : list (string * ty) :=
  ([("http", TAny);
   ("ws", TAny);
   ("kafka", TAny);
   ("anypointmq", TAny);
   ("amqp", TAny);
   ("amqp1", TAny);
   ("mqtt", TAny);
   ("mqtt5", TAny);
   ("nats", TAny);
   ("jms", TAny);
   ("sns", TAny);
   ("solace", TAny);
   ("sqs", TAny);
   ("stomp", TAny);
   ("redis", TAny);
   ("mercure", TAny);
   ("ibmmq", TAny);
   ("googlepubsub", TAny);
   ("pulsar", TAny);
   ("$ref", TStr)])%list.

(** pkg/asyncapi/v3/operation_reply.go:6-18 *)
Definition v3_operation_reply : list (string * ty) :=
  ([("address", TPtr (TStruct "OperationReplyAddress"));
   ("channel", TPtr (TStruct "Channel"));
   ("messages", TSlice (TPtr (TStruct "Message")));
   ("$ref", TStr)])%list.

(** pkg/asyncapi/v3/operation_reply_address.go:10-22 *)
Definition v3_operation_reply_address : list (string * ty) :=
  ([("description", TStr);
   ("location", TStr);
   ("$ref", TStr)])%list.

(** pkg/asyncapi/v3/operation_trait.go:6-22 *)
Definition v3_operation_trait : list (string * ty) :=
  ([("title", TStr);
   ("summary", TStr);
   ("description", TStr);
   ("security", TSlice (TPtr (TStruct "SecurityScheme")));
   ("tags", TSlice (TPtr (TStruct "Tag")));
   ("externalDocs", TPtr (TStruct "ExternalDocumentation"));
   ("bindings", TPtr (TStruct "OperationBindings"));
   ("$ref", TStr)])%list.

(** pkg/asyncapi/v3/parameter.go:6-17 *)
Definition v3_parameter : list (string * ty) :=
  ([("enum", TSlice TStr);
   ("default", TStr);
   ("description", TStr);
   ("examples", TSlice TStr);
   ("location", TStr);
   ("$ref", TStr)])%list.

(** pkg/asyncapi/v3/schema.go:30-69 *)
Definition v3_schema : list (string * ty) :=
  ([("title", TStr);
   ("type", TStr);
   ("examples", TSlice TAny);
   ("readOnly", TBool);
   ("writeOnly", TBool);
   ("properties", TMap (TPtr (TStruct "Schema")));
   ("patternProperties", TMap (TPtr (TStruct "Schema")));
   ("additionalProperties", TPtr (TStruct "Schema"));
   ("additionalItems", TSlice (TPtr (TStruct "Schema")));
   ("items", TPtr (TStruct "Schema"));
   ("propertyNames", TSlice TStr);
   ("contains", TSlice (TPtr (TStruct "Schema")));
   ("allOf", TSlice (TPtr (TStruct "Schema")));
   ("anyOf", TSlice (TPtr (TStruct "Schema")));
   ("oneOf", TSlice (TPtr (TStruct "Schema")));
   ("not", TPtr (TStruct "Schema"));
   ("description", TStr);
   ("format", TStr);
   ("default", TAny);
   ("$ref", TStr)] ++ validations ++ extensions)%list.

(** pkg/asyncapi/v3/security_scheme.go:6-15 *)
Definition v3_oauth_flow : list (string * ty) :=
  ([("authorizationUrl", TStr);
   ("tokenUrl", TStr);
   ("refreshUrl", TStr);
   ("availableScopes", TMap TStr)])%list.

(** pkg/asyncapi/v3/security_scheme.go:20-29 *)
Definition v3_oauth_flows : list (string * ty) :=
  ([("implicit", TStruct "OAuthFlow");
   ("password", TStruct "OAuthFlow");
   ("clientCredential", TStruct "OAuthFlow");
   ("authorizationCode", TStruct "OAuthFlow")])%list.

(** pkg/asyncapi/v3/security_scheme.go:34-51 *)
Definition v3_security_scheme : list (string * ty) :=
  ([("type", TStr);
   ("description", TStr);
   ("name", TStr);
   ("in", TStr);
   ("scheme", TStr);
   ("bearerFormat", TStr);
   ("flows", TStruct "OAuthFlows");
   ("openIdConnectUrl", TStr);
   ("scopes", TSlice TStr);
   ("$ref", TStr)])%list.

(** pkg/asyncapi/v3/server.go:6-27 *)
Definition v3_server : list (string * ty) :=
  ([("host", TStr);
   ("protocol", TStr);
   ("protocolVersion", TStr);
   ("pathname", TStr);
   ("description", TStr);
   ("title", TStr);
   ("summary", TStr);
   ("variables", TMap (TPtr (TStruct "ServerVariable")));
   ("security", TPtr (TStruct "SecurityScheme"));
   ("tags", TSlice (TPtr (TStruct "Tag")));
   ("externalDocs", TPtr (TStruct "ExternalDocumentation"));
   ("bindings", TPtr (TStruct "ServerBindings"));
   ("$ref", TStr)])%list.

(** pkg/asyncapi/v3/server_bindings.go:6-34 *)
Definition v3_server_bindings : list (string * ty) :=
  ([("http", TAny);
   ("ws", TAny);
   ("kafka", TAny);
   ("anypointmq", TAny);
   ("amqp", TAny);
   ("amqp1", TAny);
   ("mqtt", TAny);
   ("mqtt5", TAny);
   ("nats", TAny);
   ("jms", TAny);
   ("sns", TAny);
   ("solace", TAny);
   ("sqs", TAny);
   ("stomp", TAny);
   ("redis", TAny);
   ("mercure", TAny);
   ("ibmmq", TAny);
   ("googlepubsub", TAny);
   ("pulsar", TAny);
   ("$ref", TStr)])%list.

(** pkg/asyncapi/v3/server_variable.go:6-19 *)
Definition v3_server_variable : list (string * ty) :=
  ([("enum", TSlice TStr);
   ("default", TStr);
   ("description", TStr);
   ("examples", TSlice TStr);
   ("$ref", TStr)])%list.

(** pkg/asyncapi/v3/specification.go:25-42 *)
Definition v3_specification : list (string * ty) :=
  ([("asyncapi", TStr);
   ("id", TStr);
   ("info", TStruct "Info");
   ("servers", TMap (TPtr (TStruct "Server")));
   ("defaultContentType", TStr);
   ("channels", TMap (TPtr (TStruct "Channel")));
   ("operations", TMap (TPtr (TStruct "Operation")));
   ("components", TStruct "Components")])%list.

(** pkg/asyncapi/v3/tag.go:6-17 *)
Definition v3_tag : list (string * ty) :=
  ([("name", TStr);
   ("description", TStr);
   ("externalDocs", TPtr (TStruct "ExternalDocumentation"));
   ("$ref", TStr)])%list.

(** The structures of pkg/asyncapi/v3 by name. *)
Definition v3_structs : list (string * list (string * ty)) :=
  [("Channel", v3_channel);
   ("ChannelBindings", v3_channel_bindings);
   ("Components", v3_components);
   ("Contact", v3_contact);
   ("CorrelationID", v3_correlation_id);
   ("GoTypeImportExtension", v3_go_type_import_extension);
   ("ExternalDocumentation", v3_external_documentation);
   ("Info", v3_info);
   ("License", v3_license);
   ("Message", v3_message);
   ("MessageBindings", v3_message_bindings);
   ("MessageExample", v3_message_example);
   ("MessageTrait", v3_message_trait);
   ("Operation", v3_operation);
   ("OperationBindings", v3_operation_bindings);
   ("OperationReply", v3_operation_reply);
   ("OperationReplyAddress", v3_operation_reply_address);
   ("OperationTrait", v3_operation_trait);
   ("Parameter", v3_parameter);
   ("Schema", v3_schema);
   ("OAuthFlow", v3_oauth_flow);
   ("OAuthFlows", v3_oauth_flows);
   ("SecurityScheme", v3_security_scheme);
   ("Server", v3_server);
   ("ServerBindings", v3_server_bindings);
   ("ServerVariable", v3_server_variable);
   ("Specification", v3_specification);
   ("Tag", v3_tag)].

(** pkg/asyncapi/v2/channel.go:8-20 *)
Definition v2_channel : list (string * ty) :=
  ([("parameters", TMap (TPtr (TStruct "Parameter")));
   ("subscribe", TPtr (TStruct "Operation"));
   ("publish", TPtr (TStruct "Operation"))])%list.

(** pkg/asyncapi/v2/components.go:6-14 *)
Definition v2_components : list (string * ty) :=
  ([("messages", TMap (TPtr (TStruct "Message")));
   ("schemas", TMap (TPtr (TStruct "Schema")));
   ("parameters", TMap (TPtr (TStruct "Parameter")))])%list.

(** pkg/asyncapi/v2/correlation_id.go:6-13 *)
Definition v2_correlation_id : list (string * ty) :=
  ([("description", TStr);
   ("location", TStr)])%list.

(** pkg/asyncapi/v2/extensions.go:26-29 *)
Definition v2_go_type_import_extension : list (string * ty) :=
  ([("name", TStr);
   ("path", TStr)])%list.

(** pkg/asyncapi/v2/info.go:6-14 *)
Definition v2_info : list (string * ty) :=
  ([("title", TStr);
   ("version", TStr);
   ("description", TStr)])%list.

(** pkg/asyncapi/v2/message.go:37-56 *)
Definition v2_message : list (string * ty) :=
  ([("description", TStr);
   ("headers", TPtr (TStruct "Schema"));
   ("oneOf", TSlice (TPtr (TStruct "Message")));
   ("payload", TPtr (TStruct "Schema"));
   ("correlationID", TPtr (TStruct "CorrelationID"));
   ("$ref", TStr)])%list.

(** pkg/asyncapi/v2/operation.go:12-21 *)
Definition v2_operation : list (string * ty) :=
  ([("operationId", TStr);
   ("message", TStruct "Message")])%list.

(** pkg/asyncapi/v2/parameter.go:8-20 *)
Definition v2_parameter : list (string * ty) :=
  ([("description", TStr);
   ("schema-name", TPtr (TStruct "Schema"));
   ("location", TStr);
   ("$ref", TStr)])%list.

(** pkg/asyncapi/v2/schema.go:31-51 *)
Definition v2_schema : list (string * ty) :=
  ([("type", TStr);
   ("description", TStr);
   ("format", TStr);
   ("properties", TMap (TPtr (TStruct "Schema")));
   ("items", TPtr (TStruct "Schema"));
   ("$ref", TStr);
   ("additionalProperties", TPtr (TStruct "Schema"))] ++ validations ++ extensions)%list.

(** pkg/asyncapi/v2/specification.go:25-38 *)
Definition v2_specification : list (string * ty) :=
  ([("asyncapi", TStr);
   ("info", TStruct "Info");
   ("channels", TMap (TPtr (TStruct "Channel")));
   ("components", TStruct "Components")])%list.

(** The structures of pkg/asyncapi/v2 by name. *)
Definition v2_structs : list (string * list (string * ty)) :=
  [("Channel", v2_channel);
   ("Components", v2_components);
   ("CorrelationID", v2_correlation_id);
   ("GoTypeImportExtension", v2_go_type_import_extension);
   ("Info", v2_info);
   ("Message", v2_message);
   ("Operation", v2_operation);
   ("Parameter", v2_parameter);
   ("Schema", v2_schema);
   ("Specification", v2_specification)].

Definition fields (m : major) (name : string) : list (string * ty) :=
  default [] (assoc name (match m with V2 => v2_structs | V3 => v3_structs end)).

(** parse.go:135: the structure is a new one (NewSpecification), all empty. *)
Definition unmarshal (m : major) (j : json) : option value :=
  decode (fields m) j (TStruct "Specification") VZero.

(** What the choice of the parser looks at, from the document itself: the members are those of the
    last key of each name. *)
Definition member_of (j : json) : member := match j with JStr s => MString s | _ => MOther end.
Definition parsed (j : json) : document :=
  mkDocument
    (match j with
     | JObj kvs => Some (foldl (fun m kv => <[kv.1 := member_of kv.2]> m) ∅ kvs)
     | _ => None
     end)
    (fun m => if unmarshal m j then true else false).
