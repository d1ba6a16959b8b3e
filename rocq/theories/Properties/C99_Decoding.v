(** C99: which AsyncAPI documents can be read, and what of them arrives in the structures. *)
From stdpp Require Import gmap list strings.
From Coq Require Import ZArith Ascii String.
From Verif.Model Require Import GoStrings Reference Parser Decoding.
From Verif.Spec Require Import DecodingSpec.
From Verif.Proof Require Import DecodingProof.
Local Open Scope string_scope.

(** ** Examples: a document with the required fields *)
Definition str_schema (more : list (string * json)) : json :=
  JObj (("type", JStr "string") :: more)%list.
Definition ping_document (server_more schema_more example_more operation_more : list (string * json)) : json :=
  JObj
    [("asyncapi", JStr "3.0.0");
     ("info", JObj [("title", JStr "ping"); ("version", JStr "1.0.0"); ("x-owner", JNum (Int 7))]);
     ("servers", JObj [("main", JObj ([("host", JStr "localhost"); ("protocol", JStr "nats")] ++ server_more)%list)]);
     ("channels", JObj
       [("pings", JObj
          [("address", JNull);
           ("messages", JObj
             [("ping", JObj
                [("correlationId", JObj [("location", JStr "$message.header#/id")]);
                 ("headers", JObj
                   [("type", JStr "object");
                    ("properties", JObj [("id", str_schema [("maxLength", JNum (Int 36))])]);
                    ("required", JArr [JStr "id"])]);
                 ("payload", str_schema schema_more);
                 ("examples", JArr [JObj (("name", JStr "first") :: example_more)%list])])])])]);
     ("operations", JObj
       [("sendPing", JObj
          ([("action", JStr "send"); ("channel", JObj [("$ref", JStr "#/channels/pings")])]
             ++ operation_more)%list)])].

(** ** Reading *)
(** A document that follows the specification is read exactly if it keeps to the readable part of it
    ([readable] in DecodingSpec.v: the schemas are objects and not booleans, a type is one word, there
    is no multipleOf, no contains, and so on). *)
Theorem C99_read m j :
  valid (asyncapi m) (AObj "AsyncAPI") j ->
  (is_Some (unmarshal m j) <-> valid (readable m) (AObj "AsyncAPI") j).
Proof. apply unmarshal_readable. Qed.
Print Assumptions C99_read.

Example C99_read_ex :
  valid asyncapi3 (AObj "AsyncAPI") (ping_document [] [("minLength", JNum (Int 1))] [] []) /\
  valid readable3 (AObj "AsyncAPI") (ping_document [] [("minLength", JNum (Int 1))] [] []).
Proof. split; apply valid_sound; vm_compute; reflexivity. Qed.

(** The whole choice: with no version forced, the document is read as one of its major version
    exactly if it keeps to the readable part. *)
Theorem C99_parsed m v kvs :
  v ∈ supported_versions -> (m = V3 <-> v = "3.0.0") ->
  valid (asyncapi m) (AObj "AsyncAPI") (JObj kvs) -> NoDup (map fst kvs) -> ("asyncapi", JStr v) ∈ kvs ->
  (from_json 0 (parsed (JObj kvs)) = Ok m <-> valid (readable m) (AObj "AsyncAPI") (JObj kvs)) /\
  (from_json 0 (parsed (JObj kvs)) = Ok m \/ from_json 0 (parsed (JObj kvs)) = Err).
Proof.
  intros Hv Hm Hval Hnd Hin. rewrite <- (C99_read m _ Hval).
  pose proof (member_last kvs "asyncapi" (JStr v) ∅ Hnd Hin) as Hmem.
  assert (E : from_json 0 (parsed (JObj kvs)) = if unmarshal m (JObj kvs) then Ok m else Err).
  { unfold from_json, major_version_from_json, version_from_json, parsed. cbn [members fits].
    rewrite Hmem. cbn [member_of].
    unfold supported_versions in Hv. rewrite !elem_of_cons, elem_of_nil in Hv.
    assert (Hs : is_version_supported supported_versions v = true).
    { destruct Hv as [->|[->|[->|[->|[->|[->|[->|[->|[]]]]]]]]]; reflexivity. }
    rewrite Hs. destruct m.
    - destruct Hm as [_ Hm].
      destruct Hv as [->|[->|[->|[->|[->|[->|[->|[->|[]]]]]]]]];
        [| | | | | | |discriminate (Hm eq_refl)]; cbn -[unmarshal atoi1];
        change (atoi1 "2") with (Ok 2%Z); cbn -[unmarshal]; by destruct (unmarshal V2 _).
    - destruct Hm as [Hm _]. rewrite (Hm eq_refl). cbn -[unmarshal atoi1].
      change (atoi1 "3") with (Ok 3%Z). cbn -[unmarshal]. by destruct (unmarshal V3 _). }
  rewrite E. destruct (unmarshal m (JObj kvs)); split; auto; split; try done; eauto.
  - intros [? H]; discriminate H.
Qed.
Print Assumptions C99_parsed.

Example C99_parsed_ex :
  exists kvs, ping_document [] [] [] [] = JObj kvs /\ NoDup (map fst kvs) /\
    ("asyncapi", JStr "3.0.0") ∈ kvs /\ from_json 0 (parsed (ping_document [] [] [] [])) = Ok V3.
Proof.
  eexists. split; [reflexivity|]. split.
  - apply (bool_decide_unpack _). vm_compute. exact I.
  - split; [left|vm_compute; reflexivity].
Qed.

(** ** What arrives *)
(** In a document that is read, every value is stored in the field of its name, except the fields of
    the list [unread]. *)
Theorem C99_stored m j v :
  valid (asyncapi m) (AObj "AsyncAPI") j -> no_duplicates j -> unmarshal m j = Some v ->
  holds (readable m) (unread m) (AObj "AsyncAPI") j v.
Proof. apply unmarshal_holds. Qed.
Print Assumptions C99_stored.

(** The correlation ID of a message is stored although the tag of the field is spelled otherwise. *)
Example C99_stored_ex :
  no_duplicates (ping_document [] [] [] []) /\
  exists v c p msg, unmarshal V3 (ping_document [] [] [] []) = Some v /\
    get "channels" (fields_of v) = VMap [("pings", VPtr c)] /\
    get "messages" (fields_of c) = VMap [("ping", VPtr msg)] /\
    get "correlationID" (fields_of msg) = VPtr p /\
    get "location" (fields_of p) = VStr "$message.header#/id" /\
    get "address" (fields_of c) = VZero.
Proof.
  split; [apply no_duplicates_sound; vm_compute; reflexivity|].
  eexists _, _, _, _. split; [vm_compute; reflexivity|].
  split; [vm_compute; reflexivity|]. split; [vm_compute; reflexivity|].
  split; [vm_compute; reflexivity|]. split; vm_compute; reflexivity.
Qed.

(** Full statement that fails: every field of the specification arrives. The fields of the list
    [unread] never do: taking one of them away anywhere in a document changes nothing in what is read. *)
Theorem C99_unread_refuted m j j' :
  without (readable m) (unread m) (AObj "AsyncAPI") j j' -> unmarshal m j = unmarshal m j'.
Proof. apply unmarshal_without. Qed.
Print Assumptions C99_unread_refuted.

(** Among them: the description of an operation of version 3 (its tag is "string"), the flow
    clientCredentials (its tag lacks the last letter), the schema of a parameter of version 2 (its tag
    is "schema-name") and the reference of a correlation ID of version 2. *)
Example C99_unread_members :
  ("Operation", "description") ∈ unread V3 /\ ("OAuthFlows", "clientCredentials") ∈ unread V3 /\
  ("Parameter", "schema") ∈ unread V2 /\ ("CorrelationID", "$ref") ∈ unread V2 /\
  ("Parameter", "schema") ∉ unread V3 /\ ("CorrelationID", "$ref") ∉ unread V3.
Proof.
  split; [|split; [|split; [|split; [|split]]]];
    apply (bool_decide_unpack _); vm_compute; exact I.
Qed.

Example C99_unread_ex :
  without readable3 unread3 (AObj "AsyncAPI")
    (ping_document [] [] [] [("description", JStr "Sends a ping.")]) (ping_document [] [] [] []) /\
  valid asyncapi3 (AObj "AsyncAPI") (ping_document [] [] [] [("description", JStr "Sends a ping.")]) /\
  is_Some (unmarshal V3 (ping_document [] [] [] [("description", JStr "Sends a ping.")])).
Proof.
  split; [|split; [apply valid_sound; vm_compute; reflexivity|eexists; vm_compute; reflexivity]].
  unfold ping_document.
  eapply (without_obj _ _ _ [_; _; _; _] "operations" (AMap (AObj "Operation")) _ _ []).
  { apply elem_of_list_In. vm_compute. tauto. }
  apply (without_map _ _ _ [] "sendPing" _ _ []).
  apply (without_here _ _ "Operation" [_; _] "description" _ []).
  apply (bool_decide_unpack _). vm_compute. exact I.
Qed.

(** ** What is refused *)
(** Full statement that fails: every document that follows the specification is read. *)
Theorem C99_refused m j o kvs k x :
  inside (readable m) (AObj "AsyncAPI") j o kvs -> (k, x) ∈ kvs -> unreadable m o k x ->
  unmarshal m j = None.
Proof. apply unmarshal_unreadable. Qed.
Print Assumptions C99_refused.

Definition refused_documents : list json :=
  [ping_document [("security", JArr [JObj [("$ref", JStr "#/components/securitySchemes/key")]])] [] [] [];
   ping_document [] [("multipleOf", JNum (Int 5))] [] [];
   ping_document [] [("additionalProperties", JBool false)] [] [];
   ping_document [] [("type", JArr [JStr "string"; JStr "null"])] [] [];
   ping_document [] [("propertyNames", JObj [("pattern", JStr "^a")])] [] [];
   ping_document [] [("contains", str_schema [])] [] [];
   ping_document [] [("not", JBool false)] [] [];
   ping_document [] [] [("payload", JStr "hello")] []].
Theorem C99_valid_refused_refuted :
  ~ (forall j, valid asyncapi3 (AObj "AsyncAPI") j -> is_Some (unmarshal V3 j)) /\
  Forall (fun j => valid asyncapi3 (AObj "AsyncAPI") j /\ unmarshal V3 j = None) refused_documents.
Proof.
  assert (H : Forall (fun j => valid asyncapi3 (AObj "AsyncAPI") j /\ unmarshal V3 j = None)
                refused_documents).
  { unfold refused_documents. rewrite !Forall_cons, Forall_nil.
    do 8 (split; [split; [apply valid_sound; vm_compute; reflexivity|vm_compute; reflexivity]|]).
    exact I. }
  split; [|exact H]. intros Hall. unfold refused_documents in H.
  apply Forall_cons in H as [[Hv Hn] _]. apply Hall in Hv as [v Hv]. rewrite Hn in Hv. done.
Qed.
Print Assumptions C99_valid_refused_refuted.

(** The place of the field does not matter: here it is two levels down in the components. *)
Definition deep_document (x : json) : json :=
  JObj [("asyncapi", JStr "2.6.0"); ("info", JObj [("title", JStr "a"); ("version", JStr "1")]);
        ("channels", JObj []);
        ("components", JObj [("schemas", JObj [("tags", JObj
          [("type", JStr "array"); ("items", JObj [("type", JStr "object"); ("additionalProperties", x)])])])])].
Example C99_refused_ex :
  unmarshal V2 (deep_document (JBool true)) = None /\
  is_Some (unmarshal V2 (deep_document (str_schema []))) /\
  exists kvs, inside readable2 (AObj "AsyncAPI") (deep_document (JBool true)) "Schema" kvs /\
    ("additionalProperties", JBool true) ∈ kvs.
Proof.
  split; [vm_compute; reflexivity|]. split; [eexists; vm_compute; reflexivity|].
  eexists. split; [|right; left].
  eapply (inside_obj _ _ _ "components" (AObj "Components")); [|apply elem_of_list_In; vm_compute; tauto|].
  { right; right; right; left. }
  eapply (inside_obj _ _ _ "schemas" (AMap (AObj "Schema"))); [left|apply elem_of_list_In; vm_compute; tauto|].
  eapply inside_map; [left|].
  eapply (inside_obj _ _ _ "items" (AObj "Schema")); [right; left|apply elem_of_list_In; vm_compute; tauto|].
  apply inside_here.
Qed.
