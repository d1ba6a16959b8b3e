(** C79: the names of the generated types. *)
From stdpp Require Import list strings.
From Coq Require Import NArith Ascii String.
From Verif.Model Require Import Naming Names.
From Verif.Spec Require Import NamingSpec NamesSpec.
From Verif.Proof Require Import NamingProof NamesProof.

Local Notation str := list_ascii_of_string.

(** Every schema and message of the document gets a name. *)
Theorem C79_named ul ud uu d names p : document_names ul ud uu d = Some names -> in_document d p -> exists n, (p, n) ∈ names.
Proof. apply document_names_all. Qed.
Print Assumptions C79_named.

(** Missing from the full claim (no hypothesis on the document): keys that are not ASCII, keys with "From" in them or with the same Go name beside
    each other, several alternatives of one sort, [contains], and headers or payloads that exist only for the correlation identifier. *)
Theorem C79_distinct_partial ul ud uu d : clear_document d ->
  exists names, document_names ul ud uu d = Some names /\ NoDup (names.*2) /\ Forall exported (names.*2).
Proof.
  intros H. destruct (document_names_spec ul ud uu d H) as (ws & (l & El & Ml) & Hg). exists l. split; [done|]. rewrite Ml.
  split; [by apply join_nodup|by apply good_exported].
Qed.
Print Assumptions C79_distinct_partial.

(** A channel with a message of two alternatives, one of whose payloads is an object; a component message with headers; two component schemas with a
    property of the same key. *)
Definition leaf := Tree [] [] None [] None [] [] [] [] None.
Definition ex_user := Tree [(str "id", leaf); (str "first_name", leaf)] [(str "x-.*", leaf)] (Some leaf) [] None [] [leaf] [leaf] [leaf] (Some leaf).
Definition ex_list := Tree [(str "id", leaf); (str "users", Tree [] [] None [leaf; leaf] (Some ex_user) [] [] [] [] None)] [] None [] None [] [] [] [] None.
Definition ex_alternative := MTree (Some ex_user) None [] None.
Definition ex_event := MTree (Some leaf) None [ex_alternative; MTree (Some leaf) None [] None] None.
Definition ex_ping := MTree (Some ex_user) (Some (Tree [(str "correlationId", leaf)] [] None [] None [] [] [] [] None)) [] (Some true).
Definition ex_document := mkDocument [(str "user/events", [(str "event", ex_event)])] [(str "ping", ex_ping); (str "event", ex_event)]
  [(str "user", ex_user); (str "list", ex_list)].

Local Ltac dec := apply (bool_decide_unpack _); vm_compute; exact I.
Local Ltac rd := split; [dec|rewrite Forall_forall; intros k Hk; repeat (apply elem_of_cons in Hk as [->|Hk]; [apply from_b_spec; vm_compute; reflexivity|]); by apply elem_of_nil in Hk].
Local Ltac elems H := repeat match type of H with
  | _ ∈ _ ++ _ => apply elem_of_app in H as [H|H]
  | _ ∈ _ :: _ => apply elem_of_cons in H as [H|H]
  | _ ∈ [] => by apply elem_of_nil in H
  end.
Local Ltac kids c := intros c [(? & H)|[H|[H|[H|H]]]]; elems H; try discriminate H; try (injection H as ? ?); try (injection H as ?); subst.

Local Ltac inl := repeat (first [apply elem_of_list_here|apply elem_of_list_further]).
(** Computes the names of a document. *)
Local Ltac computed := match goal with |- exists names, document_names ?a ?b ?c ?d = Some names /\ _ =>
  let x := eval vm_compute in (document_names a b c d) in match x with Some ?l => exists l end end;
  match goal with |- ?x = Some ?l /\ _ => assert (x = Some l) by (vm_compute; reflexivity); split; [assumption|] end.

Lemma clear_leaf : clear leaf.
Proof. constructor; try rd; try dec; try (cbn; lia). kids t. Qed.
Lemma clear_user : clear ex_user.
Proof. constructor; try rd; try dec; try (cbn; lia). kids t; apply clear_leaf. Qed.
Lemma clear_list : clear ex_list.
Proof.
  constructor; try rd; try dec; try (cbn; lia). kids t; [apply clear_leaf|]. constructor; try rd; try dec; try (cbn; lia). kids t; try apply clear_leaf. apply clear_user.
Qed.
Lemma clear_event : clear_message ex_event.
Proof.
  constructor; [intros t [[= <-]|[=]]; apply clear_leaf| |done|done]. intros m H. elems H; subst; (constructor; [|intros ? ?%elem_of_nil; done|done|done]).
  - intros t [[= <-]|[=]]. apply clear_user.
  - intros t [[= <-]|[=]]. apply clear_leaf.
Qed.
Lemma clear_ping : clear_message ex_ping.
Proof.
  constructor; [|intros ? ?%elem_of_nil; done|done|done]. intros t [[= <-]|[= <-]]; [apply clear_user|].
  constructor; try rd; try dec; try (cbn; lia). kids t; apply clear_leaf.
Qed.
Example C79_example ul ud uu : clear_document ex_document /\
  exists names, document_names ul ud uu ex_document = Some names /\
    (PSchema (str "list") [SProperty (str "users"); SItems; SProperty (str "first_name")], str "FirstNamePropertyFromItemFromUsersPropertyFromListSchema") ∈ names /\
    (PPayload (BChannel (str "user/events") (str "event")) [0%nat] [SAddl], str "AdditionalPropertiesFromMessage0FromEventMessageFromUserEventsChannelPayload") ∈ names /\
    (PHeaders (BComponent (str "ping")) [] [], str "HeadersFromPingMessage") ∈ names.
Proof.
  split.
  - split.
    + rd.
    + dec.
    + intros c ms H. cbn [ex_document d_channels] in H. elems H. injection H as -> ->. split; [rd|]. split; [dec|]. intros k m H. elems H. injection H as -> ->. apply clear_event.
    + split; [rd|]. split; [dec|]. intros k m H. cbn [ex_document d_messages] in H. elems H; injection H as -> ->; [apply clear_ping|apply clear_event].
    + rd.
    + dec.
    + intros k t H. cbn [ex_document d_schemas] in H. elems H; injection H as -> ->; [apply clear_user|apply clear_list].
  - computed. split; [|split]; inl.
Qed.

(** Two messages whose correlation identifiers are in headers they do not declare: both get headers of type Header. *)
Theorem C79_headers_refuted ul ud uu : exists d p1 p2 n names, document_names ul ud uu d = Some names /\
  Forall (fun kp => m_headers kp.2 = None /\ m_payload kp.2 <> None) (d_messages d) /\ NoDup (kind_names "Message" (d_messages d).*1) /\
  p1 <> p2 /\ (p1, n) ∈ names /\ (p2, n) ∈ names.
Proof.
  exists (mkDocument [] [(str "ping", MTree (Some leaf) None [] (Some true)); (str "pong", MTree (Some leaf) None [] (Some true))] []).
  exists (PHeaders (BComponent (str "ping")) [] []), (PHeaders (BComponent (str "pong")) [] []), (str "Header").
  computed. split; [by repeat constructor|]. split; [dec|]. split; [done|]. split; inl.
Qed.
Print Assumptions C79_headers_refuted.

(** Two alternatives of one schema. *)
Theorem C79_alternatives_refuted ul ud uu : exists d p1 p2 n names, document_names ul ud uu d = Some names /\ in_document d p1 /\ in_document d p2 /\
  p1 <> p2 /\ (p1, n) ∈ names /\ (p2, n) ∈ names.
Proof.
  exists (mkDocument [] [] [(str "pet", Tree [] [] None [] None [] [ex_user; leaf] [] [] None)]).
  exists (PSchema (str "pet") [SAnyOf 0]), (PSchema (str "pet") [SAnyOf 1]), (str "AnyOfFromPetSchema").
  computed. split; [|split; [|split; [done|split; inl]]].
  - eapply in_schema; [left|]. eapply part_step; [by apply next_anyof|apply part_here].
  - eapply in_schema; [left|]. eapply part_step; [by apply next_anyof|apply part_here].
Qed.
Print Assumptions C79_alternatives_refuted.

(** The contents of a property, and a property of the contents. *)
Theorem C79_contains_refuted ul ud uu : exists d p1 p2 n names, document_names ul ud uu d = Some names /\ in_document d p1 /\ in_document d p2 /\
  p1 <> p2 /\ (p1, n) ∈ names /\ (p2, n) ∈ names.
Proof.
  exists (mkDocument [] [] [(str "pet", Tree [(str "x", Tree [] [] None [] None [leaf] [] [] [] None)] [] None [] None
    [Tree [(str "x", leaf)] [] None [] None [] [] [] [] None] [] [] [] None)]).
  exists (PSchema (str "pet") [SProperty (str "x"); SContains 0]), (PSchema (str "pet") [SContains 0; SProperty (str "x")]), (str "XPropertyFromPetSchemaContent0").
  computed. split; [|split; [|split; [done|split; inl]]].
  - eapply in_schema; [left|]. eapply part_step; [apply next_prop; left|]. eapply part_step; [by apply next_contains|apply part_here].
  - eapply in_schema; [left|]. eapply part_step; [by apply next_contains|]. eapply part_step; [apply next_prop; left|apply part_here].
Qed.
Print Assumptions C79_contains_refuted.

(** A key with "From" in it. *)
Theorem C79_from_refuted ul ud uu : exists d p1 p2 n names, document_names ul ud uu d = Some names /\ in_document d p1 /\ in_document d p2 /\
  p1 <> p2 /\ (p1, n) ∈ names /\ (p2, n) ∈ names.
Proof.
  exists (mkDocument [] [] [(str "pet", Tree [(str "b", Tree [(str "a", leaf)] [] None [] None [] [] [] [] None); (str "aPropertyFromB", leaf)] [] None [] None [] [] [] [] None)]).
  exists (PSchema (str "pet") [SProperty (str "b"); SProperty (str "a")]), (PSchema (str "pet") [SProperty (str "aPropertyFromB")]), (str "APropertyFromBPropertyFromPetSchema").
  computed. split; [|split; [|split; [done|split; inl]]].
  - eapply in_schema; [left|]. eapply part_step; [apply next_prop; left|]. eapply part_step; [apply next_prop; left|apply part_here].
  - eapply in_schema; [left|]. eapply part_step; [apply next_prop; right; left|apply part_here].
Qed.
Print Assumptions C79_from_refuted.
