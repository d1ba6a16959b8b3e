(** C85: the generated package declares nothing twice. *)
From stdpp Require Import gmap list strings.
From Coq Require Import NArith Ascii String.
From Verif.Model Require Import Naming Names Operations Package.
From Verif.Spec Require Import NamingSpec NamesSpec OperationsSpec PackageSpec.
From Verif.Proof Require Import NamesProof PackageProof PackageOnceProof.
Local Open Scope string_scope.
Local Open Scope list_scope.
Local Open Scope nat_scope.
Local Notation lit := list_ascii_of_string.

(** ** The claim
    For every document that can be generated, no name is declared twice at the top of the package and no method twice on a type. *)

(** For documents whose names differ, whatever the operations, replies, parameters, addresses and correlation IDs are. *)
Theorem C85_apart : forall ul ud uu info order ops cs messages schemas c,
  NoDup ops.*1 -> named_apart info ops cs messages schemas ->
  package ul ud uu info order ops cs messages schemas = Some c -> declared_once c.1.
Proof. intros. by eapply package_once. Qed.
Print Assumptions C85_apart.

(** For documents whose keys can be told apart (C79). Missing from the claim: documents that C79 excludes, an operation named like the answers to another,
    a message or schema named like the constructor of a message, channels that are references. *)
Theorem C85_once_partial : forall ul ud uu d names info order ops cs messages schemas c,
  clear_document d -> document_names ul ud uu d = Some names -> named_by d (names.*2) info ops cs messages schemas ->
  (forall k o, (k, o) ∈ ops -> o_refers o = None) ->
  NoDup (kind_names "Operation" (map (fun ko => lit ko.1) ops)) ->
  never_prefixed "ReplyTo" (map (fun ko => o_name ko.2) ops) (map (fun ko => o_name ko.2) ops) ->
  never_prefixed "New" (type_names info messages schemas) (map (message_name info) messages) ->
  package ul ud uu info order ops cs messages schemas = Some c -> declared_once c.1.
Proof. intros ul ud uu d names info order ops cs messages schemas c Hc Hd Hb Hr Ho Hp Hn E. destruct (named_by_apart ul ud uu d names info ops cs messages schemas) as [N A]; [done..|]. by eapply package_once. Qed.
Print Assumptions C85_once_partial.

(** ** A document *)
Definition leaf := Tree [] [] None [] None [] [] [] [] None.
Definition text_message := MTree (Some leaf) None [] None.
Definition ex_document := mkDocument
  [(lit "ping", [(lit "ping", text_message)]); (lit "pong", [(lit "pong", text_message)])]
  [(lit "news", text_message)]
  [(lit "place", Tree [(lit "name", leaf)] [] None [] None [] [] [] [] None)].
Definition ping_channel := mkChannel "PingChannel" [0].
Definition pong_channel := mkChannel "PongChannel" [1].
Definition ping := mkOperation "PingOperation" "receive" ping_channel [] (Some (mkReply (Some pong_channel) [])) None.
Definition news := mkOperation "NewsOperation" "send" pong_channel [2] None None.
Definition message_names (m : nat) : string := match m with 0 => "PingMessageFromPingChannel" | 1 => "PongMessageFromPongChannel" | _ => "NewsMessage" end.
Definition plain := mkDetails (fun ch => String.eqb (ch_name ch) "PingChannel") (fun _ => false) (fun _ => false) (fun _ => false) message_names (fun m => m <? 2).
Definition two_channels := [mkNamed "PingChannel" true "PingChannel"; mkNamed "PongChannel" false "PongChannel"].
Definition ex_ops := [("ping", ping); ("news", news)].
Definition ex_schemas := ["PlaceSchema"; "NewsMessagePayload"].
Ltac dec := apply (bool_decide_unpack _); vm_compute; exact I.

Local Ltac rd := split; [dec|rewrite Forall_forall; intros k Hk; repeat (apply elem_of_cons in Hk as [->|Hk]; [apply from_b_spec; vm_compute; reflexivity|]); by apply elem_of_nil in Hk].
Local Ltac elems H := repeat match type of H with
  | _ ∈ _ ++ _ => apply elem_of_app in H as [H|H]
  | _ ∈ _ :: _ => apply elem_of_cons in H as [H|H]
  | _ ∈ [] => by apply elem_of_nil in H
  end.
Local Ltac kids c := intros c [(? & H)|[H|[H|[H|H]]]]; elems H; try discriminate H; try (injection H as ? ?); try (injection H as ?); subst.
Lemma clear_leaf : clear leaf.
Proof. constructor; try rd; try dec; try (cbn; lia). kids t. Qed.
Lemma clear_text : clear_message text_message.
Proof. constructor; [intros t [[= <-]|[=]]; apply clear_leaf|intros m H; by apply elem_of_nil in H|done|done]. Qed.
Example C85_clear_ex : clear_document ex_document.
Proof.
  split; [rd|dec| | |rd|dec|].
  - intros c ms H. cbn [ex_document d_channels] in H. elems H; injection H as -> ->; (split; [rd|split; [dec|]]); intros k m H; elems H; injection H as -> ->; apply clear_text.
  - split; [rd|split; [dec|]]; intros k m H; cbn [ex_document d_messages] in H; elems H; injection H as -> ->; apply clear_text.
  - intros k t H. cbn [ex_document d_schemas] in H. elems H. injection H as -> ->. constructor; try rd; try dec; try (cbn; lia). kids t; apply clear_leaf.
Qed.
Example C85_named_ex ul ud uu : exists names, document_names ul ud uu ex_document = Some names /\ named_by ex_document (names.*2) plain ex_ops two_channels [0; 1; 2] ex_schemas.
Proof.
  eexists. split; [vm_compute; reflexivity|]. split.
  - vm_compute. reflexivity.
  - intros nc H. repeat (apply elem_of_cons in H as [->|H]; [done|]). by apply elem_of_nil in H.
  - vm_compute. reflexivity.
  - dec.
Qed.
Lemma never_prefixed_b p l1 l2 : forallb (fun a => forallb (fun b => negb (String.eqb a (p +:+ b))) l2) l1 = true -> never_prefixed p l1 l2.
Proof.
  intros H a b Ha Hb ->. rewrite forallb_forall in H. apply elem_of_list_In in Ha, Hb. specialize (H _ Ha). rewrite forallb_forall in H. specialize (H _ Hb).
  by rewrite String.eqb_refl in H.
Qed.
Example C85_prefixes_ex : never_prefixed "ReplyTo" (map (fun ko => o_name ko.2) ex_ops) (map (fun ko => o_name ko.2) ex_ops) /\
  never_prefixed "New" (type_names plain [0; 1; 2] ex_schemas) (map (message_name plain) [0; 1; 2]) /\
  NoDup (kind_names "Operation" (map (fun ko => lit ko.1) ex_ops)).
Proof. split; [|split]; [by apply never_prefixed_b|by apply never_prefixed_b|dec]. Qed.
Example C85_once_ex ul ud uu : exists c, package ul ud uu plain (fun _ => ch_messages) ex_ops two_channels [0; 1; 2] ex_schemas = Some c /\ declared_once c.1 /\
  DeclMethod "UserController" "SubscribeToNewsOperation" [TyCtx; TyHandler "NewsMessage"] [TyError] ∈ c.1 /\ 60 < List.length c.1.
Proof. eexists. split; [vm_compute; reflexivity|]. repeat split; dec. Qed.

(** ** Without the hypotheses *)
Definition in_order (_ : nat) (ch : channel) : list nat := ch_messages ch.
Definition twice (info : details) (ops : list (string * operation)) (cs : list named_channel) (messages : list nat) (schemas : list string) (x : option string * string) : Prop :=
  forall ul ud uu, exists c, package ul ud uu info in_order ops cs messages schemas = Some c /\
    exists i j d e, i <> j /\ c.1 !! i = Some d /\ c.1 !! j = Some e /\ declared_name d = x /\ declared_name e = x.

(** Where a name is declared. *)
Fixpoint places (x : option string * string) (n : nat) (ds : list decl) : list nat :=
  match ds with [] => [] | d :: r => if bool_decide (declared_name d = x) then n :: places x (S n) r else places x (S n) r end.
Ltac declared_twice :=
  intros ul ud uu; eexists; split; [vm_compute; reflexivity|]; cbn [fst];
  match goal with |- exists i j d e, _ /\ ?ds !! _ = _ /\ _ /\ _ = ?x /\ _ =>
    let l := eval vm_compute in (places x 0 ds) in
    match l with ?i :: ?j :: _ => exists i, j; do 2 eexists; split; [done|]; split; [reflexivity|]; split; [reflexivity|]; split; reflexivity end
  end.
(** Two messages "a" and "newA": the type of the second has the name of the constructor of the first. *)
Definition new_names (m : nat) : string := match m with 0 => "AMessage" | _ => "NewAMessage" end.
Definition new_info := mkDetails (fun _ => false) (fun _ => false) (fun _ => false) (fun _ => false) new_names (fun _ => false).
Theorem C85_constructor_refuted :
  (forall ul ud uu, document_names ul ud uu (mkDocument [] [(lit "a", text_message); (lit "newA", text_message)] []) =
    Some [(PMessage (BComponent (lit "a")) [], lit "AMessage"); (PPayload (BComponent (lit "a")) [] [], lit "AMessagePayload");
          (PMessage (BComponent (lit "newA")) [], lit "NewAMessage"); (PPayload (BComponent (lit "newA")) [] [], lit "NewAMessagePayload")]) /\
  twice new_info [] [] [0; 1] [] (None, "NewAMessage").
Proof.
  split; [intros; vm_compute; reflexivity|]. declared_twice.
Qed.
Print Assumptions C85_constructor_refuted.

(** A channel that is a reference to another one of the document: two constants for the address. *)
Theorem C85_channel_reference_refuted : twice plain [] [mkNamed "AliasChannel" false "PongChannel"; mkNamed "PongChannel" false "PongChannel"] [] []
  (None, "PongChannelPath").
Proof. declared_twice. Qed.
Print Assumptions C85_channel_reference_refuted.

(** Channels whose keys "a-b" and "a_b" give the same name. *)
Theorem C85_channel_keys_refuted : kind_names "Channel" [lit "a-b"; lit "a_b"] = [lit "ABChannel"; lit "ABChannel"] /\
  twice plain [] [mkNamed "ABChannel" false "ABChannel"; mkNamed "ABChannel" false "ABChannel"] [] [] (None, "ABChannelPath").
Proof. split; [vm_compute; reflexivity|declared_twice]. Qed.
Print Assumptions C85_channel_keys_refuted.

(** Operations whose keys "a-b" and "a_b" give the same name. *)
Definition same (c : channel) := mkOperation "ABOperation" "send" c [] None None.
Theorem C85_operation_keys_refuted : kind_names "Operation" [lit "a-b"; lit "a_b"] = [lit "ABOperation"; lit "ABOperation"] /\
  twice plain [("a-b", same ping_channel); ("a_b", same pong_channel)] two_channels [0; 1; 2] [] (Some "AppController", "SendAsABOperation") /\
  twice plain [("a-b", same ping_channel); ("a_b", same pong_channel)] two_channels [0; 1; 2] [] (Some "UserSubscriber", "ABOperationReceived").
Proof. split; [vm_compute; reflexivity|split; declared_twice]. Qed.
Print Assumptions C85_operation_keys_refuted.

(** An operation named like the answers to another one. *)
Definition reply_to_ping := mkOperation "ReplyToPingOperation" "send" pong_channel [] None None.
Theorem C85_reply_name_refuted : kind_names "Operation" [lit "ping"; lit "replyToPing"] = [lit "PingOperation"; lit "ReplyToPingOperation"] /\
  twice plain [("ping", ping); ("replyToPing", reply_to_ping)] two_channels [0; 1; 2] [] (Some "AppController", "SendAsReplyToPingOperation").
Proof. split; [vm_compute; reflexivity|declared_twice]. Qed.
Print Assumptions C85_reply_name_refuted.

(** Two alternatives of one schema. *)
Theorem C85_alternatives_refuted :
  (forall ul ud uu, document_names ul ud uu (mkDocument [] [] [(lit "pet", Tree [] [] None [] None [] [leaf; leaf] [] [] None)]) =
    Some [(PSchema (lit "pet") [], lit "PetSchema"); (PSchema (lit "pet") [SAnyOf 0], lit "AnyOfFromPetSchema"); (PSchema (lit "pet") [SAnyOf 1], lit "AnyOfFromPetSchema")]) /\
  twice plain [] [] [] ["PetSchema"; "AnyOfFromPetSchema"; "AnyOfFromPetSchema"] (None, "AnyOfFromPetSchema").
Proof. split; [intros; vm_compute; reflexivity|declared_twice]. Qed.
Print Assumptions C85_alternatives_refuted.
