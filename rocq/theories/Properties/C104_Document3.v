(** C104: the code generated for a document of version 3, from the document to the code. *)
From stdpp Require Import gmap list strings.
From Coq Require Import NArith Ascii String.
From Verif.Model Require Import GoStrings Reference Linking Naming Names Operations Package Document3.
From Verif.Spec Require Import ReferenceSpec NamingSpec NamesSpec LinkingSpec OperationsSpec PackageSpec Document3Spec.
From Verif.Proof Require Import ReferenceProof LinkingProof LinkingCheck PackageProof PackageOnceProof Document3Proof Document3Check.
Local Open Scope string_scope.
Local Open Scope list_scope.
Local Open Scope nat_scope.

(** Channels, operations and messages, in the document, its components and the documents it refers to, are named after their keys, messages of channels
    after their channel, too. *)
Theorem C104_named : forall ul ud uu w at_address schema t f l x n,
  processed w at_address schema t f l -> called t f x n -> name_at ul ud uu t f (o_id x) = n.
Proof. intros ul ud uu w at_address schema t f l x n []. by eapply called_name. Qed.
Print Assumptions C104_named.

(** The types made for messages are those of the messages written in the document. *)
Theorem C104_written : forall w at_address schema t f l i,
  processed w at_address schema t f l -> i ∈ messages3 f <-> exists m, written f m /\ i = o_id m.
Proof. intros w at_address schema t f l i []. by eapply messages_written. Qed.
Print Assumptions C104_written.

(** When the document is complete, the generators get each operation under its key, with its action, its channel and its message. *)
Theorem C104_operation : forall ul ud uu w at_address schema t f l o c m,
  processed w at_address schema t f l -> complete w at_address t f ->
  holds (root_of f) "operations" o -> on_channel w at_address f o c -> about w at_address f o m ->
  exists q, (key_of t (o_id o), q) ∈ operations3 ul ud uu t at_address f l /\ o_action q = action_of t (o_id o) /\
    o_name q = word_of (key_of t (o_id o)) "Operation" /\ (forall i, only_message q i <-> i = o_id m) /\
    (own_channel f c -> ch_name (o_channel q) = word_of (key_of t (o_id c)) "Channel").
Proof.
  intros ul ud uu w at_address schema t f l o c m [] Co Ho Hc Am. exists (own_operation ul ud uu t at_address f l o None).
  split; [eapply operations_in; eauto|]. split; [done|]. split; [by eapply operation_named|].
  split; [|intros Oc; erewrite operation_channel by eauto; eapply channel_named; eauto; apply Oc].
  edestruct about_only as [A B]; eauto. intros i. split; [apply B|by intros ->].
Qed.
Print Assumptions C104_operation.

(** Whatever order the messages of channels are taken in, the code is generated and everything it uses is declared, with the same types. *)
Theorem C104_backed : forall ul ud uu w at_address schema t f l order schemas,
  processed w at_address schema t f l -> complete w at_address t f -> (forall site ch, order site ch ≡ₚ ch_messages ch) ->
  exists c, generated3 ul ud uu t at_address f l order schemas = Some c /\ all_backed c.
Proof. intros ul ud uu w at_address schema t f l order schemas [] Co Ord. by eapply backed3. Qed.
Print Assumptions C104_backed.

(** When the names can be told apart, nothing is declared twice. *)
Theorem C104_once : forall ul ud uu w at_address schema t f l order schemas c,
  processed w at_address schema t f l -> complete w at_address t f -> legible t f -> schemas_apart t f schemas ->
  generated3 ul ud uu t at_address f l order schemas = Some c -> declared_once c.1.
Proof. intros ul ud uu w at_address schema t f l order schemas c [] Co Le Sc. by eapply once3. Qed.
Print Assumptions C104_once.

(** ** A document: a request with an answer sent where the request says, and news on a channel with a parameter. *)
Definition of_list (l : list (string * nat)) : gmap string nat := list_to_map l.
Definition common : spec := mkSpec (fun k => if String.eqb k "messages" then of_list [("Shared", 30)] else ∅) ∅ ∅.
Definition main : spec := mkSpec (fun k =>
  if String.eqb k "messages" then of_list [("Ping", 10); ("Pong", 11)] else
  if String.eqb k "channels" then of_list [("chat", 27); ("ping", 28)] else ∅)
  (of_list [("ping", 20); ("pong", 21); ("news", 25)]) (of_list [("common.yaml", 1)]).
Definition world_ex : world := mkWorld (fun _ => common) (fun _ => ∅) (fun _ => None) (fun _ => None)
  (fun c => if Nat.eqb c 20 then of_list [("Ping", 22)] else if Nat.eqb c 25 then of_list [("News", 26)] else ∅).
Definition plain i k fields := Object i k "" "" fields.
Definition refer i k ref := Object i k ref "" [].
Definition document_ex (ping in_components : list (string * list object)) (operations : list object) : file :=
  File main (plain 0 KSpecification [
    ("components", [plain 1 KComponents ([
       ("messages", [plain 10 KMessage [("correlationID", [Object 50 KCorrelationID "" "$message.header#/id" []])];
                     plain 11 KMessage [("correlationID", [Object 51 KCorrelationID "" "$message.header#/id" []])]])] ++ in_components)]);
    ("channels", [plain 20 KChannel ping;
                  plain 21 KChannel [("messages", [refer 23 KMessage "#/components/messages/Pong"])];
                  plain 25 KChannel [("messages", [plain 26 KMessage []]); ("parameters", [plain 29 KParameter []])]]);
    ("operations", operations)]) [File common (plain 2 KSpecification [("components", [plain 3 KComponents [("messages", [plain 30 KMessage []])]])]) []].
Definition ping_messages : list (string * list object) := [("messages", [refer 22 KMessage "#/components/messages/Ping"])].
Definition ask : object := plain 40 KOperation [("channel", [refer 41 KChannel "#/channels/ping"]); ("reply", [plain 43 KReply
  [("address", [Object 44 KReplyAddress "" "$message.header#/replyTo" []]); ("channel", [refer 45 KChannel "#/channels/pong"])]])].
Definition publish : object := plain 46 KOperation [("channel", [refer 47 KChannel "#/channels/news"]); ("messages", [refer 48 KMessage "#/channels/news/messages/News"])].
Definition doc : file := document_ex ping_messages [] [ask; publish].
Definition keys_ex (i : nat) : string :=
  if i =? 10 then "Ping" else if i =? 11 then "Pong" else if i =? 20 then "ping" else if i =? 21 then "pong" else if i =? 22 then "Ping" else if i =? 23 then "Pong" else
  if i =? 25 then "news" else if i =? 26 then "News" else if i =? 30 then "Shared" else if i =? 27 then "chat" else if i =? 28 then "ping" else
  if i =? 40 then "ask" else if i =? 46 then "publish" else if i =? 31 then "Shared" else "".
Definition texts_ex : texts := mkTexts keys_ex (fun i => if i =? 40 then "receive" else if i =? 46 then "send" else "")
  (fun i => if i =? 20 then "ping.v1" else if i =? 25 then "news.{topic}" else if i =? 27 then "news.{topic}" else "").
Definition ok_schema (i : nat) : res unit := Ok tt.
Definition links_of (f : file) : links := linked_of world_ex ok_schema f.
Definition code_of ul ud uu (f : file) (schemas : list string) : option code :=
  generated3 ul ud uu texts_ex (find_object f) f (links_of f) (fun _ ch => ch_messages ch) schemas.

(** What an object holds, one by one; texts that are computed. *)
Ltac enum H := let cs := fresh "cs" in let Hl := fresh "Hl" in
  destruct H as (cs & Hl & H); cbn [o_fields plain refer root_of document_ex app ask publish ping_messages] in Hl;
  repeat (apply elem_of_cons in Hl as [Hl|Hl]; [first [discriminate Hl|injection Hl as ->]|]); try (by apply elem_of_nil in Hl);
  repeat (apply elem_of_cons in H as [->|H]); try (by apply elem_of_nil in H).
Ltac decide_it := apply (bool_decide_unpack _); vm_compute; exact I.
Ltac among := repeat (first [apply elem_of_list_here|apply elem_of_list_further]).
Ltac held := eexists; split; among.
Ltac aims p := apply (for_target _ _ _ _ p); [discriminate|apply target_designated; [discriminate|discriminate|vm_compute; reflexivity]|vm_compute; reflexivity].

Example C104_processed : processed world_ex (find_object doc) ok_schema texts_ex doc (links_of doc).
Proof. apply is_processed_sound. vm_compute. reflexivity. Qed.

Local Notation at_doc := (find_object doc).
Lemma ping_own : own_channel doc (plain 20 KChannel ping_messages).
Proof. split; [held|done]. Qed.
Definition pong : object := plain 21 KChannel [("messages", [refer 23 KMessage "#/components/messages/Pong"])].
Lemma pong_own : own_channel doc pong.
Proof. split; [held|done]. Qed.
Definition news : object := plain 25 KChannel [("messages", [plain 26 KMessage []]); ("parameters", [plain 29 KParameter []])].
Lemma news_own : own_channel doc news.
Proof. split; [held|done]. Qed.
Definition ping_message : object := plain 10 KMessage [("correlationID", [Object 50 KCorrelationID "" "$message.header#/id" []])].
Definition pong_message : object := plain 11 KMessage [("correlationID", [Object 51 KCorrelationID "" "$message.header#/id" []])].
Lemma ping_written : written doc ping_message.
Proof. split; [done|]. right. eexists. split; [held|held]. Qed.
Lemma pong_written : written doc pong_message.
Proof. split; [done|]. right. eexists. split; [held|held]. Qed.
Lemma ask_on : on_channel world_ex at_doc doc ask (plain 20 KChannel ping_messages).
Proof. exists (refer 41 KChannel "#/channels/ping"). split; [held|aims 20]. Qed.
Lemma ask_about : about world_ex at_doc doc ask ping_message.
Proof.
  apply (about_channel _ _ _ _ _ (plain 20 KChannel ping_messages)); [intros x H; enum H|apply ask_on|].
  exists (refer 22 KMessage "#/components/messages/Ping"). split; [among|]. exists main, ping_message. split; [apply pairs_in_file; cbn; among|]. split; [aims 10|by apply for_itself].
Qed.
Lemma publish_about : about world_ex at_doc doc publish (plain 26 KMessage []).
Proof. apply (about_listed _ _ _ _ _ (refer 48 KMessage "#/channels/news/messages/News") []); [among|aims 26]. Qed.
Lemma pong_correlates : correlates world_ex at_doc doc pong_message.
Proof. exists (Object 51 KCorrelationID "" "$message.header#/id" []). split; [|done]. apply carries_own. held. Qed.
Lemma unique_on (o c c' : object) : in_file doc main o -> o_kind o = KOperation \/ o_kind o = KReply -> on_channel world_ex at_doc doc o c -> on_channel world_ex at_doc doc o c' -> c = c'.
Proof. destruct C104_processed. by eapply on_channel_unique. Qed.

Example C104_complete : complete world_ex at_doc texts_ex doc.
Proof.
  split.
  - intros o Ho. enum Ho; (split; [done|]).
    + split; [eexists; split; [apply ask_on|apply ping_own]|]. exists ping_message. split; [apply ask_about|apply ping_written].
    + split; [exists news; split; [exists (refer 47 KChannel "#/channels/news"); split; [held|aims 25]|apply news_own]|].
      exists (plain 26 KMessage []). split; [apply publish_about|]. split; [done|]. left. exists news. split; held.
  - intros o r Ho Hr. enum Ho; enum Hr. split.
    + exists (refer 45 KChannel "#/channels/pong"), pong, pong_message. split; [held|]. split; [aims 21|]. split; [apply pong_own|].
      split; [exists (refer 23 KMessage "#/components/messages/Pong"); split; [among|]; exists main, pong_message; split; [apply pairs_in_file; cbn; among|]; split; [aims 11|by apply for_itself]|].
      split; [apply pong_written|]. split; [intros p Hp; enum Hp|]. split.
      * split; [intros _; split; [eexists; held|done]|done].
      * intros _ _ _. apply pong_correlates.
    + intros c Hc. rewrite (unique_on ask c (plain 20 KChannel ping_messages)); [done|apply pairs_in_file; cbn; among|by left|done|apply ask_on].
  - intros o o' r r' c Ho Ho' [S _] Hr Hr' _ _. enum Ho; enum Ho'; try done; discriminate S.
  - intros o o' r c Ho Ho' Hr Hc. enum Ho; enum Hr.
    assert (c = pong) as ->.
    { eapply unique_on; [| |exact Hc|eexists; split; [held|aims 21]]; [apply pairs_in_file; cbn; among|by right]. }
    enum Ho'; vm_compute; discriminate.
Qed.
Example C104_legible : legible texts_ex doc.
Proof.
  split.
  - intros c Hc. by enum Hc.
  - apply are_readable_sound. vm_compute. reflexivity.
  - intros c Hc. enum Hc; (split; [apply are_readable_sound; vm_compute; reflexivity|decide_it]).
  - intros c Hc. enum Hc; (split; [apply are_readable_sound; vm_compute; reflexivity|decide_it]).
  - vm_compute. lia.
Qed.
Example C104_apart : schemas_apart texts_ex doc ["PlaceSchema"].
Proof.
  apply (are_apart_sound world_ex); [apply C104_processed|apply C104_processed| |vm_compute; reflexivity].
  constructor; [|constructor]. split.
  - eexists "P"%char, _. split; [reflexivity|]. split; [decide_it|]. repeat (constructor; [decide_it|]). constructor.
  - exists "Place", "Schema". split; [decide_it|reflexivity].
Qed.
Example C104_named_ex ul ud uu : map (name_at ul ud uu texts_ex doc) [20; 10; 26; 22; 40; 30] =
  ["PingChannel"; "PingMessage"; "NewsMessageFromNewsChannel"; "PingMessageFromPingChannel"; "AskOperation"; "SharedMessage"].
Proof. vm_compute. reflexivity. Qed.
Example C104_called_ex : called texts_ex doc (refer 22 KMessage "#/components/messages/Ping") "PingMessageFromPingChannel" /\ called texts_ex doc (plain 30 KMessage []) "SharedMessage".
Proof.
  split.
  - pose proof (called_in_channel texts_ex doc (root_of doc) (plain 20 KChannel ping_messages) (refer 22 KMessage "#/components/messages/Ping")) as H.
    vm_compute in H. apply H; [constructor|held|held].
  - pose proof (called_message texts_ex doc (plain 3 KComponents [("messages", [plain 30 KMessage []])]) (plain 30 KMessage [])) as H. vm_compute in H. apply H; [|held].
    eapply part_other; [left|]. apply part_components. held.
Qed.
Example C104_written_ex : messages3 doc = [26; 10; 11].
Proof. vm_compute. reflexivity. Qed.
Example C104_operation_ex ul ud uu : exists q, ("ask", q) ∈ operations3 ul ud uu texts_ex at_doc doc (links_of doc) /\ o_action q = "receive" /\
  o_name q = "AskOperation" /\ (forall i, only_message q i <-> i = 10) /\ ch_name (o_channel q) = "PingChannel".
Proof.
  destruct (C104_operation ul ud uu _ _ _ _ _ _ ask _ _ C104_processed C104_complete ltac:(held) ask_on ask_about) as (q & H1 & H2 & H3 & H4 & H5).
  exists q. split; [exact H1|]. split; [exact H2|]. split; [exact H3|]. split; [exact H4|]. exact (H5 ping_own).
Qed.
Example C104_code_ex ul ud uu : exists c, code_of ul ud uu doc ["PlaceSchema"] = Some c /\ all_backed c /\ declared_once c.1 /\
  DeclMethod "UserController" "RequestToAskOperation" [TyCtx; TyName "PingMessage"] [TyName "PongMessage"; TyError] ∈ c.1 /\
  UseMethod "AppController" "SendAsReplyToAskOperation" [TyCtx; TyText; TyName "PongMessage"] [TyError] ∈ c.2 /\
  DeclMethod "AppController" "SendAsPublishOperation" [TyCtx; TyName "NewsChannelParameters"; TyName "NewsMessageFromNewsChannel"] [TyError] ∈ c.1.
Proof.
  destruct (C104_backed ul ud uu _ _ _ _ _ _ (fun _ ch => ch_messages ch) ["PlaceSchema"] C104_processed C104_complete) as (c & E & B); [done|].
  exists c. split; [exact E|]. split; [exact B|]. split; [exact (C104_once _ _ _ _ _ _ _ _ _ _ _ _ C104_processed C104_complete C104_legible C104_apart E)|].
  vm_compute in E. injection E as <-. split; [decide_it|]. split; decide_it.
Qed.

(** ** References that AsyncAPI allows
    It would be enough that references, however many, lead to a channel and a message. *)
Definition references_enough (Q : world -> (nat -> option object) -> file -> Prop) : Prop :=
  forall ul ud uu w at_address schema t f l order schemas,
    processed w at_address schema t f l -> plain_operations w at_address f -> Q w at_address f -> (forall site ch, order site ch ≡ₚ ch_messages ch) ->
    exists c, generated3 ul ud uu t at_address f l order schemas = Some c /\ all_backed c.

(** Refuted, the usual way to write documents: an operation lists a message of its channel, which is a reference to a message of the components.
    The code uses the type of the message of the channel; there is none. *)
Definition doc_listed : file := document_ex ping_messages []
  [plain 46 KOperation [("channel", [refer 47 KChannel "#/channels/ping"]); ("messages", [refer 48 KMessage "#/channels/ping/messages/Ping"])]].
Definition all_written (w : world) (at_address : nat -> option object) (f : file) : Prop :=
  forall o c, holds (root_of f) "operations" o -> on_channel w at_address f o c -> own_channel f c /\
    forall x, holds c "messages" x -> exists m, stands_for w at_address (here f) x m /\ written f m.
Theorem C104_listed_refuted : ~ references_enough all_written.
Proof.
  intros H. destruct (H no_names no_names (fun _ => []) world_ex (find_object doc_listed) ok_schema texts_ex doc_listed (links_of doc_listed) (fun _ ch => ch_messages ch) []) as (c & E & B).
  - apply is_processed_sound. vm_compute. reflexivity.
  - intros o Ho. enum Ho. split; [done|]. split; [intros r Hr; enum Hr|].
    exists (refer 47 KChannel "#/channels/ping"), main, (plain 20 KChannel ping_messages). split; [held|]. split.
    + eapply (finally_step _ _ _ _ _ (plain 20 KChannel ping_messages) main); [discriminate|aims 20|apply pairs_in_file; cbn; among|by apply finally_here].
    + left. exists (refer 48 KMessage "#/channels/ping/messages/Ping"), [], main, ping_message. split; [among|].
      eapply (finally_step _ _ _ _ _ (refer 22 KMessage "#/components/messages/Ping") main); [discriminate|aims 22|apply pairs_in_file; cbn; among|].
      eapply (finally_step _ _ _ _ _ ping_message main); [discriminate|aims 10|apply pairs_in_file; cbn; among|by apply finally_here].
  - intros o c Ho (ch & Hch & St). enum Ho. enum Hch.
    assert (c = plain 20 KChannel ping_messages) as ->.
    { apply (stands_for_unique world_ex (find_object doc_listed) main (refer 47 KChannel "#/channels/ping")); [discriminate|discriminate|exact St|aims 20]. }
    split; [split; [held|done]|]. intros x Hx. enum Hx. exists ping_message. split; [aims 10|]. split; [done|]. right. eexists. split; held.
  - done.
  - assert (X : ~ all_backed c); [|done]. clear B. vm_compute in E. injection E as <-. decide_it.
Qed.
Print Assumptions C104_listed_refuted.
Example C104_listed_ex ul ud uu : exists c, code_of ul ud uu doc_listed [] = Some c /\ UseType "PingMessageFromPingChannel" ∈ c.2 /\ DeclType "PingMessageFromPingChannel" ∉ c.1.
Proof. eexists. split; [vm_compute; reflexivity|]. split; decide_it. Qed.

(** Refuted: a channel of the document is a reference to one of the components; the generator crashes. *)
Definition doc_channel : file :=
  File main (plain 0 KSpecification [
    ("components", [plain 1 KComponents [
       ("messages", [plain 10 KMessage []; plain 11 KMessage []]);
       ("channels", [plain 27 KChannel []; plain 28 KChannel [("messages", [refer 24 KMessage "#/components/messages/Ping"])]])]]);
    ("channels", [refer 20 KChannel "#/components/channels/ping"; plain 21 KChannel []; plain 25 KChannel []]);
    ("operations", [plain 46 KOperation [("channel", [refer 47 KChannel "#/channels/ping"])]])]) [].
Definition of_document (w : world) (at_address : nat -> option object) (f : file) : Prop :=
  forall o c, holds (root_of f) "operations" o -> on_channel w at_address f o c -> holds (root_of f) "channels" c.
Theorem C104_channel_refuted : ~ references_enough of_document.
Proof.
  intros H. destruct (H no_names no_names (fun _ => []) world_ex (find_object doc_channel) ok_schema texts_ex doc_channel (links_of doc_channel) (fun _ ch => ch_messages ch) []) as (c & E & B).
  - apply is_processed_sound. vm_compute. reflexivity.
  - intros o Ho. enum Ho. split; [done|]. split; [intros r Hr; enum Hr|].
    exists (refer 47 KChannel "#/channels/ping"), main, (plain 28 KChannel [("messages", [refer 24 KMessage "#/components/messages/Ping"])]). split; [held|]. split.
    + eapply (finally_step _ _ _ _ _ (refer 20 KChannel "#/components/channels/ping") main); [discriminate|aims 20|apply pairs_in_file; cbn; among|].
      eapply (finally_step _ _ _ _ _ (plain 28 KChannel _) main); [discriminate|aims 28|apply pairs_in_file; cbn; among|by apply finally_here].
    + right. split; [intros x Hx; enum Hx|]. exists (refer 24 KMessage "#/components/messages/Ping"), main, (plain 10 KMessage []). split; [among|].
      eapply (finally_step _ _ _ _ _ (plain 10 KMessage []) main); [discriminate|aims 10|apply pairs_in_file; cbn; among|by apply finally_here].
  - intros o c Ho (ch & Hch & St). enum Ho. enum Hch.
    assert (c = refer 20 KChannel "#/components/channels/ping") as ->.
    { apply (stands_for_unique world_ex (find_object doc_channel) main (refer 47 KChannel "#/channels/ping")); [discriminate|discriminate|exact St|aims 20]. }
    held.
  - done.
  - vm_compute in E. discriminate E.
Qed.
Print Assumptions C104_channel_refuted.
Example C104_channel_ex ul ud uu : code_of ul ud uu doc_channel [] = None.
Proof. vm_compute. reflexivity. Qed.

(** Refuted: the channel of an operation is one of the components and has parameters, of which no type is made. *)
Definition chat : object := plain 27 KChannel [("messages", [refer 24 KMessage "#/components/messages/Ping"]); ("parameters", [plain 29 KParameter []])].
Definition doc_components : file :=
  File main (plain 0 KSpecification [
    ("components", [plain 1 KComponents [("messages", [plain 10 KMessage []; plain 11 KMessage []]); ("channels", [chat; plain 28 KChannel []])]]);
    ("channels", [plain 20 KChannel []; plain 21 KChannel []; plain 25 KChannel []]);
    ("operations", [plain 46 KOperation [("channel", [refer 47 KChannel "#/components/channels/chat"])]])]) [].
Definition one_step (w : world) (at_address : nat -> option object) (f : file) : Prop :=
  forall o, holds (root_of f) "operations" o -> exists c m, on_channel w at_address f o c /\ o_ref c = "" /\ about w at_address f o m /\ written f m.
Theorem C104_components_refuted : ~ references_enough one_step.
Proof.
  intros H. destruct (H no_names no_names (fun _ => []) world_ex (find_object doc_components) ok_schema texts_ex doc_components (links_of doc_components) (fun _ ch => ch_messages ch) []) as (c & E & B).
  - apply is_processed_sound. vm_compute. reflexivity.
  - intros o Ho. enum Ho. split; [done|]. split; [intros r Hr; enum Hr|].
    exists (refer 47 KChannel "#/components/channels/chat"), main, chat. split; [held|]. split.
    + eapply (finally_step _ _ _ _ _ chat main); [discriminate|aims 27|apply pairs_in_file; cbn; among|by apply finally_here].
    + right. split; [intros x Hx; enum Hx|]. exists (refer 24 KMessage "#/components/messages/Ping"), main, (plain 10 KMessage []). split; [among|].
      eapply (finally_step _ _ _ _ _ (plain 10 KMessage []) main); [discriminate|aims 10|apply pairs_in_file; cbn; among|by apply finally_here].
  - intros o Ho. enum Ho. exists chat, (plain 10 KMessage []). split; [eexists; split; [held|aims 27]|]. split; [done|]. split.
    + apply (about_channel _ _ _ _ _ chat); [intros x Hx; enum Hx|eexists; split; [held|aims 27]|].
      exists (refer 24 KMessage "#/components/messages/Ping"). split; [among|]. exists main, (plain 10 KMessage []). split; [apply pairs_in_file; cbn; among|]. split; [aims 10|by apply for_itself].
    + split; [done|]. right. eexists. split; held.
  - done.
  - assert (X : ~ all_backed c); [|done]. clear B. vm_compute in E. injection E as <-. decide_it.
Qed.
Print Assumptions C104_components_refuted.
Example C104_components_ex ul ud uu : exists c, code_of ul ud uu doc_components [] = Some c /\ UseType "ChatChannelParameters" ∈ c.2 /\ DeclType "ChatChannelParameters" ∉ c.1.
Proof. eexists. split; [vm_compute; reflexivity|]. split; decide_it. Qed.

(** Refuted: the message of the channel of an operation is one of another file, of which no type is made. *)
Definition doc_file : file := document_ex [("messages", [refer 22 KMessage "./common.yaml#/components/messages/Shared"])] []
  [plain 46 KOperation [("channel", [refer 47 KChannel "#/channels/ping"])]].
Definition in_own_channels (w : world) (at_address : nat -> option object) (f : file) : Prop :=
  forall o, holds (root_of f) "operations" o -> exists c m, on_channel w at_address f o c /\ own_channel f c /\ about w at_address f o m /\ o_ref m = "".
Theorem C104_file_refuted : ~ references_enough in_own_channels.
Proof.
  intros H. set (ping := plain 20 KChannel [("messages", [refer 22 KMessage "./common.yaml#/components/messages/Shared"])]).
  destruct (H no_names no_names (fun _ => []) world_ex (find_object doc_file) ok_schema texts_ex doc_file (links_of doc_file) (fun _ ch => ch_messages ch) []) as (c & E & B).
  - apply is_processed_sound. vm_compute. reflexivity.
  - intros o Ho. enum Ho. split; [done|]. split; [intros r Hr; enum Hr|].
    exists (refer 47 KChannel "#/channels/ping"), main, ping. split; [held|]. split.
    + eapply (finally_step _ _ _ _ _ ping main); [discriminate|aims 20|apply pairs_in_file; cbn; among|by apply finally_here].
    + right. split; [intros x Hx; enum Hx|]. exists (refer 22 KMessage "./common.yaml#/components/messages/Shared"), common, (plain 30 KMessage []). split; [among|].
      eapply (finally_step _ _ _ _ _ (plain 30 KMessage []) common); [discriminate|aims 30|apply pairs_in_file; cbn; among|by apply finally_here].
  - intros o Ho. enum Ho. exists ping, (plain 30 KMessage []). split; [eexists; split; [held|aims 20]|]. split; [split; [held|done]|]. split; [|done].
    apply (about_channel _ _ _ _ _ ping); [intros x Hx; enum Hx|eexists; split; [held|aims 20]|].
    exists (refer 22 KMessage "./common.yaml#/components/messages/Shared"). split; [among|]. exists common, (plain 30 KMessage []). split; [apply pairs_in_file; cbn; among|]. split; [aims 30|by apply for_itself].
  - done.
  - assert (X : ~ all_backed c); [|done]. clear B. vm_compute in E. injection E as <-. decide_it.
Qed.
Print Assumptions C104_file_refuted.
Example C104_file_ex ul ud uu : exists c, code_of ul ud uu doc_file [] = Some c /\ UseType "SharedMessage" ∈ c.2 /\ DeclType "SharedMessage" ∉ c.1.
Proof. eexists. split; [vm_compute; reflexivity|]. split; decide_it. Qed.
