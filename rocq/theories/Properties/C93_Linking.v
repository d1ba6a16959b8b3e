(** C93: after the processing of a document every reference is linked to the object it designates.
    C94: the generated message has accessors for its correlation identifier exactly when it declares one. *)
From stdpp Require Import gmap list strings.
From Coq Require Import Ascii String.
From Verif.Model Require Import GoStrings Reference Linking.
From Verif.Spec Require Import ReferenceSpec LinkingSpec.
From Verif.Proof Require Import ReferenceProof LinkingProof LinkingCheck.
Local Open Scope string_scope.

(** ** C93 *)
(** An object that refers to something is linked to what it designates, an object of its own kind; correlation identifiers are linked to channels. *)
Theorem C93_linked w at_address schema f L s x :
  regular w at_address f -> set_all w at_address schema f ∅ = Ok L -> in_file f s x -> refers x -> o_kind x <> KCorrelationID ->
  exists p, L !! o_id x = Some p /\ designated w s (o_kind x) (o_ref x) p.
Proof.
  intros Reg E Hx R K. destruct (linked _ _ _ _ Reg L s x E Hx) as [H _]. destruct (H R) as (p & T & Hp). exists p. split; [exact Hp|].
  apply target_designated in T; [exact T|exact K|apply R].
Qed.
Theorem C93_correlations w at_address schema f L s x :
  regular w at_address f -> set_all w at_address schema f ∅ = Ok L -> in_file f s x -> refers x -> o_kind x = KCorrelationID ->
  exists p, L !! o_id x = Some p /\ designated w s KChannel (o_ref x) p.
Proof.
  intros Reg E Hx R K. destruct (linked _ _ _ _ Reg L s x E Hx) as [H _]. destruct (H R) as (p & T & Hp). exists p. split; [exact Hp|].
  rewrite K in T. now apply target_correlation in T.
Qed.
(** Nothing else is linked: not what does not refer, and not what is in the correlation identifier of a message or in the tags of an operation. *)
Theorem C93_only w at_address schema f L s x :
  regular w at_address f -> set_all w at_address schema f ∅ = Ok L -> anywhere f s x -> (~ refers x \/ ~ in_file f s x) -> L !! o_id x = None.
Proof.
  intros Reg E Hx N. apply set_all_effect in E; [|intros s' r Hr; now apply (roots_conform _ _ _ Reg) in Hr]. destruct E as [_ E].
  destruct (E (o_id x)) as [(s' & y & p & Hy & Ry & Ey & Ty & Ly)|[_ ->]]; [|apply lookup_empty].
  destruct (reg_distinct _ _ _ Reg s' y s x (anywhere_in _ _ _ Hy) Hx Ey) as [-> ->]. exfalso. tauto.
Qed.
(** The processing succeeds exactly for these documents. *)
Theorem C93_accepted w at_address schema f :
  regular w at_address f -> ((exists L, set_all w at_address schema f ∅ = Ok L) <-> acceptable w at_address schema f).
Proof. apply accepted. Qed.
(** It crashes for no other reasons than these. *)
Theorem C93_panic w at_address schema f : regular w at_address f -> set_all w at_address schema f ∅ = Panic ->
  (exists s x, in_file f s x /\ refers x /\ reference3 w s (o_ref x) = Panic) \/
  (exists s x, in_file f s x /\ o_kind x = KSchema /\ schema (o_id x) = Panic) \/
  (exists s op r, in_file f s op /\ o_kind op = KOperation /\ holds op "reply" r /\ forall ch, ~ holds r "channel" ch) \/
  (exists s op a, in_file f s op /\ o_kind op = KOperation /\ address_of op a /\ o_location a <> "" /\
     (~ has_path (o_location a) \/ ((forall m, ~ holds op "messages" m) /\ forall ch, ~ holds op "channel" ch))) \/
  (exists s c a, in_file f s c /\ o_kind c = KComponents /\ address_of_components c a /\ o_location a <> "").
Proof. apply panics. Qed.

(** Documents that AsyncAPI allows and that are never accepted: an example of a message by reference, a channel that refers to a server of the document,
    a correlation identifier among the components that refers to another one, a reply by reference, and a reply address with a location among the
    components. *)
Theorem C93_example_never w at_address schema f s x : regular w at_address f -> in_file f s x -> o_kind x = KMessageExample -> o_ref x <> "" ->
  forall L, set_all w at_address schema f ∅ <> Ok L.
Proof.
  intros Reg Hx K R L E. destruct (C93_linked _ _ _ _ _ _ _ Reg E Hx) as (p & _ & D); [split; [exact R|now rewrite K]|now rewrite K|].
  rewrite K in D. exact D.
Qed.
Lemma here_steps w s rest used p : document w s ("#" ++ rest) used p -> rest = p.
Proof.
  intros D. remember ("#" ++ rest) as r eqn:E. destruct D as [q Hq|file key q d Nf Wf Wq Sf Hd].
  - now injection E as ->.
  - exfalso. destruct file as [|c file]; [contradiction|]. injection E as -> _. apply Wf. left.
Qed.
Theorem C93_server_never w at_address schema f s x n : regular w at_address f -> in_file f s x -> o_kind x = KServer -> o_ref x = "#/servers/" ++ n ->
  forall L, set_all w at_address schema f ∅ <> Ok L.
Proof.
  intros Reg Hx K R L E. destruct (C93_linked _ _ _ _ _ _ _ Reg E Hx) as (p & _ & D); [split; [now rewrite R|now rewrite K]|now rewrite K|].
  rewrite K, R in D. destruct D as (used & q & steps & Dq & (_ & Wq) & St).
  change ("#/servers/" ++ n) with ("#" ++ ("/servers/" ++ n)) in Dq. apply here_steps in Dq. subst q.
  inversion St; subst; destruct Wq as [Wq|Wq]; discriminate Wq.
Qed.
Theorem C93_correlation_never w at_address schema f s x n : regular w at_address f -> in_file f s x -> o_kind x = KCorrelationID ->
  o_ref x = "#/components/correlationIds/" ++ n -> forall L, set_all w at_address schema f ∅ <> Ok L.
Proof.
  intros Reg Hx K R L E. destruct (C93_correlations _ _ _ _ _ _ _ Reg E Hx) as (p & _ & D); [split; [now rewrite R|now rewrite K]|exact K|].
  rewrite R in D. destruct D as (used & q & steps & Dq & (_ & Wq) & St).
  change ("#/components/correlationIds/" ++ n) with ("#" ++ ("/components/correlationIds/" ++ n)) in Dq. apply here_steps in Dq. subst q.
  inversion St; subst; destruct Wq as [Wq|Wq]; discriminate Wq.
Qed.
Theorem C93_reply_never w at_address schema f s op r : regular w at_address f -> in_file f s op -> o_kind op = KOperation -> holds op "reply" r ->
  o_fields r = [] -> forall L, set_all w at_address schema f ∅ <> Ok L.
Proof.
  intros Reg Hx K Hr N L E. assert (A : acceptable w at_address schema f) by (apply C93_accepted; [exact Reg|now exists L]).
  destruct (acc_replies _ _ _ _ A s op r Hx K Hr) as (ch & l & Hl & _). rewrite N in Hl. now apply elem_of_nil in Hl.
Qed.
Theorem C93_address_never w at_address schema f s c a : regular w at_address f -> in_file f s c -> o_kind c = KComponents ->
  address_of_components c a -> o_location a <> "" -> forall L, set_all w at_address schema f ∅ <> Ok L.
Proof.
  intros Reg Hx K Ha N L E. assert (A : acceptable w at_address schema f) by (apply C93_accepted; [exact Reg|now exists L]).
  now apply N, (acc_components _ _ _ _ A s c a).
Qed.

(** A document with channels, an operation with a reply, messages by reference, a trait, a server, and a second document; more can be put into it. *)
Definition of_list (l : list (string * nat)) : gmap string nat := list_to_map l.
Definition common : spec := mkSpec (fun k => if String.eqb k "messages" then of_list [("Shared", 30)] else ∅) ∅ ∅.
Definition main : spec := mkSpec (fun k =>
  if String.eqb k "messages" then of_list [("Ping", 10); ("Pong", 11); ("Pang", 16)] else
  if String.eqb k "servers" then of_list [("prod", 12)] else
  if String.eqb k "correlationIds" then of_list [("cid", 13)] else
  if String.eqb k "messageTraits" then of_list [("traced", 15)] else
  if String.eqb k "replies" then of_list [("answer", 17)] else ∅) (of_list [("ping", 20); ("pong", 21)]) (of_list [("common.yaml", 1)]).
Definition world_ex : world := mkWorld (fun _ => common) (fun _ => ∅) (fun _ => None) (fun _ => None)
  (fun c => if Nat.eqb c 20 then of_list [("Ping", 22)] else if Nat.eqb c 21 then of_list [("Shared", 24)] else ∅).
Definition plain i k fields := Object i k "" "" fields.
Definition refer i k ref := Object i k ref "" [].
Definition reply_ex : object := plain 43 KReply
  [("address", [Object 44 KReplyAddress "" "$message.header#/replyTo" []]); ("channel", [refer 45 KChannel "#/channels/pong"])].
Definition document_ex (in_components in_channel in_operation : list (string * list object)) (in_ping : list (string * list object)) (reply : object) : file :=
  File main (plain 0 KSpecification [
    ("components", [plain 1 KComponents ([
       ("messages", [plain 10 KMessage ([("correlationID", [Object 50 KCorrelationID "" "$message.header#/id" []]);
                                         ("traits", [refer 51 KMessageTrait "#/components/messageTraits/traced"])] ++ in_ping)%list;
                     plain 11 KMessage [("correlationID", [refer 52 KCorrelationID "#/components/correlationIds/cid"])];
                     plain 16 KMessage [("traits", [refer 54 KMessageTrait "#/components/messageTraits/traced"])]]);
       ("servers", [plain 12 KServer []]);
       ("correlationIds", [Object 13 KCorrelationID "" "$message.header#/id" []]);
       ("messageTraits", [plain 15 KMessageTrait [("headers", [plain 55 KSchema []]); ("correlationID", [Object 53 KCorrelationID "" "$message.header#/trace" []])]]);
       ("replies", [plain 17 KReply [("channel", [refer 56 KChannel "#/channels/pong"])]])] ++ in_components)%list]);
    ("channels", [plain 20 KChannel ([("messages", [refer 22 KMessage "#/components/messages/Ping"])] ++ in_channel)%list;
                  plain 21 KChannel [("messages", [refer 24 KMessage "./common.yaml#/components/messages/Shared"])]]);
    ("operations", [plain 40 KOperation ([("channel", [refer 41 KChannel "#/channels/ping"]); ("reply", [reply])] ++ in_operation)%list])])
  [File common (plain 2 KSpecification [("components", [plain 3 KComponents [("messages", [plain 30 KMessage []])]])]) []].
Definition doc : file := document_ex [] [("servers", [refer 23 KServer "#/components/servers/prod"])] [] [] reply_ex.
Definition run (f : file) : res links := set_all world_ex (find_object f) (fun _ => Ok tt) f ∅.
Definition result (f : file) : links := match run f with Ok L => L | _ => ∅ end.
Lemma result_ok f : match run f with Ok _ => true | _ => false end = true -> run f = Ok (result f).
Proof. unfold result. destruct (run f); [discriminate|discriminate|reflexivity]. Qed.
Definition links_ex : links := result doc.
Ltac regularly := apply is_regular_sound; vm_compute; reflexivity.
Ltac found := apply pairs_in_file; cbn; repeat (first [apply elem_of_list_here|apply elem_of_list_further]).

Example C93_doc_ok : run doc = Ok links_ex /\ regular world_ex (find_object doc) doc.
Proof. split; [|regularly]. apply result_ok. vm_compute. reflexivity. Qed.
Example C93_links_ex : map (fun i => links_ex !! i) [51; 54; 22; 24; 41; 45; 23; 56; 52; 10; 50] =
  [Some 15; Some 15; Some 10; Some 30; Some 20; Some 21; Some 12; Some 21; None; None; None].
Proof. vm_compute. reflexivity. Qed.
Example C93_linked_ex :
  (exists p, links_ex !! 24 = Some p /\ designated world_ex main KMessage "./common.yaml#/components/messages/Shared" p) /\
  (exists p, links_ex !! 23 = Some p /\ designated world_ex main KServer "#/components/servers/prod" p).
Proof.
  split.
  - apply (C93_linked world_ex (find_object doc) (fun _ => Ok tt) doc links_ex main (refer 24 KMessage "./common.yaml#/components/messages/Shared"));
      [apply C93_doc_ok|apply C93_doc_ok|found|split; discriminate|discriminate].
  - apply (C93_linked world_ex (find_object doc) (fun _ => Ok tt) doc links_ex main (refer 23 KServer "#/components/servers/prod"));
      [apply C93_doc_ok|apply C93_doc_ok|found|split; discriminate|discriminate].
Qed.
Example C93_accepted_ex : acceptable world_ex (find_object doc) (fun _ => Ok tt) doc.
Proof. apply C93_accepted; [apply C93_doc_ok|]. exists links_ex. apply C93_doc_ok. Qed.
(** A correlation identifier of the components that refers to a channel is linked to it. *)
Definition odd : file :=
  File main (plain 0 KSpecification [("components", [plain 1 KComponents [("correlationIds", [refer 13 KCorrelationID "#/channels/ping"])]]);
                                     ("channels", [plain 20 KChannel []; plain 21 KChannel []])]) [].
Example C93_correlations_ex : exists L, run odd = Ok L /\ regular world_ex (find_object odd) odd /\ L !! 13 = Some 20.
Proof. eexists. split; [vm_compute; reflexivity|]. split; [regularly|]. vm_compute. reflexivity. Qed.

(** Each of the documents that are never accepted, and what happens. *)
Definition doc_example : file := document_ex [] [] [] [("examples", [refer 61 KMessageExample "#/components/messages/Ping"])] reply_ex.
Definition doc_server : file := document_ex [] [("servers", [refer 23 KServer "#/servers/prod"])] [] [] reply_ex.
Definition doc_correlation : file :=
  File main (plain 0 KSpecification [("components", [plain 1 KComponents
    [("correlationIds", [plain 13 KCorrelationID []; refer 14 KCorrelationID "#/components/correlationIds/cid"])]])]) [].
Definition doc_reply : file := document_ex [] [] [] [] (refer 43 KReply "#/components/replies/answer").
Definition doc_address : file := document_ex [("replyAddresses", [Object 61 KReplyAddress "" "$message.header#/replyTo" []])] [] [] [] reply_ex.
Example C93_never_ex :
  (regular world_ex (find_object doc_example) doc_example /\ run doc_example = Err) /\
  (regular world_ex (find_object doc_server) doc_server /\ run doc_server = Err) /\
  (regular world_ex (find_object doc_correlation) doc_correlation /\ run doc_correlation = Err) /\
  (regular world_ex (find_object doc_reply) doc_reply /\ run doc_reply = Panic) /\
  (regular world_ex (find_object doc_address) doc_address /\ run doc_address = Panic).
Proof.
  split; [|split; [|split; [|split]]]; (split; [regularly|vm_compute; reflexivity]).
Qed.
Example C93_never_met :
  (in_file doc_example main (refer 61 KMessageExample "#/components/messages/Ping")) /\
  (in_file doc_server main (refer 23 KServer ("#/servers/" ++ "prod"))) /\
  (in_file doc_correlation main (refer 14 KCorrelationID ("#/components/correlationIds/" ++ "cid"))) /\
  (exists op, in_file doc_reply main op /\ o_kind op = KOperation /\ holds op "reply" (refer 43 KReply "#/components/replies/answer")) /\
  (exists c, in_file doc_address main c /\ o_kind c = KComponents /\ address_of_components c (Object 61 KReplyAddress "" "$message.header#/replyTo" [])).
Proof.
  split; [found|]. split; [found|]. split; [found|]. split.
  - eexists. split; [eapply pairs_in_file; cbn; do 17 apply elem_of_list_further; apply elem_of_list_here|].
    split; [reflexivity|]. eexists. split; [right; left|left].
  - eexists. split; [eapply pairs_in_file; cbn; do 1 apply elem_of_list_further; apply elem_of_list_here|].
    split; [reflexivity|]. left. eexists. split; [do 5 right; left|left].
Qed.

(** Refuted: every reference of the document is linked, or at least looked at. What is in the correlation identifier of a message and in the tags of an
    operation is not. *)
Theorem C93_every_refuted : ~ (forall w at_address schema f L s x,
  regular w at_address f -> set_all w at_address schema f ∅ = Ok L -> anywhere f s x -> refers x -> exists p, L !! o_id x = Some p).
Proof.
  intros H. destruct (H world_ex (find_object doc) (fun _ => Ok tt) doc links_ex main (refer 52 KCorrelationID "#/components/correlationIds/cid")) as [p Hp].
  - apply C93_doc_ok.
  - apply C93_doc_ok.
  - constructor. eapply (inside_field _ "components"); [eexists; split; [left|left]|].
    eapply (inside_field _ "messages"); [eexists; split; [left|right; left]|].
    eapply (inside_field _ "correlationID"); [eexists; split; [left|left]|]. constructor.
  - split; discriminate.
  - discriminate Hp.
Qed.
Definition doc_tags : file := document_ex [] [] [("tags", [refer 61 KTag "#/components/tags/nowhere"])] [] reply_ex.
Theorem C93_checked_refuted : ~ (forall w at_address schema f L s x,
  regular w at_address f -> set_all w at_address schema f ∅ = Ok L -> anywhere f s x -> refers x -> exists p, designated w s (o_kind x) (o_ref x) p).
Proof.
  intros H. destruct (H world_ex (find_object doc_tags) (fun _ => Ok tt) doc_tags (result doc_tags) main (refer 61 KTag "#/components/tags/nowhere")) as [p Hp].
  - regularly.
  - apply result_ok. vm_compute. reflexivity.
  - constructor. eapply (inside_field _ "operations"); [eexists; split; [right; right; left|left]|].
    eapply (inside_field _ "tags"); [eexists; split; [right; right; left|left]|]. constructor.
  - split; discriminate.
  - apply target_designated in Hp; [|discriminate|discriminate]. vm_compute in Hp. discriminate.
Qed.

(** ** C94 *)
(** A message has accessors exactly when the message it stands for has, itself or through a trait, a correlation identifier with a location. *)
Theorem C94_exact w at_address schema f L s m :
  regular w at_address f -> set_all w at_address schema f ∅ = Ok L -> in_file f s m -> o_kind m = KMessage ->
  have_correlation_id at_address L m = true <->
  exists s' m' c, stands_for w at_address s m m' /\ in_file f s' m' /\ carries w at_address s' m' c /\ o_location c <> "".
Proof. intros Reg. now apply have_exact. Qed.
(** A correlation identifier that is a reference has no location: the message has no accessors. *)
Theorem C94_reference_never w at_address schema f L s m s' m' c :
  regular w at_address f -> set_all w at_address schema f ∅ = Ok L -> in_file f s m -> o_kind m = KMessage ->
  stands_for w at_address s m m' -> in_file f s' m' -> holds m' "correlationID" c -> o_location c = "" ->
  have_correlation_id at_address L m = false.
Proof.
  intros Reg E Hm K St Im Hc N. destruct (have_correlation_id at_address L m) eqn:H; [|reflexivity]. exfalso.
  apply (C94_exact w at_address schema f L s m Reg E Hm K) in H as (s2 & m2 & d & St2 & Im2 & Hd & Nd).
  assert (m2 = m') as -> by (apply (stands_for_unique w at_address s m); [now rewrite K|now rewrite K|exact St2|exact St]).
  inversion Hd as [e He|b t a t' e No]; subst; [|now apply (No c)].
  apply Nd. now rewrite (reg_single _ _ _ Reg s' m' "correlationID" Im ltac:(now right; right) d c He Hc).
Qed.
(** Through a reference and through a trait. *)
Example C94_exact_ex :
  have_correlation_id (find_object doc) links_ex (refer 22 KMessage "#/components/messages/Ping") = true /\
  have_correlation_id (find_object doc) links_ex (plain 16 KMessage [("traits", [refer 54 KMessageTrait "#/components/messageTraits/traced"])]) = true /\
  have_correlation_id (find_object doc) links_ex (refer 24 KMessage "./common.yaml#/components/messages/Shared") = false.
Proof. split; [|split]; vm_compute; reflexivity. Qed.
Example C94_exact_met :
  in_file doc main (plain 16 KMessage [("traits", [refer 54 KMessageTrait "#/components/messageTraits/traced"])]) /\
  exists c, carries world_ex (find_object doc) main (plain 16 KMessage [("traits", [refer 54 KMessageTrait "#/components/messageTraits/traced"])]) c /\ o_location c = "$message.header#/trace".
Proof.
  split; [found|]. exists (Object 53 KCorrelationID "" "$message.header#/trace" []). split; [|reflexivity].
  apply (carries_trait _ _ _ _ [] (refer 54 KMessageTrait "#/components/messageTraits/traced") []
    (plain 15 KMessageTrait [("headers", [plain 55 KSchema []]); ("correlationID", [Object 53 KCorrelationID "" "$message.header#/trace" []])])).
  - intros d (l & Hl & _). apply elem_of_list_singleton in Hl. discriminate.
  - left.
  - apply (for_target _ _ _ _ 15); [discriminate| |reflexivity]. apply target_designated; [discriminate|discriminate|]. vm_compute. reflexivity.
  - eexists. split; [right; left|left].
  - intros u u' d Hu. now apply elem_of_nil in Hu.
Qed.
(** Refuted: a message whose correlation identifier is a reference to one with a location has accessors. *)
Theorem C94_reference_refuted : ~ (forall w at_address schema f L s m c p c',
  regular w at_address f -> set_all w at_address schema f ∅ = Ok L -> in_file f s m -> o_kind m = KMessage -> o_ref m = "" ->
  holds m "correlationID" c -> designated w s KCorrelationID (o_ref c) p -> at_address p = Some c' -> o_location c' <> "" ->
  have_correlation_id at_address L m = true).
Proof.
  intros H. assert (E : have_correlation_id (find_object doc) links_ex
    (plain 11 KMessage [("correlationID", [refer 52 KCorrelationID "#/components/correlationIds/cid"])]) = true).
  { apply (H world_ex (find_object doc) (fun _ => Ok tt) doc links_ex main _ (refer 52 KCorrelationID "#/components/correlationIds/cid") 13
      (Object 13 KCorrelationID "" "$message.header#/id" [])).
    - apply C93_doc_ok.
    - apply C93_doc_ok.
    - found.
    - reflexivity.
    - reflexivity.
    - eexists. split; [left|left].
    - apply (reference_other_exact true v3_kinds world_ex main "correlationIds"); [apply (bool_decide_unpack _); vm_compute; exact I|apply (bool_decide_unpack _); vm_compute; exact I|]. vm_compute. reflexivity.
    - reflexivity.
    - discriminate. }
  vm_compute in E. discriminate.
Qed.

Print Assumptions C93_linked.
Print Assumptions C93_correlations.
Print Assumptions C93_only.
Print Assumptions C93_accepted.
Print Assumptions C93_panic.
Print Assumptions C93_example_never.
Print Assumptions C93_server_never.
Print Assumptions C93_correlation_never.
Print Assumptions C93_reply_never.
Print Assumptions C93_address_never.
Print Assumptions C93_every_refuted.
Print Assumptions C93_checked_refuted.
Print Assumptions C94_exact.
Print Assumptions C94_reference_never.
Print Assumptions C94_reference_refuted.
