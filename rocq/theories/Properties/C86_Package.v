(** C86: everything the generated code uses is declared, with the types it is used with. *)
From stdpp Require Import gmap list strings.
From Coq Require Import NArith Ascii String.
From Verif.Model Require Import Naming Names Operations Package.
From Verif.Spec Require Import NamingSpec NamesSpec OperationsSpec PackageSpec.
From Verif.Proof Require Import PackageProof.
Local Open Scope string_scope.
Local Open Scope nat_scope.

(** ** The claim
    For every document that can be generated, every method, function, constant and type of the package that the generated code uses is
    declared by it, with the arguments and results it is used with. *)
Theorem C86_backed_partial : forall ul ud uu info order ops cs messages schemas,
  (forall site ch, order site ch ≡ₚ ch_messages ch) ->
  NoDup ops.*1 -> Forall (fun ko => served info cs messages ko.2) ops ->
  no_clash Application ops -> no_clash User ops ->
  exists c, package ul ud uu info order ops cs messages schemas = Some c /\ all_backed c.
Proof. intros. by apply package_backed. Qed.
Print Assumptions C86_backed_partial.

(** ** Documents *)
Definition ping_channel := mkChannel "PingChannel" [0].
Definition pong_channel := mkChannel "PongChannel" [1].
Definition news_channel := mkChannel "NewsChannel" [2; 1].
Definition ping := mkOperation "PingOperation" "receive" ping_channel [] (Some (mkReply (Some pong_channel) [])) None.
Definition news := mkOperation "NewsOperation" "send" news_channel [1; 2] None None.
Definition names (m : nat) : string := match m with 0 => "PingMessageFromPingChannel" | 1 => "PongMessage" | _ => "NewsMessageFromNewsChannel" end.
Definition plain := mkDetails (fun ch => String.eqb (ch_name ch) "NewsChannel") (fun _ => false) (fun _ => false) (fun _ => false) names (fun m => m <? 2).
Definition channels := [mkNamed "NewsChannel" true "NewsChannel"; mkNamed "PingChannel" false "PingChannel"; mkNamed "PongChannel" false "PongChannel"].

Lemma exported_of c r : c ∈ uppers -> Forall word_char r -> exported (c :: r).
Proof. intros. by exists c, r. Qed.
Example C86_served : Forall (fun ko => served plain channels [0; 1; 2] ko.2) [("ping", ping); ("news", news)].
Proof.
  apply Forall_cons. split; [|apply Forall_cons; split; [|constructor]].
  - split.
    + done.
    + apply exported_of; [apply (bool_decide_unpack _); vm_compute; exact I|]. repeat (apply Forall_cons; split; [unfold word_char; apply (bool_decide_unpack _); vm_compute; exact I|]). constructor.
    + done.
    + exists 0. split; [right; done|]. apply (bool_decide_unpack _). vm_compute. exact I.
    + intros r [= <-]. exists pong_channel, 1. repeat split; try done. apply (bool_decide_unpack _). vm_compute. exact I.
  - split.
    + done.
    + apply exported_of; [apply (bool_decide_unpack _); vm_compute; exact I|]. repeat (apply Forall_cons; split; [unfold word_char; apply (bool_decide_unpack _); vm_compute; exact I|]). constructor.
    + intros _. exists (mkNamed "NewsChannel" true "NewsChannel"). split; [apply elem_of_list_here|done].
    + exists 1. split; [left; done|]. apply (bool_decide_unpack _). vm_compute. exact I.
    + done.
Qed.
Example C86_backed_ex ul ud uu : exists c,
  package ul ud uu plain (fun _ => ch_messages) [("ping", ping); ("news", news)] channels [0; 1; 2] ["PlaceSchema"] = Some c /\
  UseMethod "UserController" "SendToPingOperation" [TyCtx; TyName "PingMessageFromPingChannel"] [TyError] ∈ c.2 /\
  UseMethod "AppController" "SendAsReplyToPingOperation" [TyCtx; TyName "PongMessage"] [TyError] ∈ c.2 /\
  DeclMethod "AppController" "SendAsNewsOperation" [TyCtx; TyName "NewsChannelParameters"; TyName "PongMessage"] [TyError] ∈ c.1 /\ all_backed c.
Proof. eexists. split; [vm_compute; reflexivity|]. repeat split; apply (bool_decide_unpack _); vm_compute; exact I. Qed.
Example C86_clash_ex : no_clash Application [("ping", ping); ("news", news)] /\ no_clash User [("ping", ping); ("news", news)].
Proof.
  split; intros k o ch Ho Hr (r & Er & Ec); repeat (apply elem_of_cons in Ho as [[= -> ->]|Ho]; [|try by apply elem_of_nil in Ho]); try done.
  cbn in Er. injection Er as <-. injection Ec as <-. split.
  - intros k' o' Ho' Hs. repeat (apply elem_of_cons in Ho' as [[= -> ->]|Ho']; [done|]). by apply elem_of_nil in Ho'.
  - intros k' o' ch' Ho' Hr' (r' & Er' & _). repeat (apply elem_of_cons in Ho' as [[= -> ->]|Ho']; [done|]). by apply elem_of_nil in Ho'.
Qed.

(** ** Without the hypotheses
    Each of the following documents can be generated, and the generated code does not compile. *)
Definition code_without (info : details) (order : nat -> channel -> list nat) (ops : list (string * operation)) (cs : list named_channel) (u : use) : Prop :=
  forall ul ud uu, exists c, package ul ud uu info order ops cs [0; 1; 2] [] = Some c /\ u ∈ c.2 /\ ~ backed c.1 u.
Ltac refute := intros ul ud uu; eexists; split; [vm_compute; reflexivity|]; split; apply (bool_decide_unpack _); vm_compute; exact I.
Definition in_order (_ : nat) (ch : channel) : list nat := ch_messages ch.
Definition all_plain := mkDetails (fun _ => false) (fun _ => false) (fun _ => false) (fun _ => false) names (fun m => m <? 2).
Definition two_channels := [mkNamed "PingChannel" false "PingChannel"; mkNamed "PongChannel" false "PongChannel"].

(** Two requests answered on the same channel: only one of the two answers can be sent. *)
Definition pang := mkOperation "PangOperation" "receive" ping_channel [] (Some (mkReply (Some pong_channel) [])) None.
Theorem C86_shared_reply_refuted : code_without all_plain in_order [("pang", pang); ("ping", ping)] two_channels
  (UseMethod "AppController" "SendAsReplyToPangOperation" [TyCtx; TyName "PongMessage"] [TyError]).
Proof. refute. Qed.
Print Assumptions C86_shared_reply_refuted.

(** An operation whose key is the name of the channel on which another one is answered. *)
Definition key_like := mkOperation "PongChannelOperation" "send" pong_channel [] None None.
Theorem C86_clashing_key_refuted : code_without all_plain in_order [("ping", ping); ("PongChannel", key_like)] two_channels
  (UseMethod "AppController" "SendAsReplyToPingOperation" [TyCtx; TyName "PongMessage"] [TyError]).
Proof. refute. Qed.
Print Assumptions C86_clashing_key_refuted.

(** The reply gives an address though its channel has one: the answer is sent with an address that is not a parameter. *)
Definition with_reply_address := mkDetails (fun _ => false) (fun _ => false) (fun _ => true) (fun _ => false) names (fun m => m <? 2).
Theorem C86_two_addresses_refuted : code_without with_reply_address in_order [("ping", ping)] two_channels
  (UseMethod "AppController" "SendAsReplyToPingOperation" [TyCtx; TyText; TyName "PongMessage"] [TyError]).
Proof. refute. Qed.
Print Assumptions C86_two_addresses_refuted.

(** Neither the reply nor its channel gives an address: the answer is sent without the address that is expected. *)
Definition pong_nowhere := mkDetails (fun _ => false) (fun ch => String.eqb (ch_name ch) "PongChannel") (fun _ => false) (fun _ => false) names (fun m => m <? 2).
Theorem C86_no_address_refuted : code_without pong_nowhere in_order [("ping", ping)] two_channels
  (UseMethod "AppController" "SendAsReplyToPingOperation" [TyCtx; TyName "PongMessage"] [TyError]).
Proof. refute. Qed.
Print Assumptions C86_no_address_refuted.

(** The channel of the reply has parameters: the answer is sent without them. *)
Definition pong_params := mkDetails (fun ch => String.eqb (ch_name ch) "PongChannel") (fun _ => false) (fun _ => false) (fun _ => false) names (fun m => m <? 2).
Theorem C86_reply_parameters_refuted : code_without pong_params in_order [("ping", ping)] [mkNamed "PingChannel" false "PingChannel"; mkNamed "PongChannel" true "PongChannel"]
  (UseMethod "AppController" "SendAsReplyToPingOperation" [TyCtx; TyName "PongMessage"] [TyError]).
Proof. refute. Qed.
Print Assumptions C86_reply_parameters_refuted.

(** The channel of the request has no address: the request is sent without the address that is expected. *)
Definition ping_nowhere := mkDetails (fun _ => false) (fun ch => String.eqb (ch_name ch) "PingChannel") (fun _ => false) (fun _ => false) names (fun m => m <? 2).
Theorem C86_request_nowhere_refuted : code_without ping_nowhere in_order [("ping", ping)] two_channels
  (UseMethod "UserController" "SendToPingOperation" [TyCtx; TyName "PingMessageFromPingChannel"] [TyError]).
Proof. refute. Qed.
Print Assumptions C86_request_nowhere_refuted.

(** The request has a correlation ID and the answer none. *)
Definition one_correlated := mkDetails (fun _ => false) (fun _ => false) (fun _ => false) (fun _ => false) names (fun m => m =? 0).
Theorem C86_uncorrelated_refuted : code_without one_correlated in_order [("ping", ping)] two_channels
  (UseMethod "PongMessage" "SetAsResponseFrom" [TyName "MessageWithCorrelationID"] []) /\
  code_without one_correlated in_order [("ping", ping)] two_channels (UseMethod "PongMessage" "CorrelationID" [] [TyText]).
Proof. split; refute. Qed.
Print Assumptions C86_uncorrelated_refuted.

(** The channel has two messages: which one is taken can change from one place of the template to the next. *)
Definition any := mkOperation "AnyOperation" "receive" (mkChannel "PingChannel" [0; 1]) [] None None.
Definition turning (site : nat) (ch : channel) : list nat := if site =? 3 then reverse (ch_messages ch) else ch_messages ch.
Theorem C86_many_messages_refuted : (forall site ch, turning site ch ≡ₚ ch_messages ch) /\
  code_without all_plain turning [("any", any)] two_channels
    (UseFunc "brokerMessageToPongMessage" [TyBrokerMessage] [TyName "PingMessageFromPingChannel"; TyError]).
Proof. split; [intros site ch; unfold turning; destruct (site =? 3); [apply reverse_Permutation|done]|refute]. Qed.
Print Assumptions C86_many_messages_refuted.

(** A channel without messages: the generation panics. *)
Definition silent := mkOperation "SilentOperation" "receive" (mkChannel "SilentChannel" []) [] None None.
Theorem C86_no_message_refuted : forall ul ud uu info order, (forall site ch, order site ch ≡ₚ ch_messages ch) ->
  package ul ud uu info order [("silent", silent)] [mkNamed "SilentChannel" false "SilentChannel"] [] [] = None.
Proof.
  intros ul ud uu info order perm. unfold package, side_code, subscriber, subscribe_all.
  assert (E : forall site, order site (mkChannel "SilentChannel" []) = []) by (intros site; apply Permutation_nil; symmetry; apply perm).
  cbv zeta. change (map_to_list (receive (new_action_operations Application [("silent", silent)]))) with [("silent", GOp silent)].
  assert (H : handler_decl ul ud uu info order Application (GOp silent) = None).
  { unfold handler_decl, op_message, message_at. cbn [gop_channel follow silent o_refers o_channel]. by rewrite E. }
  cbn [mapM snd]. unfold code in *. by rewrite H.
Qed.
Print Assumptions C86_no_message_refuted.
