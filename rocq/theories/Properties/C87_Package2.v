(** C87: version 2: everything the generated code uses is declared; C88: both sides of a channel exchange the same message; C89: nothing is declared twice. *)
From stdpp Require Import gmap list strings.
From Coq Require Import NArith Ascii String.
From Verif.Model Require Import Naming Names Operations Package Package2.
From Verif.Spec Require Import NamingSpec NamesSpec OperationsSpec PackageSpec Package2Spec.
From Verif.Proof Require Import PackageProof Package2Proof Package2OnceProof.
Local Open Scope string_scope.
Local Open Scope nat_scope.

(** ** The claims
    For every document of version 2 that can be generated, every method, function, constant and type of the package that the generated code uses is
    declared by it, with the arguments and results it is used with.  Partial: see [served2]. *)
Theorem C87_backed_partial : forall ul ud uu info cs messages schemas,
  Forall (served2 (name_without_params ul ud uu) info cs messages) cs -> (forall m p, (m, p) ∈ messages -> p = true) ->
  exists c, package2 ul ud uu info cs messages schemas = Some c /\ all_backed c.
Proof. intros. by apply package2_backed. Qed.
Print Assumptions C87_backed_partial.

(** Whoever receives on a channel handles the message of the document, which is the one that the other side publishes.
    Partial: the channel has messages in one direction only. *)
Theorem C88_agree_partial : forall ul ud uu info cs messages schemas c kc s o,
  package2 ul ud uu info cs messages schemas = Some c -> kc ∈ cs ->
  received_by s kc.2 = Some o -> received_by (other_side s) kc.2 = None ->
  let n := operation_name ul ud uu kc.2 in let m := message_name info (o2_message o) in
  DeclMethod (prefix s +:+ "Subscriber") n [TyCtx; TyName m] [TyError] ∈ c.1 /\
  exists args,
    DeclMethod (controller_name s) ("Subscribe" +:+ n) (args ++ [TyHandler m]) [TyError] ∈ c.1 /\
    DeclMethod (controller_name (other_side s)) ("Publish" +:+ n) (args ++ [TyName m]) [TyError] ∈ c.1.
Proof.
  intros ul ud uu info cs messages schemas c kc s o E Hk R N n m.
  destruct (package2_parts _ _ _ _ _ _ _ _ s E) as (a & Ea & Sa). destruct (package2_parts _ _ _ _ _ _ _ _ (other_side s) E) as (b & Eb & Sb).
  assert (M : forall d, channel_to_message kc.2 d = Some (o2_message o)).
  { intros d. unfold channel_to_message. destruct s; cbn in R, N; by rewrite R, N. }
  destruct (side_methods _ _ _ _ _ _ _ Ea) as [Ha _]. destruct (side_methods _ _ _ _ _ _ _ Eb) as [_ Hb].
  destruct (Ha kc (o2_message o)) as [H1 H2]; [apply in_subscribed; eauto|done|].
  specialize (Hb kc (o2_message o) ltac:(apply in_published; split; [done|]; destruct s; cbn in *; eauto) (M _)).
  split; [by apply Sa|]. exists (TyCtx :: params_arg2 ul ud uu kc)%list. split; [by apply Sa|by apply Sb].
Qed.
Print Assumptions C88_agree_partial.

(** The user always handles and publishes the messages of the document. *)
Theorem C88_user : forall ul ud uu info cs messages schemas c kc o,
  package2 ul ud uu info cs messages schemas = Some c -> kc ∈ cs ->
  let n := operation_name ul ud uu kc.2 in let m := message_name info (o2_message o) in
  (h2_subscribe kc.2 = Some o -> DeclMethod "UserSubscriber" n [TyCtx; TyName m] [TyError] ∈ c.1) /\
  (h2_publish kc.2 = Some o -> exists args, DeclMethod "UserController" ("Publish" +:+ n) (args ++ [TyName m]) [TyError] ∈ c.1).
Proof.
  intros ul ud uu info cs messages schemas c kc o E Hk n m. destruct (package2_parts _ _ _ _ _ _ _ _ User E) as (a & Ea & Sa). destruct (side_methods _ _ _ _ _ _ _ Ea) as [H1 H2]. split.
  - intros Ho. apply Sa. apply (H1 kc (o2_message o)); [apply in_subscribed; cbn; eauto|by apply to_message_user].
  - intros Ho. exists (TyCtx :: params_arg2 ul ud uu kc)%list. apply Sa. apply (H2 kc (o2_message o)); [apply in_published; cbn; eauto|]. unfold channel_to_message. rewrite Ho. by destruct (h2_subscribe kc.2).
Qed.
Print Assumptions C88_user.

(** On a channel with messages in both directions, the application handles the messages it should publish, and publishes those it should handle:
    the claim is false of every such channel. *)
Theorem C88_both_refuted : forall ul ud uu info cs messages schemas c kc p s,
  package2 ul ud uu info cs messages schemas = Some c -> kc ∈ cs -> h2_publish kc.2 = Some p -> h2_subscribe kc.2 = Some s ->
  let n := operation_name ul ud uu kc.2 in
  DeclMethod "AppSubscriber" n [TyCtx; TyName (message_name info (o2_message s))] [TyError] ∈ c.1 /\
  exists args,
    DeclMethod "UserController" ("Publish" +:+ n) (args ++ [TyName (message_name info (o2_message p))]) [TyError] ∈ c.1 /\
    DeclMethod "AppController" ("Subscribe" +:+ n) (args ++ [TyHandler (message_name info (o2_message s))]) [TyError] ∈ c.1 /\
    DeclMethod "UserController" ("Subscribe" +:+ n) (args ++ [TyHandler (message_name info (o2_message s))]) [TyError] ∈ c.1 /\
    DeclMethod "AppController" ("Publish" +:+ n) (args ++ [TyName (message_name info (o2_message p))]) [TyError] ∈ c.1.
Proof.
  intros ul ud uu info cs messages schemas c kc p s E Hk Hp Hs n.
  destruct (package2_parts _ _ _ _ _ _ _ _ Application E) as (a & Ea & Sa). destruct (package2_parts _ _ _ _ _ _ _ _ User E) as (b & Eb & Sb).
  destruct (side_methods _ _ _ _ _ _ _ Ea) as [A1 A2]. destruct (side_methods _ _ _ _ _ _ _ Eb) as [B1 B2].
  assert (M1 : channel_to_message kc.2 ToSubscribe = Some (o2_message s)) by (unfold channel_to_message; by rewrite Hp, Hs).
  assert (M2 : channel_to_message kc.2 ToPublish = Some (o2_message p)) by (unfold channel_to_message; by rewrite Hp, Hs).
  assert (S1 : forall x, kc ∈ subscribed x cs) by (intros []; apply in_subscribed; cbn; eauto).
  assert (S2 : forall x, kc ∈ published x cs) by (intros []; apply in_published; cbn; eauto).
  destruct (A1 kc _ (S1 _) M1) as [H1 H2]. destruct (B1 kc _ (S1 _) M1) as [H3 H4]. pose proof (A2 kc _ (S2 _) M2) as H5. pose proof (B2 kc _ (S2 _) M2) as H6.
  split; [by apply Sa|]. exists (TyCtx :: params_arg2 ul ud uu kc)%list. auto.
Qed.
Print Assumptions C88_both_refuted.

(** The code generated for version 2 declares no name twice at the top of the package and no method twice on a type. Partial: see [named_apart2]. *)
Theorem C89_once_partial : forall ul ud uu info cs messages schemas c,
  NoDup cs -> named_apart2 info (operation_name ul ud uu) cs (inline_messages cs ++ messages.*1) schemas ->
  package2 ul ud uu info cs messages schemas = Some c -> declared_once c.1.
Proof. intros ul ud uu info cs messages schemas c N A. by apply package_once2. Qed.
Print Assumptions C89_once_partial.

(** ** Documents: those of test/v2/issues/49 (a channel with both directions, another one), with a request and its answer, which refers to a message of the components. *)
Definition chat := mkChan2 "Chat" false (Some (mkOperation2 "" 0 false (Some 0))) (Some (mkOperation2 "" 1 false (Some 1))).
Definition status := mkChan2 "Status" false None (Some (mkOperation2 "" 2 false (Some 2))).
Definition ask := mkChan2 "Ask" false (Some (mkOperation2 "sendAsk" 3 false (Some 3))) None.
Definition answer := mkChan2 "Answer" false None (Some (mkOperation2 "" 4 true None)).
Definition names (m : nat) : string := match m with 0 => "ChatPublishMessage" | 1 => "ChatSubscribeMessage" | 2 => "StatusMessage" | 3 => "AskMessage" | _ => "PongMessage" end.
Definition info2 := mkDetails (fun _ => false) (fun _ => false) (fun _ => false) (fun _ => false) names (fun m => 3 <? m).
Definition document := [("ask", ask); ("answer", answer); ("chat", chat); ("status", status)].

Lemma exported_of c r : c ∈ uppers -> Forall word_char r -> exported (c :: r).
Proof. intros. by exists c, r. Qed.
Ltac exported := apply exported_of; [apply (bool_decide_unpack _); vm_compute; exact I|]; repeat (apply Forall_cons; split; [unfold word_char; apply (bool_decide_unpack _); vm_compute; exact I|]); constructor.
Ltac inl := repeat (first [apply elem_of_list_here|apply elem_of_list_further]).
Example C87_served without : Forall (served2 without info2 document [(4, true)]) document.
Proof.
  assert (G : forall m, m < 5 -> generated document [(4, true)] m /\ exported_text (message_name info2 m)).
  { intros m H. destruct m as [|[|[|[|[|]]]]]; try lia.
    - split; [left; exists ("chat", chat), (mkOperation2 "" 0 false (Some 0)); (split; [inl|]); split; [by left|done]|exported].
    - split; [left; exists ("chat", chat), (mkOperation2 "" 1 false (Some 1)); (split; [inl|]); split; [by right|done]|exported].
    - split; [left; exists ("status", status), (mkOperation2 "" 2 false (Some 2)); (split; [inl|]); split; [by right|done]|exported].
    - split; [left; exists ("ask", ask), (mkOperation2 "sendAsk" 3 false (Some 3)); (split; [inl|]); split; [by left|done]|exported].
    - split; [right; left|exported]. }
  assert (S : forall kc, kc ∈ document -> h2_params kc.2 = false /\ (forall o, operation_of kc.2 o -> o2_message o < 5) /\
    (forall o, h2_subscribe kc.2 = Some o -> o2_located o = true -> correlated info2 (o2_message o) = true)).
  { intros kc H. repeat (apply elem_of_cons in H as [->|H]; [split; [done|]; split; [by intros o [[= <-]|[= <-]]; cbn; lia|by intros o [= <-]]|]). by apply elem_of_nil in H. }
  apply Forall_forall. intros kc Hk. destruct (S kc Hk) as (S1 & S2 & S3). split; [by rewrite S1|intros o Ho; by apply G, S2|done].
Qed.
Example C87_backed_ex ul ud uu : exists c, package2 ul ud uu info2 document [(4, true)] ["PlaceSchema"] = Some c /\
  UseMethod "UserController" "SubscribeAnswer" [TyCtx; TyHandler "PongMessage"] [TyError] ∈ c.2 /\
  UseMethod "UserController" "waitForAnswerNextMessage" [TyCtx; TyText; TySubscription; TyName "MessageWithCorrelationID"] [TyPointer "PongMessage"; TyError] ∈ c.2 /\
  DeclMethod "UserController" "PublishSendAsk" [TyCtx; TyName "AskMessage"] [TyError] ∈ c.1 /\
  DeclMethod "AppSubscriber" "SendAsk" [TyCtx; TyName "AskMessage"] [TyError] ∈ c.1 /\ all_backed c /\ declared_once c.1.
Proof. eexists. split; [vm_compute; reflexivity|]. repeat split; apply (bool_decide_unpack _); vm_compute; exact I. Qed.

(** ** Without the hypotheses
    Each of the following documents can be generated, and the generated code does not compile. *)
Definition code_without (info : details) (cs : list (string * chan2)) (messages : list (nat * bool)) (u : use) : Prop :=
  forall ul ud uu, exists c, package2 ul ud uu info cs messages [] = Some c /\ u ∈ c.2 /\ ~ backed c.1 u.
Ltac refute := intros ul ud uu; eexists; split; [vm_compute; reflexivity|]; split; apply (bool_decide_unpack _); vm_compute; exact I.

(** A parameter in the address of a channel: the type of the parameters is declared as [UserIdParameters] and used as [UserParameters]. *)
Definition user_id := mkChan2 "UserId" true (Some (mkOperation2 "" 3 false (Some 3))) None.
Theorem C87_parameters_refuted : code_without info2 [("user/{id}", user_id)] [] (UseType "UserParameters") /\
  forall ul ud uu, name_it ul ud uu "user/{id}" = h2_name user_id.
Proof. split; [refute|]. intros. vm_compute. reflexivity. Qed.
Print Assumptions C87_parameters_refuted.

(** A message without payload, written in the operation, is not generated. *)
Definition signal := mkChan2 "Signal" false (Some (mkOperation2 "" 3 false None)) None.
Theorem C87_no_payload_refuted : code_without info2 [("signal", signal)] [] (UseType "AskMessage").
Proof. refute. Qed.
Print Assumptions C87_no_payload_refuted.

(** An operation whose message refers to another one and has a correlation ID of its own. *)
Definition own_location := mkChan2 "Answer" false None (Some (mkOperation2 "" 3 true None)).
Theorem C87_own_correlation_refuted : code_without info2 [("answer", own_location)] [(3, true)] (UseMethod "AskMessage" "CorrelationID" [] [TyText]).
Proof. refute. Qed.
Print Assumptions C87_own_correlation_refuted.

(** A message of the components without payload: nothing is generated. *)
Theorem C87_component_refuted : forall ul ud uu info cs messages schemas m, (m, false) ∈ messages -> package2 ul ud uu info cs messages schemas = None.
Proof.
  intros ul ud uu info cs messages schemas m H. unfold package2, types_code2.
  assert (E : mapM (component_message ul ud uu info) messages = None); [|unfold code in *; by rewrite E].
  apply eq_None_not_Some. intros [l El]. destruct (mapM_at _ _ _ _ El H) as (b & _ & Eb). discriminate Eb.
Qed.
Print Assumptions C87_component_refuted.

(** The application of the example handles the message that it publishes. *)
Theorem C88_chat_refuted : forall ul ud uu, exists c, package2 ul ud uu info2 document [(4, true)] [] = Some c /\
  DeclMethod "UserController" "PublishChat" [TyCtx; TyName "ChatPublishMessage"] [TyError] ∈ c.1 /\
  DeclMethod "AppController" "SubscribeChat" [TyCtx; TyHandler "ChatPublishMessage"] [TyError] ∉ c.1 /\
  UseFunc "brokerMessageToChatPublishMessage" [TyBrokerMessage] [TyName "ChatPublishMessage"; TyError] ∉ c.2.
Proof. intros ul ud uu. eexists. split; [vm_compute; reflexivity|]. repeat split; apply (bool_decide_unpack _); vm_compute; exact I. Qed.
Print Assumptions C88_chat_refuted.
Example C88_agree_ex : received_by User answer = Some (mkOperation2 "" 4 true None) /\ received_by (other_side User) answer = None /\ ("answer", answer) ∈ document.
Proof. split; [done|]. split; [done|]. inl. Qed.

(** ** Names *)
Lemma not_end t e : (forall n, n < S (String.length t) -> t <> String.substring 0 n t +:+ e) -> forall p, t <> p +:+ e.
Proof.
  intros H p E. apply (H (String.length p)).
  - rewrite E. assert (L : forall a b, String.length (a +:+ b) = String.length a + String.length b); [|rewrite L; lia].
    intros a b. induction a as [|x a IH]; [done|]. change (String x a +:+ b) with (String x (a +:+ b)). cbn. by rewrite IH.
  - rewrite E at 2. assert (P : forall a b, String.substring 0 (String.length a) (a +:+ b) = a); [|by rewrite P].
    intros a b. induction a as [|x a IH]; [by destruct b|]. change (String x a +:+ b) with (String x (a +:+ b)). cbn. by rewrite IH.
Qed.
Lemma below n (P : nat -> Prop) : Forall P (seq 0 n) -> forall k, k < n -> P k.
Proof. intros H k Hk. rewrite Forall_forall in H. apply H. apply elem_of_seq. lia. Qed.
Example C89_apart_ex ul ud uu : NoDup document /\ named_apart2 info2 (operation_name ul ud uu) document (inline_messages document ++ [(4, true)].*1) ["PlaceSchema"].
Proof.
  assert (N : forall kc, kc ∈ document -> operation_name ul ud uu kc.2 = match kc.1 with "ask" => "SendAsk" | "answer" => "Answer" | "chat" => "Chat" | _ => "Status" end).
  { intros kc H. repeat (apply elem_of_cons in H as [->|H]; [vm_compute; reflexivity|]). by apply elem_of_nil in H. }
  split.
  - apply (NoDup_fmap_1 fst). apply (bool_decide_unpack _). vm_compute. exact I.
  - split.
    + intros kc kc' H H' E _. rewrite !N in E by done.
      repeat (apply elem_of_cons in H as [->|H]; [repeat (apply elem_of_cons in H' as [->|H']; [first [reflexivity|discriminate E]|]); by apply elem_of_nil in H'|]). by apply elem_of_nil in H.
    + intros kc H. rewrite N by done. repeat (apply elem_of_cons in H as [->|H]; [discriminate|]). by apply elem_of_nil in H.
    + intros kc H. repeat (apply elem_of_cons in H as [->|H]; [exported|]). by apply elem_of_nil in H.
    + apply (bool_decide_unpack _). vm_compute. exact I.
    + intros m H. vm_compute in H. repeat (apply elem_of_cons in H as [->|H]; [exported|]). by apply elem_of_nil in H.
    + intros t H. repeat (apply elem_of_cons in H as [->|H]; [exported|]). by apply elem_of_nil in H.
    + intros t H. split; [|split].
      * revert t H. apply Forall_forall. apply (bool_decide_unpack _). vm_compute. exact I.
      * apply not_end, below. revert t H. apply Forall_forall. apply (bool_decide_unpack _). vm_compute. exact I.
      * apply not_end, below. revert t H. apply Forall_forall. apply (bool_decide_unpack _). vm_compute. exact I.
    + apply (bool_decide_unpack _). vm_compute. exact I.
Qed.
Definition code_twice (cs : list (string * chan2)) (messages : list (nat * bool)) (schemas : list string) (n : option string * string) : Prop :=
  forall ul ud uu, exists c, package2 ul ud uu info2 cs messages schemas = Some c /\ 2 <= List.length (filter (fun d => declared_name d = n) c.1).
Ltac twice := intros ul ud uu; eexists; split; [vm_compute; reflexivity|]; apply (bool_decide_unpack _); vm_compute; exact I.

(** A channel, or an operation ID, of the name "all": the method that subscribes to it and the one that subscribes to all channels have the same name. *)
Definition all_channel := mkChan2 "All" false (Some (mkOperation2 "" 3 false (Some 3))) None.
Theorem C89_all_refuted : code_twice [("all", all_channel)] [] [] (Some "AppController", "SubscribeAll").
Proof. twice. Qed.
Print Assumptions C89_all_refuted.

(** Two channels whose keys give the same name. *)
Definition user_in (k : string) (m : nat) := (k, mkChan2 "UserIn" false (Some (mkOperation2 "" m false (Some m))) None).
Theorem C89_channels_refuted : code_twice [user_in "user/in" 3; user_in "user.in" 2] [] [] (None, "UserInPath") /\
  forall ul ud uu, name_it ul ud uu "user/in" = "UserIn" /\ name_it ul ud uu "user.in" = "UserIn".
Proof. split; [twice|]. intros. vm_compute. done. Qed.
Print Assumptions C89_channels_refuted.

(** An operation ID like the name of another channel. *)
Definition identified := mkChan2 "Query" false (Some (mkOperation2 "ask" 2 false (Some 2))) None.
Definition unidentified := mkChan2 "Ask" false (Some (mkOperation2 "" 3 false (Some 3))) None.
Theorem C89_operation_id_refuted : code_twice [("query", identified); ("ask", unidentified)] [] [] (Some "AppController", "SubscribeAsk").
Proof. twice. Qed.
Print Assumptions C89_operation_id_refuted.

(** A message written in the operation of a channel "ask", and a message "ask" of the components. *)
Theorem C89_message_refuted : forall ul ud uu, exists c,
  package2 ul ud uu (mkDetails (fun _ => false) (fun _ => false) (fun _ => false) (fun _ => false) (fun _ => "AskMessage") (fun _ => false)) [("ask", unidentified)] [(4, true)] [] = Some c /\
  2 <= List.length (filter (fun d => declared_name d = (None, "AskMessage")) c.1).
Proof. twice. Qed.
Print Assumptions C89_message_refuted.

(** The type of a property "path" of a schema "place", and the constant of the address of a channel "place_schema". *)
Theorem C89_schema_refuted : code_twice [("place_schema", mkChan2 "PlaceSchema" false None None)] [] ["PlaceSchema"; "PlaceSchemaPath"] (None, "PlaceSchemaPath").
Proof. twice. Qed.
Print Assumptions C89_schema_refuted.
