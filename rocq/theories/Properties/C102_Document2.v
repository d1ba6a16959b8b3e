(** C102: the processing of documents of version 2: which are accepted, what it leaves, and the code generated after it. *)
From stdpp Require Import gmap list strings pretty.
From Coq Require Import NArith Ascii String.
From Verif.Model Require Import GoStrings Reference Linking Naming Names Operations Package Package2 Document2.
From Verif.Spec Require Import ReferenceSpec NamingSpec LinkingSpec PackageSpec Package2Spec Document2Spec.
From Verif.Proof Require Import GoStringsProof Document2Proof Document2ServedProof.
Local Open Scope string_scope.
Local Open Scope nat_scope.
Notation document := Document2.document.

(** A document is processed exactly when the references of its messages and parameters lead to components, those of operations have three
    slashes, correlation identifiers have a path, headers are objects, and its schemas can be linked and alternatives merged; so must the documents
    it depends on. *)
Theorem C102_accepted : forall namify itoa w correlation_at schema headers_object merge d,
  (exists t, process namify itoa w correlation_at schema headers_object merge d = Ok t) <-> acceptable2 w schema headers_object merge d.
Proof. exact accepted. Qed.
Print Assumptions C102_accepted.

(** A document in which nothing is wrong but headers that are no objects is refused with an error; the program does not crash. *)
Theorem C102_headers_error : forall namify itoa w correlation_at schema headers_object merge d,
  acceptable2 w schema (fun _ => true) merge d -> ~ acceptable2 w schema headers_object merge d ->
  process namify itoa w correlation_at schema headers_object merge d = Err.
Proof. exact headers_error. Qed.
Print Assumptions C102_headers_error.

(** After it, every message and parameter with a reference is linked to what the reference designates, the others to nothing. *)
Theorem C102_linked : forall namify itoa w correlation_at schema headers_object merge d t,
  apart d -> process namify itoa w correlation_at schema headers_object merge d = Ok t ->
  (forall s m, msg_in d s m ->
    (m_ref m <> "" -> exists p, message_at w s (m_ref m) p /\ links t !! m_id m = Some p) /\ (m_ref m = "" -> links t !! m_id m = None)) /\
  (forall s p, parameter_in d s p ->
    (p_ref p <> "" -> exists q, parameter_at w s (p_ref p) q /\ links_p t !! p_id p = Some q) /\ (p_ref p = "" -> links_p t !! p_id p = None)) /\
  (forall i p, links t !! i = Some p -> exists s m, msg_in d s m /\ i = m_id m /\ m_ref m <> "" /\ message_at w s (m_ref m) p).
Proof.
  intros namify itoa w correlation_at schema headers_object merge d t A E. split; [|split].
  - intros s m. exact (linked _ _ _ _ _ _ _ d t s m A E).
  - intros s p. exact (linked_parameter _ _ _ _ _ _ _ d t s p A E).
  - intros i p. exact (link_source _ _ _ _ _ _ _ d t i p A E).
Qed.
Print Assumptions C102_linked.

(** Every message knows where its correlation identifier is. *)
Theorem C102_placed : forall namify itoa w correlation_at schema headers_object merge d t s m,
  apart d -> process namify itoa w correlation_at schema headers_object merge d = Ok t -> msg_in d s m ->
  exists l, place w correlation_at s m l /\ places t !! m_id m = Some l.
Proof. exact placed. Qed.
Print Assumptions C102_placed.

(** The messages of the components are named after their keys, those written in operations after their channel. *)
Theorem C102_named : forall namify itoa w correlation_at schema headers_object merge d t f,
  apart d -> process namify itoa w correlation_at schema headers_object merge d = Ok t -> f ∈ files d ->
  (forall k m, (k, m) ∈ d_messages f -> names t !! m_id m = Some (namify (k +:+ "Message"))) /\
  (forall k c o, (k, c) ∈ d_channels f -> m_ref (op_message o) = "" ->
    (c_publish c = Some o -> c_subscribe c = None -> names t !! m_id (op_message o) = Some (namify (namify (namify k) +:+ "Message"))) /\
    (c_subscribe c = Some o -> c_publish c = None -> names t !! m_id (op_message o) = Some (namify (namify (namify k) +:+ "Message"))) /\
    (c_publish c = Some o -> c_subscribe c <> None -> names t !! m_id (op_message o) = Some (namify (namify (namify k +:+ "Publish") +:+ "Message"))) /\
    (c_subscribe c = Some o -> c_publish c <> None -> names t !! m_id (op_message o) = Some (namify (namify (namify k +:+ "Subscribe") +:+ "Message")))).
Proof.
  intros namify itoa w correlation_at schema headers_object merge d t f A E Hf. split.
  - intros k m. exact (named_component _ _ _ _ _ _ _ d t f k m A E Hf).
  - intros k c o Hk R.
    assert (G : forall x, (c_subscribe c = Some o /\ x = "Subscribe" \/ c_publish c = Some o /\ x = "Publish") ->
      names t !! m_id (op_message o) = Some (namify (namify (namify k +:+ suffix c x) +:+ "Message"))).
    { intros x Hx. destruct (named_operation _ _ _ _ _ _ _ d t f (k, c) o x A E Hf Hk Hx) as (n & Gn & En). unfold given_name in Gn. rewrite R in Gn. cbn in Gn. by subst n. }
    unfold suffix in G. repeat split.
    + intros Ep Es. rewrite (G "Publish") by auto. by rewrite Es, sapp_nil_r.
    + intros Es Ep. rewrite (G "Subscribe") by auto. by rewrite Es, Ep, sapp_nil_r.
    + intros Ep Es. rewrite (G "Publish") by auto. rewrite Ep. by destruct (c_subscribe c).
    + intros Es Ep. rewrite (G "Subscribe") by auto. rewrite Es. by destruct (c_publish c).
Qed.
Print Assumptions C102_named.

(** The message of an operation that refers to a message of the same document has the name of that message. *)
Theorem C102_same_name : forall namify itoa w correlation_at schema headers_object merge d t o k m,
  apart d -> process namify itoa w correlation_at schema headers_object merge d = Ok t ->
  o ∈ operations_of d -> (k, m) ∈ d_messages d -> step_name k -> m_ref (op_message o) = ("#/components/messages/" +:+ k) ->
  names t !! m_id (op_message o) = names t !! m_id m.
Proof.
  intros namify itoa w correlation_at schema headers_object merge d t o k m A E Ho Hk [Sk _] R.
  rewrite (named_component _ _ _ _ _ _ _ d t d k m A E (self_file d) Hk). apply in_operations_of in Ho as (kc & Hc & Ho).
  assert (X : exists x, c_subscribe kc.2 = Some o /\ x = "Subscribe" \/ c_publish kc.2 = Some o /\ x = "Publish") by (destruct Ho; eauto). destruct X as (x & Hx).
  destruct (named_operation _ _ _ _ _ _ _ d t d kc o x A E (self_file d) Hc Hx) as (n & G & ->). unfold given_name in G. rewrite R in G. cbn [String.eqb] in G.
  destruct G as (y & Hy & ->). do 3 f_equal. revert Hy.
  change ("#/components/messages/" +:+ k) with ("#" +:+ String "/" ("components" +:+ String "/" ("messages" +:+ String "/" k))).
  rewrite !split_app, (split_lacks _ k) by (first [exact Sk|unfold lacks; apply (bool_decide_unpack _); vm_compute; exact I]). cbn. congruence.
Qed.
Print Assumptions C102_same_name.

(** When the references between messages lead nowhere back, every message can be followed, however many links are allowed beyond some number. *)
Theorem C102_followed : forall namify itoa w correlation_at schema headers_object merge d t (rank : nat -> nat),
  apart d -> process namify itoa w correlation_at schema headers_object merge d = Ok t ->
  (forall s m p, msg_in d s m -> m_ref m <> "" -> message_at w s (m_ref m) p -> rank p < rank (m_id m)) ->
  forall b, (forall o, o ∈ operations_of d -> rank (m_id (op_message o)) <= b) -> exists cs, forall n, b <= n -> channels2_of namify n t d = Some cs.
Proof.
  intros namify itoa w correlation_at schema headers_object merge d t rank A E R b B.
  assert (RL : forall i p, links t !! i = Some p -> rank p < rank i).
  { intros i p Hl. destruct (link_source _ _ _ _ _ _ _ d t i p A E Hl) as (s & m & Hm & -> & N & Hp). eauto. }
  assert (F : forall o, o ∈ operations_of d -> exists q, forall n, b <= n -> follow n (links t) (m_id (op_message o)) = Some q).
  { intros o Ho. destruct (follow_ranked (links t) rank RL b (m_id (op_message o)) (B o Ho)) as (q & Hq). exists q. intros n L. by eapply follow_mono. }
  destruct (channels_follow namify (links t) b d t eq_refl) as (cs & Ec).
  { intros o Ho. destruct (F o Ho) as (q & Hq). exists q. by apply Hq. }
  exists cs. intros n L. rewrite <- Ec. unfold channels2_of.
  apply mapM_ext_in. intros kc Hk. unfold chan2_of.
  assert (O : forall x, x = c_publish kc.2 \/ x = c_subscribe kc.2 -> optional (operation2_of n t) x = optional (operation2_of b t) x).
  { intros [o|] Hx; cbn; [|done]. destruct (F o) as (q & Hq); [apply in_operations_of; exists kc; split; [done|]; destruct Hx as [Hx|Hx]; rewrite <- Hx; auto|].
    unfold operation2_of. by rewrite (Hq n L), (Hq b (le_n b)). }
  by rewrite !O by auto.
Qed.
Print Assumptions C102_followed.

(** After the processing of a plain document, everything the generated code uses is declared. Partial: see [plain]. *)
Theorem C102_backed_partial : forall ul ud uu itoa w correlation_at schema headers_object merge d t,
  apart d -> stored correlation_at d -> plain d -> process (name_it ul ud uu) itoa w correlation_at schema headers_object merge d = Ok t ->
  forall n cs schemas, channels2_of (name_it ul ud uu) n t d = Some cs ->
  exists c, package2 ul ud uu (details2_of t) cs (messages2_of d) schemas = Some c /\ all_backed c.
Proof. intros. by eapply document_backed. Qed.
Print Assumptions C102_backed_partial.

(** ** An example
    Two files. Of the first, "ping" is answered on "pong", whose message is in the components; "chat" has messages in both directions, one with
    alternatives; "users" has a parameter. *)
Definition given : nat -> option nat := Some.
Definition ping := Message 0 "" (Some "$message.header#/correlationId") None (given 10) [].
Definition pong_ref (r : string) := Message 1 r None None None [].
Definition chat_in := Message 2 "" None (given 20) (given 11) [].
Definition chat_out := Message 3 "" None None (given 12) [Message 5 "" None None (given 13) []; Message 6 "other.yaml#/components/messages/Note" None None None []].
Definition pong := Message 4 "" (Some "$message.header#/correlationId") None (given 14) [].
Definition note := Message 7 "" (Some "$message.payload#/id") None (given 15) [].
Definition user_seen := Message 8 "" None None (given 16) [].
Definition other_spec : spec := mkSpec (fun k => if String.eqb k "messages" then {["Note" := 7]} else ∅) ∅ ∅.
Definition main_spec (messages : gmap string nat) : spec :=
  mkSpec (fun k => if String.eqb k "messages" then messages else if String.eqb k "parameters" then {["User" := 1]} else ∅) ∅ {["other.yaml" := 0]}.
Definition ex_world : world := mkWorld (fun _ => other_spec) (fun _ => ∅) (fun _ => None) (fun _ => None) (fun _ => ∅).
Definition other : document := Doc other_spec [] [] [("Note", note)] [] [].
Definition main_document (pong_message : message) (messages : list (string * message)) : document :=
  Doc (main_spec (list_to_map (map (fun km => (km.1, m_id km.2)) messages)))
    [("ping", mkChan None (Some (mkOp "" ping)) []); ("pong", mkChan (Some (mkOp "" pong_message)) None []);
     ("chat", mkChan (Some (mkOp "" chat_out)) (Some (mkOp "" chat_in)) []);
     ("users", mkChan None (Some (mkOp "" user_seen)) [("id", mkParam 0 "#/components/parameters/User")])]
    [("Place", 17)] messages [("User", mkParam 1 "")] [other].
Definition ex_document := main_document (pong_ref "#/components/messages/Pong") [("Pong", pong)].
Definition correlation_in (d : document) (i : nat) : option string :=
  match List.find (fun m => Nat.eqb (m_id m) i) (map snd (d_messages other) ++ map snd (d_messages d)) with Some m => m_correlation m | None => None end.
Definition run_example (ul ud : N -> bool) (uu : N -> bytes) (d : document) : res state :=
  process (name_it ul ud uu) pretty ex_world (correlation_in d) (fun _ => Ok tt) (fun _ => true) (fun _ _ => Ok tt) d.
Definition state_of (r : res state) : state := match r with Ok t => t | _ => start end.
Definition is_ok {A} (r : res A) : bool := match r with Ok _ => true | _ => false end.
Lemma ok_state r : is_ok r = true -> r = Ok (state_of r).
Proof. by destruct r. Qed.
Definition ids_differ (d : document) : bool := bool_decide (NoDup (message_ids d)).
Lemma one_of_list {A} (P : A -> Prop) l : Forall P l -> forall x, x ∈ l -> P x.
Proof. intros F x. by apply Forall_forall. Qed.

Definition all_parameters (f : document) : list parameter := map snd (d_params f) ++ List.concat (map (fun kc => map snd (c_parameters kc.2)) (d_channels f)).
Lemma parameter_in_all d s p : parameter_in d s p -> exists f, f ∈ files d /\ d_spec f = s /\ p ∈ all_parameters f.
Proof.
  intros (f & k & Hf & Hs & H). exists f. split; [done|]. split; [done|]. unfold all_parameters. apply elem_of_app. destruct H as [H|(kc & Hk & H)].
  - left. apply elem_of_list_fmap. by exists (k, p).
  - right. apply in_concat_map. exists kc. split; [done|]. apply elem_of_list_fmap. by exists (k, p).
Qed.
Lemma ex_apart p ms : NoDup (message_ids (main_document p ms)) -> apart (main_document p ms).
Proof.
  intros N. split; [done|]. intros s q s' q' H H' E. apply parameter_in_all in H as (f & Hf & <- & H), H' as (f' & Hf' & <- & H').
  assert (F : forall f q, f ∈ files (main_document p ms) -> q ∈ all_parameters f ->
    f = main_document p ms /\ (q = mkParam 1 "" \/ q = mkParam 0 "#/components/parameters/User")).
  { clear. intros f q Hf H. cbn [files main_document map List.concat other app] in Hf. apply elem_of_cons in Hf as [-> |Hf]; [by apply elem_of_nil in H|].
    apply elem_of_list_singleton in Hf as ->. split; [done|]. cbn in H. apply elem_of_cons in H as [-> |H]; [by left|]. apply elem_of_list_singleton in H. by right. }
  destruct (F f q Hf H) as [-> [-> | ->]], (F f' q' Hf' H') as [-> [-> | ->]]; try done.
Qed.
Example C102_apart_ex : apart ex_document.
Proof. apply ex_apart. apply (bool_decide_unpack _). vm_compute. exact I. Qed.
(** The headers of "chat" are a text. *)
Example C102_headers_error_ex : forall ul ud uu,
  process (name_it ul ud uu) pretty ex_world (correlation_in ex_document) (fun _ => Ok tt) (fun x => negb (Nat.eqb x 20)) (fun _ _ => Ok tt) ex_document = Err.
Proof.
  intros ul ud uu. apply C102_headers_error.
  - apply (C102_accepted (fun _ => "") pretty _ (correlation_in ex_document)). eexists. apply ok_state. vm_compute. reflexivity.
  - intros A. apply (C102_accepted (fun _ => "") pretty _ (correlation_in ex_document)) in A as (t & A). vm_compute in A. discriminate.
Qed.
Example C102_stored_ex : stored (correlation_in ex_document) ex_document.
Proof.
  split.
  - intros k i. cbn [d_spec ex_document main_document comps main_spec String.eqb]. cbn. rewrite insert_empty. split.
    + intros H. apply lookup_singleton_Some in H as [<- <-]. exists pong. split; [left|done].
    + intros (m & Hm & <-). apply elem_of_list_singleton in Hm. injection Hm as -> ->. apply lookup_singleton.
  - intros k m H. apply elem_of_list_singleton in H. injection H as -> ->. reflexivity.
Qed.
Ltac ascii_ok := unfold ascii_text, is_ascii; apply (bool_decide_unpack _); vm_compute; exact I.
Example C102_plain_ex : plain ex_document.
Proof.
  split.
  - intros k c H. cbn in H. repeat (apply elem_of_cons in H as [H|H]; [injection H as -> ->; split; [ascii_ok|intros _; apply (bool_decide_unpack _); vm_compute; exact I]|]). by apply elem_of_nil in H.
  - intros k m H. apply elem_of_list_singleton in H. injection H as -> ->. split; [ascii_ok|by eexists].
  - intros o H. cbn in H. repeat (apply elem_of_cons in H as [-> |H]; [intros R; try discriminate R; by eexists|]). by apply elem_of_nil in H.
  - intros m H. cbn in H. repeat (apply elem_of_cons in H as [-> |H]; [intros R; first [by destruct R|split; [by exists "/components/messages/Pong"|done]]|]). by apply elem_of_nil in H.
Qed.
(** A decidable claim of the state and the channels after processing. *)
Definition after (ul ud : N -> bool) (uu : N -> bytes) (d : document) (P : state -> list (string * chan2) -> bool) : bool :=
  match run_example ul ud uu d with
  | Ok t => match channels2_of (name_it ul ud uu) 2 t d with Some cs => P t cs | None => false end
  | _ => false
  end.
Lemma after_ok ul ud uu d P : after ul ud uu d P = true ->
  exists t cs, run_example ul ud uu d = Ok t /\ channels2_of (name_it ul ud uu) 2 t d = Some cs /\ P t cs = true.
Proof.
  unfold after. destruct (run_example ul ud uu d) as [| |t]; try discriminate. destruct (channels2_of (name_it ul ud uu) 2 t d) as [cs|] eqn:E; [|discriminate]. eauto.
Qed.
Definition ex_after (t : state) : Prop :=
  links t !! 1 = Some 4 /\ links t !! 6 = Some 7 /\ links_p t !! 0 = Some 1 /\ links t !! 0 = None /\
  places t !! 1 = Some "$message.header#/correlationId" /\ places t !! 6 = Some "$message.payload#/id" /\ places t !! 3 = Some "" /\
  names t !! 0 = Some "PingMessage" /\ names t !! 1 = Some "PongMessage" /\ names t !! 4 = Some "PongMessage" /\ names t !! 2 = Some "ChatPublishMessage" /\
  names t !! 6 = Some "ChatSubscribeMessageMessage1" /\ names t !! 7 = Some "NoteMessage".
#[local] Instance ex_after_dec t : Decision (ex_after t).
Proof. unfold ex_after. apply _. Defined.
Example C102_backed_ex ul ud uu t cs schemas : run_example ul ud uu ex_document = Ok t -> channels2_of (name_it ul ud uu) 2 t ex_document = Some cs ->
  exists c, package2 ul ud uu (details2_of t) cs (messages2_of ex_document) schemas = Some c /\ all_backed c.
Proof.
  unfold run_example. intros E. apply (C102_backed_partial ul ud uu pretty ex_world (correlation_in ex_document) (fun _ => Ok tt) (fun _ => true) (fun _ _ => Ok tt) ex_document t
    C102_apart_ex C102_stored_ex C102_plain_ex E).
Qed.
Example C102_ex ul ud uu : exists t cs c, run_example ul ud uu ex_document = Ok t /\ channels2_of (name_it ul ud uu) 2 t ex_document = Some cs /\ ex_after t /\
  package2 ul ud uu (details2_of t) cs (messages2_of ex_document) ["PlaceSchema"] = Some c /\ all_backed c.
Proof.
  destruct (after_ok ul ud uu ex_document (fun t _ => bool_decide (ex_after t))) as (t & cs & E & Ec & H); [vm_compute; reflexivity|].
  apply bool_decide_eq_true in H.
  destruct (C102_backed_ex ul ud uu t cs ["PlaceSchema"] E Ec) as (c & Hc & B).
  exists t, cs, c. exact (conj E (conj Ec (conj H (conj Hc B)))).
Qed.
Example C102_accepted_ex : acceptable2 ex_world (fun _ => Ok tt) (fun _ => true) (fun _ _ => Ok tt) ex_document.
Proof.
  apply (C102_accepted (fun s => s) pretty ex_world (correlation_in ex_document)). eexists. apply ok_state. vm_compute. reflexivity.
Qed.
Definition ex_rank (i : nat) : nat := if (Nat.eqb i 1 || Nat.eqb i 6)%bool then 1 else 0.
Ltac each_of H := cbn in H; repeat (apply elem_of_cons in H as [-> |H]); try (by apply elem_of_nil in H).
Example C102_ranked_ex s m p : msg_in ex_document s m -> m_ref m <> "" -> message_at ex_world s (m_ref m) p -> ex_rank p < ex_rank (m_id m).
Proof.
  intros (f & o & Hf & <- & Ho & Hm) N Hp. each_of Hf; each_of Ho; each_of Hm; try (exfalso; apply N; reflexivity);
    apply message_at_ok in Hp; vm_compute in Hp; injection Hp as <-; cbn; lia.
Qed.
Example C102_followed_ex ul ud uu t : run_example ul ud uu ex_document = Ok t -> exists cs, forall n, 1 <= n -> channels2_of (name_it ul ud uu) n t ex_document = Some cs.
Proof.
  unfold run_example. intros E.
  apply (C102_followed (name_it ul ud uu) pretty ex_world (correlation_in ex_document) (fun _ => Ok tt) (fun _ => true) (fun _ _ => Ok tt) ex_document t ex_rank C102_apart_ex E C102_ranked_ex).
  intros o _. unfold ex_rank. destruct (Nat.eqb (m_id (op_message o)) 1 || Nat.eqb (m_id (op_message o)) 6)%bool; lia.
Qed.

(** ** Where it fails *)
(** What the generated code uses without declaring it. *)
Definition lacking (d : document) (u : use) : Prop := forall ul ud uu, exists t cs c,
  run_example ul ud uu d = Ok t /\ channels2_of (name_it ul ud uu) 2 t d = Some cs /\
  package2 ul ud uu (details2_of t) cs (messages2_of d) [] = Some c /\ u ∈ c.2 /\ ~ backed c.1 u.
Lemma lacking_by d u : (forall ul ud uu, after ul ud uu d (fun t cs =>
    match package2 ul ud uu (details2_of t) cs (messages2_of d) [] with Some c => bool_decide (u ∈ c.2 /\ ~ backed c.1 u) | None => false end) = true) -> lacking d u.
Proof.
  intros H ul ud uu. destruct (after_ok _ _ _ _ _ (H ul ud uu)) as (t & cs & E & Ec & P). cbn beta in P.
  destruct (package2 ul ud uu (details2_of t) cs (messages2_of d) []) as [c|] eqn:K; [|discriminate]. apply bool_decide_eq_true in P as [P1 P2].
  exists t, cs, c. exact (conj E (conj Ec (conj K (conj P1 P2)))).
Qed.

(** The message of "pong" is in the other file: its type is used and not declared. *)
Definition foreign_document := main_document (pong_ref "other.yaml#/components/messages/Note") [("Pong", pong)].
Theorem C102_foreign_refuted : apart foreign_document /\ lacking foreign_document (UseType "NoteMessage").
Proof.
  split; [apply ex_apart; apply (bool_decide_unpack _); vm_compute; exact I|]. apply lacking_by. intros ul ud uu. vm_compute. reflexivity.
Qed.
Print Assumptions C102_foreign_refuted.

(** The same with a leading "./": the name of the message is taken from another part of the reference. *)
Definition dotted_document := main_document (pong_ref "./other.yaml#/components/messages/Note") [("Pong", pong)].
Theorem C102_dotted_refuted : forall ul ud uu, exists t cs, run_example ul ud uu dotted_document = Ok t /\ channels2_of (name_it ul ud uu) 2 t dotted_document = Some cs /\
  links t !! 1 = Some 7 /\ names t !! 7 = Some "NoteMessage" /\ names t !! 1 = Some "MessagesMessage".
Proof.
  intros ul ud uu. destruct (after_ok ul ud uu dotted_document (fun t _ => bool_decide (links t !! 1 = Some 7 /\ names t !! 7 = Some "NoteMessage" /\
    names t !! 1 = Some "MessagesMessage"))) as (t & cs & E & Ec & H); [vm_compute; reflexivity|].
  apply bool_decide_eq_true in H. exists t, cs. exact (conj E (conj Ec H)).
Qed.
Print Assumptions C102_dotted_refuted.

(** A reference to a message of the document without its first slash is a good reference, for the messages of components; in an operation
    it panics. *)
Definition short_document := main_document (pong_ref "#components/messages/Pong") [("Pong", pong)].
Theorem C102_short_refuted : apart short_document /\ message_at ex_world (d_spec short_document) "#components/messages/Pong" 4 /\
  forall ul ud uu, run_example ul ud uu short_document = Panic.
Proof.
  split; [apply ex_apart; apply (bool_decide_unpack _); vm_compute; exact I|]. split.
  - apply message_at_ok. vm_compute. reflexivity.
  - intros ul ud uu. vm_compute. reflexivity.
Qed.
Print Assumptions C102_short_refuted.

(** The message of "pong" refers to a message that refers to another one, which has a correlation identifier. The generated message can be
    correlated, and nothing is generated to wait for it. *)
Definition chained_document := main_document (pong_ref "#/components/messages/Middle") [("Pong", pong); ("Middle", Message 9 "#/components/messages/Pong" None None (given 18) [])].
Definition declares_method (recv name : string) (x : decl) : bool :=
  match x with DeclMethod r n _ _ => (String.eqb r recv && String.eqb n name)%bool | _ => false end.
Theorem C102_waitfor_refuted : forall ul ud uu, exists t cs c, run_example ul ud uu chained_document = Ok t /\
  channels2_of (name_it ul ud uu) 2 t chained_document = Some cs /\ package2 ul ud uu (details2_of t) cs (messages2_of chained_document) [] = Some c /\
  DeclMethod "UserController" "SubscribePong" [TyCtx; TyHandler "PongMessage"] [TyError] ∈ c.1 /\
  DeclMethod "PongMessage" "CorrelationID" [] [TyText] ∈ c.1 /\
  (forall args results, DeclMethod "UserController" "WaitForPong" args results ∉ c.1).
Proof.
  intros ul ud uu. destruct (after_ok ul ud uu chained_document (fun t cs =>
    match package2 ul ud uu (details2_of t) cs (messages2_of chained_document) [] with
    | Some c => bool_decide (DeclMethod "UserController" "SubscribePong" [TyCtx; TyHandler "PongMessage"] [TyError] ∈ c.1 /\
        DeclMethod "PongMessage" "CorrelationID" [] [TyText] ∈ c.1) && negb (existsb (declares_method "UserController" "WaitForPong") c.1)
    | None => false
    end)%bool) as (t & cs & E & Ec & H); [vm_compute; reflexivity|].
  destruct (package2 ul ud uu (details2_of t) cs (messages2_of chained_document) []) as [c|] eqn:K; [|discriminate].
  apply andb_prop in H as [H N]. apply bool_decide_eq_true in H as [H1 H2]. exists t, cs, c. split; [exact E|]. split; [exact Ec|]. split; [exact K|]. split; [exact H1|]. split; [exact H2|].
  intros args results Hd. apply negb_true_iff in N. assert (X : existsb (declares_method "UserController" "WaitForPong") c.1 = true); [|congruence].
  apply existsb_exists. exists (DeclMethod "UserController" "WaitForPong" args results). split; [by apply elem_of_list_In|done].
Qed.
Print Assumptions C102_waitfor_refuted.

(** A message that refers to itself: the document is processed, and following the message does not end. *)
Definition cyclic_document := main_document (pong_ref "#/components/messages/Pong") [("Pong", Message 4 "#/components/messages/Pong" None None (given 14) [])].
Theorem C102_cycle_refuted : apart cyclic_document /\ forall ul ud uu, exists t, run_example ul ud uu cyclic_document = Ok t /\
  forall n, channels2_of (name_it ul ud uu) n t cyclic_document = None.
Proof.
  split; [apply ex_apart; apply (bool_decide_unpack _); vm_compute; exact I|]. intros ul ud uu. exists (state_of (run_example ul ud uu cyclic_document)).
  assert (E : run_example ul ud uu cyclic_document = Ok (state_of (run_example ul ud uu cyclic_document))) by (apply ok_state; vm_compute; reflexivity).
  split; [exact E|]. assert (L1 : links (state_of (run_example ul ud uu cyclic_document)) !! 1 = Some 4) by (vm_compute; reflexivity).
  assert (L4 : links (state_of (run_example ul ud uu cyclic_document)) !! 4 = Some 4) by (vm_compute; reflexivity).
  revert L1 L4. generalize (state_of (run_example ul ud uu cyclic_document)). clear E. intros t L1 L4 n.
  assert (F4 : forall k, follow k (links t) 4 = None) by (induction k as [|k IH]; cbn; rewrite L4; [done|exact IH]).
  assert (F1 : forall k, follow k (links t) 1 = None) by (intros [|k]; cbn; rewrite L1; [done|apply F4]).
  unfold channels2_of. apply eq_None_not_Some. intros (cs & Ec). apply mapM_Some in Ec. apply Forall2_cons_inv_l in Ec as (y & ys & _ & Ec & _).
  apply Forall2_cons_inv_l in Ec as (z & zs & Ez & _ & _). unfold chan2_of, operation2_of, optional in Ez. cbn [c_publish c_subscribe snd] in Ez. cbn -[follow] in Ez.
  rewrite F1 in Ez. discriminate.
Qed.
Print Assumptions C102_cycle_refuted.
