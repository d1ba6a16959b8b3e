(** C44, C45, C62, C63, C64: references between messages, traits and alternatives. *)
From stdpp Require Import gmap list strings.
From Coq Require Import Ascii String Lia.
From Verif.Model Require Import GoStrings Reference Slices Schema Location Message.
From Verif.Spec Require Import SlicesSpec SchemaSpec LocationSpec MessageSpec MergeSpec CopySpec.
From Verif.Proof Require Import SlicesProof SchemaProof LocationProof MergeProof CopyProof MessageProof.
From Verif.Properties Require Import C40_C41_Schema.
Local Open Scope string_scope.

(** ** C44 *)
(** v2: Follow on a message ends at the definition, however long the chain of references. *)
Theorem C44_v2_follow d fuel m x :
  follow_message2 fuel d m = Some x <-> exists n, n < fuel /\ chain (fun m => m_refto (message d m)) n m x.
Proof. exact (follow2_chain d fuel m x). Qed.

Definition refers (r : nat) : msg := mkMsg (mkParts None None) no_about [] [] "ref" (Some r).
(** 1 refers to 2, 2 to 3, which is a definition; 4 refers to itself. *)
Definition chain_doc : doc :=
  mkDoc ex_heap (list_to_map [(1, refers 2); (2, refers 3); (3, empty_msg); (4, refers 4)]) ∅ 10.
Example C44_v2_follow_ex : follow_message2 3 chain_doc 1 = Some 3 /\ follow_message2 2 chain_doc 1 = None.
Proof. split; reflexivity. Qed.

(** ... but not at all when the references are cyclic. *)
Theorem C44_v2_cycle_refuted : forall fuel, follow_message2 fuel chain_doc 4 = None.
Proof. induction fuel as [|fuel IH]; [reflexivity|]. cbn [follow_message2]. exact IH. Qed.

(** v3, and schemas in both versions: Follow reaches the definition exactly when at most one
    reference leads there. *)
Theorem C44_message_one_step d m x :
  (follow_message d m = x /\ m_refto (message d x) = None) <->
  exists n, n <= 1 /\ chain (fun m => m_refto (message d m)) n m x.
Proof. exact (one_step_chain (message_refs d) m x). Qed.
Theorem C44_schema_one_step h s x :
  (follow h s = x /\ s_refto (cell h x) = None) <-> exists n, n <= 1 /\ chain (fun s => s_refto (cell h s)) n s x.
Proof. exact (one_step_chain (schema_refs h) s x). Qed.
Example C44_schema_one_step_ex : follow ex_heap 8 = 1 /\ s_refto (cell ex_heap 1) = None.
Proof. split; reflexivity. Qed.

Theorem C44_v3_chain_refuted :
  exists d m x, chain (fun m => m_refto (message d m)) 2 m x /\ m_refto (message d (follow_message d m)) <> None.
Proof.
  exists chain_doc, 1, 3. split; [|vm_compute; discriminate].
  apply (chain_step _ 1 1 2 3); [reflexivity|]. apply (chain_step _ 0 2 3 3); [reflexivity|]. now apply chain_end.
Qed.

(** Reading the document itself does not end: message 2 is a component that refers to itself, message
    1 has it as an alternative. *)
Definition cycle_doc : doc := mkDoc ex_heap
  (list_to_map [(1, mkMsg (mkParts None None) no_about [3] [] "" None);
                (2, with_ref "#/components/messages/B" empty_msg); (3, with_ref "#/components/messages/B" empty_msg)]) ∅ 10.
Definition cycle_resolve (ref : string) : res nat := if String.eqb ref "#/components/messages/B" then Ok 2 else Err.
Theorem C44_merge_cycle_refuted iter resolve resolve_trait v2 :
  forall fuel, message_dependencies iter resolve cycle_resolve resolve_trait v2 fuel 1 cycle_doc = OFuel.
Proof.
  assert (M : forall fuel m c d, m_ref c = "#/components/messages/B" -> 2 < d_next d ->
     message d 2 = with_ref "#/components/messages/B" empty_msg -> m <> 2 -> m_ref (message d m) = "" ->
     merge_message iter cycle_resolve fuel m c d = OFuel).
  { intros fuel m c d Rc L E2 Nm Rm. destruct fuel as [|fuel]; [reflexivity|]. cbn [merge_message]. rewrite Rm, Rc.
    cbn [String.eqb obind]. change (cycle_resolve "#/components/messages/B") with (Ok 2). cbn [alloc_message].
    change (String.eqb "#/components/messages/B" "") with false. cbv iota beta.
    set (d' := mkDoc _ _ _ _). assert (E : message d' 2 = with_ref "#/components/messages/B" empty_msg).
    { rewrite <- E2. exact (message_alloc_other c d 2 ltac:(lia)). }
    rewrite E, (merge_message_cycle iter cycle_resolve "#/components/messages/B" 2 (with_ref "#/components/messages/B" empty_msg) fuel);
      [reflexivity|discriminate|reflexivity|reflexivity|cbn; lia|exact E|lia|].
    right. rewrite <- Rc. f_equal. exact (message_alloc_same c d). }
  intros [|fuel]; [reflexivity|]. cbn [message_dependencies].
  assert (R1 : message_reference cycle_resolve 1 cycle_doc = ODone cycle_doc) by reflexivity.
  rewrite R1. cbn [obind]. assert (Pa : m_parts (message cycle_doc 1) = mkParts None None) by reflexivity.
  rewrite Pa. cbn [p_payload p_headers schema_dependencies obind]. rewrite Pa. cbn [p_headers schema_dependencies obind].
  assert (Z : (if v2 then headers_object 1 cycle_doc else ODone cycle_doc) = ODone cycle_doc) by (destruct v2; reflexivity).
  rewrite Z. cbn [obind]. assert (On : m_oneof (message cycle_doc 1) = [3]) by reflexivity. rewrite On. cbn [oeach].
  destruct fuel as [|fuel]; [reflexivity|]. remember (S fuel) as n eqn:En. rewrite En at 1. cbn [message_dependencies].
  set (d3 := upd_message 3 (with_mrefto (Some 2)) cycle_doc).
  assert (R3 : message_reference cycle_resolve 3 cycle_doc = ODone d3) by reflexivity.
  rewrite R3. cbn [obind]. assert (P3 : m_parts (message d3 3) = mkParts None None) by reflexivity.
  rewrite P3. cbn [p_payload p_headers schema_dependencies obind]. rewrite P3. cbn [p_headers schema_dependencies obind].
  assert (Z3 : (if v2 then headers_object 3 d3 else ODone d3) = ODone d3) by (destruct v2; reflexivity).
  rewrite Z3. cbn [obind]. assert (O3 : m_oneof (message d3 3) = []) by reflexivity. rewrite O3. cbn [oeach obind].
  assert (T3 : m_traits (message d3 3) = []) by reflexivity. rewrite T3. cbn [oeach].
  destruct v2; cbn [obind]; (rewrite M; [reflexivity|reflexivity|cbn; lia|reflexivity|lia|reflexivity]).
Qed.

(** ** C45 *)
(** The fields without schemas: each is that of the first of message and traits, in order, to set it;
    tags are the distinct ones of all, examples are all of them. *)
Theorem C45_fields iter resolve fuel m ts d d' :
  oeach (apply_trait iter resolve fuel m) ts d = ODone d' ->
  let own := m_about (message d m) in
  let traits := t_about <$> ts in
  let res := m_about (message d' m) in
  first_set None (a_corr own :: (a_corr <$> traits)) (a_corr res) /\
  first_set "" (a_content own :: (a_content <$> traits)) (a_content res) /\
  first_set "" (a_title own :: (a_title <$> traits)) (a_title res) /\
  first_set "" (a_summary own :: (a_summary <$> traits)) (a_summary res) /\
  first_set "" (a_descr own :: (a_descr <$> traits)) (a_descr res) /\
  first_set None (a_docs own :: (a_docs <$> traits)) (a_docs res) /\
  (ts <> [] -> first_occurrences tag_name (a_tags own ++ List.concat (a_tags <$> traits)) (a_tags res)) /\
  a_examples res = (a_examples own ++ List.concat (a_examples <$> traits))%list.
Proof.
  intros H. cbn zeta. rewrite (apply_traits_about iter resolve fuel m ts d d' H).
  set (own := m_about (message d m)). set (l := t_about <$> ts).
  rewrite (fold_about_field a_corr keep_option), (fold_about_field a_content keep_string),
    (fold_about_field a_title keep_string), (fold_about_field a_summary keep_string), (fold_about_field a_descr keep_string),
    (fold_about_field a_docs keep_option),
    (fold_about_field a_tags (fun a t => dedup_by tag_name (a ++ t))),
    (fold_about_field a_examples (fun a t => a ++ t)%list) by reflexivity.
  split; [apply fold_keep_option|]. split; [apply fold_keep_string|]. split; [apply fold_keep_string|].
  split; [apply fold_keep_string|]. split; [apply fold_keep_string|]. split; [apply fold_keep_option|].
  split; [|apply fold_app_concat]. intros N. rewrite fold_dedup; [apply dedup_first|].
  unfold l. destruct ts; [congruence|discriminate].
Qed.
Definition about_trait (title summary : string) (tags : list tag) : trait :=
  mkTrait (mkParts None None) (mkAbout None "" title summary "" tags None None [title]) "" None.
Definition about_doc : doc := mkDoc ex_heap
  (list_to_map [(1, with_about (mkAbout None "json" "mine" "" "" [mkTag "a" "1"] None None []) empty_msg)]) ∅ 10.
Example C45_fields_ex :
  match oeach (apply_trait listing (fun _ _ => Err) 5 1)
          [about_trait "t1" "" [mkTag "a" "2"; mkTag "b" "3"]; about_trait "t2" "s2" []] about_doc with
  | ODone d => m_about (message d 1) =
      mkAbout None "json" "mine" "s2" "" [mkTag "a" "1"; mkTag "b" "3"] None None ["t1"; "t2"]
  | _ => False
  end.
Proof. vm_compute. reflexivity. Qed.

(** Operations, bindings included. *)
Theorem C45_operation_fields own traits :
  let res := fold_left apply_operation_trait traits own in
  first_set "" (o_title own :: (o_title <$> traits)) (o_title res) /\
  first_set "" (o_summary own :: (o_summary <$> traits)) (o_summary res) /\
  first_set "" (o_descr own :: (o_descr <$> traits)) (o_descr res) /\
  first_set None (o_docs own :: (o_docs <$> traits)) (o_docs res) /\
  first_set None (o_bindings own :: (o_bindings <$> traits)) (o_bindings res) /\
  (traits <> [] ->
     first_occurrences tag_name (o_tags own ++ List.concat (o_tags <$> traits)) (o_tags res) /\
     first_occurrences tag_name (o_security own ++ List.concat (o_security <$> traits)) (o_security res)).
Proof.
  cbn zeta.
  rewrite (fold_operation_field o_title keep_string), (fold_operation_field o_summary keep_string),
    (fold_operation_field o_descr keep_string), (fold_operation_field o_docs keep_option),
    (fold_operation_field o_bindings keep_option),
    (fold_operation_field o_tags (fun a t => dedup_by tag_name (a ++ t))),
    (fold_operation_field o_security (fun a t => dedup_by tag_name (a ++ t))) by reflexivity.
  split; [apply fold_keep_string|]. split; [apply fold_keep_string|]. split; [apply fold_keep_string|].
  split; [apply fold_keep_option|]. split; [apply fold_keep_option|]. intros N.
  assert (N' : forall (g : operation_info -> list tag), g <$> traits <> []) by (intros g; destruct traits; [congruence|discriminate]).
  rewrite !fold_dedup by apply N'. split; apply dedup_first.
Qed.
Example C45_operation_fields_ex :
  fold_left apply_operation_trait
    [mkInfo "t" "s" "" [] [mkTag "a" ""] None (Some "nats"); mkInfo "u" "" "d" [] [] (Some "x") (Some "kafka")]
    (mkInfo "" "" "" [] [] None None) = mkInfo "t" "s" "d" [] [mkTag "a" ""] (Some "x") (Some "nats").
Proof. reflexivity. Qed.

(** The headers: a message with headers and any number of traits with headers (and no payload). Each
    header is the definition of the first of message and traits to have it, and there is no other. *)
Theorem C45_headers iter resolve fuel m s ts (l : list nat) d :
  (forall m g, iter m g ≡ₚ map_to_list g) -> closed (d_heap d) -> valid (d_heap d) s ->
  p_headers (m_parts (message d m)) = Some s ->
  Forall2 (fun t v => p_headers (t_parts t) = Some v /\ p_payload (t_parts t) = None) ts l ->
  Forall (fun v => valid (d_heap d) v /\ apart (d_heap d) s v) l ->
  exists d', oeach (apply_trait iter resolve fuel m) ts d = ODone d' /\
    p_headers (m_parts (message d' m)) = Some s /\
    (forall x, valid (d_heap d) x -> x <> s -> cell (d_heap d') x = cell (d_heap d) x) /\
    (forall k x, first_set None (props (d_heap d) (cell (d_heap d) s) !! k :: ((fun v => defines (d_heap d) v k) <$> l)) x ->
       match x with
       | Some q => exists p, props (d_heap d') (cell (d_heap d') s) !! k = Some p /\ stands_for (d_heap d') p q
       | None => props (d_heap d') (cell (d_heap d') s) !! k = None
       end) /\
    (forall v k, v ∈ s :: l -> k ∈ s_required (cell (d_heap d) v) -> k ∈ s_required (cell (d_heap d') s)).
Proof.
  intros P C V E F A. destruct (apply_traits_headers iter resolve fuel m s ts l d E F) as (d' & H & Hh & Hp).
  destruct (merge_all_spec iter P s l (d_heap d) C V A) as (_ & X & _ & _ & _ & _ & _ & _ & Pr & R1 & R2 & _).
  rewrite <- Hh in X, Pr, R1, R2. exists d'. split; [exact H|]. split; [now rewrite Hp|]. split.
  - intros x Hx N. now apply (extends_cell s).
  - split; [exact Pr|]. intros v k Hv Hk. apply elem_of_cons in Hv as [->|Hv]; [now apply R1|now apply (R2 v)].
Qed.
(** Ext (5) as headers, a trait with Base (1), one with 4. *)
Definition headers_doc : doc := mkDoc ex_heap
  (list_to_map [(1, with_parts (mkParts (Some 5) None) empty_msg)]) ∅ 10.
Definition headers_trait (s : nat) : trait := mkTrait (mkParts (Some s) None) no_about "" None.
Definition names_at (h : heap) (s : option nat) : list string :=
  match s with Some s => map fst (map_to_list (props h (cell h s))) | None => [] end.
Definition header_names (m : nat) (r : out doc) : list string :=
  match r with ODone d => names_at (d_heap d) (p_headers (m_parts (message d m))) | _ => [] end.
Definition payload_names (m : nat) (r : out doc) : list string :=
  match r with ODone d => names_at (d_heap d) (p_payload (m_parts (message d m))) | _ => [] end.
Definition apartb (h : heap) (s v : nat) : bool :=
  negb (Nat.eqb v s) && match s_refto (cell h v) with Some _ => false | None => true end &&
  bool_decide (s_props (cell h v) <> s_props (cell h s)).
Lemma apart_check h s v : apartb h s v = true -> apart h s v.
Proof.
  unfold apartb. rewrite !andb_true_iff. intros [[A B] D]. apply negb_true_iff, Nat.eqb_neq in A. apply bool_decide_eq_true in D.
  destruct (s_refto (cell h v)) eqn:E; [discriminate|]. constructor; [exact A|congruence|].
  intros m [H|(r & H & _)]; [congruence|congruence].
Qed.
Example C45_headers_ex :
  Forall (fun v => valid ex_heap v /\ apart ex_heap 5 v) [1; 4] /\
  header_names 1 (oeach (apply_trait listing (fun _ _ => Err) 5 1) [headers_trait 1; headers_trait 4] headers_doc)
    ≡ₚ ["name"; "age"; "id"; "home"].
Proof.
  split; [|apply (bool_decide_unpack _); vm_compute; exact I].
  constructor; [|constructor; [|constructor]]; (split; [eexists; vm_compute; reflexivity|apply apart_check; vm_compute; reflexivity]).
Qed.

(** The bindings of a trait are never applied. *)
Theorem C45_bindings_refuted iter resolve fuel m ts d d' :
  oeach (apply_trait iter resolve fuel m) ts d = ODone d' ->
  a_bindings (m_about (message d' m)) = a_bindings (m_about (message d m)).
Proof.
  intros H. rewrite (apply_traits_about iter resolve fuel m ts d d' H), (fold_about_field a_bindings (fun a _ => a)) by reflexivity.
  generalize (a_bindings <$> (t_about <$> ts)). intros l. induction l as [|x l IH]; [reflexivity|exact IH].
Qed.
Example C45_bindings_refuted_ex :
  match apply_trait listing (fun _ _ => Err) 5 1
          (mkTrait (mkParts None None) (mkAbout None "" "" "" "" [] None (Some "nats") []) "" None) about_doc with
  | ODone d => a_bindings (m_about (message d 1)) = None
  | _ => False
  end.
Proof. vm_compute. reflexivity. Qed.

(** The payload of a trait extends the headers of a message that has both, and nothing when it has
    no headers. Message 1 has headers 5 and payload 4, message 2 only payload 4. *)
Definition payload_doc : doc := mkDoc ex_heap
  (list_to_map [(1, with_parts (mkParts (Some 5) (Some 4)) empty_msg); (2, with_parts (mkParts None (Some 4)) empty_msg)]) ∅ 10.
Definition payload_trait : trait := mkTrait (mkParts None (Some 1)) no_about "" None.
Theorem C45_payload_refuted :
  let r := apply_trait listing (fun _ _ => Err) 5 1 payload_trait payload_doc in
  payload_names 1 r = [] /\ "id" ∈ header_names 1 r /\
  payload_names 2 (apply_trait listing (fun _ _ => Err) 5 2 payload_trait payload_doc) = [].
Proof.
  cbn zeta. split; [vm_compute; reflexivity|]. split; [apply (bool_decide_unpack _); vm_compute; exact I|vm_compute; reflexivity].
Qed.

(** A description of the operation itself is not read, hence overridden by that of the trait, which is. *)
Theorem C45_description_refuted own (fields trait_fields : gmap string string) :
  fields !! "string" = None -> o_descr own = read_operation_descr fields ->
  o_descr (apply_operation_trait own (mkInfo "" "" (read_trait_descr trait_fields) [] [] None None)) = default "" (trait_fields !! "description").
Proof. intros E H. unfold apply_operation_trait. cbn [o_descr]. rewrite H. unfold read_operation_descr. rewrite E. reflexivity. Qed.
Example C45_description_refuted_ex :
  let fields : gmap string string := {["description" := "what this one does"]} in
  fields !! "string" = None /\
  o_descr (apply_operation_trait (mkInfo "" "" (read_operation_descr fields) [] [] None None)
            (mkInfo "" "" (read_trait_descr {["description" := "what they all do"]}) [] [] None None)) = "what they all do".
Proof. split; vm_compute; reflexivity. Qed.

(** A correlation ID that comes from a trait does not create its field: the fields are created
    before the traits are applied. *)
Definition corr_doc : doc := mkDoc ex_heap
  (list_to_map [(1, mkMsg (mkParts None (Some 4)) no_about [] [7] "" None);
                (2, mkMsg (mkParts None (Some 4)) (mkAbout (Some "$message.header#/correlationId") "" "" "" "" [] None None []) [] [] "" None)])
  (list_to_map [(7, mkTrait (mkParts None None) (mkAbout (Some "$message.header#/correlationId") "" "" "" "" [] None None []) "" None)]) 10.
Definition read_message (m : nat) (d : doc) : out doc :=
  obind (message_metadata listing false 9 m d) (fun '(_, d) =>
  message_dependencies listing (fun _ _ => Err) (fun _ => Err) (fun _ => Err) false 9 m d).
Definition corr_of (m : nat) (r : out doc) : option string :=
  match r with ODone d => a_corr (m_about (message d m)) | _ => None end.
Theorem C45_correlation_refuted :
  corr_of 1 (read_message 1 corr_doc) = Some "$message.header#/correlationId" /\ header_names 1 (read_message 1 corr_doc) = [] /\
  corr_of 2 (read_message 2 corr_doc) = Some "$message.header#/correlationId" /\
  header_names 2 (read_message 2 corr_doc) = ["correlationId"].
Proof. vm_compute. auto. Qed.

(** ** C62 *)
(** v3: whatever the document, headers given by a reference (no type of their own, reference not yet
    resolved at that point) are rejected. *)
Theorem C62_v3_refuted iter fuel m s d b d' :
  p_headers (m_parts (message d m)) = Some s ->
  s_refto (cell (d_heap d) s) = None -> s_type (cell (d_heap d) s) <> "object" ->
  message_metadata iter false fuel m d <> ODone (b, d').
Proof. exact (headers_reference_rejected iter fuel m s d b d'). Qed.
Definition hdr_doc : doc := mkDoc
  (mkHeap (<[9 := to "#/components/schemas/Base"]> (cells ex_heap)) (maps ex_heap) (next ex_heap))
  (list_to_map [(1, with_parts (mkParts (Some 9) None) empty_msg)]) ∅ 10.
Definition hdr_resolve (h : heap) (ref : string) : res nat := if String.eqb ref "#/components/schemas/Base" then Ok 1 else Err.
Example C62_v3_refuted_ex : message_metadata listing false 9 1 hdr_doc = OErr.
Proof. vm_compute. reflexivity. Qed.

(** v2 accepts them. *)
Theorem C62_v2_accepted iter resolve resolve_message resolve_trait fuel m s t d :
  m_ref (message d m) = "" -> m_parts (message d m) = mkParts (Some s) None -> m_oneof (message d m) = [] ->
  bare (cell (d_heap d) s) -> s_props (cell (d_heap d) s) = None -> s_ref (cell (d_heap d) s) <> "" -> t <> s ->
  resolve (d_heap d) (s_ref (cell (d_heap d) s)) = Ok t ->
  s_type (cell (d_heap d) t) = "object" ->
  s_anyof (cell (d_heap d) t) = [] -> s_oneof (cell (d_heap d) t) = [] -> s_allof (cell (d_heap d) t) = [] ->
  exists d', message_dependencies iter resolve resolve_message resolve_trait true (S (S fuel)) m d = ODone d' /\
    follow (d_heap d') s = t.
Proof. exact (v2_headers_reference iter resolve resolve_message resolve_trait fuel m s t d). Qed.
Example C62_v2_accepted_ex :
  match message_dependencies listing hdr_resolve (fun _ => Err) (fun _ => Err) true 2 1 hdr_doc with
  | ODone d => follow (d_heap d) 9 = 1
  | _ => False
  end.
Proof. vm_compute. reflexivity. Qed.

(** ** C63 *)
(** A message whose alternatives are written in place, any number of them: its payload is a new
    object with the fields of all alternatives (the first definition wins) and no others, and the
    alternatives are as they were. *)
Theorem C63_alternatives iter resolve resolve_message resolve_trait v2 fuel m (l : list (nat * nat)) d d' :
  (forall m g, iter m g ≡ₚ map_to_list g) -> closed (d_heap d) -> l <> [] ->
  m_ref (message d m) = "" -> m_parts (message d m) = mkParts None None -> m_traits (message d m) = [] ->
  m_oneof (message d m) = fst <$> l ->
  (forall v p, (v, p) ∈ l -> v <> m /\ plain_message (message d v) p /\ valid (d_heap d) p /\ flat (d_heap d) p) ->
  message_dependencies iter resolve resolve_message resolve_trait v2 fuel m d = ODone d' ->
  kept (d_heap d) (d_heap d') /\ (forall x, x <> m -> message d' x = message d x) /\
  exists n, p_payload (m_parts (message d' m)) = Some n /\ ~ valid (d_heap d) n /\
  forall k x, first_set None ((fun e => props (d_heap d) (cell (d_heap d) (snd e)) !! k) <$> l) x ->
    match x with
    | Some q => exists p, props (d_heap d') (cell (d_heap d') n) !! k = Some p /\
                  (stands_for (d_heap d') p q \/ same_face (cell (d_heap d) q) (cell (d_heap d') p))
    | None => props (d_heap d') (cell (d_heap d') n) !! k = None
    end.
Proof. exact (fun P => alternatives_union iter P resolve resolve_message resolve_trait v2 fuel m l d d'). Qed.

(** Two alternatives: 2 with payload Ext (5), 3 with payload 10: {extra}. *)
Definition alt_heap : heap := mkHeap
  (<[10 := obj 110 []]> (<[11 := str]> (cells ex_heap))) (<[110 := {["extra" := 11; "name" := 11]}]> (maps ex_heap)) 200.
Definition alt_doc : doc := mkDoc alt_heap
  (list_to_map [(1, mkMsg (mkParts None None) no_about [2; 3] [] "" None);
                (2, with_parts (mkParts None (Some 5)) empty_msg); (3, with_parts (mkParts None (Some 10)) empty_msg)]) ∅ 20.
Example C63_alternatives_ex :
  closed (d_heap alt_doc) /\
  (forall v p, (v, p) ∈ [(2, 5); (3, 10)] -> v <> 1 /\ plain_message (message alt_doc v) p /\ valid (d_heap alt_doc) p /\ flat (d_heap alt_doc) p) /\
  payload_names 1 (message_dependencies listing (fun _ _ => Err) (fun _ => Err) (fun _ => Err) false 9 1 alt_doc) ≡ₚ ["name"; "age"; "extra"].
Proof.
  split; [apply closed_check; vm_compute; reflexivity|]. split; [|apply (bool_decide_unpack _); vm_compute; exact I].
  intros v p H. apply elem_of_cons in H as [[= -> ->]|H]; [|apply elem_of_list_singleton in H as [= -> ->]].
  - split; [discriminate|]. split; [constructor; reflexivity|]. split; [eexists; vm_compute; reflexivity|].
    constructor; try (vm_compute; reflexivity); [constructor; vm_compute; reflexivity|]. intros k q H.
    assert (E : props (d_heap alt_doc) (cell (d_heap alt_doc) 5) = {["name" := 6; "age" := 7]}) by (vm_compute; reflexivity).
    rewrite E in H. apply lookup_insert_Some in H as [[_ <-]|[_ H]]; [|apply lookup_singleton_Some in H as [_ <-]];
      (split; [constructor; vm_compute; reflexivity|vm_compute; auto]).
  - split; [discriminate|]. split; [constructor; reflexivity|]. split; [eexists; vm_compute; reflexivity|].
    constructor; try (vm_compute; reflexivity); [constructor; vm_compute; reflexivity|]. intros k q H.
    assert (E : props (d_heap alt_doc) (cell (d_heap alt_doc) 10) = {["extra" := 11; "name" := 11]}) by (vm_compute; reflexivity).
    rewrite E in H. apply lookup_insert_Some in H as [[_ <-]|[_ H]]; [|apply lookup_singleton_Some in H as [_ <-]];
      (split; [constructor; vm_compute; reflexivity|vm_compute; auto]).
Qed.

(** An alternative given by a reference (without schemas of its own) contributes nothing, whatever it
    refers to. *)
Theorem C63_reference_refuted iter resolve_message fuel m m2 d d' :
  m_ref (message d m) = "" -> m < d_next d -> m_ref m2 <> "" -> m_parts m2 = mkParts None None ->
  merge_message iter resolve_message fuel m m2 d = ODone d' -> message d' m = message d m.
Proof.
  intros R L _ Pa H. apply (merge_message_nothing iter resolve_message fuel m m2 d d' R L); [now rewrite Pa..|exact H].
Qed.
(** ... here Ext. *)
Definition alt_ref_doc : doc := mkDoc alt_heap
  (list_to_map [(1, mkMsg (mkParts None None) no_about [3] [] "" None);
                (2, with_parts (mkParts None (Some 5)) empty_msg); (3, with_ref "#/components/messages/B" empty_msg)]) ∅ 20.
Example C63_reference_refuted_ex :
  match message_dependencies listing (fun _ _ => Err) cycle_resolve (fun _ => Err) false 9 1 alt_ref_doc with
  | ODone d => p_payload (m_parts (message d 1)) = None /\ m_refto (message d 3) = Some 2
  | _ => False
  end.
Proof. vm_compute. auto. Qed.

(** ** C64 *)
(** The schemas of the trait, and every other one, stay as they are when the message has headers of
    its own. *)
Theorem C64_own_headers_partial iter resolve fuel m s ts (l : list nat) d :
  (forall m g, iter m g ≡ₚ map_to_list g) -> closed (d_heap d) -> valid (d_heap d) s ->
  p_headers (m_parts (message d m)) = Some s ->
  Forall2 (fun t v => p_headers (t_parts t) = Some v /\ p_payload (t_parts t) = None) ts l ->
  Forall (fun v => valid (d_heap d) v /\ apart (d_heap d) s v) l ->
  exists d', oeach (apply_trait iter resolve fuel m) ts d = ODone d' /\
    (forall x, valid (d_heap d) x -> x <> s -> s_props (cell (d_heap d) x) <> s_props (cell (d_heap d) s) ->
       cell (d_heap d') x = cell (d_heap d) x /\ props (d_heap d') (cell (d_heap d') x) = props (d_heap d) (cell (d_heap d) x)) /\
    (forall x, x <> m -> message d' x = message d x).
Proof.
  intros P C V E F A. destruct (apply_traits_headers iter resolve fuel m s ts l d E F) as (d' & H & Hh & Hp).
  destruct (merge_all_spec iter P s l (d_heap d) C V A) as (_ & X & _ & M & _ & _ & _ & _ & _).
  rewrite <- Hh in X, M. exists d'. split; [exact H|]. split.
  - intros x Hx N Np. assert (Ex : cell (d_heap d') x = cell (d_heap d) x) by now apply (extends_cell s).
    split; [exact Ex|]. rewrite Ex. unfold props. apply (map_at_frame (d_heap d) (d_heap d') s); [exact C|exact M| |].
    + intros mm Em. eapply ok_props; [apply cell_ok; eassumption|exact Em].
    + intros mm Em. rewrite <- Em. congruence.
  - clear - H. revert d H. induction ts as [|t ts IH]; intros d H x N; cbn [oeach] in H; [now injection H as <-|].
    apply obind_done in H as (d1 & H1 & H). rewrite (IH d1 H x N).
    apply apply_trait_about in H1 as [_ F]. now apply F.
Qed.

(** Without headers, message 1 takes those of the first trait (10: {extra}), and the second trait
    (12: {b}) extends the first one: message 2, which only has the first trait, gets the
    header as well. *)
Definition share_heap : heap := mkHeap
  (<[10 := obj 110 []]> (<[11 := str]> (<[12 := obj 112 []]> (cells ex_heap))))
  (<[110 := {["extra" := 11]}]> (<[112 := {["b" := 11]}]> (maps ex_heap))) 200.
Definition share_doc : doc := mkDoc share_heap
  (list_to_map [(1, mkMsg (mkParts None None) no_about [] [7; 8] "" None); (2, mkMsg (mkParts None None) no_about [] [7] "" None)])
  (list_to_map [(7, headers_trait 10); (8, headers_trait 12)]) 20.
Definition both (a b : nat) : out doc :=
  obind (message_dependencies listing (fun _ _ => Err) (fun _ => Err) (fun _ => Err) false 9 a share_doc)
    (message_dependencies listing (fun _ _ => Err) (fun _ => Err) (fun _ => Err) false 9 b).
Theorem C64_refuted :
  header_names 2 (both 2 1) ≡ₚ ["extra"; "b"] /\ header_names 2 (both 1 2) ≡ₚ ["extra"; "b"] /\
  header_names 2 (message_dependencies listing (fun _ _ => Err) (fun _ => Err) (fun _ => Err) false 9 2 share_doc) = ["extra"].
Proof.
  split; [apply (bool_decide_unpack _); vm_compute; exact I|]. split; [apply (bool_decide_unpack _); vm_compute; exact I|].
  vm_compute. reflexivity.
Qed.

Print Assumptions C44_v2_follow.
Print Assumptions C44_v2_cycle_refuted.
Print Assumptions C44_message_one_step.
Print Assumptions C44_schema_one_step.
Print Assumptions C44_v3_chain_refuted.
Print Assumptions C44_merge_cycle_refuted.
Print Assumptions C45_fields.
Print Assumptions C45_operation_fields.
Print Assumptions C45_headers.
Print Assumptions C45_bindings_refuted.
Print Assumptions C45_payload_refuted.
Print Assumptions C45_description_refuted.
Print Assumptions C45_correlation_refuted.
Print Assumptions C62_v3_refuted.
Print Assumptions C62_v2_accepted.
Print Assumptions C63_alternatives.
Print Assumptions C63_reference_refuted.
Print Assumptions C64_own_headers_partial.
Print Assumptions C64_refuted.
