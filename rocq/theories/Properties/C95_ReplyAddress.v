(** C95: the address of a reply is read from the request as its field is declared. *)
From stdpp Require Import gmap list strings.
From Coq Require Import Ascii String.
From Verif.Model Require Import GoStrings Reference Slices Schema Location Message ReplyAddress Types Accessors.
From Verif.Spec Require Import SchemaSpec LocationSpec ReplyAddressSpec AccessorsSpec.
From Verif.Proof Require Import SchemaProof LocationProof MessageProof ReplyAddressProof AccessorsProof.
Local Open Scope string_scope.

(** The message of the operation is no reference (it is listed as it is, or it comes from the channel and is followed): the address is
    said to be required exactly when the schema that holds its field requires it; the field exists afterwards; no other message changes. *)
Theorem C95_required header path op d m :
  closed (d_heap d) -> get_message d op = Some m -> m_refto (message d m) = None -> ok_part (d_heap d) (part header (m_parts (message d m))) ->
  Forall plain_name path -> path <> [] ->
  exists b d', location_required (location_of header path) op d = ODone (b, d') /\
    request_type d' op = Some m /\ (b = true <-> field_required d' m header path) /\ field_exists d' m header path /\
    (forall x, x <> m -> message d' x = message d x) /\ (field_required d m header path -> b = true).
Proof.
  intros C G R V F N. destruct (required_exact header path op d m C G V F N) as (b & d' & E & C' & B & Gr & O & K & root & parent & A & Rp & (x & Rx) & _).
  exists b, d'. split; [exact E|].
  assert (Rf : forall y, m_refto (message d' y) = m_refto (message d y)).
  { intros y. destruct (decide (y = m)) as [->|Ny]; [|now rewrite O]. unfold location_required in E. rewrite location_nonempty, G in E.
    destruct (create_tree _ _ _) as [[[p|] ps] h]; [|discriminate]. injection E as _ <-. now rewrite message_upd_same. }
  split; [|split; [exact B|split; [|split; [exact O|]]]].
  - unfold request_type, get_message in *. unfold follow_message in *. destruct (op_messages op) as [|m0 l]; [destruct (op_channel op) as [|m0 l]; [discriminate|]|].
    + injection G as G. cbn. rewrite !Rf, G, R. reflexivity.
    + injection G as ->. cbn. now rewrite Rf, R.
  - rewrite (path_end path N) in Rx.
    assert (L : forall l ks k y, reaches (d_heap d') l (ks ++ [k])%list y -> exists q, reaches (d_heap d') l ks q /\ props (d_heap d') (cell (d_heap d') q) !! k = Some y).
    { intros l ks k y. revert l. induction ks as [|k0 ks IH]; intros l H; inversion H as [|? ? m1 ? ? E1 R1]; subst.
      - inversion R1; subst. exists l. split; [constructor|exact E1].
      - destruct (IH m1 R1) as (q & Q1 & Q2). exists q. split; [econstructor; [exact E1|exact Q1]|exact Q2]. }
    destruct (L _ _ _ _ Rx) as (q & Rq & Hq). pose proof (reaches_unique _ _ _ _ _ Rq Rp) as ->.
    exists parent, (removelast path), (List.last path ""), x. split; [now apply path_end|]. split; [|exact Hq].
    apply (holder_exact d' m header path parent root N A Rp). reflexivity.
  - intros H. apply B. destruct (part header (m_parts (message d m))) as [r|] eqn:P.
    + apply (field_grown path d d' m header path C Gr); [apply K; discriminate|now rewrite P|exact H].
    + destruct H as (q & ks & k & _ & (root' & top & ks' & k' & A' & _) & _). unfold has_part in A'. unfold part in P. congruence.
Qed.
(** In particular, for an operation that lists no message, with a message given by the channel as it is or by reference: what counts is
    the message itself, not the reference. *)
Theorem C95_channel header path op d m0 l m :
  closed (d_heap d) -> op_messages op = [] -> op_channel op = m0 :: l ->
  m_refto (message d m0) = Some m \/ (m_refto (message d m0) = None /\ m0 = m) -> m_refto (message d m) = None ->
  ok_part (d_heap d) (part header (m_parts (message d m))) -> Forall plain_name path -> path <> [] ->
  exists b d', location_required (location_of header path) op d = ODone (b, d') /\
    request_type d' op = Some m /\ (b = true <-> field_required d' m header path) /\ field_exists d' m header path /\
    (field_required d m header path -> b = true).
Proof.
  intros C E1 E2 Hm R V F N.
  assert (G : get_message d op = Some m).
  { unfold get_message. rewrite E1, E2. unfold follow_message. destruct Hm as [->|[-> ->]]; reflexivity. }
  destruct (C95_required header path op d m C G R V F N) as (b & d' & H1 & H2 & H3 & H4 & _ & H6).
  exists b, d'. exact (conj H1 (conj H2 (conj H3 (conj H4 H6)))).
Qed.
(** When the field exists already, nothing changes at all. *)
Theorem C95_existing header path op d m : get_message d op = Some m -> Forall plain_name path -> field_exists d m header path ->
  exists b d', location_required (location_of header path) op d = ODone (b, d') /\ d_heap d' = d_heap d /\ (forall x, message d' x = message d x) /\
    (b = true <-> field_required d m header path).
Proof. exact (existing_exact header path op d m). Qed.

(** Request (1): headers (1) {to (2), from (3)}, "to" required; a reference to it (2), as operations list their messages. *)
Definition ex_h : heap := mkHeap
  (list_to_map [(1, with_required ["to"] (with_props (Some 10) (with_type "object" empty_sch))); (2, with_type "string" empty_sch); (3, with_type "string" empty_sch)])
  (list_to_map [(10, {["to" := 2; "from" := 3]})]) 20.
Definition ex_d : doc := mkDoc ex_h
  (list_to_map [(1, with_parts (mkParts (Some 1) None) empty_msg); (2, with_mrefto (Some 1) (with_ref "#/components/messages/Request" empty_msg))]) ∅ 10.
Definition from_channel : operation := mkOperation [] [2].
Definition listed : operation := mkOperation [2] [2].
Lemma ex_closed : closed ex_h. Proof. apply closed_check. vm_compute. reflexivity. Qed.
Lemma ex_required : field_required ex_d 1 true ["to"].
Proof.
  exists 1, [], "to". split; [reflexivity|]. split; [|apply (bool_decide_unpack _); vm_compute; exact I].
  exists 1, 1, [], "to". split; [reflexivity|]. split; [now constructor|]. split; [reflexivity|constructor].
Qed.
Definition flag (o : out (bool * doc)) : option bool := match o with ODone (b, _) => Some b | _ => None end.
Example C95_required_ex :
  get_message ex_d from_channel = Some 1 /\ closed (d_heap ex_d) /\ ok_part ex_h (Some 1) /\ m_refto (message ex_d 1) = None /\
  flag (location_required "$message.header#/to" from_channel ex_d) = Some true /\
  flag (location_required "$message.header#/from" from_channel ex_d) = Some false /\
  flag (location_required "$message.header#/other/deep" from_channel ex_d) = Some false.
Proof.
  split; [reflexivity|]. split; [exact ex_closed|]. split; [vm_compute; eauto|]. vm_compute. repeat split.
Qed.

Example C95_channel_ex : op_messages from_channel = [] /\ op_channel from_channel = [2] /\ m_refto (message ex_d 2) = Some 1 /\ m_refto (message ex_d 1) = None /\
  field_required ex_d 1 true ["to"].
Proof. split; [reflexivity|]. split; [reflexivity|]. split; [reflexivity|]. split; [reflexivity|]. exact ex_required. Qed.

(** An operation that lists its message by reference: whatever the document and the location, the address is said not to be required,
    because the field is looked for in the reference object, which has neither headers nor payload. The code generated for a message
    that requires the field does not compile. *)
Theorem C95_listed_never header path op d m l r defs name fields through :
  closed (d_heap d) -> op_messages op = m :: l -> m_parts (message d m) = mkParts None None -> m_refto (message d m) = Some r -> r <> m ->
  Forall plain_name path -> path <> [] ->
  exists d', location_required (location_of header path) op d = ODone (false, d') /\ request_type d' op = Some r /\
    (ok_part (d_heap d) (part header (m_parts (message d r))) -> field_required d r header path -> field_required d' r header path) /\
    (leads defs name fields through false TString -> ~ compiles defs name (read fields false)).
Proof.
  intros C Em P R Nr F N. assert (G : get_message d op = Some m) by (unfold get_message; now rewrite Em).
  assert (Pn : part header (m_parts (message d m)) = None) by (rewrite P; now destruct header).
  destruct (required_exact header path op d m C G) as (b & d' & E & C' & B & Gr & O & _ & root & parent & A & Rp & _ & Z); [now rewrite Pn|exact F|exact N|].
  assert (b = false) as ->.
  { destruct b; [|reflexivity]. destruct (proj1 B eq_refl) as (y & ks & k & -> & Hy & Hin). apply (holder_exact d' m header _ parent root N A Rp) in Hy as ->.
    rewrite (Z Pn) in Hin. now apply elem_of_nil in Hin. }
  exists d'. split; [exact E|]. split.
  - unfold request_type, get_message. rewrite Em. cbn. unfold follow_message. unfold location_required in E. rewrite location_nonempty, G in E.
    destruct (create_tree _ _ _) as [[[p|] ps] h]; [|discriminate]. injection E as _ <-. rewrite message_upd_same. cbn.
    change (message (set_heap h d) m) with (message d m). now rewrite R.
  - split.
    + intros V. apply (field_grown path); [exact C|exact Gr|now apply O|exact V].
    + intros L [th H]%read_exact. now destruct (leads_unique _ _ _ _ _ _ _ _ _ L H) as (_ & E' & _).
Qed.
Example C95_listed_ex : flag (location_required "$message.header#/to" listed ex_d) = Some false /\ request_type ex_d listed = Some 1 /\ field_required ex_d 1 true ["to"].
Proof. split; [vm_compute; reflexivity|]. split; [reflexivity|exact ex_required]. Qed.
Theorem C95_listed_refuted :
  ~ (forall header path op d m b d', closed (d_heap d) -> (forall m header, ok_part (d_heap d) (part header (m_parts (message d m)))) -> Forall plain_name path -> path <> [] ->
     request_type d op = Some m -> location_required (location_of header path) op d = ODone (b, d') -> (b = true <-> field_required d' m header path)).
Proof.
  intros H.
  assert (V : forall m header, ok_part (d_heap ex_d) (part header (m_parts (message ex_d m)))).
  { intros m header. unfold message, ex_d. cbn [d_msgs d_heap]. destruct (_ !! m) as [c|] eqn:E; [|now destruct header]. apply elem_of_list_to_map_2 in E.
    cbn [default]. apply elem_of_cons in E as [[= -> ->]|E]; [destruct header; [vm_compute; eauto|exact I]|].
    apply elem_of_cons in E as [[= -> ->]|E]; [now destruct header|]. now apply elem_of_nil in E. }
  assert (F : Forall plain_name ["to"]) by (apply (bool_decide_unpack _); vm_compute; exact I).
  destruct (C95_listed_never true ["to"] listed ex_d 2 [] 1 (fun _ => None) "" [] false ex_closed eq_refl eq_refl eq_refl ltac:(discriminate) F ltac:(discriminate))
    as (d' & E & _ & K & _).
  destruct (H true ["to"] listed ex_d 1 false d' ex_closed V F ltac:(discriminate) eq_refl E) as [_ H'].
  discriminate (H' (K (V 1 true) ex_required)).
Qed.

(** An address given by reference: its own location is empty, so the address is said not to be required, and the path written by the
    templates is empty: no code of this kind compiles. *)
Theorem C95_reference_never a op d defs name : ad_location a = "" ->
  address_required a op d = ODone (false, d) /\ address_steps a = [] /\ ~ compiles defs name (read (address_steps a) false).
Proof.
  intros E. unfold address_required, address_steps. rewrite E. split; [reflexivity|]. split; [reflexivity|].
  change (attribute_steps "") with (@nil string). intros [th H]%read_exact. now apply leads_nonempty in H.
Qed.
Example C95_reference_ex : address_steps (mkAddress "" (Some "$message.header#/to")) = [] /\ attribute_steps "$message.header#/to" = ["headers"; "to"].
Proof. vm_compute. repeat split. Qed.

Print Assumptions C95_required.
Print Assumptions C95_channel.
Print Assumptions C95_existing.
Print Assumptions C95_listed_never.
Print Assumptions C95_listed_refuted.
Print Assumptions C95_reference_never.
