(** C54: the field designated by a location, after all the linking that follows. *)
From stdpp Require Import gmap list strings.
From Coq Require Import Ascii String.
From Verif.Proof Require Import ProcessProof.
From Verif.Model Require Import GoStrings Reference Slices Schema Location Message.
From Verif.Spec Require Import SchemaSpec LocationSpec.
From Verif.Proof Require Import GoStringsProof SchemaProof LocationProof LaterProof.
Local Open Scope string_scope.

(** Any linking of schemas, messages and traits, in any order and as often as one likes. *)
Inductive later (iter : nat -> gmap string nat -> list (string * nat)) (resolve : heap -> string -> res nat)
    (resolve_message resolve_trait : string -> res nat) (v2 : bool) : doc -> doc -> Prop :=
| later_now d : later iter resolve resolve_message resolve_trait v2 d d
| later_schema fuel s h d d' : set_dependencies iter resolve v2 fuel s (d_heap d) = Done h ->
    later iter resolve resolve_message resolve_trait v2 (set_heap h d) d' -> later iter resolve resolve_message resolve_trait v2 d d'
| later_message fuel m d d1 d' : message_dependencies iter resolve resolve_message resolve_trait v2 fuel m d = ODone d1 ->
    later iter resolve resolve_message resolve_trait v2 d1 d' -> later iter resolve resolve_message resolve_trait v2 d d'
| later_trait fuel t d d1 d' : trait_dependencies iter resolve resolve_trait fuel t d = ODone d1 ->
    later iter resolve resolve_message resolve_trait v2 d1 d' -> later iter resolve resolve_message resolve_trait v2 d d'.

Lemma later_dstep iter resolve (base : nat -> Prop) resolve_message resolve_trait v2 : (forall m g, iter m g ≡ₚ map_to_list g) ->
  (forall h h' ref r, enlarges h h' -> resolve h ref = Ok r -> resolve h' ref = Ok r) ->
  (forall h ref r, closed h -> (forall x, base x -> valid h x) -> resolve h ref = Ok r -> valid h r) ->
  forall d d', later iter resolve resolve_message resolve_trait v2 d d' -> ok_doc base d -> dstep base d d'.
Proof.
  intros I M V d d'. induction 1 as [d|fuel s h d d' H _ IH|fuel m d d1 d' H _ IH|fuel t d d1 d' H _ IH]; intros O.
  - now apply dstep_refl.
  - assert (S : dstep base d (set_heap h d)) by (apply heap_dstep; [exact O|]; apply (dependencies_step iter I resolve M base V v2 fuel s); [apply O|exact H]).
    apply (dstep_trans _ _ _ _ S), IH, S.
  - pose proof (message_dstep iter I resolve M base V _ _ _ _ _ _ _ O H) as S. apply (dstep_trans _ _ _ _ S), IH, S.
  - pose proof (trait_dependencies_dstep iter I resolve M base V _ _ _ _ _ O H) as S. apply (dstep_trans _ _ _ _ S), IH, S.
Qed.

(** The location of message [m] has been processed and led to the schema [x], held by [parent]; the
    headers or the payload are no reference. Whatever is linked later, in this version of the
    specification or the other, with whatever documents around: the location leads to the same
    schema, and if the message says that its correlation ID is required, it still is. *)
Theorem C54_processed iter resolve_message resolve_trait v2 (w : world) (s : spec) header path p h b p' h' m d :
  (forall m g, iter m g ≡ₚ map_to_list g) ->
  closed h -> ok_part h (part header p) -> Forall plain_name path -> path <> [] ->
  correlation_id (Some (location_of header path)) p h = Some (b, p', h') ->
  d_heap d = h' -> m_parts (message d m) = p' -> m < d_next d ->
  (forall x, mentioned w s x -> valid h' x) ->
  (forall m header r, part header (m_parts (message d m)) = Some r -> valid h' r) ->
  exists root parent x, part header p' = Some root /\ reaches h' (target h' root) (removelast path) parent /\ reaches h' (target h' root) path x /\
    (s_ref (cell h' root) = "" -> forall e, later iter (resolve_in v2 w s) resolve_message resolve_trait v2 d e ->
     part header (m_parts (message e m)) = Some root /\ target (d_heap e) root = target h' root /\
     reaches (d_heap e) (target h' root) (removelast path) parent /\ reaches (d_heap e) (target h' root) path x /\
     (b = true -> s_ref (cell h' parent) = "" -> List.last path "" ∈ s_required (cell (d_heap e) parent))).
Proof.
  intros I C V F N E Eh Ep L B P.
  destruct (correlation_spec header path p h C V F N) as (b0 & p0 & h0 & E0 & T & root & parent & A & Rp & Q).
  rewrite E in E0. injection E0 as <- <- <-. pose proof (create_tree_spec header path p h C V F N) as S. rewrite T in S.
  destruct S as (C' & _ & _ & _ & root' & Er & Vr & x & Rx & _). rewrite A in Er. injection Er as <-.
  exists root, parent, x. split; [exact A|]. split; [exact Rp|]. split; [exact Rx|]. intros Pl e H.
  assert (O : ok_doc (mentioned w s) d) by (split; [split; rewrite Eh; assumption|intros m' hd r Hr; rewrite Eh; now apply (P m' hd)]).
  pose proof (later_dstep iter (resolve_in v2 w s) (mentioned w s) _ _ v2 I (resolve_in_mono v2 w s) (resolve_in_valid v2 w s) d e H O) as [_ [_ Mo Pa]].
  rewrite Eh in Mo. split; [apply Pa; [exact L|now rewrite Ep]|]. split; [|split; [|split]].
  - unfold target. now rewrite (proj1 (mo_plain _ _ Mo root Vr Pl)).
  - now apply (more_reaches h').
  - now apply (more_reaches h').
  - intros Hb Hp. assert (K : forall l q y, reaches h' l q y -> valid h' l -> valid h' y).
    { intros l q y. induction 1 as [|l k m' q y Ek _ IH]; [auto|]. intros Vl. apply IH. exact (props_valid h' (cell h' l) k m' C' (ok_any h' l C') Ek). }
    assert (Vp : valid h' parent).
    { apply (K _ _ _ Rp). unfold target. destruct (s_refto (cell h' root)) as [r|] eqn:R; [|exact Vr]. apply (ok_refto _ _ (ok_any h' root C') r R). }
    apply (mo_plain _ _ Mo parent Vp Hp). now apply Q.
Qed.

(** Message 1: headers (1) {trace (2) {id (3)}} requiring trace and id, and two alternatives with other
    headers, one of them by reference; a trait with headers. *)
Definition keys (_ : nat) (g : gmap string nat) : list (string * nat) := map_to_list g.
Lemma keys_perm m g : keys m g ≡ₚ map_to_list g. Proof. reflexivity. Qed.
Definition obj (req : list string) (m : nat) : sch := with_required req (with_props (Some m) (with_type "object" empty_sch)).
Definition ref_to (r : string) : sch := mkSch "" r None None [] None [] None [] [] [] [] None [] false None.
Definition ex_h : heap := mkHeap
  (list_to_map [(1, obj ["trace"] 10); (2, obj ["id"] 11); (3, with_type "string" empty_sch);
                (4, obj ["id"] 12); (5, with_type "string" empty_sch); (6, ref_to "#/components/schemas/Extra"); (7, obj ["trace"; "more"] 13);
                (8, with_type "string" empty_sch); (9, with_type "integer" empty_sch)])
  (list_to_map [(10, {["trace" := 2]}); (11, {["id" := 3]}); (12, {["id" := 5]}); (13, {["trace" := 8; "more" := 9]})]) 20.
Definition ex_spec : spec := mkSpec (fun k => if String.eqb k "schemas" then {["Extra" := 7]} else ∅) ∅ ∅.
Definition ex_world : world := mkWorld (fun _ => ex_spec) (fun _ => ∅) (fun _ => None) (fun _ => None) (fun _ => ∅).
Definition ex_d (h : heap) (p : parts) : doc := mkDoc h
  (list_to_map [(1, mkMsg p (mkAbout (Some "$message.header#/trace/id") "" "" "" "" [] None None []) [2; 3] [1] "" None);
                (2, with_parts (mkParts (Some 4) None) empty_msg); (3, with_parts (mkParts (Some 6) None) empty_msg)])
  (list_to_map [(1, mkTrait (mkParts (Some 7) None) no_about "" None)]) 10.
Definition no_message (_ : string) : res nat := Err.
Definition of_option {A} (o : option A) (x : A) : A := match o with Some y => y | None => x end.
Definition ex_r : bool * parts * heap :=
  of_option (correlation_id (Some (location_of true ["trace"; "id"])) (mkParts (Some 1) None) ex_h) (false, mkParts None None, ex_h).
Definition ex_e : out doc :=
  message_dependencies keys (resolve_in false ex_world ex_spec) no_message no_message false 20 1 (ex_d (snd ex_r) (snd (fst ex_r))).
Definition of_out (o : out doc) (d : doc) : doc := match o with ODone d => d | _ => d end.
Definition ex_end : doc := of_out ex_e (ex_d ex_h (mkParts None None)).
Definition is_done (o : out doc) : bool := match o with ODone _ => true | _ => false end.
Lemma of_option_some {A} (o : option A) x : match o with Some _ => true | None => false end = true -> o = Some (of_option o x). Proof. now destruct o. Qed.
Lemma of_out_done o d : is_done o = true -> o = ODone (of_out o d). Proof. now destruct o. Qed.
(** It meets the hypotheses, and the headers have indeed grown. *)
Example C54_processed_ex :
  (closed ex_h /\ ok_part ex_h (Some 1) /\ Forall plain_name ["trace"; "id"] /\
   correlation_id (Some (location_of true ["trace"; "id"])) (mkParts (Some 1) None) ex_h = Some ex_r /\ fst ex_r = (true, mkParts (Some 1) None) /\
   (forall x, mentioned ex_world ex_spec x -> valid (snd ex_r) x) /\
   (forall m header r, part header (m_parts (message (ex_d (snd ex_r) (mkParts (Some 1) None)) m)) = Some r -> valid (snd ex_r) r) /\
   later keys (resolve_in false ex_world ex_spec) no_message no_message false (ex_d (snd ex_r) (mkParts (Some 1) None)) ex_end) /\
  walk (d_heap ex_end) 1 ["trace"; "id"] = Some 3 /\ s_required (cell (d_heap ex_end) 2) = ["id"] /\
  (fmap fst (map_to_list (props (d_heap ex_end) (cell (d_heap ex_end) 1))) = ["trace"; "id"; "more"] /\
   s_required (cell (d_heap ex_end) 1) = ["trace"; "id"; "more"]).
Proof.
  assert (V : forall x, x ∈ [1; 4; 6; 7] -> valid (snd ex_r) x).
  { intros x Hx. repeat (apply elem_of_cons in Hx as [->|Hx]; [vm_compute; eauto|]). now apply elem_of_nil in Hx. }
  split; [split; [|split; [|split; [|split; [|split; [|split; [|split]]]]]]|].
  - apply closed_check. vm_compute. reflexivity.
  - vm_compute. eauto.
  - apply (bool_decide_unpack _). vm_compute. exact I.
  - apply of_option_some. vm_compute. reflexivity.
  - vm_compute. reflexivity.
  - clear -V. remember (snd ex_r) as hh. clear Heqhh. intros x [(s & n & [->|[i ->]] & H)|(m & [H|H])]; try discriminate H; cbn in H; apply lookup_singleton_Some in H as [_ <-]; apply V; repeat (first [apply elem_of_list_here|apply elem_of_list_further]).
  - clear -V. remember (snd ex_r) as hh. clear Heqhh. intros m header r. unfold ex_d, message. cbn [d_msgs].
    destruct (_ !! m) as [c|] eqn:E; [|destruct header; discriminate]. apply elem_of_list_to_map_2 in E.
    cbn [default]. repeat (apply elem_of_cons in E as [[= -> ->]|E]; [destruct header; intros [= <-]; apply V; repeat (first [apply elem_of_list_here|apply elem_of_list_further])|]). now apply elem_of_nil in E.
  - apply (later_message _ _ _ _ _ 20 1 _ ex_end); [apply of_out_done; vm_compute; reflexivity|constructor].
  - vm_compute. repeat split.
Qed.

(** The flag is computed before the linking: the field may become required later, by an element of
    allOf or by a trait. Then the field is no pointer, and the accessors generated for it take it for one. *)
Definition late_h : heap := mkHeap
  (list_to_map [(1, with_allof [2] (with_type "object" empty_sch)); (2, obj ["id"] 11); (3, with_type "string" empty_sch)])
  (list_to_map [(11, {["id" := 3]})]) 20.
Definition late_r : bool * parts * heap :=
  of_option (correlation_id (Some "$message.header#/id") (mkParts (Some 1) None) late_h) (true, mkParts None None, late_h).
Definition late_d : doc := mkDoc (snd late_r) (list_to_map [(1, with_parts (snd (fst late_r)) empty_msg)]) ∅ 10.
Definition late_end : doc :=
  of_out (message_dependencies keys (resolve_in false ex_world ex_spec) no_message no_message false 20 1 late_d) (mkDoc late_h ∅ ∅ 0).
Theorem C54_flag_refuted : exists h d e b p h',
  closed h /\ correlation_id (Some (location_of true ["id"])) (mkParts (Some 1) None) h = Some (b, p, h') /\
  d_heap d = h' /\ m_parts (message d 1) = p /\ later keys (resolve_in false ex_world ex_spec) no_message no_message false d e /\
  b = false /\ target (d_heap e) 1 = 1 /\ "id" ∈ s_required (cell (d_heap e) 1).
Proof.
  exists late_h, late_d, late_end, (fst (fst late_r)), (snd (fst late_r)), (snd late_r).
  split; [apply closed_check; vm_compute; reflexivity|]. split; [rewrite <- !surjective_pairing; apply of_option_some; vm_compute; reflexivity|].
  split; [reflexivity|]. split; [reflexivity|].
  split; [apply (later_message _ _ _ _ _ 20 1 _ late_end); [apply of_out_done; vm_compute; reflexivity|constructor]|].
  split; [vm_compute; reflexivity|]. split; [vm_compute; reflexivity|]. apply (bool_decide_unpack _). vm_compute. exact I.
Qed.

Print Assumptions C54_processed.
Print Assumptions C54_flag_refuted.
