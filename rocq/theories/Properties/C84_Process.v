(** C84, C41: every schema of a document is processed. *)
From stdpp Require Import gmap list strings.
From Coq Require Import Ascii String.
From Verif.Model Require Import Reference Slices Schema.
From Verif.Spec Require Import SchemaSpec ReferenceSpec PipelineSpec ProcessSpec.
From Verif.Proof Require Import SchemaProof ReferenceProof PipelineProof ProcessProof ProcessEndProof.
Local Open Scope string_scope.

Definition by_listing (m : nat) (g : gmap string nat) : list (string * nat) := map_to_list g.
Definition text : sch := with_type "string" empty_sch.
Definition link (r : string) : sch := mkSch "" r None None [] None [] None [] [] [] [] None [] false None.
Definition array (i : nat) : sch := mkSch "array" "" None None [] None [] (Some i) [] [] [] [] None [] false None.
Definition object (p : nat) (req : list string) : sch := with_required req (with_props (Some p) (with_type "object" empty_sch)).
Definition named (l : list (string * nat)) : spec := mkSpec (fun k => if String.eqb k "schemas" then list_to_map l else ∅) ∅ ∅.
Definition nothing : world := mkWorld (fun _ => named []) (fun _ => ∅) (fun _ => None) (fun _ => None) (fun _ => ∅).

(** Pet (1): {tag (2): $ref Tag, required; names (3): array of (4): $ref Tag/label}; Tag (5): {label (6), required};
    Dog (7): {age (8)} and allOf [(9): $ref Pet]. *)
Definition pet_spec : spec := named [("Pet", 1); ("Tag", 5); ("Dog", 7)].
Definition pet_heap : heap := mkHeap
  (list_to_map [(1, object 100 ["tag"]); (2, link "#/components/schemas/Tag"); (3, array 4); (4, link "#/components/schemas/Tag/label");
                (5, object 101 ["label"]); (6, text); (7, with_allof [9] (object 102 [])); (8, text); (9, link "#/components/schemas/Pet")])
  (list_to_map [(100, {["tag" := 2; "names" := 3]}); (101, {["label" := 6]}); (102, {["age" := 8]})]) 200.
Definition seen (r : run) : list (option nat) := match r with Done h => map (fun x => s_refto (cell h x)) [2; 4; 9] | _ => [] end.
Definition flagged (r : run) : list bool := match r with Done h => map (fun x => s_isreq (cell h x)) [1; 2; 3; 4; 5; 6; 7; 8; 9] | _ => [] end.

(** When the processing of a document succeeds, every schema in it, however deep, is linked with what its reference designates in the processed
    document. (Version 2: a reference stands alone, see C84_beside_refuted.) *)
Theorem C84_resolved iter v2 w d fuel components h h' :
  (forall m g, iter m g ≡ₚ map_to_list g) -> closed h -> (forall c, c ∈ components -> valid h c) ->
  (v2 = true -> forall l, version2 (cell h l)) ->
  process iter (resolve_in v2 w d) v2 fuel components h = Done h' ->
  forall c x, c ∈ components -> below h c x -> resolved (negb v2) w d h' x.
Proof.
  intros P C K V H c x Hc Hx. destruct (process_spec iter P v2 w d fuel components h h' C K V H) as (_ & _ & _ & _ & R). now apply (R c).
Qed.
Example C84_resolved_hyps :
  closed pet_heap /\ (forall c, c ∈ [1; 5; 7] -> valid pet_heap c) /\ below pet_heap 1 4 /\ below pet_heap 7 9 /\ (forall l, version2 (cell pet_heap l)).
Proof.
  split; [apply closed_check; vm_compute; reflexivity|]. split; [|split; [|split]].
  - intros c H. repeat (apply elem_of_cons in H as [->|H]; [eexists; vm_compute; reflexivity|]). now apply elem_of_nil in H.
  - eapply below_part; [apply (part_property _ _ "names" 3); vm_compute; reflexivity|].
    eapply below_part; [apply (part_elsewhere _ _ 4); right; right; right; left; vm_compute; reflexivity|constructor].
  - eapply below_part; [apply (part_elsewhere _ _ 9)|constructor]. do 7 right. left. apply (bool_decide_unpack _). vm_compute. exact I.
  - intros l. do 10 (destruct l as [|l]; [vm_compute; intuition congruence|]). unfold cell.
    replace (cells pet_heap !! _) with (@None sch); [vm_compute; intuition congruence|].
    symmetry. apply not_elem_of_list_to_map. cbn. rewrite !not_elem_of_cons. repeat (split; [discriminate|]). apply not_elem_of_nil.
Qed.
Example C84_resolved_ex :
  seen (process by_listing (resolve_in false nothing pet_spec) false 5 [1; 5; 7] pet_heap) = [Some 5; Some 6; Some 1] /\
  seen (process by_listing (resolve_in true nothing pet_spec) true 5 [7; 5; 1] pet_heap) = [Some 5; Some 6; Some 1].
Proof. split; vm_compute; reflexivity. Qed.

(** In particular a reference to a component is linked with the component of that name. *)
Theorem C84_component iter v2 w d fuel components h h' :
  (forall m g, iter m g ≡ₚ map_to_list g) -> closed h -> (forall c, c ∈ components -> valid h c) ->
  (v2 = true -> forall l, version2 (cell h l)) ->
  process iter (resolve_in v2 w d) v2 fuel components h = Done h' ->
  forall c x n, c ∈ components -> below h c x -> step_name n -> s_ref (cell h' x) = "#" ++ pointer ["components"; "schemas"; n] ->
  exists r, comps d "schemas" !! n = Some r /\ s_refto (cell h' x) = Some r.
Proof.
  intros P C K V H c x n Hc Hx Hn E. destruct (C84_resolved iter v2 w d fuel components h h' P C K V H c x Hc Hx) as [E'|(r & R & D)].
  { rewrite E in E'. discriminate. }
  exists r. split; [|exact R]. apply resolve_in_spec in D. rewrite E in D. unfold resolve_in in D.
  destruct v2.
  - unfold reference2 in D. rewrite (reference_component false v2_kinds _ d "schemas" n) in D; [| |now left|exact Hn].
    + cbn in D. destruct (comps d "schemas" !! n); cbn in D; congruence.
    + intros k Hk. apply elem_of_list_singleton in Hk as ->. apply (bool_decide_unpack _). vm_compute. exact I.
  - unfold reference3 in D. rewrite (reference_component true v3_kinds _ d "schemas" n) in D; [|auto|now left|exact Hn].
    cbn in D. destruct (comps d "schemas" !! n); cbn in D; congruence.
Qed.
Example C84_component_ex : s_ref (cell pet_heap 2) = "#" ++ pointer ["components"; "schemas"; "Tag"] /\ comps pet_spec "schemas" !! "Tag" = Some 5.
Proof. split; vm_compute; reflexivity. Qed.

(** How the processing ends for a document without compositions and without schemas inside of themselves: it is refused exactly when some schema
    in it refers to nothing. It always ends. *)
Theorem C84_ends iter v2 w d height fuel components h :
  (forall m g, iter m g ≡ₚ map_to_list g) -> closed h -> uncomposed h -> nested h height ->
  (forall c, c ∈ components -> valid h c /\ height c < fuel) -> (v2 = true -> forall l, version2 (cell h l)) ->
  let result := process iter (resolve_in v2 w d) v2 fuel components h in
  result <> OutOfFuel /\
  (result = Failed <->
   exists c x, c ∈ components /\ below h c x /\ s_ref (cell h x) <> "" /\
     forall r, ~ designates (schema_steps (negb v2) (world_of w h)) (world_of w h) d (s_ref (cell h x)) r).
Proof.
  intros P C U N K V. cbn zeta.
  assert (Q : forall x, dangles w d v2 h x <-> (s_ref (cell h x) <> "" /\
     forall r, ~ designates (schema_steps (negb v2) (world_of w h)) (world_of w h) d (s_ref (cell h x)) r)).
  { intros x. unfold dangles. split; (intros [A B]; split; [exact A|]); intros r R; apply (B r); now apply resolve_in_spec. }
  destruct (process_ends iter P w d v2 h U height N fuel components C K V) as [(h' & -> & D)|(-> & D)].
  - split; [discriminate|]. split; [discriminate|]. intros (c & x & Hc & Hx & H). exfalso. apply D. exists c, x. split; [exact Hc|]. split; [exact Hx|]. now apply Q.
  - split; [discriminate|]. split; [|reflexivity]. intros _. destruct D as (c & x & Hc & Hx & D). exists c, x. split; [exact Hc|]. split; [exact Hx|]. now apply Q.
Qed.
(** Pet and Tag alone, and the same with Tag missing. *)
Definition plain_heap : heap := mkHeap
  (list_to_map [(1, object 100 ["tag"]); (2, link "#/components/schemas/Tag"); (3, array 4); (4, link "#/components/schemas/Tag/label");
                (5, object 101 ["label"]); (6, text)])
  (list_to_map [(100, {["tag" := 2; "names" := 3]}); (101, {["label" := 6]})]) 200.
Definition plain_height (x : nat) : nat := match x with 1 => 2 | 3 => 1 | 5 => 1 | _ => 0 end.
Example C84_ends_ex :
  closed plain_heap /\ uncomposed plain_heap /\ nested plain_heap plain_height /\
  (match process by_listing (resolve_in false nothing pet_spec) false 3 [1; 5] plain_heap with Done _ => True | _ => False end) /\
  process by_listing (resolve_in false nothing (named [("Pet", 1)])) false 3 [1] plain_heap = Failed.
Proof.
  split; [apply closed_check; vm_compute; reflexivity|]. split; [apply uncomposed_check; vm_compute; reflexivity|]. split; [|split; vm_compute; exact I || reflexivity].
  intros a p x H. apply parts_in in H.
  assert (F : Forall (fun e => plain_height e.2 < plain_height e.1.1) (parts plain_heap)) by (apply (bool_decide_unpack _); vm_compute; exact I).
  rewrite Forall_forall in F. exact (F _ H).
Qed.

(** In version 2 the allOf of the schema referred to replaces the one written beside the reference, whose schemas are then never looked at. *)
Definition beside_heap : heap := mkHeap
  (list_to_map [(1, with_allof [2] (link "#/components/schemas/Base")); (2, link "#/components/schemas/Nothing"); (3, with_allof [4] empty_sch); (4, object 100 [])])
  (list_to_map [(100, ∅)]) 200.
Theorem C84_beside_refuted :
  let d := named [("A", 1); ("Base", 3)] in
  closed beside_heap /\ below beside_heap 1 2 /\ comps d "schemas" !! "Nothing" = None /\
  match process by_listing (resolve_in true nothing d) true 5 [1; 3] beside_heap with
  | Done h' => s_ref (cell h' 2) = "#/components/schemas/Nothing" /\ s_refto (cell h' 2) = None
  | _ => False
  end.
Proof.
  cbn zeta. split; [apply closed_check; vm_compute; reflexivity|]. split; [|vm_compute; auto].
  eapply below_part; [apply (part_elsewhere _ _ 2)|constructor]. do 7 right. left. apply (bool_decide_unpack _). vm_compute. exact I.
Qed.

(** After the processing, a schema without reference is flagged as required exactly when it is a property that the schema above it requires; a
    schema with one is when it is such a property, and possibly besides (C41_reference_refuted). *)
Theorem C41_flags iter v2 w d fuel components h h' :
  (forall m g, iter m g ≡ₚ map_to_list g) -> closed h -> (forall c, c ∈ components -> valid h c) ->
  (v2 = true -> forall l, version2 (cell h l)) -> written_once h components ->
  process iter (resolve_in v2 w d) v2 fuel components h = Done h' ->
  forall c x, c ∈ components -> below h c x ->
    (asked_for h x -> s_isreq (cell h' x) = true) /\
    (s_ref (cell h x) = "" -> s_isreq (cell h' x) = true -> asked_for h x).
Proof. exact (fun P C K V O => process_flags iter P v2 w d fuel components h h' C K V O). Qed.
(** tag (2) and label (6) are required; names (4) refers to label. *)
Example C41_flags_ex :
  written_once pet_heap [1; 5; 7] /\
  flagged (process by_listing (resolve_in false nothing pet_spec) false 5 [1; 5; 7] pet_heap) =
    [false; true; false; true; false; true; false; false; false].
Proof. split; [apply written_once_check; vm_compute; reflexivity|vm_compute; reflexivity]. Qed.

Print Assumptions C84_resolved.
Print Assumptions C84_component.
Print Assumptions C84_ends.
Print Assumptions C84_beside_refuted.
Print Assumptions C41_flags.
