(** C40, C41, C60: composition of schemas. *)
From stdpp Require Import gmap list strings sorting.
From Coq Require Import Ascii String.
From Verif.Model Require Import Reference Slices Schema.
From Verif.Spec Require Import SlicesSpec SchemaSpec MessageSpec MergeSpec.
From Verif.Proof Require Import SlicesProof SchemaProof MergeProof.
Local Open Scope string_scope.

(** The order in which the library lists a map; any other order is a permutation of it. *)
Definition listing (m : nat) (g : gmap string nat) : list (string * nat) := map_to_list g.

Definition str : sch := with_type "string" empty_sch.
Definition int : sch := with_type "integer" empty_sch.
Definition to (r : string) : sch :=
  mkSch "" r None None [] None [] None [] [] [] [] None [] false None.
Definition obj (p : nat) (req : list string) : sch :=
  with_required req (with_props (Some p) (with_type "object" empty_sch)).

(** Base (1): {id (2, required), name (3), home (4, an object)}; Ext (5): {name (6), age (7)};
    8: a reference to Base. *)
Definition ex_heap : heap := mkHeap
  (list_to_map [(1, obj 100 ["id"]); (2, with_isreq true str); (3, str); (4, obj 101 []);
                (5, obj 102 ["age"]); (6, int); (7, with_isreq true int); (8, with_refto (Some 1) (to "#/components/schemas/Base"))])
  (list_to_map [(100, {["id" := 2; "name" := 3; "home" := 4]}); (101, ∅); (102, {["name" := 6; "age" := 7]})])
  200.

Example ex_heap_closed : closed ex_heap.
Proof. apply closed_check. vm_compute. reflexivity. Qed.

(** Every map order, every well-formed schema graph: the properties of the result are the union, the
    schema's own definition first, then the merged one, then the referenced one; nothing else in the
    graph changes. *)
Theorem C40_properties iter s s2 h :
  (forall m g, iter m g ≡ₚ map_to_list g) -> closed h -> valid h s -> ok_sch h s2 ->
  let h' := merge_with iter s s2 h in
  closed h' /\ s_type (cell h' s) = "object" /\ merged_props h h' s s2 /\
  (forall x, valid h x -> x <> s -> cell h' x = cell h x) /\
  (forall m, valid_map h m -> Some m <> s_props (cell h s) -> maps h' !! m = maps h !! m).
Proof.
  intros P C V K. destruct (merge_with_spec iter P s s2 h C V K) as (C' & X & T & _ & _ & M & PP & _).
  split; [exact C'|]. split; [exact T|]. split; [exact PP|]. split; [|exact M].
  intros x Hx N. exact (extends_cell s h _ x X Hx N).
Qed.
(** Ext takes id (as it is) and home (through a new reference, 200) of Base, and keeps its own name. *)
Example C40_properties_ex :
  let h' := merge_with listing 5 (cell ex_heap 8) ex_heap in
  map_to_list (props h' (cell h' 5)) ≡ₚ [("id", 2); ("name", 6); ("age", 7); ("home", 200)] /\
  s_refto (cell h' 200) = Some 4 /\ cell h' 1 = cell ex_heap 1.
Proof. split; [|split; vm_compute; reflexivity]. apply (bool_decide_unpack _). vm_compute. exact I. Qed.

Theorem C40_required iter s s2 h :
  (forall m g, iter m g ≡ₚ map_to_list g) -> closed h -> valid h s -> ok_sch h s2 ->
  let h' := merge_with iter s s2 h in
  NoDup (s_required (cell h' s)) /\
  forall k, k ∈ s_required (cell h' s) <->
    k ∈ s_required (cell h s) \/ k ∈ s_required s2 \/ newly_required h s s2 k.
Proof.
  intros P C V K. destruct (merge_with_spec iter P s s2 h C V K) as (_ & _ & _ & _ & _ & _ & _ & F & R & _).
  split; [|exact R]. pose proof (first_nodup id _ _ F) as N. now rewrite list_fmap_id in N.
Qed.
Example C40_required_ex :
  s_required (cell (merge_with listing 5 (cell ex_heap 8) ex_heap) 5) = ["age"; "id"].
Proof. vm_compute. reflexivity. Qed.

(** setDependencies on a schema composed (allOf) of references and of objects written in place, for any
    number of them: it succeeds, each field is the definition of the first of them (the schema itself
    first) that has it, there is no other field, and everything required is required. [l] pairs each
    element with the schema it stands for. *)
Theorem C40_allof iter resolve fuel s (l : list (nat * nat)) h :
  (forall m g, iter m g ≡ₚ map_to_list g) ->
  closed h -> valid h s -> l <> [] -> composition AllOf h s (fst <$> l) -> NoDup (fst <$> l) ->
  (forall v t, (v, t) ∈ l -> valid h v /\ valid h t /\ v <> s /\ t <> s /\ element resolve h v t /\
     (forall m, s_props (cell h t) = Some m -> s_props (cell h s) <> Some m)) ->
  (forall v t, (v, t) ∈ l -> v <> t -> t ∉ fst <$> l) ->
  exists h', set_dependencies iter resolve false (S (S (S fuel))) s h = Done h' /\
  closed h' /\ s_type (cell h' s) = "object" /\
  (forall x, valid h x -> x <> s -> x ∉ fst <$> l -> cell h' x = cell h x) /\
  (forall m, valid_map h m -> Some m <> s_props (cell h s) -> maps h' !! m = maps h !! m) /\
  (forall k x, first_set None (props h (cell h s) !! k :: ((fun e => props h (cell h (snd e)) !! k) <$> l)) x ->
     match x with
     | Some q => exists p, props h' (cell h' s) !! k = Some p /\ stands_for h' p q
     | None => props h' (cell h' s) !! k = None
     end) /\
  (forall k, k ∈ s_required (cell h s) -> k ∈ s_required (cell h' s)) /\
  (forall e k, e ∈ l -> k ∈ s_required (cell h (snd e)) -> k ∈ s_required (cell h' s)).
Proof.
  intros P C V N K D E R. apply (composition_flat iter P resolve AllOf fuel s l h); try assumption. congruence.
Qed.

(** 10: {extra (11)} and allOf of a reference to Base (12) and of {name (14), x (15), required} (13). *)
Definition allof_heap : heap := mkHeap
  (list_to_map [(10, with_allof [12; 13] (obj 110 ["extra"])); (11, str); (12, to "#/components/schemas/Base");
                (13, obj 113 ["x"]); (14, int); (15, int)] ∪ cells ex_heap)
  (list_to_map [(110, {["extra" := 11]}); (113, {["name" := 14; "x" := 15]})] ∪ maps ex_heap)
  200.
Definition allof_resolve (h : heap) (ref : string) : res nat := if String.eqb ref "#/components/schemas/Base" then Ok 1 else Err.
Definition fields_of (r : run) (s : nat) : list (string * nat) :=
  match r with Done h => map_to_list (props h (cell h s)) | _ => [] end.
Definition required_of (r : run) (s : nat) : list string :=
  match r with Done h => s_required (cell h s) | _ => [] end.

Lemma leaf_str : leaf str. Proof. split; [constructor; reflexivity|auto]. Qed.
Lemma leaf_int : leaf int. Proof. split; [constructor; reflexivity|auto]. Qed.
Example C40_allof_hyps :
  let h := allof_heap in let l := [(12, 1); (13, 13)] in
  closed h /\ valid h 10 /\ l <> [] /\ composition AllOf h 10 (fst <$> l) /\ NoDup (fst <$> l) /\
  (forall v t, (v, t) ∈ l -> valid h v /\ valid h t /\ v <> 10 /\ t <> 10 /\ element allof_resolve h v t /\
     (forall m, s_props (cell h t) = Some m -> s_props (cell h 10) <> Some m)) /\
  (forall v t, (v, t) ∈ l -> v <> t -> t ∉ fst <$> l).
Proof.
  cbn zeta. split; [apply closed_check; vm_compute; reflexivity|].
  split; [eexists; vm_compute; reflexivity|]. split; [discriminate|]. split; [|split; [|split]].
  - constructor; try (vm_compute; reflexivity). intros k p H.
    assert (E : props allof_heap (cell allof_heap 10) = {["extra" := 11]}) by (vm_compute; reflexivity). rewrite E in H.
    apply lookup_singleton_Some in H as [_ <-].
    assert (cell allof_heap 11 = str) as -> by (vm_compute; reflexivity). apply leaf_str.
  - apply (bool_decide_unpack _). vm_compute. exact I.
  - intros v t H. apply elem_of_cons in H as [[= -> ->]|H]; [|apply elem_of_list_singleton in H as [= -> ->]].
    + split; [eexists; vm_compute; reflexivity|]. split; [eexists; vm_compute; reflexivity|].
      split; [discriminate|]. split; [discriminate|]. split.
      { right. split; [constructor; vm_compute; reflexivity|]. split; [vm_compute; reflexivity|].
        split; [vm_compute; discriminate|]. split; [discriminate|]. intros h'.
        assert (s_ref (cell allof_heap 12) = "#/components/schemas/Base") as -> by (vm_compute; reflexivity). reflexivity. }
      intros m E E'. vm_compute in E, E'. congruence.
    + split; [eexists; vm_compute; reflexivity|]. split; [eexists; vm_compute; reflexivity|].
      split; [discriminate|]. split; [discriminate|]. split.
      { left. split; [reflexivity|]. constructor; try (vm_compute; reflexivity); [constructor; vm_compute; reflexivity|].
        intros k p H. assert (E : props allof_heap (cell allof_heap 13) = {["name" := 14; "x" := 15]}) by (vm_compute; reflexivity).
        rewrite E in H. apply lookup_insert_Some in H as [[_ <-]|[_ H]]; [|apply lookup_singleton_Some in H as [_ <-]].
        - assert (cell allof_heap 14 = int) as -> by (vm_compute; reflexivity). apply leaf_int.
        - assert (cell allof_heap 15 = int) as -> by (vm_compute; reflexivity). apply leaf_int. }
      intros m E E'. vm_compute in E, E'. congruence.
  - intros v t H N. apply elem_of_cons in H as [[= -> ->]|H]; [|apply elem_of_list_singleton in H as [= -> ->]; congruence].
    apply (bool_decide_unpack _). vm_compute. exact I.
Qed.
Example C40_allof_ex :
  let r := set_dependencies listing allof_resolve false 3 10 allof_heap in
  fields_of r 10 ≡ₚ [("extra", 11); ("id", 2); ("name", 3); ("home", 200); ("x", 15)] /\
  required_of r 10 = ["extra"; "id"; "x"].
Proof. cbn zeta. split; [|vm_compute; reflexivity]. apply (bool_decide_unpack _). vm_compute. exact I. Qed.

(** The same for anyOf and oneOf, whose fields are merged too, when the schemas are not compositions themselves. *)
Theorem C40_alternatives how iter resolve fuel s (l : list (nat * nat)) h :
  (forall m g, iter m g ≡ₚ map_to_list g) ->
  closed h -> valid h s -> l <> [] -> composition how h s (fst <$> l) -> NoDup (fst <$> l) ->
  (forall v t, (v, t) ∈ l -> valid h v /\ valid h t /\ v <> s /\ t <> s /\ element resolve h v t /\
     (forall m, s_props (cell h t) = Some m -> s_props (cell h s) <> Some m)) ->
  (forall v t, (v, t) ∈ l -> v <> t -> t ∉ fst <$> l) ->
  (forall v t, (v, t) ∈ l -> simple (cell h t)) ->
  exists h', set_dependencies iter resolve false (S (S (S fuel))) s h = Done h' /\
  closed h' /\ s_type (cell h' s) = "object" /\
  (forall x, valid h x -> x <> s -> x ∉ fst <$> l -> cell h' x = cell h x) /\
  (forall m, valid_map h m -> Some m <> s_props (cell h s) -> maps h' !! m = maps h !! m) /\
  (forall k x, first_set None (props h (cell h s) !! k :: ((fun e => props h (cell h (snd e)) !! k) <$> l)) x ->
     match x with
     | Some q => exists p, props h' (cell h' s) !! k = Some p /\ stands_for h' p q
     | None => props h' (cell h' s) !! k = None
     end) /\
  (forall k, k ∈ s_required (cell h s) -> k ∈ s_required (cell h' s)) /\
  (forall e k, e ∈ l -> k ∈ s_required (cell h (snd e)) -> k ∈ s_required (cell h' s)).
Proof. intros P C V N K D E R S. apply (composition_flat iter P resolve how fuel s l h); try assumption. intros _. exact S. Qed.
(** The same example with anyOf and with oneOf. *)
Definition anyof_heap : heap := upd 10 (fun c => with_anyof [12; 13] (with_allof [] c)) allof_heap.
Definition oneof_heap : heap := upd 10 (fun c => with_oneof [12; 13] (with_allof [] c)) allof_heap.
Example C40_alternatives_ex :
  (forall h, h ∈ [anyof_heap; oneof_heap] ->
    let r := set_dependencies listing allof_resolve false 3 10 h in
    fields_of r 10 ≡ₚ [("extra", 11); ("id", 2); ("name", 3); ("home", 200); ("x", 15)] /\
    required_of r 10 = ["extra"; "id"; "x"]) /\
  s_anyof (cell anyof_heap 10) = [12; 13] /\ s_oneof (cell oneof_heap 10) = [12; 13] /\
  simple (cell anyof_heap 1) /\ simple (cell anyof_heap 13).
Proof.
  split; [|vm_compute; tauto]. intros h H. apply elem_of_cons in H as [->|H]; [|apply elem_of_list_singleton in H as ->];
  (split; [|vm_compute; reflexivity]; apply (bool_decide_unpack _); vm_compute; exact I).
Qed.

(** A field of the result is mandatory exactly when one of the two schemas requires it, or the
    property definition that was kept is flagged as required. *)
Theorem C41_mandatory iter s s2 h :
  (forall m g, iter m g ≡ₚ map_to_list g) -> closed h -> valid h s -> ok_sch h s2 ->
  forall k, mandatory (merge_with iter s s2 h) (cell (merge_with iter s s2 h) s) k <->
    k ∈ s_required (cell h s) \/ k ∈ s_required s2 \/
    exists p, origin h s s2 k = Some p /\ s_isreq (cell h p) = true.
Proof. exact (fun P => merge_mandatory iter P s s2 h). Qed.
Example C41_mandatory_ex :
  mandatory (merge_with listing 5 (cell ex_heap 8) ex_heap) (cell (merge_with listing 5 (cell ex_heap 8) ex_heap) 5) "id" /\
  mandatory (merge_with listing 5 (cell ex_heap 8) ex_heap) (cell (merge_with listing 5 (cell ex_heap 8) ex_heap) 5) "age" /\
  ~ mandatory (merge_with listing 5 (cell ex_heap 8) ex_heap) (cell (merge_with listing 5 (cell ex_heap 8) ex_heap) 5) "name".
Proof.
  apply (bool_decide_unpack _). vm_compute. exact I.
Qed.

Definition run_props (r : run) (s : nat) : option (list (string * nat)) :=
  match r with Done h => Some (map_to_list (props h (cell h s))) | _ => None end.

(** Specifications for the witnesses: components by name. *)
Definition comps_of (l : list (string * nat)) : spec :=
  mkSpec (fun k => if String.eqb k "schemas" then list_to_map l else ∅) ∅ ∅.
Definition no_world : world := mkWorld (fun _ => comps_of []) (fun _ => ∅) (fun _ => None) (fun _ => None) (fun _ => ∅).
Definition ref_to (name : string) : string := "#/components/schemas/" ++ name.

(** A (1): allOf [$ref B]; B (2): $ref C; C (3): {x (4)}. *)
Definition chain_spec : spec := comps_of [("A", 1); ("B", 2); ("C", 3)].
Definition chain_heap : heap := mkHeap
  (list_to_map [(1, with_allof [5] empty_sch); (2, to (ref_to "C")); (3, obj 100 []); (4, str); (5, to (ref_to "B"))])
  (list_to_map [(100, {["x" := 4]})]) 200.

(** The union is that of the schemas one step away: behind a chain of two references nothing is
    merged, in whatever order the components are processed. *)
Theorem C40_chain_refuted :
  exists spec h, closed h /\
  forall order, order ≡ₚ [1; 2; 3] ->
    run_props (process listing (resolve_in false no_world spec) false 10 order h) 1 = Some [].
Proof.
  exists chain_spec, chain_heap. split; [apply closed_check; vm_compute; reflexivity|].
  intros order P.
  assert (H : In order (permutations [1; 2; 3])) by now apply elem_of_list_In, permutations_Permutation.
  vm_compute in H. repeat (destruct H as [<-|H]; [vm_compute; reflexivity|]). destruct H.
Qed.

(** Extra (1): allOf [$ref Base, {required: [name]}]; Base (2): {name (3)}. *)
Definition flag_spec : spec := comps_of [("Extra", 1); ("Base", 2)].
Definition flag_heap : heap := mkHeap
  (list_to_map [(1, with_allof [4; 5] empty_sch); (2, obj 100 []); (3, str); (4, to (ref_to "Base"));
                (5, with_required ["name"] empty_sch)])
  (list_to_map [(100, {["name" := 3]})]) 200.

(** Requiring a property of an included schema makes it mandatory for the parent, but leaves the
    flag of the property itself, which decides "omitempty" and the validation tags
    (Model/Validations.v), and which is shared with Base, unset. *)
Theorem C41_flag_refuted :
  exists spec h, closed h /\
    match process listing (resolve_in false no_world spec) false 10 [1; 2] h with
    | Done h' => "name" ∈ s_required (cell h' 1) /\ props h' (cell h' 1) !! "name" = Some 3 /\ s_isreq (cell h' 3) = false
    | _ => False
    end.
Proof.
  exists flag_spec, flag_heap. split; [apply closed_check; vm_compute; reflexivity|].
  vm_compute. split; [left|]. split; reflexivity.
Qed.

(** Holder (1): {part (2): $ref Base/properties id}; Base (3): {id (4, required)}: the reference to
    a required property makes an optional field required. *)
Definition leak_spec : spec := comps_of [("Holder", 1); ("Base", 3)].
Definition leak_heap : heap := mkHeap
  (list_to_map [(1, obj 100 []); (2, to (ref_to "Base/id")); (3, obj 101 ["id"]); (4, str)])
  (list_to_map [(100, {["part" := 2]}); (101, {["id" := 4]})]) 200.
Theorem C41_reference_refuted :
  exists spec h, closed h /\
    match process listing (resolve_in false no_world spec) false 10 [1; 3] h with
    | Done h' => "part" ∉ s_required (cell h' 1) /\ props h' (cell h' 1) !! "part" = Some 2 /\ s_isreq (cell h' 2) = true
    | _ => False
    end.
Proof.
  exists leak_spec, leak_heap. split; [apply closed_check; vm_compute; reflexivity|].
  vm_compute. split; [intros H; inversion H|]. split; reflexivity.
Qed.

(** A (1): allOf [$ref B]; B (2): allOf [$ref C]; C (3): {x (4)}: A has x when B was processed
    before, and only then; the order is that of a Go map. *)
Definition order_spec : spec := comps_of [("A", 1); ("B", 2); ("C", 3)].
Definition order_heap : heap := mkHeap
  (list_to_map [(1, with_allof [5] empty_sch); (2, with_allof [6] empty_sch); (3, obj 100 []); (4, str);
                (5, to (ref_to "B")); (6, to (ref_to "C"))])
  (list_to_map [(100, {["x" := 4]})]) 200.
Theorem C60_order_refuted :
  exists spec h order1 order2, closed h /\ order1 ≡ₚ order2 /\
    run_props (process listing (resolve_in false no_world spec) false 10 order1 h) 1 = Some [] /\
    run_props (process listing (resolve_in false no_world spec) false 10 order2 h) 1 = Some [("x", 4)].
Proof.
  exists order_spec, order_heap, [1; 2; 3], [3; 2; 1]. split; [apply closed_check; vm_compute; reflexivity|].
  split; [apply (bool_decide_unpack _); vm_compute; exact I|]. split; vm_compute; reflexivity.
Qed.

Print Assumptions C40_properties.
Print Assumptions C40_required.
Print Assumptions C40_allof.
Print Assumptions C40_alternatives.
Print Assumptions C40_chain_refuted.
Print Assumptions C41_mandatory.
Print Assumptions C41_flag_refuted.
Print Assumptions C41_reference_refuted.
Print Assumptions C60_order_refuted.
