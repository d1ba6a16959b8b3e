(** C60: the processing of a document and the order of its maps. *)
From stdpp Require Import gmap list strings.
From Coq Require Import Ascii String.
From Verif.Model Require Import Reference Slices Schema.
From Verif.Spec Require Import SchemaSpec ReferenceSpec ProcessSpec.
From Verif.Proof Require Import SchemaProof ReferenceProof ProcessProof OrderProof.
From Verif.Properties Require Import C84_Process.
Local Open Scope string_scope.

(** A document without compositions in which no reference designates a reference: whatever the order in which the components and the properties
    are iterated over (and whatever bound on the depth is given), the processed schemas are the same, all their fields included. *)
Theorem C60_plain_partial iter iter' v2 w d fuel fuel' order order' h a b :
  (forall m g, iter m g ≡ₚ map_to_list g) -> (forall m g, iter' m g ≡ₚ map_to_list g) -> order ≡ₚ order' ->
  closed h -> (forall c, c ∈ order -> valid h c) -> (v2 = true -> forall l, version2 (cell h l)) -> written_once h order ->
  uncomposed h -> direct (negb v2) w d h ->
  process iter (resolve_in v2 w d) v2 fuel order h = Done a -> process iter' (resolve_in v2 w d) v2 fuel' order' h = Done b ->
  maps a = maps b /\ next a = next b /\ forall x, cell a x = cell b x.
Proof.
  intros P P' Ho C K T O L D. apply order_irrelevant; try assumption. intros x r N R. apply (D x); [exact N|]. now apply resolve_in_spec.
Qed.
Print Assumptions C60_plain_partial.

(** Pet and Tag, without Dog; forwards and backwards. *)
Definition plain_spec : spec := named [("Pet", 1); ("Tag", 5)].
Definition plain_heap : heap := mkHeap
  (list_to_map [(1, object 100 ["tag"]); (2, link "#/components/schemas/Tag"); (3, array 4); (4, link "#/components/schemas/Tag/label");
                (5, object 101 ["label"]); (6, text)])
  (list_to_map [(100, {["tag" := 2; "names" := 3]}); (101, {["label" := 6]})]) 200.
Definition backwards (m : nat) (g : gmap string nat) : list (string * nat) := rev (map_to_list g).
Lemma plain_beyond l : 6 < l -> cell plain_heap l = empty_sch.
Proof.
  intros H. unfold cell. replace (cells plain_heap !! l) with (@None sch); [reflexivity|].
  symmetry. apply not_elem_of_list_to_map. cbn. rewrite !not_elem_of_cons. repeat (split; [lia|]). apply not_elem_of_nil.
Qed.
Example C60_plain_hyps :
  closed plain_heap /\ (forall c, c ∈ [1; 5] -> valid plain_heap c) /\ written_once plain_heap [1; 5] /\ uncomposed plain_heap /\
  direct true nothing plain_spec plain_heap /\ (forall m g, backwards m g ≡ₚ map_to_list g).
Proof.
  split; [apply closed_check; vm_compute; reflexivity|]. split; [|split; [|split; [|split]]].
  - intros c H. repeat (apply elem_of_cons in H as [->|H]; [eexists; vm_compute; reflexivity|]). now apply elem_of_nil in H.
  - apply written_once_check. vm_compute. reflexivity.
  - intros l. destruct (decide (6 < l)) as [H|H]; [rewrite plain_beyond by exact H; auto|]. do 7 (destruct l as [|l]; [vm_compute; auto|]). lia.
  - intros x r N. change true with (negb false). rewrite <- resolve_in_spec. destruct (decide (6 < x)) as [H|H]; [rewrite plain_beyond in N by exact H; done|].
    do 7 (destruct x as [|x]; [vm_compute in N |- *; try done; intros [= <-]; reflexivity|]). lia.
  - intros m g. unfold backwards. symmetry. apply Permutation_rev.
Qed.
Definition shown (r : run) : list (option nat * list string * bool) :=
  match r with Done h => map (fun x => (s_refto (cell h x), s_required (cell h x), s_isreq (cell h x))) [1; 2; 3; 4; 5; 6] | _ => [] end.
Example C60_plain_ex :
  shown (process by_listing (resolve_in false nothing plain_spec) false 5 [1; 5] plain_heap) =
    [(None, ["tag"], false); (Some 5, ["label"], true); (None, [], false); (Some 6, [], true); (None, ["label"], false); (None, [], true)] /\
  shown (process backwards (resolve_in false nothing plain_spec) false 9 [5; 1] plain_heap) =
  shown (process by_listing (resolve_in false nothing plain_spec) false 5 [1; 5] plain_heap).
Proof. split; vm_compute; reflexivity. Qed.

(** With a reference to a reference the order matters, without any composition: A (1) refers to B (2), B to C (3), C requires x. *)
Definition steps_spec : spec := named [("A", 1); ("B", 2); ("C", 3)].
Definition steps_heap : heap := mkHeap
  (list_to_map [(1, link "#/components/schemas/B"); (2, link "#/components/schemas/C"); (3, object 100 ["x"]); (4, text)])
  (list_to_map [(100, {["x" := 4]})]) 200.
Definition required_of (r : run) (x : nat) : option (list string) := match r with Done h => Some (s_required (cell h x)) | _ => None end.
Theorem C60_references_refuted :
  exists d h order1 order2, closed h /\ order1 ≡ₚ order2 /\ uncomposed h /\ written_once h order1 /\
    required_of (process by_listing (resolve_in false nothing d) false 10 order1 h) 1 = Some [] /\
    required_of (process by_listing (resolve_in false nothing d) false 10 order2 h) 1 = Some ["x"].
Proof.
  exists steps_spec, steps_heap, [1; 2; 3], [3; 2; 1]. split; [apply closed_check; vm_compute; reflexivity|].
  split; [apply (bool_decide_unpack _); vm_compute; exact I|]. split; [|split; [apply written_once_check; vm_compute; reflexivity|split; vm_compute; reflexivity]].
  intros l. destruct (decide (4 < l)) as [H|H]; [|do 5 (destruct l as [|l]; [vm_compute; auto|]); lia].
  unfold cell. replace (cells steps_heap !! l) with (@None sch); [auto|].
  symmetry. apply not_elem_of_list_to_map. cbn. rewrite !not_elem_of_cons. repeat (split; [lia|]). apply not_elem_of_nil.
Qed.
Print Assumptions C60_references_refuted.
