(** C114, the whole processing: once and twice. *)
From stdpp Require Import gmap list strings.
From Coq Require Import Ascii String Lia.
From Verif.Model Require Import Reference Slices Schema.
From Verif.Spec Require Import SchemaSpec ReferenceSpec ProcessSpec.
From Verif.Proof Require Import SchemaProof ReferenceProof ProcessProof AgainProof.
From Verif.Proof Require LaterProof.
From Verif.Properties Require Import C84_Process C60_Order.
Local Open Scope string_scope.

(** A document without compositions, in which references stand alone and none designates a reference: processing what was processed already,
    in whatever order, leaves every schema as it is, all its fields included, and makes no new one. *)
Theorem C114_process_partial iter iter' v2 w d fuel fuel' order order' h a b :
  (forall m g, iter m g ≡ₚ map_to_list g) -> (forall m g, iter' m g ≡ₚ map_to_list g) -> order ≡ₚ order' ->
  closed h -> (forall c, c ∈ order -> valid h c) -> (v2 = true -> forall l, version2 (cell h l)) -> written_once h order ->
  (forall x, LaterProof.mentioned w d x -> valid h x) ->
  uncomposed h -> direct (negb v2) w d h -> alone h ->
  process iter (resolve_in v2 w d) v2 fuel order h = Done a -> process iter' (resolve_in v2 w d) v2 fuel' order' a = Done b ->
  maps b = maps a /\ next b = next a /\ forall x, cell b x = cell a x.
Proof.
  intros P P' Ho C K T O B L D A. apply process_again with (h := h) (order := order) (iter := iter) (fuel := fuel); try assumption.
  intros x r N R. apply (D x); [exact N|]. now apply resolve_in_spec.
Qed.
Print Assumptions C114_process_partial.

(** The document of C60: the first time changes it, the second does not. *)
Example C114_process_hyps : alone plain_heap /\ (forall x, LaterProof.mentioned nothing plain_spec x -> valid plain_heap x).
Proof.
  split.
  - intros x N. destruct (decide (6 < x)) as [H|H]; [rewrite plain_beyond in N by exact H; done|].
    do 7 (destruct x as [|x]; [vm_compute in N |- *; done|]). lia.
  - intros x [(s & n & [->|[i ->]] & H)|(m & [H|H])]; try discriminate H.
    apply elem_of_list_to_map_2 in H. repeat (apply elem_of_cons in H as [H|H]; [injection H as -> ->; eexists; vm_compute; reflexivity|]). by apply elem_of_nil in H.
Qed.
Definition twice (s : spec) (h : heap) (order1 order2 : list nat) : run :=
  bind (process by_listing (resolve_in false nothing s) false 5 order1 h) (process backwards (resolve_in false nothing s) false 9 order2).
Example C114_process_ex :
  shown (process by_listing (resolve_in false nothing plain_spec) false 5 [1; 5] plain_heap) <> shown (Done plain_heap) /\
  shown (twice plain_spec plain_heap [1; 5] [5; 1]) = shown (process by_listing (resolve_in false nothing plain_spec) false 5 [1; 5] plain_heap).
Proof. split; [vm_compute; discriminate|vm_compute; reflexivity]. Qed.

(** Without [alone]: A (1) refers to B (2), which requires x, and has an optional property x (3) beside it. The second time x is required. *)
Definition beside_spec : spec := named [("A", 1); ("B", 2)].
Definition beside_heap : heap := mkHeap
  (list_to_map [(1, with_props (Some 100) (link "#/components/schemas/B")); (2, object 101 ["x"]); (3, text); (4, text)])
  (list_to_map [(100, {["x" := 3]}); (101, {["x" := 4]})]) 200.
Theorem C114_beside_refuted :
  closed beside_heap /\ written_once beside_heap [1; 2] /\
  nth 2 (shown (process by_listing (resolve_in false nothing beside_spec) false 5 [1; 2] beside_heap)) (None, [], false) = (None, [], false) /\
  nth 2 (shown (twice beside_spec beside_heap [1; 2] [1; 2])) (None, [], false) = (None, [], true).
Proof.
  split; [apply closed_check; vm_compute; reflexivity|]. split; [apply written_once_check; vm_compute; reflexivity|]. split; vm_compute; reflexivity.
Qed.
Print Assumptions C114_beside_refuted.
