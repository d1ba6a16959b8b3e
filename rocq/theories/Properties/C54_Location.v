(** C54, C61: the field designated by a location. *)
From stdpp Require Import gmap list strings.
From Coq Require Import Ascii String.
From Verif.Model Require Import GoStrings Reference Slices Schema Location.
From Verif.Spec Require Import SchemaSpec LocationSpec.
From Verif.Proof Require Import GoStringsProof SchemaProof LocationProof.
Local Open Scope string_scope.

(** Payload (1): {meta (2): {user (3)}}, no headers. *)
Definition ex_h : heap := mkHeap
  (list_to_map [(1, with_required ["meta"] (with_props (Some 100) (with_type "object" empty_sch)));
                (2, with_required ["user"] (with_props (Some 101) (with_type "object" empty_sch)));
                (3, with_type "string" empty_sch)])
  (list_to_map [(100, {["meta" := 2]}); (101, {["user" := 3]})]) 200.
Definition ex_m : parts := mkParts None (Some 1).
Example ex_h_closed : closed ex_h.
Proof. apply closed_check. vm_compute. reflexivity. Qed.

(** Every schema graph, message and path: afterwards the path exists in the headers or the payload
    (or what they refer to), ending at the schema that was there or at a string; all the rest has
    only grown by the names of the path; and a second time nothing changes. *)
Theorem C54_designates header path m h :
  closed h -> ok_part h (part header m) -> Forall plain_name path -> path <> [] ->
  let '(_, m', h') := create_tree (location_of header path) m h in
  grown path h h' /\ other header m' = other header m /\ (part header m <> None -> m' = m) /\
  exists root x, part header m' = Some root /\ reaches h' (target h' root) path x /\
    ((exists r, part header m = Some r /\ reaches h (target h r) path x) \/ s_type (cell h' x) = "string").
Proof.
  intros C V F N. pose proof (create_tree_spec header path m h C V F N) as S.
  destruct (create_tree (location_of header path) m h) as [[p m'] h'].
  destruct S as (_ & G & O & K & root & Er & _ & x & R & T & _). split; [exact G|]. split; [exact O|]. split; [exact K|].
  exists root, x. auto.
Qed.
Example C54_designates_ex :
  location_of true ["trace"; "id"] = "$message.header#/trace/id" /\
  let '(_, m', h') := create_tree "$message.header#/trace/id" ex_m ex_h in
  p_headers m' = Some 201 /\ map_to_list (props h' (cell h' 201)) = [("trace", 203)] /\
  map_to_list (props h' (cell h' 203)) = [("id", 205)] /\ s_type (cell h' 205) = "string".
Proof. vm_compute. repeat split. Qed.

Theorem C54_idempotent header path m h :
  closed h -> ok_part h (part header m) -> Forall plain_name path -> path <> [] ->
  let '(_, m', h') := create_tree (location_of header path) m h in
  snd (create_tree (location_of header path) m' h') = h' /\
  snd (fst (create_tree (location_of header path) m' h')) = m'.
Proof.
  intros C V F N. pose proof (create_tree_spec header path m h C V F N) as S.
  destruct (create_tree (location_of header path) m h) as [[p m'] h'].
  destruct S as (_ & _ & _ & _ & root & _ & _ & x & _ & _ & Again & _). rewrite Again. auto.
Qed.
Example C54_idempotent_ex :
  let '(_, m', h') := create_tree "$message.payload#/meta/id" ex_m ex_h in
  next h' = 202 /\ next (snd (create_tree "$message.payload#/meta/id" m' h')) = 202.
Proof. vm_compute. repeat split. Qed.

(** The message says its correlation ID is required exactly when the schema that holds the field
    requires it. *)
Theorem C54_required header path m h :
  closed h -> ok_part h (part header m) -> Forall plain_name path -> path <> [] ->
  exists b m' h' root parent, correlation_id (Some (location_of header path)) m h = Some (b, m', h') /\
    part header m' = Some root /\ reaches h' (target h' root) (removelast path) parent /\
    (b = true <-> List.last path "" ∈ s_required (cell h' parent)).
Proof.
  intros C V F N. destruct (correlation_spec header path m h C V F N) as (b & m' & h' & E & _ & root & parent & A & B & D).
  exists b, m', h', root, parent. auto.
Qed.
Example C54_required_ex :
  option_map (fun r => fst (fst r)) (correlation_id (Some "$message.payload#/meta/user") ex_m ex_h) = Some true /\
  option_map (fun r => fst (fst r)) (correlation_id (Some "$message.payload#/meta/other") ex_m ex_h) = Some false.
Proof. vm_compute. repeat split. Qed.

(** Intermediate schemas that are created are no objects: they have the type "header", for which the
    templates generate no field type. *)
Theorem C54_intermediate_refuted : exists m h root mid,
  let r := create_tree "$message.header#/trace/id" m h in
  p_headers (snd (fst r)) = Some root /\ reaches (snd r) root ["trace"] mid /\ s_type (cell (snd r) mid) = "header".
Proof.
  exists ex_m, ex_h, 201, 203. cbn zeta.
  split; [vm_compute; reflexivity|]. split; [|vm_compute; reflexivity].
  apply walk_reaches. vm_compute. reflexivity.
Qed.

(** A location without a step crashes the processing of every message. *)
Theorem C54_crash_refuted m h :
  correlation_id (Some "$message.header#") m h = None /\ correlation_id (Some "$message.payload#") m h = None.
Proof.
  assert (D : forall l h, down [] l h = (None, h)) by reflexivity.
  unfold correlation_id, create_tree, create_from. cbn -[new_schema down cell upd]. split.
  - destruct (p_headers m) as [r|] eqn:E.
    + rewrite D. cbn -[new_schema down cell upd]. rewrite E, D. reflexivity.
    + destruct (new_schema "object" h) as [r h1]. rewrite D. cbn -[new_schema down cell upd]. now rewrite D.
  - destruct (p_payload m) as [r|] eqn:E.
    + rewrite D. cbn -[new_schema down cell upd]. rewrite E, D. reflexivity.
    + destruct (new_schema "object" h) as [r h1]. rewrite D. cbn -[new_schema down cell upd]. now rewrite D.
Qed.

(** Payload (1): $ref Event; Event (2): {id (3)}, id required. The location is processed before the
    references are set, so the requirement is not seen, and a field missing in Event is added to the
    reference object only. *)
Definition ref_spec : spec := mkSpec (fun k => if String.eqb k "schemas" then {["Event" := 2]} else ∅) ∅ ∅.
Definition ref_world : world := mkWorld (fun _ => ref_spec) (fun _ => ∅) (fun _ => None) (fun _ => None) (fun _ => ∅).
Definition ref_h : heap := mkHeap
  (list_to_map [(1, mkSch "" "#/components/schemas/Event" None None [] None [] None [] [] [] [] None [] false None);
                (2, with_required ["id"] (with_props (Some 100) (with_type "object" empty_sch)));
                (3, with_isreq true (with_type "string" empty_sch))])
  (list_to_map [(100, {["id" := 3]})]) 200.
Definition after_references (r : option (bool * parts * heap)) : option (bool * heap) :=
  match r with
  | Some (b, m, h) =>
      match set_dependencies (fun _ g => map_to_list g) (resolve_in false ref_world ref_spec) false 10 1 h with
      | Done h => Some (b, h)
      | _ => None
      end
  | None => None
  end.
Definition look {A} (f : bool -> heap -> A) (r : option (bool * heap)) : option A :=
  match r with Some (b, h) => Some (f b h) | None => None end.
Theorem C54_payload_reference_refuted :
  exists h, closed h /\
  look (fun b h' => (b, target h' 1, s_required (cell h' 2)))
    (after_references (correlation_id (Some "$message.payload#/id") (mkParts None (Some 1)) h))
  = Some (false, 2, ["id"]) /\
  look (fun b h' => (target h' 1, props h' (cell h' 2) !! "corr"))
    (after_references (correlation_id (Some "$message.payload#/corr") (mkParts None (Some 1)) h))
  = Some (2, None).
Proof.
  exists ref_h. split; [apply closed_check; vm_compute; reflexivity|]. split; vm_compute; reflexivity.
Qed.

(** The accessor path generated for a location is the path of the created field. *)
Theorem C61_accessor header path :
  Forall plain_name path -> Forall (fun k => lacks "." k /\ lacks "#" k /\ k <> "header") path ->
  attribute_steps (location_of header path) = (if header then "headers" else "payload") :: path.
Proof. exact (attribute_steps_location header path). Qed.
(** Exactly then: *)
Theorem C61_exact header path :
  Forall plain_name path ->
  attribute_steps (location_of header path) = (if header then "headers" else "payload") :: path <->
  Forall (fun k => "."%char ∉ list_ascii_of_string k /\ "#"%char ∉ list_ascii_of_string k /\ k <> "header") path.
Proof. exact (attribute_steps_exact header path). Qed.
Print Assumptions C61_exact.
Example C61_accessor_ex :
  attribute_steps "$message.payload#/meta/user" = ["payload"; "meta"; "user"] /\
  attribute_steps "$message.header#/id" = ["headers"; "id"].
Proof. split; vm_compute; reflexivity. Qed.

(** Not so for names with a dot or a hash, or the name "header", which the processing takes as they are. *)
Theorem C61_names_refuted :
  attribute_steps (location_of true ["trace.id"]) = ["headers"; "trace"; "id"] /\
  tl (split "/" (location_of true ["trace.id"])) = ["trace.id"] /\
  attribute_steps (location_of false ["header"]) = ["payload"; "headers"] /\
  tl (split "/" (location_of false ["header"])) = ["header"].
Proof. vm_compute. repeat split. Qed.

Print Assumptions C54_designates.
Print Assumptions C54_idempotent.
Print Assumptions C54_required.
Print Assumptions C54_intermediate_refuted.
Print Assumptions C54_crash_refuted.
Print Assumptions C54_payload_reference_refuted.
Print Assumptions C61_accessor.
Print Assumptions C61_names_refuted.
