(** The schemas of a document, where they are, and what their references should have become. *)
From stdpp Require Import gmap list strings.
From Coq Require Import Ascii String.
From Verif.Model Require Import Reference Schema.
From Verif.Spec Require Import SchemaSpec ReferenceSpec.

(** Where a schema is in the one above it: the property [k], or anything else (items, additional properties, allOf ...). *)
Inductive spot := Property (k : string) | Elsewhere.
Inductive part (h : heap) (a : nat) : spot -> nat -> Prop :=
| part_property k x : props h (cell h a) !! k = Some x -> part h a (Property k) x
| part_elsewhere x :
    x ∈ s_pattern (cell h a) \/ s_addprops (cell h a) = Some x \/ x ∈ s_additems (cell h a) \/ s_items (cell h a) = Some x \/
    x ∈ s_contains (cell h a) \/ x ∈ s_anyof (cell h a) \/ x ∈ s_oneof (cell h a) \/ x ∈ s_allof (cell h a) \/ s_not (cell h a) = Some x ->
    part h a Elsewhere x.

(** [x] is the schema [a] or one of the schemas written inside of it. References are not followed. *)
Inductive below (h : heap) : nat -> nat -> Prop :=
| below_self a : below h a a
| below_part a at_ y x : part h a at_ y -> below h y x -> below h a x.

(** The document whose schemas are in [h]. *)
Definition world_of (w : world) (h : heap) : world :=
  mkWorld (specs w) (fun l => props h (cell h l)) (msg_payload w) (msg_headers w) (chan_msgs w).

(** A schema whose reference, if it has one, was replaced by what it designates. *)
Definition resolved (v3 : bool) (w : world) (d : spec) (h : heap) (x : nat) : Prop :=
  s_ref (cell h x) = ""%string \/
  exists r, s_refto (cell h x) = Some r /\ designates (schema_steps v3 (world_of w h)) (world_of w h) d (s_ref (cell h x)) r.

(** A schema of AsyncAPI 2: there are no patternProperties and so on, and a reference stands alone, without allOf, anyOf and oneOf beside it. *)
Definition version2 (c : sch) : Prop :=
  s_pattern c = [] /\ s_additems c = [] /\ s_contains c = [] /\ s_not c = None /\
  (s_ref c <> ""%string -> s_anyof c = [] /\ s_oneof c = [] /\ s_allof c = []).

(** Every schema is written in one place: at most one schema has it as a part, in one spot, and the components are no parts. *)
Record written_once (h : heap) (components : list nat) : Prop := {
  wo_part a b p q x : part h a p x -> part h b q x -> a = b /\ p = q;
  wo_component a p x : part h a p x -> x ∉ components;
}.

(** The requirement of a schema by the one above it: a required property. *)
Definition asked_for (h : heap) (x : nat) : Prop :=
  exists a k, part h a (Property k) x /\ k ∈ s_required (cell h a).

(** No schema is inside of itself: [height] goes down at each part and stays below [fuel]. *)
Definition nested (h : heap) (height : nat -> nat) : Prop := forall a p x, part h a p x -> height x < height a.

(** No schema has allOf, anyOf or oneOf. *)
Definition uncomposed (h : heap) : Prop := forall x, s_anyof (cell h x) = [] /\ s_oneof (cell h x) = [] /\ s_allof (cell h x) = [].
(** No reference designates a reference. *)
Definition direct (v3 : bool) (w : world) (d : spec) (h : heap) : Prop :=
  forall x r, s_ref (cell h x) <> ""%string -> designates (schema_steps v3 (world_of w h)) (world_of w h) d (s_ref (cell h x)) r -> s_ref (cell h r) = ""%string.
(** A reference has no properties of its own beside it. *)
Definition alone (h : heap) : Prop := forall x, s_ref (cell h x) <> ""%string -> props h (cell h x) = ∅.
