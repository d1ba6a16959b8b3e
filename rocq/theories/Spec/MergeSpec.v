(** Merging several schemas into one. *)
From stdpp Require Import gmap list strings.
From Coq Require Import Ascii String.
From Verif.Model Require Import Reference Schema.
From Verif.Spec Require Import SchemaSpec.
Local Open Scope string_scope.

(** The definition of property [k] by schema [v]: its own, else that of the schema it refers to. *)
Definition defines (h : heap) (v : nat) (k : string) : option nat :=
  match props h (cell h v) !! k with Some p => Some p | None => ref_props h (cell h v) !! k end.

(** [p] is the definition [q], or refers to it. *)
Definition stands_for (h : heap) (p q : nat) : Prop := p = q \/ s_refto (cell h p) = Some q.

(** The maps of properties that are read when [v] is merged. *)
Definition reads (h : heap) (v m : nat) : Prop :=
  s_props (cell h v) = Some m \/ exists r, s_refto (cell h v) = Some r /\ s_props (cell h r) = Some m.

(** [v] is independent of [s]: neither the schema nor its map of properties is shared. *)
Record apart (h : heap) (s v : nat) : Prop := {
  ap_self : v <> s;
  ap_refto : s_refto (cell h v) <> Some s;
  ap_maps m : reads h v m -> s_props (cell h s) <> Some m;
}.

(** A schema without schemas below it, but for properties. *)
Record bare (c : sch) : Prop := {
  ba_pattern : s_pattern c = [];
  ba_addprops : s_addprops c = None;
  ba_additems : s_additems c = [];
  ba_items : s_items c = None;
  ba_contains : s_contains c = [];
  ba_anyof : s_anyof c = [];
  ba_oneof : s_oneof c = [];
  ba_allof : s_allof c = [];
  ba_not : s_not c = None;
}.
(** A property of a simple type. *)
Definition leaf (c : sch) : Prop := bare c /\ s_props c = None /\ s_ref c = "" /\ s_refto c = None.
(** An object with properties of simple types, written in place. *)
Record flat (h : heap) (v : nat) : Prop := {
  fl_bare : bare (cell h v);
  fl_ref : s_ref (cell h v) = "";
  fl_refto : s_refto (cell h v) = None;
  fl_props k p : props h (cell h v) !! k = Some p -> leaf (cell h p);
}.
(** An element [v] of a composition stands for the schema [t]: itself, or the one it refers to. *)
Definition element (resolve : heap -> string -> res nat) (h : heap) (v t : nat) : Prop :=
  (t = v /\ flat h v) \/
  (bare (cell h v) /\ s_props (cell h v) = None /\ s_ref (cell h v) <> "" /\ v <> t /\
   forall h', resolve h' (s_ref (cell h v)) = Ok t).

(** An allOf, anyOf or oneOf of [l], besides properties of simple types. *)
Inductive way := AllOf | AnyOf | OneOf.
Record composition (how : way) (h : heap) (s : nat) (l : list nat) : Prop := {
  co_pattern : s_pattern (cell h s) = [];
  co_addprops : s_addprops (cell h s) = None;
  co_additems : s_additems (cell h s) = [];
  co_items : s_items (cell h s) = None;
  co_contains : s_contains (cell h s) = [];
  co_anyof : s_anyof (cell h s) = match how with AnyOf => l | _ => [] end;
  co_oneof : s_oneof (cell h s) = match how with OneOf => l | _ => [] end;
  co_allof : s_allof (cell h s) = match how with AllOf => l | _ => [] end;
  co_not : s_not (cell h s) = None;
  co_ref : s_ref (cell h s) = "";
  co_props k p : props h (cell h s) !! k = Some p -> leaf (cell h p);
}.
(** A schema that is not a composition itself. *)
Definition simple (c : sch) : Prop := s_allof c = [] /\ s_anyof c = [] /\ s_oneof c = [].
(** ... nor a reference to one. *)
Definition plain_element (h : heap) (v : nat) : Prop :=
  simple (cell h v) /\ forall r, s_refto (cell h v) = Some r -> simple (cell h r).
