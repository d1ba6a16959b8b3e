(** Copies of schemas. *)
From stdpp Require Import gmap list strings.
From Coq Require Import Ascii String.
From Verif.Model Require Import Schema.
From Verif.Spec Require Import SchemaSpec LocationSpec.
Local Open Scope string_scope.

(** Everything that existed is as it was. *)
Record kept (h h' : heap) : Prop := {
  ke_next : next h <= next h';
  ke_cells x : valid h x -> cells h' !! x = cells h !! x;
  ke_maps m : valid_map h m -> maps h' !! m = maps h !! m;
}.

(** The same schema, but for the pointers. *)
Definition same_face (c c' : sch) : Prop :=
  s_type c' = s_type c /\ s_ref c' = s_ref c /\ s_required c' = s_required c /\ s_isreq c' = s_isreq c /\
  s_import c' = s_import c.

(** [y] in [h'] is a copy of [x] in [h]: the same fields, to any depth, all of them new. *)
Record copied (h : heap) (x : nat) (h' : heap) (y : nat) : Prop := {
  cp_valid : valid h' y;
  cp_new : next h <= y;
  cp_there path z : reaches h x path z -> exists w, reaches h' y path w /\ same_face (cell h z) (cell h' w) /\ next h <= w;
  cp_back path w : reaches h' y path w -> exists z, reaches h x path z /\ same_face (cell h z) (cell h' w) /\ next h <= w;
  cp_map m : s_props (cell h' y) = Some m -> next h <= m;
}.
