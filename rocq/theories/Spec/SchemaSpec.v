(** Well-formed schema graphs and what merging two schemas means. *)
From stdpp Require Import gmap list strings.
From Coq Require Import Ascii String.
From Verif.Model Require Import Schema.
Local Open Scope string_scope.

Definition valid (h : heap) (l : nat) : Prop := is_Some (cells h !! l).
Definition valid_map (h : heap) (m : nat) : Prop := is_Some (maps h !! m).

(** The pointers of a structure lead to something. *)
Record ok_sch (h : heap) (c : sch) : Prop := {
  ok_refto r : s_refto c = Some r -> valid h r;
  ok_props p : s_props c = Some p -> valid_map h p;
  ok_children x : x ∈ (s_pattern c ++ opt_list (s_addprops c) ++ s_additems c ++ opt_list (s_items c)
    ++ s_contains c ++ s_anyof c ++ s_oneof c ++ s_allof c ++ opt_list (s_not c))%list -> valid h x;
}.

(** No dangling pointer, and unused pointers are unused. *)
Record closed (h : heap) : Prop := {
  cl_cells l : valid h l -> l < next h;
  cl_maps m : valid_map h m -> m < next h;
  cl_sch l c : cells h !! l = Some c -> ok_sch h c;
  cl_entries m g k v : maps h !! m = Some g -> g !! k = Some v -> valid h v;
}.

(** The properties of a schema structure. *)
Definition props (h : heap) (c : sch) : gmap string nat := map_at h (s_props c).
(** ... and of the schema it refers to. *)
Definition ref_props (h : heap) (c : sch) : gmap string nat :=
  match s_refto c with Some r => props h (cell h r) | None => ∅ end.

(** A property [v] of the referenced schema is taken over as it is, or, when it is an object, by a
    new schema referring to it with the same requirement. *)
Definition taken_over (before after : heap) (v p : nat) : Prop :=
  if String.eqb (s_type (cell after v)) "object"
  then ~ valid before p /\ cells after !! p = Some (with_isreq (s_isreq (cell before v)) (with_refto (Some v) empty_sch))
  else p = v.

(** The properties after merging [s2] into [s]. *)
Definition merged_props (before after : heap) (s : nat) (s2 : sch) : Prop :=
  forall k,
    match props before (cell before s) !! k, props before s2 !! k, ref_props before s2 !! k with
    | Some p, _, _ => props after (cell after s) !! k = Some p
    | None, Some p, _ => props after (cell after s) !! k = Some p
    | None, None, Some v => exists p, props after (cell after s) !! k = Some p /\ taken_over before after v p
    | None, None, None => props after (cell after s) !! k = None
    end.

(** The required names after merging: those of both, and the newly taken properties of the
    reference that are required there. *)
Definition newly_required (before : heap) (s : nat) (s2 : sch) (k : string) : Prop :=
  props before (cell before s) !! k = None /\ props before s2 !! k = None /\
  exists v, ref_props before s2 !! k = Some v /\ s_isreq (cell before v) = true.

(** Where a property of the merged schema comes from: the first of the schema itself, the merged
    one, and the schema the merged one refers to. *)
Definition origin (h : heap) (s : nat) (s2 : sch) (k : string) : option nat :=
  match props h (cell h s) !! k, props h s2 !! k with
  | Some p, _ => Some p
  | None, Some p => Some p
  | None, None => ref_props h s2 !! k
  end.
(** A field is mandatory when its parent requires it or its own flag says so (helpers.go:130,
    isFieldPointer: anything else becomes a pointer). *)
Definition mandatory (h : heap) (c : sch) (k : string) : Prop :=
  k ∈ s_required c \/ exists p, props h c !! k = Some p /\ s_isreq (cell h p) = true.
