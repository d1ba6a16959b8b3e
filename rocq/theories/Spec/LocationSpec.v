(** Paths into a schema, and the location strings writing them. *)
From stdpp Require Import gmap list strings.
From Coq Require Import Ascii String.
From Verif.Model Require Import Schema.
From Verif.Spec Require Import SchemaSpec.
Local Open Scope string_scope.

(** The schema reached from [l] by the named properties. *)
Inductive reaches (h : heap) : nat -> list string -> nat -> Prop :=
| reaches_here l : reaches h l [] l
| reaches_step l k m path x : props h (cell h l) !! k = Some m -> reaches h m path x -> reaches h l (k :: path) x.

(** "$message.header#/a/b" writes header and [a; b]. *)
Fixpoint slashes (path : list string) : string :=
  match path with [] => "" | k :: r => "/" ++ k ++ slashes r end.
Definition location_of (header : bool) (path : list string) : string :=
  (if header then "$message.header#" else "$message.payload#") ++ slashes path.
Definition plain_name (k : string) : Prop := "/"%char ∉ list_ascii_of_string k.

(** Every schema that existed is as it was, except that it may have got properties named in [ks],
    which are new schemas. *)
Definition grown (ks : list string) (h h' : heap) : Prop :=
  forall l, valid h l ->
    valid h' l /\
    (exists p, cell h' l = with_props p (cell h l) /\ (s_props (cell h l) <> None -> p = s_props (cell h l))) /\
    (forall k x, props h (cell h l) !! k = Some x -> props h' (cell h' l) !! k = Some x) /\
    (forall k x, props h' (cell h' l) !! k = Some x ->
       props h (cell h l) !! k = Some x \/ (k ∈ ks /\ ~ valid h x)).
