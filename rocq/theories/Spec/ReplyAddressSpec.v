(** The field that holds the address of a reply. *)
From stdpp Require Import gmap list strings.
From Coq Require Import Ascii String.
From Verif.Model Require Import Schema Location Message.
From Verif.Spec Require Import SchemaSpec LocationSpec.
Local Open Scope string_scope.

Definition has_part (header : bool) (c : msg) (root : nat) : Prop := (if header then p_headers (m_parts c) else p_payload (m_parts c)) = Some root.
(** The schema itself, or the one it refers to. *)
Inductive stands_for (h : heap) (root : nat) : nat -> Prop :=
| stands_itself : s_refto (cell h root) = None -> stands_for h root root
| stands_other r : s_refto (cell h root) = Some r -> stands_for h root r.
(** [parent] holds the field at [path] (last name included) of message [m]. *)
Definition holder (d : doc) (m : nat) (header : bool) (path : list string) (parent : nat) : Prop :=
  exists root top ks k, has_part header (message d m) root /\ stands_for (d_heap d) root top /\ path = (ks ++ [k])%list /\ reaches (d_heap d) top ks parent.
Definition field_exists (d : doc) (m : nat) (header : bool) (path : list string) : Prop :=
  exists parent ks k x, path = (ks ++ [k])%list /\ holder d m header path parent /\ props (d_heap d) (cell (d_heap d) parent) !! k = Some x.
Definition field_required (d : doc) (m : nat) (header : bool) (path : list string) : Prop :=
  exists parent ks k, path = (ks ++ [k])%list /\ holder d m header path parent /\ k ∈ s_required (cell (d_heap d) parent).
