(** Chains of references and priorities. *)
From stdpp Require Import gmap list strings.
From Coq Require Import Ascii String.
From Verif.Model Require Import Schema Location Message.
Local Open Scope string_scope.

(** [n] references lead from [m] to [x], which is a definition: it refers to nothing. *)
Inductive chain (refs : nat -> option nat) : nat -> nat -> nat -> Prop :=
| chain_end x : refs x = None -> chain refs 0 x x
| chain_step n m r x : refs m = Some r -> chain refs n r x -> chain refs (S n) m x.

(** The first value that is set, in order of priority. *)
Inductive first_set {A} (unset : A) : list A -> A -> Prop :=
| first_none : first_set unset [] unset
| first_here x l : x <> unset -> first_set unset (x :: l) x
| first_later l y : first_set unset l y -> first_set unset (unset :: l) y.

(** A message written in place, with a payload and nothing else. *)
Record plain_message (c : msg) (p : nat) : Prop := {
  pm_payload : p_payload (m_parts c) = Some p;
  pm_headers : p_headers (m_parts c) = None;
  pm_oneof : m_oneof c = [];
  pm_traits : m_traits c = [];
  pm_ref : m_ref c = "";
}.
