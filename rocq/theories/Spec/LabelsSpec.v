(** What merging the labels of a message or operation with those of its traits should give. *)
From stdpp Require Import list.
From Verif.Spec Require Import SlicesSpec.

(** The labels that the document declares, without those already met: those of the message or operation, then those of each trait. *)
Definition merged {A} (own : list A) (traits : list (list A)) (kept : list A) : Prop :=
  first_occurrences id (own ++ concat traits) kept.
