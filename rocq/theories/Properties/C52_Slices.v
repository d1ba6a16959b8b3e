(** C52: duplicate removal. *)
From stdpp Require Import list strings.
From Coq Require Import String.
From Verif.Model Require Import Slices.
From Verif.Spec Require Import SlicesSpec.
From Verif.Proof Require Import SlicesProof.
Local Open Scope string_scope.

(** Strings, tags and security schemes alike: the kept elements are exactly the first occurrences of
    their keys, in order. *)
Theorem C52_first_occurrences {A K} `{EqDecision K} (key : A -> K) (l kept : list A) :
  dedup_by key l = kept <-> first_occurrences key l kept.
Proof.
  split; [intros <-; apply dedup_first|]. intros H. symmetry. exact (first_unique key l _ _ H (dedup_first key l)).
Qed.
Example C52_first_occurrences_ex :
  remove_duplicate ["b"; "a"; "b"; "c"; "a"] = ["b"; "a"; "c"] /\
  dedup_by fst [("x", 1); ("y", 2); ("x", 3)] = [("x", 1); ("y", 2)].
Proof. split; vm_compute; reflexivity. Qed.

Theorem C52_keys {A K} `{EqDecision K} (key : A -> K) (l : list A) :
  dedup_by key l `sublist_of` l /\ NoDup (key <$> dedup_by key l) /\
  forall k, k ∈ key <$> dedup_by key l <-> k ∈ key <$> l.
Proof.
  pose proof (dedup_first key l) as F. split; [exact (first_sublist key l _ F)|].
  split; [exact (first_nodup key l _ F)|exact (first_keys key l _ F)].
Qed.
Example C52_keys_ex : dedup_by fst [("x", 1); ("y", 2); ("x", 3)] `sublist_of` [("x", 1); ("y", 2); ("x", 3)].
Proof. apply C52_keys. Qed.

Theorem C52_search l x : is_in_slice l x = true <-> x ∈ l.
Proof. exact (is_in_slice_spec l x). Qed.
Example C52_search_ex : is_in_slice ["a"; "b"] "b" = true /\ is_in_slice ["a"; "b"] "c" = false.
Proof. split; reflexivity. Qed.

Print Assumptions C52_first_occurrences.
Print Assumptions C52_keys.
Print Assumptions C52_search.
