(** Duplicate removal.
    Modelled code: pkg/utils/slice.go:4-24, pkg/asyncapi/v3/tag.go:57-75,
    pkg/asyncapi/v3/security_scheme.go:82-102. *)
From stdpp Require Import list strings.
From Coq Require Import String.

Section slices.
  Context {A K : Type} `{EqDecision K}.
  (** The compared part: the element itself for strings, the Name field for tags and schemes. *)
  Variable key : A -> K.

  (** The loops of the three functions: [seen] are the keys kept so far (the map of slice.go, the
      inner loop over the new list in the others). *)
  Fixpoint dedup_from (seen : list K) (l : list A) : list A :=
    match l with
    | [] => []
    | x :: r => if bool_decide (key x ∈ seen) then dedup_from seen r else x :: dedup_from (key x :: seen) r
    end.
  Definition dedup_by (l : list A) : list A := dedup_from [] l.
End slices.

(** utils/slice.go:4-14 on strings *)
Definition remove_duplicate (l : list string) : list string := dedup_by id l.

(** utils/slice.go:17-24 *)
Fixpoint is_in_slice (l : list string) (x : string) : bool :=
  match l with [] => false | y :: r => if String.eqb y x then true else is_in_slice r x end.
