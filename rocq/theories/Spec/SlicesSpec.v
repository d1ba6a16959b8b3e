(** The first occurrences of the keys of a list. *)
From stdpp Require Import list.

(** [kept] are the elements of [l] whose key does not occur earlier in [l], in order. *)
Inductive first_occurrences {A K} (key : A -> K) : list A -> list A -> Prop :=
| fo_nil : first_occurrences key [] []
| fo_new l kept x : first_occurrences key l kept -> key x ∉ key <$> l -> first_occurrences key (l ++ [x]) (kept ++ [x])
| fo_old l kept x : first_occurrences key l kept -> key x ∈ key <$> l -> first_occurrences key (l ++ [x]) kept.
