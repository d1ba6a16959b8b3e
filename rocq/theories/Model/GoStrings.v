(** The functions of Go's strings package used by the models of references and locations. *)
From stdpp Require Import list strings.
From Coq Require Import Ascii String.
Local Open Scope string_scope.

(** strings.Split(s, sep) for a one-byte separator. *)
Fixpoint split (sep : ascii) (s : string) : list string :=
  match s with
  | "" => [""]
  | String c r =>
      if Ascii.eqb c sep then "" :: split sep r
      else match split sep r with
           | x :: xs => String c x :: xs
           | [] => [String c ""]
           end
  end.

(** [s] without the prefix [p], if it has it. *)
Fixpoint strip_prefix (p s : string) : option string :=
  match p, s with
  | "", _ => Some s
  | String a p', String b s' => if Ascii.eqb a b then strip_prefix p' s' else None
  | _, "" => None
  end.

(** strings.TrimPrefix, strings.HasPrefix. *)
Definition trim_prefix (p s : string) : string := default s (strip_prefix p s).
Definition has_prefix (p s : string) : bool := if strip_prefix p s then true else false.
