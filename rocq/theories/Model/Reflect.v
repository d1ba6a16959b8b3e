(** Searching a field in a nested structure: pkg/utils/reflect.go. *)
From stdpp Require Import list strings.
From Coq Require Import String.
Local Open Scope string_scope.

(** Go values as [reflect] shows them: structures, pointers (possibly nil) and everything else
    (basic values, slices, maps, interfaces, the invalid value), the latter told apart by a number.
    Simplification: values are finite trees; a value that contains a pointer to itself is not
    represented (the search would not end on it). *)
Inductive visibility := Exported | Hidden | HiddenEmbedded.
Inductive gval :=
| GStruct (fs : list (string * visibility * gval))
| GPtr (p : option gval)
| GOther (n : nat).
Notation gfield := (string * visibility * gval)%type.

(** What the search gives; [OutOfFuel] is an artefact of the model. *)
Inductive answer := Says (b : bool) | Panics | OutOfFuel.

Section Search.
  (** [probe v]: the type assertion to T on what [Interface()] gives for [v], and the comparison with
      the expected value: [None] if [v] is not of type T, otherwise whether they are equal. *)
  Context (probe : gval -> option bool) (name : string).

  (** reflect.go:13-15 *)
  Fixpoint deref (v : gval) : gval :=
    match v with GPtr (Some w) => deref w | _ => v end.

  (** An element of the queue: a value, with what package reflect calls flagStickyRO, that is, whether
      it was reached through an unexported field that is not embedded. *)
  Notation item := (bool * gval)%type.
  Definition sticky (st : bool) (vis : visibility) : bool :=
    match vis with Hidden => true | _ => st end.
  (** [Interface()] panics on a value reached through an unexported field. *)
  Definition readonly (st : bool) (vis : visibility) : bool :=
    match vis with Exported => st | _ => true end.

  (** reflect.go:23-33: the loop over the fields; either an answer or the new queue. *)
  Fixpoint scan (st : bool) (fs : list gfield) (queue : list item) : answer + list item :=
    match fs with
    | [] => inr queue
    | (n, vis, w) :: r =>
        let go := scan st r (queue ++ [(sticky st vis, w)])%list in
        if String.eqb n name then
          if readonly st vis then inl Panics
          else match probe w with
               | Some b => inl (Says b)
               | None => go
               end
        else go
    end.

  (** reflect.go:8-35: the loop over the queue. *)
  Fixpoint loop (fuel : nat) (queue : list item) : answer :=
    match fuel with
    | 0 => OutOfFuel
    | S fuel =>
        match queue with
        | [] => Says false
        | (st, v) :: q =>
            match deref v with
            | GStruct fs => match scan st fs q with inl a => a | inr q' => loop fuel q' end
            | _ => loop fuel q
            end
        end
    end.
  Definition field_value_exists (fuel : nat) (v : gval) : answer := loop fuel [(false, v)].
End Search.
