(** Expected observable history of the processing of one message. *)
From Coq Require Import List.
From Verif.Model Require Import Ack Middleware Listener.
Import ListNotations.

Section Spec.
  Context {C E D : Type}.

  Definition is_told (ev : lev C E D) : bool :=
    match ev with LTold _ => true | _ => false end.
  Definition is_handler (ev : lev C E D) : bool :=
    match ev with LHandler _ => true | _ => false end.
  Definition is_callback (ev : lev C E D) : bool :=
    match ev with LCallback _ _ => true | _ => false end.

  (** What should happen for a message whose decoding gives [dec], the callback (called with
      context [cx d]) answering as [fn], and the error handler settling with [own e]
      (usually nothing): success is acknowledged; a failure goes to the error handler and is then
      negatively acknowledged, unless the error handler settled the message itself. *)
  Definition expected (dec : D + E) (cx : D -> C) (fn : C -> D -> option E)
             (own : E -> list settle) : list (lev C E D) :=
    match dec with
    | inr e => [LHandler e; LTold (hd SNak (own e))]
    | inl d =>
        match fn (cx d) d with
        | None => [LCallback (cx d) d; LTold SAck]
        | Some e => [LCallback (cx d) d; LHandler e; LTold (hd SNak (own e))]
        end
    end.
End Spec.

(** The messages [q] are handled one after the other, in order, each with [one] as if it were alone; nothing is left unless [one] says that the
    program ended. *)
Section Handled.
  Context {M R : Type}.
  Variable one : M -> R * bool.
  Inductive handled : list M -> list R -> option (list M) -> Prop :=
  | H_none : handled [] [] None
  | H_one m q r rs rest : one m = (r, false) -> handled q rs rest -> handled (m :: q) (r :: rs) rest
  | H_ended m q r : one m = (r, true) -> handled (m :: q) [r] (Some q).
End Handled.
