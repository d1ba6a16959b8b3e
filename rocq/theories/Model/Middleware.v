(** Middleware chains of the generated controllers.

    Modelled code: wrapMiddlewares and executeMiddlewares in
    pkg/codegen/generators/v3/templates/controller.tmpl:31-86
    (the v2 template has the same code: v2/templates/controller.tmpl). *)
From Coq Require Import List.
Import ListNotations.

Section Middleware.
  Context {C M E X : Type}.
  (** [C] contexts, [M] broker messages, [E] errors, [X] other state the operation acts on. *)

  (** Outcome of a Go call returning an [error] that may also panic. *)
  Inductive result := ROk (e : option E) | RPanic.

  (** Behaviour of one user supplied middleware once it has been given its context:
      pkg/extensions/middleware.go declares
      [func(ctx, msg *BrokerMessage, next NextMiddleware) error]. It can read and write the
      message through the pointer, call [next] with any context any number of times and
      react to what it returns (including recovering from a panic of [next]), return an
      error (or nil) or panic.
      Simplification: [next] is not used after the middleware returned, nor from another
      goroutine; the middleware always terminates. *)
  Inductive mwprog :=
  | MRet (e : option E)
  | MPanic
  | MGet (k : M -> mwprog)
  | MSet (m : M) (k : mwprog)
  | MNext (c : C) (k : result -> mwprog).

  (** A middleware, given the context it is called with. *)
  Local Notation middleware := (C -> mwprog).

  (** Observable events: middleware number [i] starts with this context and message;
      the operation (subscription callback or publication) starts. *)
  Inductive event :=
  | EStart (i : nat) (c : C) (m : M)
  | EOp (c : C) (m : M).

  (** Run-time state of one [executeMiddlewares] call: the message pointed to, the [called]
      variables (one per level, 35: [var called bool]), external state, events so far. *)
  Record mst := mkMst { msg : M; called : list bool; ext : X; trace : list event }.

  (** An operation: callback given to executeMiddlewares. It sees the message as left by the
      middlewares, may change it and the external state. *)
  Definition operation := C -> M -> X -> M * X * result.

  Fixpoint set_nth (i : nat) (l : list bool) : list bool :=
    match l, i with
    | [], _ => []
    | _ :: l', 0 => true :: l'
    | b :: l', S i' => b :: set_nth i' l'
    end.

  Definition mark (i : nat) (s : mst) : mst :=
    mkMst (msg s) (set_nth i (called s)) (ext s) (trace s).
  Definition emit (ev : event) (s : mst) : mst :=
    mkMst (msg s) (called s) (ext s) (trace s ++ [ev]).
  Definition set_msg (m : M) (s : mst) : mst :=
    mkMst m (called s) (ext s) (trace s).

  (** Running the body of a middleware with its [nextWithArgs] (61-63). *)
  Fixpoint run_mw (next : C -> mst -> mst * result) (p : mwprog) (s : mst) : mst * result :=
    match p with
    | MRet e => (s, ROk e)
    | MPanic => (s, RPanic)
    | MGet k => run_mw next (k (msg s)) s
    | MSet m k => run_mw next k (set_msg m s)
    | MNext c k => let '(s', r) := next c s in run_mw next (k r) s'
    end.

  (** controller.tmpl:31-78 [wrapMiddlewares]. [lvl] is the recursion depth, used to find the
      level's own [called] variable.
      - no middleware left (38-49): run the callback if there is one and it was not called;
      - otherwise (57-77): if not called, mark, run the middleware, return its error if any,
        else call next with the context this level was given. *)
  Fixpoint wrap (lvl : nat) (mws : list middleware) (cb : option operation)
           (c : C) (s : mst) : mst * result :=
    match mws with
    | [] =>
        match cb with
        | Some op =>
            if nth lvl (called s) false then (s, ROk None)
            else
              let s1 := emit (EOp c (msg s)) (mark lvl s) in
              let '(m', x', r) := op c (msg s1) (ext s1) in
              (mkMst m' (called s1) x' (trace s1), r)
        | None => (s, ROk None)
        end
    | mw :: rest =>
        if nth lvl (called s) false then (s, ROk None)
        else
          let next := wrap (S lvl) rest cb in
          let s1 := emit (EStart lvl c (msg s)) (mark lvl s) in
          match run_mw next (mw c) s1 with
          | (s2, RPanic) => (s2, RPanic)
          | (s2, ROk (Some e)) => (s2, ROk (Some e))
          | (s2, ROk None) => next c s2
          end
    end.

  (** controller.tmpl:80-86 [executeMiddlewares]: fresh [called] variables for this message. *)
  Definition execute (mws : list middleware) (cb : option operation)
             (c : C) (m : M) (x : X) : mst * result :=
    wrap 0 mws cb c (mkMst m (repeat false (S (length mws))) x []).

  (** pkg/extensions/middlewares/recovery.go:12-24 [Recovery]: calls next; if it panics the
      deferred function recovers and the middleware returns the zero value, nil. *)
  Definition recovery : middleware :=
    fun c => MNext c (fun r => match r with ROk e => MRet e | RPanic => MRet None end).

  (** pkg/extensions/middlewares/logging.go:10-25 and intercepter.go:10-18: neither calls next,
      both return nil (the log/channel output is not represented). *)
  Definition logging : middleware := fun c => MGet (fun _ => MRet None).
End Middleware.
Arguments result : clear implicits.
Arguments mwprog : clear implicits.
Arguments event : clear implicits.
Arguments mst : clear implicits.
Arguments operation : clear implicits.
Notation middleware C M E := (C -> mwprog C M E) (only parsing).
