(** What users expect from a middleware chain, independently of how it is wired. *)
From Coq Require Import List.
From Verif.Model Require Import Middleware.
Import ListNotations.

Section Spec.
  Context {C M E : Type}.
  Implicit Types p : mwprog C M E.

  Definition is_op (ev : event C M) : bool := match ev with EOp _ _ => true | _ => false end.
  Definition stage (ev : event C M) : option nat :=
    match ev with EStart i _ _ => Some i | EOp _ _ => None end.

  (** Events of one message through [n] middlewares: stages 0,1,…,k-1, then possibly the
      operation, the latter only when all [n] stages have started. *)
  Definition in_order (n : nat) (tr : list (event C M)) : Prop :=
    exists k, k <= n /\
      (map stage tr = map Some (seq 0 k) \/
       (k = n /\ map stage tr = map Some (seq 0 n) ++ [None])).

  (** The middleware itself never refuses: it gives an error or panics only after having
      called next. *)
  Fixpoint never_refuses (nexted : bool) p : Prop :=
    match p with
    | MRet None => True
    | MRet (Some _) => nexted = true
    | MPanic => nexted = true
    | MGet k => forall m, never_refuses nexted (k m)
    | MSet _ k => never_refuses nexted k
    | MNext _ k => forall r, never_refuses true (k r)
    end.

  (** As long as next succeeds the middleware succeeds. *)
  Fixpoint succeeds_with_next p : Prop :=
    match p with
    | MRet None => True
    | MRet (Some _) => False
    | MPanic => False
    | MGet k => forall m, succeeds_with_next (k m)
    | MSet _ k => succeeds_with_next k
    | MNext _ k => succeeds_with_next (k (ROk None))
    end.

  (** Refuses with error [e] without calling next. *)
  Fixpoint refuses (e : E) p : Prop :=
    match p with
    | MRet (Some e') => e' = e
    | MRet None => False
    | MPanic => False
    | MGet k => forall m, refuses e (k m)
    | MSet _ k => refuses e k
    | MNext _ _ => False
    end.

  (** Does not use next and does not interrupt, or ends with [return next(ctx)]. *)
  Fixpoint delegates p : Prop :=
    match p with
    | MRet None => True
    | MRet (Some _) => False
    | MPanic => False
    | MGet k => forall m, delegates (k m)
    | MSet _ k => delegates k
    | MNext _ k => (forall e, k (ROk e) = MRet e) /\ k RPanic = MPanic
    end.

  (** Passes failures on: once next gave an error or panicked, the middleware gives an error (this one or another) or panics. *)
  Definition fails (r : result E) : bool := match r with ROk None => false | _ => true end.
  Fixpoint passes_on (failed : bool) p : Prop :=
    match p with
    | MRet None => failed = false
    | MRet (Some _) | MPanic => True
    | MGet k => forall m, passes_on failed (k m)
    | MSet _ k => passes_on failed k
    | MNext _ k => forall r, passes_on (failed || fails r) (k r)
    end.

  (** The event of a chain, seen when one more middleware stands in front of it. *)
  Definition shift (ev : event C M) : event C M :=
    match ev with EStart i c m => EStart (S i) c m | EOp c m => EOp c m end.
  (** The outcome without the panic. *)
  Definition recovered (r : result E) : result E :=
    match r with ROk e => ROk e | RPanic => ROk None end.
End Spec.
