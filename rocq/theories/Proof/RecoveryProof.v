(** The chain behind a first middleware is the chain without it. *)
From Coq Require Import List Arith Lia.
From Verif.Model Require Import Middleware.
From Verif.Spec Require Import MiddlewareSpec.
From Verif.Proof Require Import MiddlewareProof.
Import ListNotations.

Section Shift.
  Context {C M E X : Type}.
  Context (b : bool) (pre : list (event C M)).
  Definition shifted (s t : mst C M X) : Prop :=
    msg t = msg s /\ ext t = ext s /\ called t = b :: called s /\ trace t = pre ++ map shift (trace s).

  Lemma shifted_mark i s t : shifted s t -> shifted (mark i s) (mark (S i) t).
  Proof. intros (A & B & D & F). unfold mark, shifted; cbn. rewrite D. cbn. auto. Qed.
  Lemma shifted_emit ev ev' s t : ev' = shift ev -> shifted s t -> shifted (emit ev s) (emit ev' t).
  Proof.
    intros -> (A & B & D & F). unfold emit, shifted; cbn. repeat split; auto.
    rewrite F, map_app, app_assoc. reflexivity.
  Qed.
  Lemma shifted_run (n n' : C -> mst C M X -> mst C M X * result E) :
    (forall c s t, shifted s t -> shifted (fst (n c s)) (fst (n' c t)) /\ snd (n' c t) = snd (n c s)) ->
    forall p s t, shifted s t -> shifted (fst (run_mw n p s)) (fst (run_mw n' p t)) /\ snd (run_mw n' p t) = snd (run_mw n p s).
  Proof.
    intros N p. induction p as [e| |k IH|m k IH|c k IH]; intros s t R; cbn.
    - auto.
    - auto.
    - destruct R as (A & R'). rewrite A. apply IH. split; auto.
    - apply IH. destruct R as (A & B & D & F). unfold set_msg, shifted; cbn. auto.
    - destruct (N c s t R) as [R' E']. destruct (n c s) as [s1 r1], (n' c t) as [t1 r1']. cbn in *. subst r1'. now apply IH.
  Qed.
  Lemma shifted_wrap (mws : list (middleware C M E)) (cb : option (operation C M E X)) lvl c s t : shifted s t ->
    shifted (fst (wrap lvl mws cb c s)) (fst (wrap (S lvl) mws cb c t)) /\
    snd (wrap (S lvl) mws cb c t) = snd (wrap lvl mws cb c s).
  Proof.
    revert lvl c s t. induction mws as [|mw mws IH]; intros lvl c s t R.
    - cbn [wrap]. destruct cb as [op|]; [|auto].
      assert (N : nth (S lvl) (called t) false = nth lvl (called s) false) by (destruct R as (_ & _ & -> & _); reflexivity).
      rewrite N. destruct (nth lvl (called s) false); [auto|].
      assert (R1 : shifted (emit (EOp c (msg s)) (mark lvl s)) (emit (EOp c (msg t)) (mark (S lvl) t))).
      { apply shifted_emit; [destruct R as (-> & _); reflexivity|]. now apply shifted_mark. }
      destruct R1 as (A & B & D & F). rewrite A, B. destruct (op c _ _) as [[m' x'] r]. cbn. repeat split; auto.
    - cbn [wrap].
      assert (N : nth (S lvl) (called t) false = nth lvl (called s) false) by (destruct R as (_ & _ & -> & _); reflexivity).
      rewrite N. destruct (nth lvl (called s) false); [auto|].
      assert (R1 : shifted (emit (EStart lvl c (msg s)) (mark lvl s)) (emit (EStart (S lvl) c (msg t)) (mark (S lvl) t))).
      { apply shifted_emit; [destruct R as (-> & _); reflexivity|]. now apply shifted_mark. }
      destruct (shifted_run (wrap (S lvl) mws cb) (wrap (S (S lvl)) mws cb) (IH (S lvl)) (mw c) _ _ R1) as [R2 E2].
      destruct (run_mw (wrap (S lvl) mws cb) (mw c) _) as [s2 r2], (run_mw (wrap (S (S lvl)) mws cb) (mw c) _) as [t2 r2'].
      cbn in R2, E2. subst r2'. destruct r2 as [[e|]|]; [auto| |auto]. now apply IH.
  Qed.
End Shift.


(** The first middleware of a chain. *)
Lemma execute_cons {C M E X} (mw : middleware C M E) mws (cb : option (operation C M E X)) c m x :
  execute (mw :: mws) cb c m x =
  match run_mw (wrap 1 mws cb) (mw c) (mkMst m (true :: repeat false (S (length mws))) x [EStart 0 c m]) with
  | (s2, RPanic) => (s2, RPanic)
  | (s2, ROk (Some e)) => (s2, ROk (Some e))
  | (s2, ROk None) => wrap 1 mws cb c s2
  end.
Proof. reflexivity. Qed.

Lemma execute_behind {C M E X} (mws : list (middleware C M E)) (cb : option (operation C M E X)) c m x :
  let t := mkMst m (true :: repeat false (S (length mws))) x [EStart 0 c m] in
  let s := fst (execute mws cb c m x) in let s' := fst (wrap 1 mws cb c t) in
  msg s' = msg s /\ ext s' = ext s /\ trace s' = EStart 0 c m :: map shift (trace s) /\
  snd (wrap 1 mws cb c t) = snd (execute mws cb c m x) /\
  forall c2, wrap 1 mws cb c2 s' = (s', ROk None).
Proof.
  intros t s s'.
  destruct (shifted_wrap true [EStart 0 c m] mws cb 0 c (mkMst m (repeat false (S (length mws))) x []) t) as [(A & B & D & F) R].
  { unfold t, shifted; cbn. auto. }
  repeat split; auto. intros c2. apply (wrap_again (S (length mws))); [reflexivity|].
  split; [reflexivity|]. left. split; [lia|reflexivity].
Qed.

Lemma execute_recovery {C M E X} (mws : list (middleware C M E)) (cb : option (operation C M E X)) c m x :
  let s := fst (execute mws cb c m x) in let s' := fst (execute (recovery :: mws) cb c m x) in
  msg s' = msg s /\ ext s' = ext s /\ trace s' = EStart 0 c m :: map shift (trace s) /\
  snd (execute (recovery :: mws) cb c m x) = recovered (snd (execute mws cb c m x)).
Proof.
  pose proof (execute_behind mws cb c m x) as H. cbn zeta in *. destruct H as (A & B & F & R & W).
  rewrite !execute_cons.
  cbn [recovery run_mw]. destruct (wrap 1 mws cb c _) as [s' r] eqn:E1. cbn [fst snd] in *. rewrite <- R.
  destruct r as [[e|]|]; cbn [run_mw recovered]; [auto| |]; rewrite W; auto.
Qed.

Lemma execute_logging {C M E X} (mws : list (middleware C M E)) (cb : option (operation C M E X)) c m x :
  let s := fst (execute mws cb c m x) in let s' := fst (execute (logging :: mws) cb c m x) in
  msg s' = msg s /\ ext s' = ext s /\ trace s' = EStart 0 c m :: map shift (trace s) /\
  snd (execute (logging :: mws) cb c m x) = snd (execute mws cb c m x).
Proof.
  pose proof (execute_behind mws cb c m x) as H. cbn zeta in *. destruct H as (A & B & F & R & W).
  rewrite !execute_cons.
  cbn [logging run_mw]. auto.
Qed.
