(** C01-C06: acknowledgements, middleware chains, processing of a received message. *)
From Coq Require Import List Arith.
From Verif.Model Require Import Ack Middleware Listener.
From Verif.Spec Require Import MiddlewareSpec ListenerSpec DurableSpec.
From Verif.Proof Require Import AckProof MiddlewareProof ListenerProof DurableProof.
Import ListNotations.

(** C01. The broker is told exactly the kind of the first call, once. *)
Theorem C01_settled_once (ks : list settle) :
  told (do_settles ks ack_new) = match ks with [] => [] | k :: _ => [k] end.
Proof. exact (settles_told ks). Qed.
Print Assumptions C01_settled_once.

Example C01_example : told (do_settles [SNak; SAck; SNak] ack_new) = [SNak].
Proof. reflexivity. Qed.

(** C02. Whatever the middlewares do, stages start in order, each at most once, and the
    operation at most once after all of them. *)
Theorem C02_stages_in_order {C M E X} (mws : list (middleware C M E))
        (cb : option (operation C M E X)) c m x :
  in_order (length mws) (trace (fst (execute mws cb c m x))).
Proof. exact (execute_in_order mws cb c m x). Qed.
Print Assumptions C02_stages_in_order.

(** A middleware calling next three times, another one failing after the operation. *)
Definition thrice : middleware nat nat nat :=
  fun c => MNext c (fun _ => MNext (c + 1) (fun _ => MNext c (fun r =>
    match r with ROk e => MRet e | RPanic => MPanic end))).
Definition late_failure : middleware nat nat nat :=
  fun c => MSet 7 (MNext c (fun _ => MRet (Some 3))).
Example C02_example :
  trace (fst (execute [thrice; late_failure; logging] (Some (fun _ m x => (m, x + m, ROk None))) 0 5 1))
  = [EStart 0 0 5; EStart 1 0 5; EStart 2 0 7; EOp 0 7].
Proof. reflexivity. Qed.

(** C03. If no middleware refuses, all stages and then the operation run, exactly once. *)
Theorem C03_operation_runs {C M E X} (mws : list (middleware C M E))
        (op : operation C M E X) c m x :
  (forall mw, In mw mws -> forall c, never_refuses false (mw c)) ->
  length (filter is_op (trace (fst (execute mws (Some op) c m x)))) = 1 /\
  map stage (trace (fst (execute mws (Some op) c m x))) =
    map Some (seq 0 (length mws)) ++ [None].
Proof. exact (execute_runs_once op mws c m x). Qed.
Print Assumptions C03_operation_runs.

(** C03. If moreover nothing fails, the chain reports no error. *)
Theorem C03_success {C M E X} (mws : list (middleware C M E)) (cb : option (operation C M E X)) c m x :
  (forall op, cb = Some op -> forall c m x, snd (op c m x) = ROk None) ->
  (forall mw, In mw mws -> forall c, succeeds_with_next (mw c)) ->
  snd (execute mws cb c m x) = ROk None.
Proof. exact (fun Hop Hs => wrap_success cb mws Hop Hs 0 c _). Qed.
Print Assumptions C03_success.

Example C03_example :
  (forall mw, In mw [thrice; logging; recovery] -> forall c, never_refuses false (mw c)) /\
  (forall mw, In mw [thrice; logging; recovery] -> forall c, succeeds_with_next (mw c)).
Proof.
  split; intros mw [<-|[<-|[<-|[]]]] c; cbn; auto; intros; repeat destruct r as [[]|]; cbn; auto;
    destruct r1 as [[]|]; cbn; auto.
Qed.

(** C04. A refusing middleware blocks everything after it, whatever comes before. *)
Theorem C04_refusal_blocks {C M E X} (pre : list (middleware C M E)) bad post
        (cb : option (operation C M E X)) e c m x :
  (forall c, refuses e (bad c)) ->
  exists k, k <= S (length pre) /\
    map stage (trace (fst (execute (pre ++ bad :: post) cb c m x))) = map Some (seq 0 k).
Proof. exact (execute_refused cb pre bad post e c m x). Qed.
Print Assumptions C04_refusal_blocks.

(** C04. When the middlewares before it delegate, its error is the result. *)
Theorem C04_refusal_reported {C M E X} (pre : list (middleware C M E)) bad post
        (cb : option (operation C M E X)) e c m x :
  (forall mw, In mw pre -> forall c, delegates (mw c)) ->
  (forall c, refuses e (bad c)) ->
  let '(s, r) := execute (pre ++ bad :: post) cb c m x in
  r = ROk (Some e) /\ ext s = x /\
  map stage (trace s) = map Some (seq 0 (S (length pre))).
Proof. exact (execute_refused_result cb pre bad post e c m x). Qed.
Print Assumptions C04_refusal_reported.

Definition pass : middleware nat nat nat :=
  fun c => MNext c (fun r => match r with ROk e => MRet e | RPanic => MPanic end).
Definition deny : middleware nat nat nat := fun c => MGet (fun m => MRet (Some 9)).
Example C04_example :
  (forall mw, In mw [pass; logging] -> forall c, delegates (mw c)) /\
  (forall c, refuses 9 (deny c)) /\
  execute [pass; logging; deny; pass] (Some (fun _ m x => (m, S x, ROk None))) 0 5 1
  = (mkMst 5 [true; true; true; false; false] 1 [EStart 0 0 5; EStart 1 0 5; EStart 2 0 5], ROk (Some 9)).
Proof.
  split; [|split; [cbn; auto|reflexivity]].
  intros mw [<-|[<-|[]]] c; cbn; auto.
Qed.

(** C05 is false in general: the Recovery middleware of the library turns a panicking
    operation into a success. *)
Theorem C05_failure_reported_refuted :
  exists (mws : list (middleware nat nat nat)) (op : operation nat nat nat nat) c m x,
    (forall c m x, snd (op c m x) = RPanic) /\
    length (filter is_op (trace (fst (execute mws (Some op) c m x)))) = 1 /\
    snd (execute mws (Some op) c m x) = ROk None.
Proof.
  exact (ex_intro _ [recovery] (ex_intro _ (fun _ m x => (m, x, RPanic))
    (ex_intro _ 0 (ex_intro _ 0 (ex_intro _ 0
      (conj (fun _ _ _ => eq_refl) (conj eq_refl eq_refl))))))).
Qed.
Print Assumptions C05_failure_reported_refuted.

(** C05 also fails when a middleware calls next and drops its error. *)
Theorem C05_failure_dropped_refuted :
  exists (mws : list (middleware nat nat nat)) (op : operation nat nat nat nat) c m x,
    (forall c m x, snd (op c m x) = ROk (Some 1)) /\
    length (filter is_op (trace (fst (execute mws (Some op) c m x)))) = 1 /\
    snd (execute mws (Some op) c m x) = ROk None.
Proof.
  exact (ex_intro _ [fun c => MNext c (fun _ => MRet None)]
    (ex_intro _ (fun _ m x => (m, x, ROk (Some 1)))
    (ex_intro _ 0 (ex_intro _ 0 (ex_intro _ 0
      (conj (fun _ _ _ => eq_refl) (conj eq_refl eq_refl))))))).
Qed.
Print Assumptions C05_failure_dropped_refuted.

(** C05, true part: with delegating middlewares the chain's result and effect are exactly those
    of the operation (missing: middlewares that inspect the result of next). *)
Theorem C05_failure_reported_partial {C M E X} (mws : list (middleware C M E))
        (op : operation C M E X) c m x :
  (forall mw, In mw mws -> forall c, delegates (mw c)) ->
  exists c' m',
    snd (execute mws (Some op) c m x) = snd (op c' m' x) /\
    ext (fst (execute mws (Some op) c m x)) = snd (fst (op c' m' x)) /\
    (exists tr, trace (fst (execute mws (Some op) c m x)) = tr ++ [EOp c' m'] /\
                map stage tr = map Some (seq 0 (length mws))).
Proof. exact (execute_delegates op mws c m x). Qed.
Print Assumptions C05_failure_reported_partial.

Example C05_example :
  (forall mw, In mw [pass; logging; pass] -> forall c, delegates (mw c)) /\
  snd (execute [pass; logging; pass] (Some (fun _ m x => (m, S x, ROk (Some 4)))) 0 5 1)
  = ROk (Some 4).
Proof. split; [intros mw [<-|[<-|[<-|[]]]] c; cbn; auto|reflexivity]. Qed.

(** C05 for all middlewares that pass failures on, wrapping the error or not: a chain that reports no error has run the operation, and it
    succeeded; its effect is the one of the chain. *)
Theorem C05_passed_on {C M E X} (mws : list (middleware C M E)) (op : operation C M E X) c m x :
  (forall mw, In mw mws -> forall c, passes_on false (mw c)) ->
  snd (execute mws (Some op) c m x) = ROk None ->
  exists c' m', snd (op c' m' x) = ROk None /\ ext (fst (execute mws (Some op) c m x)) = snd (fst (op c' m' x)) /\
    In (EOp c' m') (trace (fst (execute mws (Some op) c m x))).
Proof. exact (execute_passes op mws c m x). Qed.
Print Assumptions C05_passed_on.

(** One that wraps the error, one that calls next again after a failure, and one that turns panics into errors. *)
Definition wrapping : middleware nat nat nat :=
  fun c => MNext c (fun r => match r with ROk (Some e) => MRet (Some (100 + e)) | ROk None => MRet None | RPanic => MPanic end).
Definition trying_again : middleware nat nat nat :=
  fun c => MNext c (fun r => match r with ROk None => MRet None | ROk (Some e) => MNext c (fun _ => MRet (Some e)) | RPanic => MRet (Some 500) end).
Example C05_passed_on_example :
  (forall mw, In mw [wrapping; logging; trying_again] -> forall c, passes_on false (mw c)) /\
  snd (execute [wrapping; logging; trying_again] (Some (fun _ m x => (m, S x, ROk None))) 0 5 1) = ROk None /\
  snd (execute [wrapping; logging; trying_again] (Some (fun _ m x => (m, S x, ROk (Some 4)))) 0 5 1) = ROk (Some 104).
Proof.
  split; [|split; reflexivity]. intros mw [<-|[<-|[<-|[]]]] c; cbn; auto; intros [[e|]|]; cbn; auto.
Qed.

(** C06: at most one settlement, whatever middlewares, callback and error handler do. *)
Theorem C06_settled_at_most_once {C M E D} (decode : M -> D + E) addctx fn handler
        (mws : list (middleware C M E)) c m :
  length (filter is_told (llog (fst (fst (process decode addctx fn handler mws c m))))) <= 1.
Proof. exact (process_at_most_once decode addctx fn handler mws c m). Qed.
Print Assumptions C06_settled_at_most_once.

(** C06: a message is acknowledged only after a call of the callback that succeeded, or when the error handler did it, whatever the
    middlewares do. *)
Theorem C06_acknowledged {C M E D} (decode : M -> D + E) addctx fn handler (mws : list (middleware C M E)) c m :
  let x := fst (fst (process decode addctx fn handler mws c m)) in
  In (LTold SAck) (llog x) ->
  (exists c d, In (LCallback c d) (llog x) /\ fn c d = ROk None) \/ (exists e, In (LHandler e) (llog x) /\ In SAck (fst (handler e))).
Proof. exact (process_approved decode addctx fn handler mws c m). Qed.
Print Assumptions C06_acknowledged.

(** C06: whenever the error handler ran (and nothing panicked) the message got settled. *)
Theorem C06_handled_then_settled {C M E D} (decode : M -> D + E) addctx fn handler
        (mws : list (middleware C M E)) c m x tr :
  process decode addctx fn handler mws c m = (x, tr, false) ->
  filter is_handler (llog x) <> [] ->
  length (filter is_told (llog x)) = 1.
Proof. exact (process_handler_settled decode addctx fn handler mws c m x tr). Qed.
Print Assumptions C06_handled_then_settled.

(** C06 with delegating middlewares and no panic: the complete observable history is the
    expected one (missing for the full claim: middlewares swallowing failures, panics). *)
Theorem C06_settled_exactly_once_partial {C M E D} (decode : M -> D + E) addctx
        (fn : C -> D -> option E) (own : E -> list settle) (mws : list (middleware C M E)) c m :
  (forall mw, In mw mws -> forall c, delegates (mw c)) ->
  let '(x, tr, pan) :=
    process decode addctx (fun c d => ROk (fn c d)) (fun e => (own e, false)) mws c m in
  pan = false /\
  exists c' m' tr0,
    tr = tr0 ++ [EOp c' m'] /\ map stage tr0 = map Some (seq 0 (length mws)) /\
    llog x = expected (decode m') (fun d => addctx d c') fn own.
Proof. exact (process_delegating decode addctx fn own mws c m). Qed.
Print Assumptions C06_settled_exactly_once_partial.

(** C06 for all middlewares that pass failures on: unless something panicked, the message is settled exactly once. *)
Theorem C06_passed_on {C M E D} (decode : M -> D + E) addctx fn handler (mws : list (middleware C M E)) c m x tr :
  (forall mw, In mw mws -> forall c, passes_on false (mw c)) ->
  process decode addctx fn handler mws c m = (x, tr, false) ->
  length (filter is_told (llog x)) = 1.
Proof. exact (process_passes decode addctx fn handler mws c m x tr). Qed.
Print Assumptions C06_passed_on.

Example C06_passed_on_example :
  map (fun fn : nat -> nat -> result nat =>
         llog (fst (fst (process (@inl nat nat) (fun _ c => c) fn (fun _ => ([], false)) [wrapping; logging; trying_again] 0 3))))
      [fun _ _ => ROk None; fun _ _ => ROk (Some 4); fun _ _ => RPanic]
  = [[LCallback 0 3; LTold SAck]; [LCallback 0 3; LHandler 104; LTold SNak]; [LCallback 0 3; LHandler 600; LTold SNak]].
Proof. reflexivity. Qed.

(** C06: a refused message never reaches the callback; it is handled and settled. *)
Theorem C06_refused_is_settled {C M E D} (decode : M -> D + E) addctx fn (own : E -> list settle)
        (pre : list (middleware C M E)) bad post e c m :
  (forall mw, In mw pre -> forall c, delegates (mw c)) ->
  (forall c, refuses e (bad c)) ->
  let '(x, tr, pan) :=
    process (D:=D) decode addctx fn (fun e => (own e, false)) (pre ++ bad :: post) c m in
  pan = false /\ llog x = [LHandler e; LTold (hd SNak (own e))] /\
  map stage tr = map Some (seq 0 (S (length pre))).
Proof. exact (process_refused decode addctx fn own pre bad post e c m). Qed.
Print Assumptions C06_refused_is_settled.

Example C06_example :
  let dec m := if Nat.even m then inl (m / 2) else inr 99 in
  let cb (_ d : nat) := if Nat.ltb d 5 then @None nat else Some d in
  map (fun m => llog (fst (fst (process dec (fun _ c => c) (fun c d => ROk (cb c d))
                            (fun _ => ([], false)) [pass; logging] 0 m)))) [4; 20; 3]
  = [[LCallback 0 2; LTold SAck];
     [LCallback 0 10; LHandler 10; LTold SNak];
     [LHandler 99; LTold SNak]].
Proof. reflexivity. Qed.

(** C06 is false in general: with the Recovery middleware and a panicking callback the message
    is neither acknowledged nor negatively acknowledged, the handler is not called, and
    the subscriber goes on. *)
Theorem C06_settled_exactly_once_refuted :
  exists (mws : list (middleware nat nat nat)) (fn : nat -> nat -> result nat) m,
    mws = [recovery] /\
    let '(x, tr, pan) := process (@inl nat nat) (fun _ c => c) fn (fun _ => ([], false)) mws 0 m in
    pan = false /\ filter is_told (llog x) = [] /\ filter is_handler (llog x) = [].
Proof.
  exact (ex_intro _ [recovery] (ex_intro _ (fun _ _ => RPanic) (ex_intro _ 0
    (conj eq_refl (conj eq_refl (conj eq_refl eq_refl)))))).
Qed.
Print Assumptions C06_settled_exactly_once_refuted.
