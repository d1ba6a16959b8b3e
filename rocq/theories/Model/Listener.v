(** Reception of one message by a generated subscriber.
    Modelled code: pkg/codegen/generators/v3/templates/controller.tmpl:173-186, 195-249
    (v2/templates/controller.tmpl:167-180, 189-243 are the same). *)
From Coq Require Import List.
From Verif.Model Require Import Ack Middleware.
Import ListNotations.

Section Listener.
  Context {C M E D : Type}.
  (** [D]: decoded messages. *)

  (** What can be observed from outside while a message is processed, besides middleware events:
      user callback invoked with a decoded message; error handler invoked with an error;
      the broker told that the message is settled. *)
  Inductive lev := LCallback (c : C) (d : D) | LHandler (e : E) | LTold (k : settle).

  (** External state: acknowledgement state of the message, observable events. *)
  Record lst := mkLst { lack : ackst; llog : list lev }.

  Definition log1 (ev : lev) (x : lst) : lst := mkLst (lack x) (llog x ++ [ev]).

  (** pkg/extensions/broker.go:120-134 on the message, recording the call made to the broker
      (the calls appended to [told] by [do_settle]). *)
  Definition settle_x (x : lst) (k : settle) : lst :=
    let a' := do_settle k (lack x) in
    mkLst a' (llog x ++ map LTold (skipn (length (told (lack x))) (told a'))).

  Variable decode : M -> D + E.              (** brokerMessageTo… (message.tmpl:54-172), any decoder *)
  Variable addctx : D -> C -> C.             (** 226-231: correlation ID added to the context, if any *)
  Variable fn : C -> D -> result E.          (** user callback, may return an error or panic *)
  (** Error handler (pkg/extensions/errorhandler.go:9): receives a pointer to the message and
      may settle it itself; the boolean says whether it panics afterwards. *)
  Variable handler : E -> list settle * bool.

  (** 219-241: callback passed to executeMiddlewares. *)
  Definition op_callback : operation C M E lst :=
    fun c m x =>
      match decode m with
      | inr e => (m, x, ROk (Some e))
      | inl d =>
          let c' := addctx d c in
          let x1 := log1 (LCallback c' d) x in
          match fn c' d with
          | RPanic => (m, x1, RPanic)
          | ROk (Some e) => (m, x1, ROk (Some e))
          | ROk None => (m, settle_x x1 SAck, ROk None)
          end
      end.

  (** 219-248: processing of a message that was received. The result is the final external
      state, the events of the middleware chain, and whether the goroutine panicked. *)
  Definition process (mws : list (middleware C M E)) (c : C) (m : M)
    : lst * list (event C M) * bool :=
    let '(s, r) := execute mws (Some op_callback) c m (mkLst ack_new []) in
    match r with
    | RPanic => (ext s, trace s, true)
    | ROk None => (ext s, trace s, false)
    | ROk (Some e) =>
        let '(ks, pan) := handler e in
        let x1 := fold_left settle_x ks (log1 (LHandler e) (ext s)) in
        if pan then (x1, trace s, true)
        else (settle_x x1 SNak, trace s, false)
    end.

  Variable uninit : M -> bool.     (** IsUninitialized (pkg/extensions/broker.go:79-81) *)
  Variable zero : M.               (** the zero value of a message *)
  Variable msg_ctx : M -> C.       (** 201-204, 216: a fresh context with the address, the direction and the message *)

  (** 206-216: [open] and [m] come from the receive on the messages channel. [None] means stop. *)
  Definition listen_next (mws : list (middleware C M E)) (open : bool) (m : M)
    : option (lst * list (event C M) * bool) :=
    if (negb open && uninit m)%bool then None else Some (process mws (msg_ctx m) m).

  (** Where the goroutine is: it returned; it waits for a message; a panic ended it (and the program); it runs on without receiving
      anything. *)
  Inductive lend := LStopped | LWaiting | LCrashed | LSpinning.

  (** 173-186 (v2: 167-180): the goroutine, on a messages channel that holds [q] and is closed or not; a receive on a closed and empty
      channel gives the zero value. With what was done for each message. *)
  Fixpoint listen_all (mws : list (middleware C M E)) (q : list M) (closed : bool)
    : list (lst * list (event C M)) * lend :=
    match q with
    | [] =>
        if closed then
          match listen_next mws false zero with
          | None => ([], LStopped)
          | Some (x, tr, pan) => ([(x, tr)], if pan then LCrashed else LSpinning)
          end
        else ([], LWaiting)
    | m :: q' =>
        match listen_next mws true m with
        | None => ([], LStopped)
        | Some (x, tr, true) => ([(x, tr)], LCrashed)
        | Some (x, tr, false) => let '(l, e) := listen_all mws q' closed in ((x, tr) :: l, e)
        end
    end.
End Listener.
Arguments lev : clear implicits.
Arguments lst : clear implicits.
