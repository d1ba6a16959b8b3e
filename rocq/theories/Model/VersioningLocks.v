(** The version wrapper at mutex level: one broker subscription (one channel) of a wrapper, its
    listener goroutine, and any number of goroutines subscribing or cancelling.

    Modelled code: pkg/extensions/versioning/wrapper.go:90-121 (Subscribe),
    broker_subscription.go:33-50 (createVersionListener), 52-74 (removeVersionListener),
    76-123 (launchListener). A schedule is a list of [lop]; each one executes the next line of
    one goroutine. sync.Mutex is not re-entrant: Lock blocks while anybody (including the same
    goroutine) holds it. Simplifications: the broker subscription exists all along (the
    cancellation of the last version is not followed by a re-creation), sending to a version's
    queue and the broker's own Cancel do not block. *)
From stdpp Require Import gmap strings.

Inductive tid := TListener | TSub (i : nat) | TRem (i : nat).

(** Listener: waiting for a message; about to lock (102); holding the lock (105);
    sending outside of the lock (120). *)
Inductive lpc := LIdle | LWant (v : string) | LGot (v : string) | LSend (v : string).
(** Subscriber i: not started; before 103; holding channelsMutex and before
    createVersionListener's lock (broker_subscription.go:35); in the critical section;
    versionsMutex released; done. [other] means that it subscribes to another channel and so
    does not need this channel's versionsMutex. *)
Inductive spc := SIdle | SWantC (v : string) (other : bool) | SWantV (v : string) | SIn (v : string)
               | SOut | SDone.
(** Remover i (clean-up of a version subscription): before 54; version deleted, before 61;
    holding both; done. *)
Inductive rpc := RIdle | RWantV (v : string) | RWantC (v : string) | RIn | RDone.

Record lk := mkLk {
  vm : option tid;           (* holder of versionsMutex *)
  cm : option tid;           (* holder of channelsMutex *)
  vers : gset string;        (* registered versions *)
  lst : lpc;
  subs : nat -> spc;
  rems : nat -> rpc;
  delivered : list string    (* versions messages were sent to, oldest first *)
}.

Definition updf {A} (f : nat -> A) (i : nat) (a : A) : nat -> A :=
  fun j => if Nat.eqb j i then a else f j.

Inductive lop :=
| AMsg (v : string)                        (* the listener receives a message for version v *)
| AListener
| ASubscribe (i : nat) (v : string) (other : bool)   (* goroutine i calls Subscribe *)
| ASub (i : nat)
| ARemove (i : nat) (v : string)           (* clean-up goroutine i starts *)
| ARem (i : nat).

Definition lstep (s : lk) (o : lop) : lk :=
  match o with
  | AMsg v =>
      match lst s with
      | LIdle => mkLk (vm s) (cm s) (vers s) (LWant v) (subs s) (rems s) (delivered s)
      | _ => s
      end
  | AListener =>
      match lst s with
      | LWant v =>
          match vm s with
          | None => mkLk (Some TListener) (cm s) (vers s) (LGot v) (subs s) (rems s) (delivered s)
          | Some _ => s
          end
      | LGot v =>
          if decide (v ∈ vers s)
          then mkLk None (cm s) (vers s) (LSend v) (subs s) (rems s) (delivered s)
          else (* 106-113: continue, lock kept *)
            mkLk (vm s) (cm s) (vers s) LIdle (subs s) (rems s) (delivered s)
      | LSend v => mkLk (vm s) (cm s) (vers s) LIdle (subs s) (rems s) (delivered s ++ [v])
      | LIdle => s
      end
  | ASubscribe i v other =>
      match subs s i with
      | SIdle => mkLk (vm s) (cm s) (vers s) (lst s) (updf (subs s) i (SWantC v other)) (rems s) (delivered s)
      | _ => s
      end
  | ASub i =>
      match subs s i with
      | SWantC v other =>
          match cm s with
          | None => mkLk (vm s) (Some (TSub i)) (vers s) (lst s)
                         (updf (subs s) i (if other then SOut else SWantV v)) (rems s) (delivered s)
          | Some _ => s
          end
      | SWantV v =>
          match vm s with
          | None => mkLk (Some (TSub i)) (cm s) (vers s) (lst s) (updf (subs s) i (SIn v)) (rems s) (delivered s)
          | Some _ => s
          end
      | SIn v => mkLk None (cm s) ({[v]} ∪ vers s) (lst s) (updf (subs s) i SOut) (rems s) (delivered s)
      | SOut => mkLk (vm s) None (vers s) (lst s) (updf (subs s) i SDone) (rems s) (delivered s)
      | SIdle | SDone => s
      end
  | ARemove i v =>
      match rems s i with
      | RIdle => mkLk (vm s) (cm s) (vers s) (lst s) (subs s) (updf (rems s) i (RWantV v)) (delivered s)
      | _ => s
      end
  | ARem i =>
      match rems s i with
      | RWantV v =>
          match vm s with
          | None => mkLk (Some (TRem i)) (cm s) (vers s ∖ {[v]}) (lst s) (subs s)
                         (updf (rems s) i (RWantC v)) (delivered s)
          | Some _ => s
          end
      | RWantC v =>
          match cm s with
          | None => mkLk (vm s) (Some (TRem i)) (vers s) (lst s) (subs s) (updf (rems s) i RIn) (delivered s)
          | Some _ => s
          end
      | RIn => mkLk None None (vers s) (lst s) (subs s) (updf (rems s) i RDone) (delivered s)
      | RIdle | RDone => s
      end
  end.

(** A channel on which the versions [vs] are subscribed. *)
Definition linit (vs : gset string) : lk :=
  mkLk None None vs LIdle (fun _ => SIdle) (fun _ => RIdle) [].

Definition lrun (os : list lop) (s : lk) : lk := fold_left lstep os s.
