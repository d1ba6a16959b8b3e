(** The version wrapper, operation by operation.

    Modelled code: pkg/extensions/versioning/wrapper.go:79-135,
    broker_subscription.go:33-123, version_subscription.go:28-38.
    Operations are executed one after the other, each to completion or until it blocks for ever
    on a mutex; the mutex-level interleavings are in VersioningLocks.v. Each subscription's
    message queue is unbounded here (see SubMachine.v for the queue itself). *)
From stdpp Require Import gmap strings.
From Verif.Model Require Import BrokerMessage.

(** wrapper.go:24-33: the configuration part of [Wrapper]. *)
Record wcfg := mkCfg { vkey : string; vdefault : option string }.

(** broker_subscription.go:85-99: the version a received message is for. *)
Definition resolve (cfg : wcfg) (m : bmsg) : option string :=
  match header m (vkey cfg) with
  | Some v => if decide (v = "") then vdefault cfg else Some v
  | None => vdefault cfg
  end.

(** Calls made to the underlying broker, observable. *)
Inductive bev := BSub (ch : string) | BCancel (ch : string).

Record wst := mkW {
  (* wrapper.go:32 channels, with the versions registered in each (broker_subscription.go:16) *)
  chans : gmap string (gset string);
  vstuck : gset string;  (* channels whose versionsMutex is held for ever *)
  wstuck : bool;         (* channelsMutex is held for ever *)
  blog : list bev        (* history of broker calls *)
}.

Definition winit : wst := mkW ∅ ∅ false [].

Inductive wop :=
| VSubscribe (ch : string) (ver : option string) (bok : bool) (* bok: would the broker accept *)
| VCancel (ch ver : string)                       (* Cancel of the subscription (ch,ver) *)
| VMsg (ch : string) (m : bmsg).                  (* the broker has a message on ch *)

Inductive wout :=
| OOk | OErrNoVersion | OErrAlready | OErrBroker
| ONoSuch            (* cancel of a subscription that does not exist: no call happens *)
| ONotReceived       (* the wrapper has no broker subscription on that channel *)
| OUnversioned       (* logged and dropped (broker_subscription.go:94-97) *)
| OUnregistered      (* logged and dropped (106-114) *)
| ODelivered (v : string)
| OHang.             (* the operation blocks for ever *)

(** wrapper.go:90-121 [Subscribe] with createBrokerChannels (123-135) and
    createVersionListener (broker_subscription.go:33-50). *)
Definition w_subscribe (s : wst) (ch : string) (ver : option string) (bok : bool) : wst * wout :=
  match ver with
  | None => (s, OErrNoVersion)
  | Some v =>
      if decide (v = "") then (s, OErrNoVersion)
      else if wstuck s then (s, OHang)                       (* 103 *)
      else match chans s !! ch with
           | None =>
               if bok
               then (mkW (<[ch := {[v]}]> (chans s)) (vstuck s ∖ {[ch]}) (wstuck s)
                         (blog s ++ [BSub ch]), OOk)
               else (s, OErrBroker)
           | Some vs =>
               (* holding channelsMutex, wants versionsMutex *)
               if decide (ch ∈ vstuck s) then (mkW (chans s) (vstuck s) true (blog s), OHang)
               else if decide (v ∈ vs) then (s, OErrAlready)
               else (mkW (<[ch := {[v]} ∪ vs]> (chans s)) (vstuck s) (wstuck s) (blog s), OOk)
           end
  end.

(** Cancel of a version subscription runs removeVersionListener
    (broker_subscription.go:52-74) as clean-up (version_subscription.go:30-37). *)
Definition w_cancel (s : wst) (ch ver : string) : wst * wout :=
  match chans s !! ch with
  | None => (s, ONoSuch)
  | Some vs =>
      if decide (ver ∈ vs) then
        if decide (ch ∈ vstuck s) then (s, OHang)            (* 54 *)
        else
          let vs' := vs ∖ {[ver]} in                         (* 58 *)
          if wstuck s
          then (* holds versionsMutex, blocks at 61 *)
            (mkW (<[ch := vs']> (chans s)) ({[ch]} ∪ vstuck s) true (blog s), OHang)
          else if decide (vs' = ∅)                           (* 65 *)
          then (mkW (delete ch (chans s)) (vstuck s) (wstuck s) (blog s ++ [BCancel ch]), OOk)
          else (mkW (<[ch := vs']> (chans s)) (vstuck s) (wstuck s) (blog s), OOk)
      else (s, ONoSuch)
  end.

(** One iteration of the listener loop (broker_subscription.go:78-121). *)
Definition w_msg (cfg : wcfg) (s : wst) (ch : string) (m : bmsg) : wst * wout :=
  match chans s !! ch with
  | None => (s, ONotReceived)
  | Some vs =>
      match resolve cfg m with
      | None => if decide (ch ∈ vstuck s) then (s, OHang) else (s, OUnversioned)
      | Some v =>
          if decide (ch ∈ vstuck s) then (s, OHang)          (* 102 *)
          else if decide (v ∈ vs) then (s, ODelivered v)     (* 116-120 *)
          else (* 106-114: [continue] without unlocking *)
            (mkW (chans s) ({[ch]} ∪ vstuck s) (wstuck s) (blog s), OUnregistered)
      end
  end.

Definition wstep (cfg : wcfg) (s : wst) (o : wop) : wst * wout :=
  match o with
  | VSubscribe ch ver bok => w_subscribe s ch ver bok
  | VCancel ch ver => w_cancel s ch ver
  | VMsg ch m => w_msg cfg s ch m
  end.

Fixpoint wrun (cfg : wcfg) (s : wst) (os : list wop) : wst * list wout :=
  match os with
  | [] => (s, [])
  | o :: os' =>
      let '(s1, r) := wstep cfg s o in
      let '(s2, rs) := wrun cfg s1 os' in
      (s2, r :: rs)
  end.

(** wrapper.go:79-87 [Publish]: the message handed to the broker; [None] is a panic
    (assignment to an entry of a nil map). *)
Definition w_publish (cfg : wcfg) (ver : option string) (m : bmsg) : option bmsg :=
  match ver with
  | None => Some m
  | Some v =>
      match headers m with
      | None => None
      | Some h => Some (mkBmsg (Some (<[vkey cfg := v]> h)) (payload m))
      end
  end.
