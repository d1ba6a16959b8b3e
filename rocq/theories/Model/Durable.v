(** Messages of a JetStream stream, from the server to the callback and back.
    Modelled code: pkg/extensions/brokers/natsjetstream/natsjetstream.go:226-288 (Subscribe, HandleMessage), 324-350 (ConsumeMessage), 397-411
    (AcknowledgementHandler), as in JetStream.v, with the handling of a message by a generated subscriber of Listener.v.
    The server is not in the repository; what is taken from it, for a consumer with explicit acknowledgements and without a limit of deliveries:
    a message that was not acknowledged may be given at any time (at first, after NakWithDelay, or because no answer came), one that was
    acknowledged never. Simplifications: a message that is given is handled at once; one that waits in a queue when the program ends is as
    one that was not given. *)
From stdpp Require Import gmap strings list.
From Verif.Model Require Import Ack Middleware Listener JetStream.

Section Durable.
  Context {C M E D : Type}.
  Variables (decode : M -> D + E) (addctx : D -> C -> C) (handler : E -> list settle * bool).
  Variables (msg_ctx : M -> C) (mws : list (middleware C M E)).

  (** The stream: subjects and messages. *)
  Variable stream : list (string * M).

  (** Calls of the user; a message given while the map of channels is enumerated in [order] and the callback is [fn]; a new start of the
      program. *)
  Inductive dev := DOp (o : jop) | DGive (i : nat) (order : list string) (fn : C -> D -> result E) | DRestart.

  (** What happened to messages: acknowledged without having been handled (339-347), after the calls [l] of the user; handled. *)
  Inductive drec := DDropped (i : nat) (l : list jev) | DHandled (i : nat) (fn : C -> D -> result E) (x : lst C E D).

  Record dst := mkD { djet : jst; dblocked : bool; dacked : list nat; dhist : list drec }.
  Definition dinit : dst := mkD jinit false [] [].

  (** 274-283: only doAck acknowledges. *)
  Definition is_ack (x : lst C E D) : bool := existsb (fun ev => match ev with LTold SAck => true | _ => false end) (llog x).

  (** [order] lists the keys of the map. *)
  Definition enumerates (order : list string) (m : gmap string nat) : bool :=
    bool_decide (NoDup order) && bool_decide (list_to_set order =@{gset string} dom m).

  Definition crash (j : jst) : jst := mkJ (jchans j) (jnext j) (jrunning j) (jreaders j) (jclosed j) true (jlog j).

  Definition dstep (s : dst) (ev : dev) : dst :=
    match ev with
    | DOp o => mkD (jstep (djet s) o) (dblocked s) (dacked s) (dhist s)
    | DRestart => mkD jinit false (dacked s) (dhist s)
    | DGive i order fn =>
        let j := djet s in
        if jpanic j || negb (jrunning j) || dblocked s || bool_decide (i ∈ dacked s) || negb (enumerates order (jchans j)) then s
        else
          match stream !! i with
          | None => s
          | Some (subject, m) =>
              match j_consume order subject j with
              | JDropped => mkD j false (i :: dacked s) (dhist s ++ [DDropped i (jlog j)])
              | JStuck => mkD j true (dacked s) (dhist s)
              | JHanded _ =>
                  let '(x, _, pan) := process decode addctx fn handler mws (msg_ctx m) m in
                  mkD (if pan then crash j else j) false (if is_ack x then i :: dacked s else dacked s) (dhist s ++ [DHandled i fn x])
              end
          end
    end.
  Definition drun (evs : list dev) (s : dst) : dst := fold_left dstep evs s.
End Durable.
Arguments dev : clear implicits.
Arguments drec : clear implicits.
Arguments dst : clear implicits.
