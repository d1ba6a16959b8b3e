(** Several requests at once: requesters, a responder and the broker between them.
    Modelled code: pkg/codegen/generators/v3/templates/controller.tmpl:254-280 (ReplyTo…), 386-456 (Request…) and 458-526 through
    Model/Request.v, in steps; how a broker shares the messages of a channel between subscriptions: all of them get a message
    (brokers/nats/nats.go:112 with the default queue group, "": brokers/common.go), or one of them (the same line with WithQueueGroup;
    brokers/kafka/kafka.go with WithGroupID; brokers/natsjetstream/natsjetstream.go:232-246, where the subscriptions of a channel share a Go
    channel).
    Simplifications: the broker keeps messages in order and loses none, except those that nobody is subscribed to; the calls to the broker
    succeed; requesters are numbered, each making one request. *)
From stdpp Require Import list.
From Coq Require Import String.
From Verif.Model Require Import Ack Middleware Request.

Inductive sharing := Everyone | OneOfGroup.

Section system.
  Context {C M E D : Type}.
  Variable decode : M -> D * option E.
  Variable encode : D -> M.
  Variable corr : D -> string.
  Variable set_corr : string -> D -> D.
  Variable mws : list (middleware C M E).
  Variable ctx : C.
  (** A new message, and what the responder does with it to answer a request. *)
  Variable zero : D.
  Variable answer : D -> D -> D.

  (** Where a request is: not begun; subscribed, with the message to send (410-416); waiting for the answer to the message sent (433-455);
      returned with the answer. *)
  Inductive rstate := RIdle | RSubscribed (d : D) | RWaiting (sent : D) | RDone (sent answer : D) | RPanicked.

  Record sys := mkSys {
    requester : nat -> rstate;
    inbox : nat -> list M;         (** the messages channel of each subscription *)
    requests : list M;             (** on their way to the responder *)
    replies : list M;              (** on their way to the requesters *)
  }.
  Definition start : sys := mkSys (fun _ => RIdle) (fun _ => []) [] [].

  Definition set {A} (i : nat) (x : A) (f : nat -> A) : nat -> A := fun j => if Nat.eqb j i then x else f j.
  Definition live (r : rstate) : bool := match r with RSubscribed _ | RWaiting _ => true | _ => false end.

  Inductive sop :=
  | SSubscribe (i : nat) (d : D)       (** request [i] begins, with the message [d], and subscribes to the replies *)
  | SSend (i : nat) (uuid : string)    (** it sends the message, with this identifier if it has none *)
  | SServe (newid uuid : string)       (** the responder answers the next request *)
  | SDeliver (i : nat)                 (** the broker delivers the next reply; when it is for one of the group only, to [i] *)
  | SReceive (i : nat).                (** request [i] looks at the next message of its subscription *)

  Variable mode : sharing.

  (** Whether somebody among the first [n] is subscribed. *)
  Definition someone (n : nat) (s : sys) : bool := existsb (fun i => live (requester s i)) (seq 0 n).
  (** How many requesters there are. *)
  Variable n : nat.

  Definition sstep (s : sys) (o : sop) : sys :=
    match o with
    | SSubscribe i d =>
        match requester s i with
        | RIdle => if Nat.ltb i n then mkSys (set i (RSubscribed d) (requester s)) (inbox s) (requests s) (replies s) else s
        | _ => s
        end
    | SSend i uuid =>
        match requester s i with
        | RSubscribed d =>
            let d1 := if string_dec (corr d) "" then set_corr uuid d else d in
            mkSys (set i (RWaiting d1) (requester s)) (inbox s) (requests s ++ [encode d1]) (replies s)
        | _ => s
        end
    | SServe newid uuid =>
        match requests s with
        | m :: rest =>
            let '(req, err) := decode m in
            let out := match err with
                       | None => match reply_to corr set_corr zero newid uuid req (answer req) with Some r => [encode r] | None => [] end
                       | Some _ => []
                       end in
            mkSys (requester s) (inbox s) rest (replies s ++ out)
        | [] => s
        end
    | SDeliver i =>
        match replies s with
        | m :: rest =>
            match mode with
            | Everyone => mkSys (requester s) (fun j => if live (requester s j) then inbox s j ++ [m] else inbox s j) (requests s) rest
            | OneOfGroup =>
                if live (requester s i) then mkSys (requester s) (set i (inbox s i ++ [m]) (inbox s)) (requests s) rest
                else if someone n s then s else mkSys (requester s) (inbox s) (requests s) rest
            end
        | [] => s
        end
    | SReceive i =>
        match requester s i, inbox s i with
        | RWaiting sent, m :: rest =>
            match wait_next decode corr true (corr sent) mws ctx (WRecv m) with
            | (WSome d, _) => mkSys (set i (RDone sent d) (requester s)) (set i [] (inbox s)) (requests s) (replies s)
            | (WNone, _) => mkSys (requester s) (set i rest (inbox s)) (requests s) (replies s)
            | (WPanic, _) => mkSys (set i RPanicked (requester s)) (set i [] (inbox s)) (requests s) (replies s)
            end
        | _, _ => s
        end
    end.
  Definition srun (os : list sop) (s : sys) : sys := fold_left sstep os s.
End system.
Arguments sop : clear implicits.
Arguments sys : clear implicits.
Arguments rstate : clear implicits.
