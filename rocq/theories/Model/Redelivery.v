(** What a Kafka subscriber is given again after a restart.
    Modelled code: pkg/extensions/brokers/kafka/kafka.go:196-234 (Subscribe), 282-312 (autoCommitMessagesHandler), 316-352
    (manualCommitMessagesHandler), 358-373 (BrokerAcknowledgment), with the listening goroutine of Listener.v behind it.
    The client library kafka-go is not in the repository; what is taken from it, for one topic with one partition: with a group, a reader
    starts at the offset stored for the group (0 at first), committing a message stores the offset behind it, and ReadMessage commits what it
    gives; without a group a reader starts at the first message and nothing is stored (CommitMessages answers an error, which is logged). The
    broker answers commits before the next one, and no two readers share the group. *)
From Coq Require Import List.
From Verif.Model Require Import Ack Middleware Listener Kafka.
Import ListNotations.

(** 53, 57, 86-90, 115-119, 220-224: no group (the default, with either handler); a group with autoCommit (its default) or without. *)
Inductive kmode := KNoGroup | KAuto | KManual.

Section Redelivery.
  Context {C M E D : Type}.
  Variables (decode : M -> D + E) (addctx : D -> C -> C) (fn : C -> D -> result E) (handler : E -> list settle * bool).
  Variables (uninit : M -> bool) (zero : M) (msg_ctx : M -> C) (mws : list (middleware C M E)).

  (** The messages of the topic. *)
  Variable topic : list M.

  (** 343-347, 363-370: the commits made while messages were handled, the first of them being at [i]. *)
  Definition told_commits (x : lst C E D) : nat :=
    length (filter (fun ev => match ev with LTold k => calls_commit k | _ => false end) (llog x)).
  Fixpoint commits (i : nat) (l : list (lst C E D)) : list nat :=
    match l with
    | [] => []
    | x :: l' => repeat i (told_commits x) ++ commits (S i) l'
    end.

  (** The life of one subscriber: [n] messages are read from the topic, [k] of these are handled before the program ends (fewer, if one of
      them ends it). Gives the handled messages, with their places and what happened, and the offset stored then. *)
  Definition session (mode : kmode) (off : nat) (nk : nat * nat) : list (nat * lst C E D) * nat :=
    let start := match mode with KNoGroup => 0 | _ => off end in
    let q := firstn (fst nk) (skipn start topic) in
    let l := map fst (fst (listen_all decode addctx fn handler uninit zero msg_ctx mws (firstn (snd nk) q) false)) in
    let cs := match mode with KNoGroup => [] | KAuto => seq start (length q) | KManual => commits start l end in
    (combine (seq start (length l)) l, fold_left (fun _ i => S i) cs off).

  (** One subscriber after the other. *)
  Fixpoint sessions (mode : kmode) (off : nat) (nks : list (nat * nat)) : list (list (nat * lst C E D)) * nat :=
    match nks with
    | [] => ([], off)
    | nk :: nks' =>
        let '(h, off1) := session mode off nk in
        let '(hs, off2) := sessions mode off1 nks' in
        (h :: hs, off2)
    end.
End Redelivery.
