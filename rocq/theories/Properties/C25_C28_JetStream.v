(** C25-C28: the NATS JetStream broker controller. *)
From stdpp Require Import gmap strings list.
From Verif.Model Require Import JetStream.
From Verif.Spec Require Import JetStreamSpec.
From Verif.Proof Require Import JetStreamProof JetStreamExactProof.

(** ** C25: subject matching follows the NATS rules, and never panics *)
Theorem C25_subject_match pattern subject :
  exists b, match_subject pattern subject = Some b /\ (b = true <-> subject_match pattern subject).
Proof. exact (match_subject_spec pattern subject). Qed.
Print Assumptions C25_subject_match.

Example C25_example :
  map (fun ps => match_subject ps.1 ps.2)
    [("a.*.c", "a.b.c"); ("a.*.c", "a..c"); ("a.>", "a"); ("a.>", "a.b.c"); ("a.>.c", "a.b.c");
     ("a.b", "a.b.c"); ("a.b.c", "a.b"); (">", "x"); ("*", "x.y"); ("", "")]
  = map Some [true; false; false; true; false; false; false; true; false; false].
Proof. vm_compute. reflexivity. Qed.

(** The rules themselves on the same inputs. *)
Example C25_rules_example :
  subject_match "a.*.>" "a.b.c.d" /\ ~ subject_match "a.>.c" "a.b.c".
Proof.
  split.
  - destruct (C25_subject_match "a.*.>" "a.b.c.d") as (b & E & H). apply H.
    vm_compute in E. congruence.
  - intros Hm. destruct (C25_subject_match "a.>.c" "a.b.c") as (b & E & H). apply H in Hm.
    vm_compute in E. congruence.
Qed.

(** ** C26: dispatch *)

(** Whatever the iteration order of the map: the message goes to one pattern of the map that
    matches, and is acknowledged and dropped exactly when none does. *)
Theorem C26_dispatch order subject :
  match dispatch order subject with
  | Some p => p ∈ order /\ subject_match p subject
  | None => forall p, p ∈ order -> ~ subject_match p subject
  end.
Proof. exact (dispatch_spec order subject). Qed.
Print Assumptions C26_dispatch.

(** After any history without failed subscribe and with at most one subscription alive per
    channel, it is handed to exactly one live subscription that matches, or dropped when none
    matches; the consumer is never blocked for ever. *)
Theorem C26_handed_to_live_partial os order subject :
  let s := jrun os jinit in
  exclusive (jlog s) -> (forall ch, EvFailed ch ∉ jlog s) -> order ≡ₚ (map_to_list (jchans s)).*1 ->
  match j_consume order subject s with
  | JStuck => False
  | JDropped => forall n ch, (n, ch) ∈ alive (jlog s) -> ~ subject_match ch subject
  | JHanded l => exists n ch, l = [n] /\ (n, ch) ∈ alive (jlog s) /\ subject_match ch subject
  end.
Proof. exact (j_consume_alive os order subject). Qed.
Print Assumptions C26_handed_to_live_partial.

(** After any history at all that did not crash, and in any order of the map: a message is dropped
    only when no listed channel matches; otherwise it goes to a listed channel that matches, and
    competing for it are exactly the subscriptions attached to that channel, or, when there is
    none, the consumer is blocked for ever. *)
Theorem C26_consume_exact os order subject :
  let s := jrun os jinit in
  jpanic s = false -> order ≡ₚ (map_to_list (jchans s)).*1 ->
  match j_consume order subject s with
  | JDropped => forall ch, listed (jlog s) ch -> ~ subject_match ch subject
  | JHanded l => l <> [] /\ exists ch, listed (jlog s) ch /\ subject_match ch subject /\ forall n, n ∈ l <-> attached (jlog s) n ch
  | JStuck => exists ch, listed (jlog s) ch /\ subject_match ch subject /\ forall n, ~ attached (jlog s) n ch
  end.
Proof. exact (consume_exact os order subject). Qed.
Print Assumptions C26_consume_exact.

(** Two subscriptions on one channel compete; when one of them is cancelled the other one is
    forgotten, and after a new subscription only that one receives. *)
Example C26_consume_example :
  let s os := jrun os jinit in
  let o1 := [JSubscribe "a.*" true; JSubscribe "b" true; JSubscribe "a.*" true] in
  jpanic (s (o1 ++ [JCancel 1; JSubscribe "a.*" true])) = false /\
  j_consume ["b"; "a.*"] "a.x" (s o1) = JHanded [1; 4] /\
  j_consume ["b"] "a.x" (s (o1 ++ [JCancel 1])) = JDropped /\
  j_consume ["b"; "a.*"] "a.x" (s (o1 ++ [JCancel 1; JSubscribe "a.*" true])) = JHanded [6].
Proof. vm_compute. auto. Qed.

(** Without the condition on failures: a failed subscribe leaves an entry nobody reads, and a
    message for it blocks the consumer, although another live subscription matches. *)
Theorem C26_failed_subscribe_blocks_refuted :
  exists os order subject,
    let s := jrun os jinit in
    exclusive (jlog s) /\ order ≡ₚ (map_to_list (jchans s)).*1 /\
    (exists n ch, (n, ch) ∈ alive (jlog s) /\ subject_match ch subject) /\
    j_consume order subject s = JStuck.
Proof.
  exists [JSubscribe "orders.new" false; JSubscribe "orders.>" true], ["orders.new"; "orders.>"], "orders.new".
  cbv zeta. split; [|split; [|split]].
  - intros pre n ch post. vm_compute (jlog _).
    destruct pre as [|e1 [|e2 [|e3 pre]]]; intros [=]; subst; vm_compute; intros H; inversion H.
  - apply (bool_decide_unpack _). vm_compute. exact I.
  - exists 2, "orders.>". split; [vm_compute; left|].
    destruct (C25_subject_match "orders.>" "orders.new") as (b & E & H). apply H. vm_compute in E. congruence.
  - vm_compute. reflexivity.
Qed.
Print Assumptions C26_failed_subscribe_blocks_refuted.

(** When the patterns of several live subscriptions match, the map order decides which of them
    gets the message. *)
Theorem C26_overlap_depends_on_order_refuted :
  exists os o1 o2 subject,
    let s := jrun os jinit in
    exclusive (jlog s) /\ o1 ≡ₚ (map_to_list (jchans s)).*1 /\ o2 ≡ₚ (map_to_list (jchans s)).*1 /\
    j_consume o1 subject s <> j_consume o2 subject s.
Proof.
  exists [JSubscribe "orders.*" true; JSubscribe "orders.>" true], ["orders.*"; "orders.>"], ["orders.>"; "orders.*"], "orders.new".
  cbv zeta. split; [|split; [|split]].
  - intros pre n ch post. vm_compute (jlog _).
    destruct pre as [|e1 [|e2 [|e3 pre]]]; intros [=]; subst; apply (bool_decide_unpack _); vm_compute; exact I.
  - apply (bool_decide_unpack _). vm_compute. exact I.
  - apply (bool_decide_unpack _). vm_compute. exact I.
  - vm_compute. congruence.
Qed.
Print Assumptions C26_overlap_depends_on_order_refuted.

Example C26_example :
  let s := jrun [JSubscribe "a.*" true; JSubscribe "b" false; JCancel 1; JSubscribe "c" true] jinit in
  alive (jlog s) = [(3, "b"); (5, "c")] /\ j_consume ["c"; "b"] "c" s = JHanded [5] /\
  j_consume ["c"; "b"] "a.x" s = JDropped.
Proof. vm_compute. auto. Qed.

(** ** C27: lifetime of the consumption *)

(** With at most one live subscription per channel, whatever the server answers: no cancellation
    crashes and the consumer runs whenever a subscription is alive; if moreover no subscribe
    failed, it runs only then. *)
Theorem C27_lifetime_partial os :
  let s := jrun os jinit in
  exclusive (jlog s) ->
  jpanic s = false /\ (alive (jlog s) <> [] -> jrunning s = true) /\
  ((forall ch, EvFailed ch ∉ jlog s) -> jrunning s = true -> alive (jlog s) <> []).
Proof. exact (j_lifetime os). Qed.
Print Assumptions C27_lifetime_partial.

(** What a history is: a subscribe is logged as made, under a number not used before, exactly when
    the server accepts or messages are already consumed; a cancellation is logged exactly when that
    subscription exists and was not cancelled before, and does nothing otherwise. *)
Theorem C27_history os o :
  let s := jrun os jinit in let s' := jrun (os ++ [o]) jinit in
  jpanic s = false ->
  match o with
  | JSubscribe ch ok =>
      (ok = true \/ consuming (jlog s) -> exists n, (forall c, EvSubscribed n c ∉ jlog s) /\ jlog s' = jlog s ++ [EvSubscribed n ch]) /\
      (ok = false /\ ~ consuming (jlog s) -> jlog s' = jlog s ++ [EvFailed ch])
  | JCancel n =>
      ((exists ch, EvSubscribed n ch ∈ jlog s) /\ EvCancelled n ∉ jlog s -> jlog s' = jlog s ++ [EvCancelled n]) /\
      ((forall ch, EvSubscribed n ch ∉ jlog s) \/ EvCancelled n ∈ jlog s -> s' = s)
  end.
Proof. exact (history_exact os o). Qed.
Print Assumptions C27_history.

(** Any history: the process is dead exactly when the last thing that happened is the cancellation
    of a subscription whose channel was released by another cancellation and not asked for again. *)
Theorem C27_crash_exact os : let s := jrun os jinit in jpanic s = true <-> crashed (jlog s).
Proof. exact (crash_exact os). Qed.
Print Assumptions C27_crash_exact.

(** Any history without crash: messages are consumed exactly when some channel was listed at every
    moment since some subscription was made. *)
Theorem C27_running_exact os : let s := jrun os jinit in jpanic s = false -> jrunning s = true <-> consuming (jlog s).
Proof. cbv zeta. intros P. pose proof (run_state os) as H. cbv zeta in H. rewrite P in H. exact (so_run _ H). Qed.
Print Assumptions C27_running_exact.

(** Cancelling both of two subscriptions on a channel crashes, unless the channel was asked for
    again in between, be it without success: then the consumer stops. *)
Example C27_exact_example :
  let s os := jrun os jinit in
  let o1 := [JSubscribe "a" true; JSubscribe "a" true; JCancel 1] in
  jpanic (s (o1 ++ [JCancel 2])) = true /\ jpanic (s (o1 ++ [JSubscribe "a" false; JCancel 2])) = false /\
  jlog (s (o1 ++ [JSubscribe "a" false; JCancel 2])) = [EvSubscribed 1 "a"; EvSubscribed 2 "a"; EvCancelled 1; EvFailed "a"; EvCancelled 2] /\
  jrunning (s o1) = false /\ jrunning (s (o1 ++ [JSubscribe "b" true; JSubscribe "a" false])) = true.
Proof. vm_compute. auto. Qed.

(** A second subscription on the same channel makes the second cancellation crash the process;
    after the first one, the consumer is already stopped although a subscription is alive. *)
Theorem C27_shared_channel_refuted :
  exists os o,
    let s := jrun os jinit in
    alive (jlog s) <> [] /\ jrunning s = false /\ jpanic (jstep s o) = true.
Proof.
  exists [JSubscribe "a" true; JSubscribe "a" true; JCancel 1], (JCancel 2).
  vm_compute. split; [congruence|auto].
Qed.
Print Assumptions C27_shared_channel_refuted.

(** After a failed subscribe the consumer is never stopped again: it keeps running without any
    live subscription. *)
Theorem C27_failed_subscribe_refuted :
  exists os, let s := jrun os jinit in
    exclusive (jlog s) /\ jrunning s = true /\ alive (jlog s) = [].
Proof.
  exists [JSubscribe "a" false; JSubscribe "b" true; JCancel 2]. cbv zeta. split; [|vm_compute; auto].
  intros pre n ch post. vm_compute (jlog _).
  destruct pre as [|e1 [|e2 [|e3 [|e4 pre]]]]; intros [=]; subst; vm_compute; intros H; inversion H.
Qed.
Print Assumptions C27_failed_subscribe_refuted.

Example C27_example :
  let s os := jrun os jinit in
  let o1 := [JSubscribe "a" true; JSubscribe "b" true; JCancel 1] in
  jrunning (s o1) = true /\ alive (jlog (s o1)) = [(3, "b")] /\
  jrunning (s (o1 ++ [JCancel 3])) = false /\ jpanic (s (o1 ++ [JCancel 3])) = false /\
  alive (jlog (s (o1 ++ [JCancel 3; JSubscribe "a" true]))) = [(5, "a")].
Proof. vm_compute. auto. Qed.

(** ** C28: connections *)

(** JetStream, successful creation followed by Close, any list of options: every connection the
    controller opened is closed exactly as often as it was opened, once; connections of the user
    are never closed (also when the creation fails). *)
Theorem C28_jetstream_balance_partial os cok sok s :
  js_new os cok sok = (s, true) ->
  forall c, match c with
            | Own _ => closes c (kevs (js_close s)) = opened c (kevs (js_close s)) /\ opened c (kevs (js_close s)) <= 1
            | User _ => closes c (kevs (js_close s)) = 0
            end.
Proof. exact (js_balance os cok sok s). Qed.
Print Assumptions C28_jetstream_balance_partial.

Theorem C28_user_connections_safe os cok sok s ok n :
  js_new os cok sok = (s, ok) -> closes (User n) (kevs s) = 0 /\ closes (User n) (kevs (js_close s)) = 0.
Proof. exact (js_user_never_closed os cok sok s ok n). Qed.
Print Assumptions C28_user_connections_safe.

(** When NewController fails after connecting it returns no controller, so nobody can close the
    connection. *)
Theorem C28_failed_creation_refuted :
  exists os cok sok s c, js_new os cok sok = (s, false) /\ opened c (kevs s) = 1 /\ closes c (kevs s) = 0.
Proof. exists [OConnOpts true; OOther false], true, true. eexists. exists (Own 0). vm_compute. auto. Qed.
Print Assumptions C28_failed_creation_refuted.

(** A creation that fails leaves a connection open exactly when the controller had connected on its
    own account to what it would use: the last option on connections that was applied connected,
    or none set one and the default connection was made. *)
Theorem C28_failed_creation_exact os cok sok s :
  js_new os cok sok = (s, false) -> (exists c, closes c (kevs s) < opened c (kevs s)) <-> connected os cok.
Proof. exact (js_leak_exact os cok sok s). Qed.
Print Assumptions C28_failed_creation_exact.

Example C28_failed_creation_example :
  connected [OConnOpts true; OOther false; OConn (Some 3)] true /\ connected [OConnOpts true; OConn None] true /\
  ~ connected [OConnOpts true; OConn (Some 3)] true /\
  js_new [OConnOpts true; OOther false; OConn (Some 3)] true true = (mkK (Some (Own 0)) true 1 [EvOpen (Own 0)], false) /\
  js_new [OConnOpts true; OConn None] true false = (mkK (Some (Own 1)) true 2 [EvOpen (Own 0); EvClose (Own 0); EvOpen (Own 1)], false) /\
  js_new [OConnOpts true; OConn (Some 3)] true false = (mkK (Some (User 3)) false 1 [EvOpen (Own 0); EvClose (Own 0)], false).
Proof.
  split; [by left|]. split; [by right; auto|]. split; [intros [[=]|(_ & _ & [[=]|[=]])]|]. vm_compute. auto.
Qed.

(** NATS, a creation that fails: nothing is closed, and something was opened exactly when an option
    that connects was applied before the failure. *)
Theorem C28_nats_failed_creation_exact os cok s :
  nats_new os cok = (s, false) -> (forall c, EvClose c ∉ kevs s) /\ (kevs s <> [] <-> OConnOpts true ∈ applied os).
Proof. exact (nats_leak_exact os cok s). Qed.
Print Assumptions C28_nats_failed_creation_exact.

Example C28_nats_failed_creation_example :
  nats_new [OOther true; OConnOpts true; OOther false; OConnOpts true] true = (mkK (Some (Own 0)) true 1 [EvOpen (Own 0)], false) /\
  nats_new [OOther true; OConnOpts false; OConnOpts true] true = (kinit, false).
Proof. vm_compute. auto. Qed.

(** NATS: exactly what happens, for any list of options: one connection per connection option (or
    a single default one), of which only the last is closed. *)
Theorem C28_nats_exact_partial os cok s :
  nats_new os cok = (s, true) ->
  let k := Nat.max 1 (length (List.filter is_connopts os)) in
  kevs (nats_close s) = map (fun n => EvOpen (Own n)) (seq 0 k) ++ [EvClose (Own (k - 1))].
Proof. exact (nats_exact os cok s). Qed.
Print Assumptions C28_nats_exact_partial.

Theorem C28_nats_repeated_option_refuted :
  exists os cok s c, nats_new os cok = (s, true) /\
    opened c (kevs (nats_close s)) = 1 /\ closes c (kevs (nats_close s)) = 0.
Proof. exists [OConnOpts true; OConnOpts true], true. eexists. exists (Own 0). vm_compute. auto. Qed.
Print Assumptions C28_nats_repeated_option_refuted.

Example C28_example :
  let close r := kevs (js_close (fst r)) in
  close (js_new [OConnOpts true; OConn (Some 7); OConnOpts true] true true)
    = [EvOpen (Own 0); EvClose (Own 0); EvOpen (Own 1); EvClose (Own 1)] /\
  close (js_new [OConn None] true true) = [EvOpen (Own 0); EvClose (Own 0)] /\
  close (js_new [OConnOpts true; OConn (Some 7)] true true) = [EvOpen (Own 0); EvClose (Own 0)].
Proof. vm_compute. auto. Qed.
