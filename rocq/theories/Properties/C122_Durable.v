(** C122: messages of a JetStream stream until they are acknowledged. *)
From Coq Require Import List.
From stdpp Require Import gmap strings list.
From Verif.Model Require Import Ack Middleware Listener JetStream Durable.
From Verif.Spec Require Import MiddlewareSpec ListenerSpec JetStreamSpec DurableSpec.
From Verif.Proof Require Import ListenerProof JetStreamProof JetStreamExactProof DurableProof.

(** The full statement: a message of the stream is acknowledged only once its callback succeeded, or the error handler acknowledged it; until
    then it is handled whenever it is given, and afterwards never again. *)

(** Whatever middlewares, callbacks and the user do, and however often the program is started again: a message was acknowledged only because
    it was approved, or because it was given while no channel asked for matched its subject. *)
Theorem C122_acknowledged {C M E D} (decode : M -> D + E) addctx handler msg_ctx (mws : list (middleware C M E)) stream evs i :
  let s := drun decode addctx handler msg_ctx mws stream evs dinit in
  i ∈ dacked s ->
  exists subject m, stream !! i = Some (subject, m) /\
    ((exists l, DDropped i l ∈ dhist s /\ unwanted subject l) \/ (exists fn x, DHandled i fn x ∈ dhist s /\ approved handler fn x)).
Proof.
  intros s Hi. destruct (dinv_run decode addctx handler msg_ctx mws stream evs) as (_ & H2 & H3 & _). fold s in H2, H3.
  apply H3 in Hi as (r & Hr & Ha & Hd). pose proof (H2 r Hr) as Hok. destruct r as [j l|j fn x]; cbn in Ha; subst j; destruct Hok as (subject & m & Hs & Hx); exists subject, m.
  - split; [exact Hs|]. left. exists l. split; [exact Hr|exact Hx].
  - split; [exact Hs|]. right. exists fn, x. split; [exact Hr|]. cbn in Hd. rewrite Hx in Hd |- *. exact (process_approved decode addctx fn handler mws (msg_ctx m) m Hd).
Qed.
Print Assumptions C122_acknowledged.

(** Exactly the messages that were told so while they were handled, or dropped, are acknowledged; nothing happens to them afterwards. *)
Theorem C122_exact {C M E D} (decode : M -> D + E) addctx handler msg_ctx (mws : list (middleware C M E)) stream evs i :
  let s := drun decode addctx handler msg_ctx mws stream evs dinit in
  (i ∈ dacked s <-> exists r, r ∈ dhist s /\ about i r /\ done_with r) /\
  (forall pre r post, dhist s = pre ++ r :: post -> about i r -> done_with r -> forall r', r' ∈ post -> ~ about i r').
Proof.
  intros s. destruct (dinv_run decode addctx handler msg_ctx mws stream evs) as (_ & _ & H3 & H4). split; [apply H3|apply H4].
Qed.
Print Assumptions C122_exact.

(** As long as a message is not acknowledged, it is handled each time it is given to a program that has a live subscription for it, if there
    is one subscription at most for each channel and none failed. *)
Theorem C122_given_again {C M E D} (decode : M -> D + E) addctx handler msg_ctx (mws : list (middleware C M E)) stream evs i order fn n ch subject m :
  let s := drun decode addctx handler msg_ctx mws stream evs dinit in
  let s' := drun decode addctx handler msg_ctx mws stream (evs ++ [DGive i order fn]) dinit in
  jpanic (djet s) = false -> dblocked s = false -> exclusive (jlog (djet s)) -> (forall ch, EvFailed ch ∉ jlog (djet s)) ->
  (n, ch) ∈ alive (jlog (djet s)) -> subject_match ch subject -> stream !! i = Some (subject, m) -> enumerates order (jchans (djet s)) = true ->
  i ∉ dacked s ->
  exists x, x = fst (fst (process decode addctx fn handler mws (msg_ctx m) m)) /\
    dhist s' = dhist s ++ [DHandled i fn x] /\ (i ∈ dacked s' <-> In (LTold SAck) (llog x)).
Proof.
  intros s s' Hp Hb Hex Hnf Hal Hm Hst He Hi. destruct (dinv_run decode addctx handler msg_ctx mws stream evs) as (H1 & _). fold s in H1.
  destruct (H1 Hp) as [os Ho]. pose proof (j_lifetime os) as Hl. cbv zeta in Hl. rewrite <- Ho in Hl. destruct (Hl Hex) as (_ & Hrun & _).
  assert (Hr : jrunning (djet s) = true) by (apply Hrun; intros Hn; rewrite Hn in Hal; inversion Hal).
  pose proof (j_consume_alive os order subject) as Hc. cbv zeta in Hc. rewrite <- Ho in Hc. specialize (Hc Hex Hnf (enumerates_perm _ _ He)).
  exists (fst (fst (process decode addctx fn handler mws (msg_ctx m) m))). split; [reflexivity|].
  assert (Hs' : s' = dstep decode addctx handler msg_ctx mws stream s (DGive i order fn)).
  { unfold s', s, drun. rewrite fold_left_app. reflexivity. }
  rewrite Hs'. unfold dstep. rewrite Hp, Hr, Hb, (bool_decide_eq_false_2 _ Hi), He. cbn [negb orb]. rewrite Hst.
  destruct (j_consume order subject (djet s)) as [|l|]; [destruct (Hc n ch Hal Hm)| |destruct Hc].
  destruct (process decode addctx fn handler mws (msg_ctx m) m) as [[x tr] pan]. cbn [fst dhist dacked]. split; [reflexivity|].
  rewrite <- is_ack_spec. destruct (is_ack x); [split; [reflexivity|intros _; left]|split; [intros A; destruct (Hi A)|discriminate]].
Qed.
Print Assumptions C122_given_again.

(** Messages are numbers: the callback fails on odd ones at first. *)
Definition stream1 : list (string * nat) := [("orders.new", 1); ("bills.new", 2); ("orders.paid", 3)].
Definition run1 evs := drun (D:=nat) (@inl nat nat) (fun _ c => c) (fun _ => ([], false)) (fun _ : nat => 0) [] stream1 evs dinit.
Definition often (n : nat) : nat -> nat -> result nat := fun _ d => if Nat.odd d then ROk (Some n) else ROk None.
Definition fine : nat -> nat -> result nat := fun _ _ => ROk None.

(** Consumption starts with the first subscription: what then comes for the channel that is subscribed next is acknowledged and never handled. *)
Theorem C122_start_refuted :
  exists evs i, let s := run1 evs in
    i ∈ dacked s /\ (forall fn x, DHandled i fn x ∉ dhist s) /\ alive (jlog (djet s)) = [(1, "orders.>"); (3, "bills.*")].
Proof.
  exists [DOp (JSubscribe "orders.>" true); DGive 1 ["orders.>"] fine; DOp (JSubscribe "bills.*" true); DGive 1 ["orders.>"; "bills.*"] fine], 1.
  cbv zeta. split; [apply (bool_decide_unpack _); vm_compute; exact I|]. split; [|vm_compute; reflexivity].
  vm_compute (dhist _). intros fn x H. apply elem_of_list_singleton in H. discriminate.
Qed.
Print Assumptions C122_start_refuted.

(** Refused twice, the program starts again in between, handled with success then, and not given any more. *)
Example C122_example :
  let evs := [DOp (JSubscribe "orders.>" true); DGive 0 ["orders.>"] (often 7); DGive 2 ["orders.>"] fine; DRestart; DGive 0 [] fine;
              DOp (JSubscribe "orders.new" true); DGive 0 ["orders.new"] (often 8); DGive 0 ["orders.new"] fine; DGive 0 ["orders.new"] fine] in
  let s := run1 evs in
  dacked s = [0; 2] /\
  map (fun r => match r with DHandled i _ x => Some (i, llog x) | DDropped _ _ => None end) (dhist s) =
  [Some (0, [LCallback 0 1; LHandler 7; LTold SNak]); Some (2, [LCallback 0 3; LTold SAck]); Some (0, [LCallback 0 1; LHandler 8; LTold SNak]);
   Some (0, [LCallback 0 1; LTold SAck])].
Proof. vm_compute. split; reflexivity. Qed.
Example C122_given_example :
  let s := run1 [DOp (JSubscribe "orders.>" true); DGive 0 ["orders.>"] (often 7)] in
  jpanic (djet s) = false /\ dblocked s = false /\ alive (jlog (djet s)) = [(1, "orders.>")] /\ match_subject "orders.>" "orders.new" = Some true /\
  enumerates ["orders.>"] (jchans (djet s)) = true /\ dacked s = [].
Proof. repeat (split; [vm_compute; reflexivity|]). vm_compute. reflexivity. Qed.
