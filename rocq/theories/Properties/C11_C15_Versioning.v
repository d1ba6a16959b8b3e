(** C11-C15: the version wrapper. *)
From stdpp Require Import gmap strings.
From Verif.Model Require Import BrokerMessage Versioning VersioningLocks.
From Verif.Spec Require Import VersioningSpec.
From Verif.Proof Require Import VersioningProof VersioningLocksProof.

(** ** C11 *)

(** Safety, over every history: a delivery reaches the subscription of exactly the message's
    version on exactly its channel, and that subscription exists. *)
Theorem C11_delivery_safe cfg os s rs ch m s' v :
  wrun cfg winit os = (s, rs) -> wstep cfg s (VMsg ch m) = (s', ODelivered v) ->
  (ch, v) ∈ active os rs /\ addressed (vkey cfg) (vdefault cfg) m v /\ s' = s.
Proof. exact (delivery_active cfg os s rs ch m s' v). Qed.
Print Assumptions C11_delivery_safe.

(** The full property also asks every addressed message to be delivered. That is false: one
    message of a version nobody subscribed to is enough, and the subscriber of the very same
    channel never receives anything again, whatever operations follow. *)
Theorem C11_routing_refuted :
  exists cfg os s rs ch v m,
    wrun cfg winit os = (s, rs) /\ (ch, v) ∈ active os rs /\
    addressed (vkey cfg) (vdefault cfg) m v /\
    forall os', snd (wstep cfg (fst (wrun cfg s os')) (VMsg ch m)) = OHang.
Proof.
  set (m v := mkBmsg (Some {["version" := v]}) None).
  set (cfg := mkCfg "version" None).
  set (s0 := fst (wrun cfg winit [VSubscribe "a" (Some "1") true])).
  exists cfg, [VSubscribe "a" (Some "1") true; VMsg "a" (m "2")].
  eexists _, _. exists "a", "1", (m "1").
  refine (conj eq_refl (conj _ (conj _ _))).
  - apply (bool_decide_unpack _). vm_compute. exact I.
  - left. split; [vm_compute; reflexivity|discriminate].
  - intros os'.
    exact (unregistered_kills cfg [VSubscribe "a" (Some "1") true] s0 [OOk] "a" (m "2") _
             eq_refl eq_refl os' (m "1")).
Qed.
Print Assumptions C11_routing_refuted.

(** True part: as long as no message of an unregistered version was received, every message goes
    to the subscriber it is addressed to. *)
Theorem C11_routing_partial cfg os s rs ch m v :
  wrun cfg winit os = (s, rs) -> OUnregistered ∉ rs ->
  (ch, v) ∈ active os rs -> addressed (vkey cfg) (vdefault cfg) m v ->
  wstep cfg s (VMsg ch m) = (s, ODelivered v).
Proof. exact (message_routed cfg os s rs ch m v). Qed.
Print Assumptions C11_routing_partial.

(** … and every answer of the wrapper follows the abstract version switch. *)
Theorem C11_refines_partial cfg os s rs :
  wrun cfg winit os = (s, rs) -> OUnregistered ∉ rs ->
  exists S', abs s S' /\ spec_run cfg ∅ os rs S'.
Proof. exact (wrun_refines cfg os s rs). Qed.
Print Assumptions C11_refines_partial.

(** Exactly: whatever happened before, a message reaches the live subscription it is addressed to if and only if its channel is not blocked. *)
Theorem C11_routing_exact cfg os s rs ch m v :
  wrun cfg winit os = (s, rs) -> (ch, v) ∈ active os rs -> addressed (vkey cfg) (vdefault cfg) m v ->
  ((wstep cfg s (VMsg ch m)).2 = ODelivered v <-> ~ blocked (zip os rs) ch).
Proof. exact (routing_exact cfg os s rs ch m v). Qed.
Print Assumptions C11_routing_exact.

Example C11_example :
  let m v := mkBmsg (Some {["version" := v]}) None in
  let cfg := mkCfg "version" (Some "1") in
  snd (wrun cfg winit
    [VSubscribe "a" (Some "1") true; VSubscribe "a" (Some "2") true; VSubscribe "b" (Some "2") true;
     VMsg "a" (m "2"); VMsg "a" (m "1"); VMsg "a" (mkBmsg None None); VMsg "b" (m "2");
     VCancel "a" "1"; VMsg "a" (m "2")]) =
  [OOk; OOk; OOk; ODelivered "2"; ODelivered "1"; ODelivered "1"; ODelivered "2"; OOk; ODelivered "2"].
Proof. vm_compute. reflexivity. Qed.

(** ** C12 *)

(** A second subscription to a live (channel, version) pair is never accepted, registers nothing
    and does not touch the broker — over every history. *)
Theorem C12_duplicate_never_accepted cfg os s rs ch v bok s' r :
  wrun cfg winit os = (s, rs) -> (ch, v) ∈ active os rs ->
  wstep cfg s (VSubscribe ch (Some v) bok) = (s', r) ->
  (r = OErrAlready \/ r = OHang) /\ chans s' = chans s /\ blog s' = blog s /\
  (OUnregistered ∉ rs -> r = OErrAlready /\ s' = s).
Proof. exact (duplicate_never_accepted cfg os s rs ch v bok s' r). Qed.
Print Assumptions C12_duplicate_never_accepted.

(** Subscribing without a version is an error in every state and changes nothing. *)
Theorem C12_no_version_refused cfg s ch ver bok :
  ver = None \/ ver = Some "" -> wstep cfg s (VSubscribe ch ver bok) = (s, OErrNoVersion).
Proof. exact (no_version_refused cfg s ch ver bok). Qed.
Print Assumptions C12_no_version_refused.

(** Missing from the full property: after a message of an unregistered version the second
    Subscribe, and the Cancel, block instead of answering (C14). Before that, a cancelled pair
    can be subscribed again. *)
Theorem C12_resubscribe_partial cfg os s rs ch v :
  wrun cfg winit os = (s, rs) -> OUnregistered ∉ rs -> (ch, v) ∈ active os rs ->
  exists s1 s2, wstep cfg s (VCancel ch v) = (s1, OOk) /\
    wstep cfg s1 (VSubscribe ch (Some v) true) = (s2, OOk).
Proof. exact (resubscribe cfg os s rs ch v). Qed.
Print Assumptions C12_resubscribe_partial.

(** After a message of an unregistered version, a second subscription and a cancellation get no answer. *)
Theorem C12_no_answer_refuted :
  exists cfg os s rs ch v, wrun cfg winit os = (s, rs) /\ (ch, v) ∈ active os rs /\
    (wstep cfg s (VSubscribe ch (Some v) true)).2 = OHang /\ (wstep cfg s (VCancel ch v)).2 = OHang.
Proof.
  exists (mkCfg "version" None), [VSubscribe "a" (Some "1") true; VMsg "a" (mkBmsg (Some {["version" := "2"]}) (Some "x"))].
  eexists _, _, "a", "1". split; [vm_compute; reflexivity|]. split; [apply (bool_decide_unpack _); vm_compute; exact I|]. split; vm_compute; reflexivity.
Qed.
Print Assumptions C12_no_answer_refuted.

(** Exactly: the second subscription gets its error if and only if neither its channel nor the wrapper is blocked. *)
Theorem C12_answer_exact cfg os s rs ch v bok :
  wrun cfg winit os = (s, rs) -> (ch, v) ∈ active os rs ->
  ((wstep cfg s (VSubscribe ch (Some v) bok)).2 = OErrAlready <-> ~ all_blocked (zip os rs) /\ ~ blocked (zip os rs) ch).
Proof. exact (answer_exact cfg os s rs ch v bok). Qed.
Print Assumptions C12_answer_exact.

Example C12_example :
  let cfg := mkCfg "version" None in
  let '(s, rs) := wrun cfg winit
    [VSubscribe "a" (Some "1") true; VSubscribe "a" (Some "1") true; VSubscribe "a" None true;
     VSubscribe "b" (Some "1") false; VCancel "a" "1"; VSubscribe "a" (Some "1") true] in
  rs = [OOk; OErrAlready; OErrNoVersion; OErrBroker; OOk; OOk] /\
  blog s = [BSub "a"; BCancel "a"; BSub "a"].
Proof. vm_compute. split; reflexivity. Qed.

(** ** C13 *)

(** As long as no operation is blocked, there is exactly one broker subscription on a channel
    with a subscribed version, and none on the others; arbitrary broker failures included. *)
Theorem C13_broker_subscriptions_partial cfg os s rs ch :
  wrun cfg winit os = (s, rs) -> OHang ∉ rs ->
  ((exists v, (ch, v) ∈ active os rs) -> alive ch (blog s) = 1%Z) /\
  ((forall v, (ch, v) ∉ active os rs) -> alive ch (blog s) = 0%Z).
Proof. exact (broker_subs_active cfg os s rs ch). Qed.
Print Assumptions C13_broker_subscriptions_partial.

(** Over every history, if the cancellations that never return are not counted. *)
Theorem C13_returned_exact cfg os s rs ch :
  wrun cfg winit os = (s, rs) ->
  ((exists v, (ch, v) ∈ active os rs) -> alive ch (blog s) = 1%Z) /\
  ((forall v, (ch, v) ∉ active os rs) -> alive ch (blog s) = 0%Z).
Proof. exact (broker_subs_exact cfg os s rs ch). Qed.
Print Assumptions C13_returned_exact.

(** In general it is false: once the wrapper is blocked by another channel, the only version of
    "b" is cancelled and its broker subscription is never cancelled. *)
Theorem C13_broker_subscriptions_refuted :
  exists cfg os ch,
    (* the only subscription of channel ch is cancelled by the last operation … *)
    os = [VSubscribe "a" (Some "1") true; VSubscribe ch (Some "1") true;
          VMsg "a" (mkBmsg (Some {["version" := "3"]}) None);
          VSubscribe "a" (Some "2") true; VCancel ch "1"] /\
    (* … its version is gone … *)
    chans (fst (wrun cfg winit os)) !! ch = Some ∅ /\
    (* … but the broker subscription stays for ever *)
    forall os', alive ch (blog (fst (wrun cfg (fst (wrun cfg winit os)) os'))) = 1%Z.
Proof.
  refine (ex_intro _ (mkCfg "version" None) (ex_intro _ _ (ex_intro _ "b"
            (conj eq_refl (conj _ (fun os' => _)))))).
  - apply (bool_decide_unpack _). vm_compute. exact I.
  - match goal with |- context [wrun ?cfg (fst (wrun ?cfg winit ?os)) os'] =>
      exact (eq_trans (f_equal (alive "b")
               (proj1 (blog_stuck cfg os' (fst (wrun cfg winit os)) eq_refl))) eq_refl) end.
Qed.
Print Assumptions C13_broker_subscriptions_refuted.

(** ** C14 *)

(** C14 is false in three ways. (1) One message of an unregistered version: the versions mutex of
    the channel is never released; under every continuation no message is delivered on it and no
    version is added or removed. *)
Theorem C14_unknown_version_refuted :
  exists os, forall os',
    let s := lrun os (linit {["1"]}) in
    delivered (lrun os' s) = delivered s /\ vers (lrun os' s) = vers s.
Proof.
  refine (ex_intro _ [AMsg "2"; AListener; AListener] (fun os' => leaked_nothing os' _ _)).
  refine (conj _ (conj eq_refl (or_introl eq_refl))).
  exact (lrun_inv own [AMsg "2"; AListener; AListener] (linit {["1"]}) own_step (own_init _)).
Qed.
Print Assumptions C14_unknown_version_refuted.

(** (2) After it, one Subscribe on that channel blocks the whole wrapper: no Subscribe completes
    any more, even those on other channels. *)
Theorem C14_whole_wrapper_refuted :
  exists os, forall os' j,
    let s := lrun os (linit {["1"]}) in
    subs s j <> SDone /\ subs (lrun os' s) j <> SDone.
Proof.
  set (os := [AMsg "2"; AListener; AListener; ASubscribe 0 "2" false; ASub 0]).
  refine (ex_intro _ os (fun os' j => _)).
  assert (subs (lrun os (linit {["1"]})) j <> SDone) as H.
  { destruct j; vm_compute; discriminate. }
  refine (conj H (dead_no_progress 0 os' _ j _ H)).
  refine (conj (conj _ (conj eq_refl (or_introl eq_refl))) (conj eq_refl (ex_intro _ "2" eq_refl))).
  exact (lrun_inv own os (linit {["1"]}) own_step (own_init _)).
Qed.
Print Assumptions C14_whole_wrapper_refuted.

(** (3) Without any unexpected message: a Subscribe and a Cancel that take the two mutexes in
    opposite orders block each other for ever. *)
Theorem C14_lock_order_refuted :
  exists os, forall os',
    let s := lrun os (linit {["1"]}) in
    subs (lrun os' s) 0 <> SDone /\ rems (lrun os' s) 0 <> RDone /\ rems s 0 <> RIdle.
Proof.
  set (os := [ASubscribe 0 "2" false; ARemove 0 "1"; ASub 0; ARem 0]).
  refine (ex_intro _ os (fun os' => _)).
  assert (inverted 0 0 (lrun os (linit {["1"]}))) as H.
  { refine (conj _ (conj eq_refl (conj eq_refl (conj (ex_intro _ "2" eq_refl) (ex_intro _ "1" eq_refl))))).
    exact (lrun_inv own os (linit {["1"]}) own_step (own_init _)). }
  destruct (inverted_forever 0 0 os' _ H) as [H1 H2].
  refine (conj H1 (conj H2 _)). vm_compute. discriminate.
Qed.
Print Assumptions C14_lock_order_refuted.

(** True part: with messages of registered versions only and no cancellation, in every reachable
    state every pending Subscribe can still complete and every received message can still be
    delivered. *)
Theorem C14_progress_partial vs os :
  Forall (benign vs) os ->
  let s := lrun os (linit vs) in
  (forall i v, subs s i = SWantC v false ->
     exists os', Forall (benign vs) os' /\ subs (lrun os' s) i = SDone /\ v ∈ vers (lrun os' s)) /\
  (forall v, lst s = LWant v ->
     exists os', Forall (benign vs) os' /\ delivered (lrun os' s) = delivered s ++ [v]).
Proof.
  exact (fun H => conj (fun i v => calm_subscribe_completes vs os i v H)
                       (fun v => calm_listener_delivers vs os v H)).
Qed.
Print Assumptions C14_progress_partial.

(** Exactly, for calls made one after the other: a message of a channel is never handled any more if and only if the channel is blocked, a
    subscription or (the first time) a cancellation never returns if and only if its channel or the whole wrapper is; what is blocked follows
    from the history of calls and answers alone. *)
Theorem C14_blocked_exact cfg os s rs :
  wrun cfg winit os = (s, rs) ->
  (forall ch m, (wstep cfg s (VMsg ch m)).2 = OHang <-> blocked (zip os rs) ch) /\
  (forall ch v bok, v <> "" -> ((wstep cfg s (VSubscribe ch (Some v) bok)).2 = OHang <-> all_blocked (zip os rs) \/ blocked (zip os rs) ch)) /\
  (forall ch v, (ch, v) ∈ active os rs -> (VCancel ch v, OHang) ∉ zip os rs ->
     ((wstep cfg s (VCancel ch v)).2 = OHang <-> all_blocked (zip os rs) \/ blocked (zip os rs) ch)).
Proof. exact (blocked_exact cfg os s rs). Qed.
Print Assumptions C14_blocked_exact.
Example C14_blocked_ex :
  let cfg := mkCfg "version" None in
  let os := [VSubscribe "a" (Some "1") true; VSubscribe "b" (Some "1") true; VMsg "a" (mkBmsg (Some {["version" := "2"]}) None);
             VMsg "b" (mkBmsg (Some {["version" := "1"]}) None); VSubscribe "a" (Some "2") true] in
  let rs := [OOk; OOk; OUnregistered; ODelivered "1"; OHang] in
  (wrun cfg winit os).2 = rs /\ all_blocked (zip os rs) /\ blocked (zip os rs) "a" /\ ~ blocked (zip os rs) "b" /\
  (wstep cfg (wrun cfg winit os).1 (VMsg "b" (mkBmsg (Some {["version" := "1"]}) None))).2 = ODelivered "1".
Proof.
  cbv zeta. split; [vm_compute; reflexivity|]. split; [|split; [|split]].
  - exists "a", (Some "2"), true. cbn. apply elem_of_list_further, elem_of_list_further, elem_of_list_further, elem_of_list_further, elem_of_list_here.
  - left. eexists. cbn. apply elem_of_list_further, elem_of_list_further, elem_of_list_here.
  - cbn. intros [(m & H)|(v & H)]; repeat (apply elem_of_cons in H; destruct H as [H|H]; [discriminate H|]); by apply elem_of_nil in H.
  - vm_compute. reflexivity.
Qed.

Example C14_example :
  let os := [AMsg "1"; ASubscribe 0 "2" false; ASub 0; ASub 0; ASubscribe 1 "3" false; AListener] in
  let s := lrun os (linit {["1"]}) in
  Forall (benign {["1"]}) os /\ subs s 1 = SWantC "3" false /\ lst s = LWant "1".
Proof. split; [|split; vm_compute; reflexivity]. repeat constructor; apply (bool_decide_unpack _); vm_compute; exact I. Qed.

(** ** C15 *)

(** With a version and an existing header map: same payload, same other headers, the version
    header; a receiving wrapper resolves it to that version whatever its default. *)
Theorem C15_tagging_partial cfg v h p :
  v <> "" ->
  exists m, w_publish cfg (Some v) (mkBmsg (Some h) p) = Some m /\
    payload m = p /\
    header m (vkey cfg) = Some v /\
    (forall k, k <> vkey cfg -> header m k = h !! k) /\
    (forall d, addressed (vkey cfg) d m v) /\
    (forall d w, addressed (vkey cfg) d m w -> w = v).
Proof. exact (w_publish_tag cfg v h p). Qed.
Print Assumptions C15_tagging_partial.

(** Without version nothing is added. *)
Theorem C15_no_version_unchanged cfg m : w_publish cfg None m = Some m.
Proof. exact eq_refl. Qed.
Print Assumptions C15_no_version_unchanged.

(** Missing: a message without header map makes Publish panic. *)
Theorem C15_nil_headers_refuted :
  exists cfg v m, v <> "" /\ headers m = None /\ w_publish cfg (Some v) m = None.
Proof.
  refine (ex_intro _ (mkCfg "version" None) (ex_intro _ "1" (ex_intro _ (mkBmsg None (Some "hello"))
            (conj _ (conj eq_refl eq_refl))))). discriminate.
Qed.
Print Assumptions C15_nil_headers_refuted.

(** Exactly: a message published with a version is taken for that version by every receiving wrapper if and only if the version is not empty and
    the message has a header map. *)
Theorem C15_exact cfg v m :
  (exists m', w_publish cfg (Some v) m = Some m' /\ payload m' = payload m /\ forall d w, addressed (vkey cfg) d m' w <-> w = v) <->
  v <> "" /\ headers m <> None.
Proof.
  destruct m as [[h|] p]; cbn [headers]; split.
  - intros (m' & E & _ & H). split; [|discriminate]. intros ->. injection E as <-.
    destruct (proj2 (H None "") eq_refl) as [[_ N]|[_ N]]; [by apply N|discriminate].
  - intros [Hv _]. destruct (w_publish_tag cfg v h p Hv) as (m' & E & Ep & _ & _ & H1 & H2). exists m'. split; [exact E|]. split; [exact Ep|].
    intros d w. split; [apply H2|]. intros ->. apply H1.
  - intros (m' & E & _). discriminate.
  - intros [_ []]. reflexivity.
Qed.
Print Assumptions C15_exact.

Example C15_example :
  exists m, w_publish (mkCfg "version" None) (Some "2") (mkBmsg (Some {["k" := "x"]}) (Some "p")) = Some m /\
    header m "k" = Some "x" /\ header m "version" = Some "2" /\ header m "other" = None.
Proof. eexists. split; [reflexivity|]. repeat split; vm_compute; reflexivity. Qed.
