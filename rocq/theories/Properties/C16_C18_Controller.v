(** C16-C18: subscriptions of a generated controller. *)
From stdpp Require Import gmap strings.
From Verif.Model Require Import Controller.
From Verif.Spec Require Import ControllerSpec.
From Verif.Proof Require Import ControllerProof.

(** ** C16 *)

(** After any history of calls on the controller (including the bulk ones) and whatever the
    broker answers, a further subscribe or unsubscribe gives the expected answer and makes
    exactly the expected broker calls … *)
Theorem C16_expected_calls ops os o s' r :
  let s := crun ops os cinit in
  match o with OSubscribe _ _ | OUnsubscribe _ => True | _ => False end ->
  cstep ops s o = (s', r) ->
  exists evs, clog s' = clog s ++ evs /\ sub_expected (clog s) o r evs.
Proof. exact (controller_step ops os o s' r). Qed.
Print Assumptions C16_expected_calls.

(** … and the live broker subscriptions are one per address. *)
Theorem C16_one_subscription_per_address ops os :
  NoDup (subscribed (clog (crun ops os cinit))).
Proof. exact (controller_one_each ops os). Qed.
Print Assumptions C16_one_subscription_per_address.

Example C16_example :
  let os := [OSubscribe "a" true; OSubscribe "a" true; OSubscribe "b" false; OSubscribe "b" true;
             OUnsubscribe "a"; OUnsubscribe "a"; OSubscribe "a" true] in
  clog (crun [] os cinit) = [CSub "a" 0; CRefused "b"; CSub "b" 1; CCancel 0; CSub "a" 2] /\
  live (clog (crun [] os cinit)) = [("b", 1); ("a", 2)].
Proof. split; vm_compute; reflexivity. Qed.

(** ** C17 *)

(** Close leaves the subscriptions of channels with parameters. *)
Theorem C17_close_releases_all_refuted :
  exists ops os a, a ∈ subscribed (clog (c_close ops (crun ops os cinit))).
Proof.
  exact (ex_intro _ [mkRecv true "user.{id}.events"; mkRecv false "ping"]
          (ex_intro _ [OSubscribe "ping" true; OSubscribe "user.42.events" true]
          (ex_intro _ "user.42.events" (elem_of_list_here _ _)))).
Qed.
Print Assumptions C17_close_releases_all_refuted.

(** Exactly what Close leaves, after any history: the subscribed addresses that are not the
    address of a parameterless receive operation. *)
Theorem C17_close_exact_partial ops os a :
  let s := crun ops os cinit in
  a ∈ subscribed (clog (c_close ops s)) <->
  a ∈ subscribed (clog s) /\ (forall o, o ∈ ops -> rparams o = false -> raddr o <> a).
Proof. exact (close_exact ops os a). Qed.
Print Assumptions C17_close_exact_partial.

Example C17_example :
  let ops := [mkRecv false "ping"; mkRecv false "pong"] in
  let s := crun ops [OSubscribeAll (fun _ => true); OUnsubscribe "ping"; OSubscribe "ping" true] cinit in
  subscribed (clog s) = ["pong"; "ping"] /\ subscribed (clog (c_close ops s)) = [].
Proof. split; vm_compute; reflexivity. Qed.

(** ** C18 *)

(** After a failure, what had been subscribed before the failing channel stays subscribed. *)
Theorem C18_all_or_nothing_refuted :
  exists ops bok a,
    let '(s', r) := c_subscribe_all ops cinit bok in
    r = CrBroker /\ a ∉ subscribed (clog cinit) /\ a ∈ subscribed (clog s').
Proof.
  exists [mkRecv false "ping"; mkRecv false "pong"], (fun a => bool_decide (a = "ping")), "ping".
  exact (conj eq_refl (conj (not_elem_of_nil _) (elem_of_list_here _ _))).
Qed.
Print Assumptions C18_all_or_nothing_refuted.

(** When two receive operations use the same channel, SubscribeToAllChannels fails whatever the
    state of the controller and the broker. *)
Theorem C18_shared_channel_refuted :
  exists ops, forall os bok, snd (c_subscribe_all ops (crun ops os cinit) bok) <> CrOk.
Proof.
  exists [mkRecv false "ping"; mkRecv false "ping"]. intros os bok.
  destruct (c_subscribe_all _ _ bok) as [s' r] eqn:E.
  destruct (subscribe_all_spec _ os bok s' r E) as [(_ & Hnd & _)|(Hr & _)]; [|exact Hr].
  apply NoDup_cons in Hnd as [Hn _]. destruct (Hn (elem_of_list_here _ _)).
Qed.
Print Assumptions C18_shared_channel_refuted.

(** Proved: on success every channel without parameter is subscribed and the other
    subscriptions are kept; on failure exactly the channels before the first failing one are
    added. *)
Theorem C18_outcome_partial ops os bok s' r :
  let s := crun ops os cinit in
  c_subscribe_all ops s bok = (s', r) ->
  (r = CrOk /\ NoDup (plain ops) /\
     (forall a, a ∈ plain ops -> a ∉ subscribed (clog s) /\ bok a = true) /\
     (forall a, a ∈ subscribed (clog s') <-> a ∈ subscribed (clog s) \/ a ∈ plain ops)) \/
  (r <> CrOk /\ exists p a q, plain ops = p ++ a :: q /\
     (forall c, c ∈ subscribed (clog s') <-> c ∈ subscribed (clog s) \/ c ∈ p) /\
     (a ∈ subscribed (clog s) \/ a ∈ p \/ bok a = false)).
Proof. exact (subscribe_all_spec ops os bok s' r). Qed.
Print Assumptions C18_outcome_partial.

(** It does succeed when the channels are distinct, none is subscribed yet and the broker
    accepts. *)
Theorem C18_succeeds_partial ops os bok :
  let s := crun ops os cinit in
  NoDup (plain ops) -> (forall a, a ∈ plain ops -> a ∉ subscribed (clog s) /\ bok a = true) ->
  snd (c_subscribe_all ops s bok) = CrOk.
Proof. exact (subscribe_all_ok ops os bok). Qed.
Print Assumptions C18_succeeds_partial.

(** Both at once: it succeeds exactly then; and when it fails, the subscriptions are as before exactly when the first channel fails already. *)
Theorem C18_exact ops os bok s' r :
  let s := crun ops os cinit in
  c_subscribe_all ops s bok = (s', r) ->
  (r = CrOk <-> NoDup (plain ops) /\ forall a, a ∈ plain ops -> a ∉ subscribed (clog s) /\ bok a = true) /\
  (r <> CrOk ->
   (forall a, a ∈ subscribed (clog s') <-> a ∈ subscribed (clog s)) <->
   exists a q, plain ops = a :: q /\ (a ∈ subscribed (clog s) \/ bok a = false)).
Proof.
  intros s H. pose proof (subscribe_all_spec ops os bok s' r H) as Hs. split.
  - split.
    + intros ->. destruct Hs as [(_ & Hn & Ha & _)|(Hr & _)]; [split; assumption|destruct (Hr eq_refl)].
    + intros [Hn Ha]. pose proof (subscribe_all_ok ops os bok Hn Ha) as Hok. fold s in Hok. rewrite H in Hok. exact Hok.
  - intros Hr. destruct Hs as [(Hok & _)|(_ & p & a & q & Hp & Hsub & Hw)]; [destruct (Hr Hok)|]. split.
    + intros Heq. destruct p as [|b p].
      * exists a, q. split; [exact Hp|]. destruct Hw as [Hw|[Hw|Hw]]; [left; exact Hw|inversion Hw|right; exact Hw].
      * exists b, (p ++ a :: q). split; [exact Hp|]. left. apply Heq, Hsub. right. left.
    + intros (b & q' & Hb & Hf). pose proof (crun_inv ops os) as Hi. fold s in Hi.
      pose proof (c_subscribe_list_inv (plain ops) bok s Hi) as Hi'. unfold c_subscribe_all in H. rewrite H in Hi'. cbn in Hi'.
      assert (Hc : csubs s' = csubs s).
      { rewrite Hb in H. cbn in H. destruct (c_subscribe s b (bok b)) as [s1 r1] eqn:E1.
        destruct (c_subscribe_subs _ _ _ _ _ E1) as [(-> & Hn & Hbt & _)|(Hr1 & Es & _)].
        - destruct Hf as [Hf|Hf]; [|congruence]. apply (subscribed_iff _ b Hi) in Hf as [x Hx]. congruence.
        - destruct r1; [destruct (Hr1 eq_refl)|injection H as <- _; exact Es|injection H as <- _; exact Es]. }
      intros c. rewrite (subscribed_iff _ c Hi), (subscribed_iff _ c Hi'), Hc. reflexivity.
Qed.
Print Assumptions C18_exact.

Example C18_exact_example :
  let ops := [mkRecv false "ping"; mkRecv true "x.{y}"; mkRecv false "pong"] in
  let '(s, r) := c_subscribe_all ops cinit (fun a => bool_decide (a = "pong")) in
  let '(s2, r2) := c_subscribe_all ops cinit (fun a => bool_decide (a = "ping")) in
  r = CrBroker /\ subscribed (clog s) = [] /\ r2 = CrBroker /\ subscribed (clog s2) = ["ping"].
Proof. vm_compute. auto. Qed.

Example C18_example :
  let ops := [mkRecv false "ping"; mkRecv true "x.{y}"; mkRecv false "pong"] in
  let '(s, r) := c_subscribe_all ops cinit (fun _ => true) in
  r = CrOk /\ subscribed (clog s) = ["ping"; "pong"] /\ plain ops = ["ping"; "pong"].
Proof. vm_compute. auto. Qed.
