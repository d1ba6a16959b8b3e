(** C100: calls made at once on one controller leave no stray subscription. *)
From stdpp Require Import gmap strings.
From Verif.Model Require Import Controller Concurrent.
From Verif.Spec Require Import ControllerSpec ConcurrentSpec.
From Verif.Proof Require Import ControllerProof ConcurrentProof.

Local Ltac decided := apply (bool_decide_unpack _); vm_compute; exact I.
Lemma run_some xs : bool_decide (is_Some (kruns kinit xs)) = true ->
  kruns kinit xs = Some (default kinit (kruns kinit xs)).
Proof. intros H. apply bool_decide_eq_true in H. by destruct (kruns kinit xs); [|destruct H]. Qed.
Lemma lost s a i :
  kcalls s = ∅ -> (a, i) ∈ live (klog s) -> i < knext s -> (forall b, kmap s !! b <> Some i) -> stray s a i.
Proof.
  intros Hc Hl Hn Hm. split; [done|]. split; [done|]. split; [done|].
  split; intros t b; by rewrite Hc, lookup_empty.
Qed.

(** ** Refuted: two goroutines subscribe to one address *)
Definition two_subscribes : list act :=
  [Begin 1 (Subscribe "ping"); Begin 2 (Subscribe "ping"); Next 1 true; Next 2 true; Next 1 true; Next 2 true;
   Next 1 true; Next 2 true].
(** Full statement that fails: whatever the goroutines do, once no call is under way every live
    subscription of the broker is in the map of the controller, so that it can be cancelled. Here both
    calls succeed on one address, and one subscription is lost. *)
Theorem C100_subscribe_race_refuted :
  exists s, kruns kinit two_subscribes = Some s /\ kcalls s = ∅ /\
    kanswers s = [("ping", CrOk); ("ping", CrOk)] /\ stray s "ping" 0.
Proof.
  exists (default kinit (kruns kinit two_subscribes)). split; [apply run_some; vm_compute; reflexivity|].
  assert (Hc : kcalls (default kinit (kruns kinit two_subscribes)) = ∅) by decided.
  split; [exact Hc|]. split; [vm_compute; reflexivity|]. apply lost; [exact Hc|decided|decided|].
  assert (E : kmap (default kinit (kruns kinit two_subscribes)) = {["ping" := 1]}) by decided.
  rewrite E. intros b H. by apply lookup_singleton_Some in H as [_ H].
Qed.
Print Assumptions C100_subscribe_race_refuted.

(** ** Refuted: an unsubscription that is slow, while another goroutine unsubscribes and subscribes *)
Definition slow_unsubscribe : list act :=
  [Begin 1 (Subscribe "ping"); Next 1 true; Next 1 true; Next 1 true;
   Begin 1 (Unsubscribe "ping"); Next 1 true;
   Begin 2 (Unsubscribe "ping"); Next 2 true; Next 2 true; Next 2 true;
   Begin 2 (Subscribe "ping"); Next 2 true; Next 2 true; Next 2 true;
   Next 1 true; Next 1 true].
Theorem C100_unsubscribe_race_refuted :
  exists s, kruns kinit slow_unsubscribe = Some s /\ kcalls s = ∅ /\ stray s "ping" 1.
Proof.
  exists (default kinit (kruns kinit slow_unsubscribe)). split; [apply run_some; vm_compute; reflexivity|].
  assert (Hc : kcalls (default kinit (kruns kinit slow_unsubscribe)) = ∅) by decided.
  split; [exact Hc|]. apply lost; [exact Hc|decided|decided|].
  assert (E : kmap (default kinit (kruns kinit slow_unsubscribe)) = ∅) by decided.
  rewrite E. intros b H. by rewrite lookup_empty in H.
Qed.
Print Assumptions C100_unsubscribe_race_refuted.

(** A stray subscription is alive for ever: no further calls, Close among them, cancel it. *)
Theorem C100_stray_forever s a i xs s' :
  stray s a i -> kruns s xs = Some s' -> stray s' a i.
Proof. apply stray_run. Qed.
Print Assumptions C100_stray_forever.

Example C100_stray_forever_ex :
  exists s', kruns kinit (two_subscribes ++ [Begin 1 (Unsubscribe "ping"); Next 1 true; Next 1 true; Next 1 true])
             = Some s' /\
    kmap s' = ∅ /\ kcalls s' = ∅ /\ live (klog s') = [("ping", 0)].
Proof. eexists. split; [apply run_some; vm_compute; reflexivity|]. split; [decided|]. split; decided. Qed.

(** What counts as an access: a step writes the map exactly if, in some state, it changes it, and it reads the map without writing it exactly if, in
    some state, what it does beside depends on the content of the map. *)
Definition with_map (m : gmap string nat) (s : kst) : kst := mkK m (knext s) (klog s) (kcalls s) (kanswers s).
Definition changes (p : point) : Prop :=
  exists s t a bok s', kcalls s !! t = Some (a, p) /\ kstep s (Next t bok) = Some s' /\ kmap s' <> kmap s.
Definition depends (p : point) : Prop :=
  exists s t a bok m, kcalls s !! t = Some (a, p) /\
    (with_map ∅ <$> kstep (with_map m s) (Next t bok)) <> (with_map ∅ <$> kstep s (Next t bok)).
Theorem C100_access p :
  (map_access p = Writes <-> changes p) /\ (map_access p = Reads <-> depends p).
Proof.
  split; split.
  - destruct p as [| |i| |i|]; try discriminate; intros _.
    + exists (mkK ∅ 0 [] {[ 1 := ("a", SStore i) ]} []), 1, "a", true. eexists.
      split; [reflexivity|]. split; [reflexivity|]. cbn [kmap]. intros E.
      assert (E' : (<["a" := i]> ∅ : gmap string nat) !! "a" = (∅ : gmap string nat) !! "a") by (by rewrite E).
      rewrite lookup_insert, lookup_empty in E'. discriminate.
    + exists (mkK {[ "a" := 0 ]} 0 [] {[ 1 := ("a", UDelete) ]} []), 1, "a", true. eexists.
      split; [reflexivity|]. split; [reflexivity|]. cbn [kmap]. intros E.
      assert (E' : (delete "a" {[ "a" := 0 ]} : gmap string nat) !! "a" = ({[ "a" := 0 ]} : gmap string nat) !! "a") by (by rewrite E).
      rewrite lookup_delete, lookup_singleton in E'. discriminate.
  - intros (s & t & a & bok & s' & Hc & Hs & Hne). cbn [kstep] in Hs. rewrite Hc in Hs.
    destruct p as [| |i| |i|]; try reflexivity; exfalso; apply Hne.
    + destruct (kmap s !! a); injection Hs as <-; reflexivity.
    + destruct bok; injection Hs as <-; reflexivity.
    + destruct (kmap s !! a); injection Hs as <-; reflexivity.
    + injection Hs as <-. reflexivity.
  - destruct p as [| |i| |i|]; try discriminate; intros _.
    + exists (mkK ∅ 0 [] {[ 1 := ("a", SCheck) ]} []), 1, "a", true, {[ "a" := 0 ]}. split; [reflexivity|]. vm_compute. discriminate.
    + exists (mkK ∅ 0 [] {[ 1 := ("a", UCheck) ]} []), 1, "a", true, {[ "a" := 0 ]}. split; [reflexivity|]. vm_compute. discriminate.
  - intros (s & t & a & bok & m & Hc & Hne). cbn [kstep with_map kcalls] in Hne. rewrite Hc in Hne.
    destruct p as [| |i| |i|]; try reflexivity; exfalso; apply Hne; try reflexivity.
    destruct bok; reflexivity.
Qed.
Print Assumptions C100_access.
Example C100_access_ex : changes (SStore 3) /\ depends UCheck /\ ~ changes SAsk /\ ~ depends SAsk.
Proof.
  split; [by apply C100_access|]. split; [by apply C100_access|].
  split; intros H; apply C100_access in H; discriminate.
Qed.

(** ** Refuted: even on different addresses the map is accessed without synchronisation *)
Theorem C100_data_race_refuted :
  exists xs s, kruns kinit xs = Some s /\ one_at_a_time kinit xs /\ data_race s.
Proof.
  exists [Begin 1 (Subscribe "ping"); Begin 2 (Subscribe "pong"); Next 1 true; Next 2 true; Next 1 true; Next 2 true].
  eexists. split; [vm_compute; reflexivity|]. split.
  - apply one_at_a_time_sound. vm_compute. reflexivity.
  - exists 1, 2, "ping", "pong", (SStore 0), (SStore 1). split; [done|].
    split; [reflexivity|]. split; [reflexivity|]. split; [reflexivity|discriminate].
Qed.
Print Assumptions C100_data_race_refuted.

(** ** One call at a time on every address *)
(** Then, if the accesses to the map are taken as indivisible, everything is as if the calls had been
    made one after the other: the broker receives the same calls, the answers are the same, and on an
    address with no call under way the map is the same. *)
Theorem C100_as_in_sequence_partial xs s :
  one_at_a_time kinit xs -> kruns kinit xs = Some s ->
  exists os, Forall single os /\
    klog s = clog (crun [] os cinit) /\ kanswers s = snd (in_sequence cinit os) /\
    forall a, idle s a -> kmap s !! a = csubs (crun [] os cinit) !! a.
Proof.
  intros Ho Hr. destruct (linked_run _ _ _ _ linked_init Ho Hr) as (os & S & L & A).
  exists os. rewrite in_sequence_run in L. destruct L as [Hl _ _ _ Hi]. by repeat split.
Qed.
Print Assumptions C100_as_in_sequence_partial.

(** So no subscription is stray: the live subscriptions of an address with no call under way are those
    of the map. *)
Theorem C100_no_stray_partial xs s a i :
  one_at_a_time kinit xs -> kruns kinit xs = Some s -> idle s a ->
  ((a, i) ∈ live (klog s) <-> kmap s !! a = Some i).
Proof.
  intros Ho Hr Hi. destruct (C100_as_in_sequence_partial _ _ Ho Hr) as (os & _ & Hl & _ & Hm).
  rewrite Hl, (Hm a Hi). symmetry. apply (proj1 (crun_inv [] os)).
Qed.
Print Assumptions C100_no_stray_partial.

Example C100_no_stray_ex :
  let xs := [Begin 1 (Subscribe "ping"); Begin 2 (Subscribe "pong"); Next 2 true; Next 1 true; Next 2 true; Next 1 true;
             Next 1 true; Next 2 true; Begin 2 (Unsubscribe "ping"); Next 2 true; Next 2 true; Next 2 true] in
  exists s, kruns kinit xs = Some s /\ one_at_a_time kinit xs /\ idle s "ping" /\ idle s "pong" /\
    live (klog s) = [("pong", 0)] /\ kmap s !! "pong" = Some 0.
Proof.
  cbv zeta. eexists. split; [apply run_some; vm_compute; reflexivity|]. split.
  - apply one_at_a_time_sound. vm_compute. reflexivity.
  - match goal with |- idle ?s _ /\ _ => assert (E : kcalls s = ∅) by decided end.
    split; [intros t p; by rewrite E, lookup_empty|]. split; [intros t p; by rewrite E, lookup_empty|].
    split; decided.
Qed.
