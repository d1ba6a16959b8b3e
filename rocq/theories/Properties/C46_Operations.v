(** C46: the application and the user sides are dual; C71: replies without a channel; C72: the
    message of an operation. *)
From stdpp Require Import gmap list strings.
From Coq Require Import String.
From Verif.Model Require Import Reference Operations.
From Verif.Spec Require Import OperationsSpec.
From Verif.Proof Require Import OperationsProof.
Local Open Scope string_scope.

(** A side receives exactly the operations it should; the subscriber interface is generated exactly
    when there is one.  Partial: no operation is a reference (see [C46_reference_refuted]). *)
Theorem C46_received_partial s (ops : list (string * operation)) :
  NoDup ops.*1%list -> no_reference ops ->
  (forall k g, receive (new_action_operations s ops) !! k = Some g <->
     exists o, (k, o) ∈ ops /\ receives s o /\ g = GOp o) /\
  (receive_count (new_action_operations s ops) = 0%nat <-> ~ exists k o, (k, o) ∈ ops /\ receives s o).
Proof.
  intros Hn Hr. split.
  - intros k g. rewrite receive_maps. by apply receive_spec.
  - rewrite receive_count_size by done. rewrite map_size_empty_iff, receive_maps. split.
    + intros He (k & o & Ho & Hs).
      assert ((maps_of s ops).1 !! k = Some (GOp o)) as H by (apply receive_spec; [done|done|]; by exists o).
      by rewrite He in H.
    + intros Hno. apply map_eq. intros k. rewrite lookup_empty. destruct (_ !! k) as [g|] eqn:E; [|done].
      apply receive_spec in E as (o & ? & ? & _); [|done|done]. destruct Hno. by exists k, o.
Qed.
Print Assumptions C46_received_partial.

(** What a side receives the other side sends, and conversely, whatever the iteration orders.
    Partial: no reference, and the name of a reply channel is not that of an operation nor of another reply. *)
Theorem C46_dual_partial s (ops ops' : list (string * operation)) :
  ops ≡ₚ ops' -> NoDup ops.*1%list -> no_reference ops -> no_clash s ops ->
  forall k o, send (new_action_operations s ops) !! k = Some (GOp o) <->
              receive (new_action_operations (opposite s) ops') !! k = Some (GOp o).
Proof.
  intros HP Hn Hr Hc k o.
  assert (NoDup ops'.*1%list) as Hn' by (by rewrite <- HP).
  assert (no_reference ops') as Hr' by (intros k' o'; rewrite <- HP; apply Hr).
  rewrite receive_maps, send_maps, receive_spec by done. split.
  - intros H. destruct (send_sound _ _ _ _ Hr H) as [(p & ? & ? & [= ->])|(? & ? & ? & _ & _ & _ & _ & [=])].
    exists p. rewrite <- HP. done.
  - intros (p & Hp & Hs & [= ->]). rewrite <- HP in Hp. by apply (send_complete s ops).
Qed.
Print Assumptions C46_dual_partial.

(** The side that receives an operation answered on a channel has an operation to send the answer;
    everything it sends is an operation it should send or such an answer.  Partial: the same. *)
Theorem C46_reply_partial s (ops : list (string * operation)) :
  NoDup ops.*1%list -> no_reference ops -> no_clash s ops ->
  (forall k o ch, (k, o) ∈ ops -> receives s o -> answered_on o ch ->
     send (new_action_operations s ops) !! ch_name ch = Some (GReply o ch)) /\
  (forall k g, send (new_action_operations s ops) !! k = Some g ->
     (exists o, (k, o) ∈ ops /\ sends s o /\ g = GOp o) \/
     (exists k' o ch, (k', o) ∈ ops /\ receives s o /\ answered_on o ch /\ g = GReply o ch)).
Proof.
  intros Hn Hr Hc. split.
  - intros k o ch. rewrite send_maps. by apply send_complete.
  - intros k g. rewrite send_maps. intros H.
    destruct (send_sound _ _ _ _ Hr H) as [?|(k' & o & ch & ? & ? & ? & _ & ?)]; [by left|].
    right. by exists k', o, ch.
Qed.
Print Assumptions C46_reply_partial.

(** Exactly: in whatever order the operations come, a side has all operations it should send under their keys, and an answer for each operation
    answered on a channel, if and only if no reply channel has the name of an operation to send or of the reply channel of another operation. *)
Theorem C46_exact s (ops : list (string * operation)) :
  NoDup ops.*1%list -> no_reference ops ->
  (forall k o, (k, o) ∈ ops -> sends s o -> send (new_action_operations s ops) !! k = Some (GOp o)) /\
  (forall k o ch, (k, o) ∈ ops -> receives s o -> answered_on o ch -> exists k', send (new_action_operations s ops) !! k' = Some (GReply o ch)) <->
  no_mixture s ops.
Proof.
  intros Hn Hr. rewrite <- (send_exact s ops Hn Hr). rewrite send_maps. split; intros [A B]; (split; [|exact B]).
  - intros k o Ho Hs. exists k. split; [by apply A|done].
  - intros k o Ho Hs. by destruct (A k o Ho Hs) as (? & ? & ->).
Qed.
Print Assumptions C46_exact.

(** A request answered on its own channel, and an event. *)
Definition chan46 (n : string) : channel := mkChannel n [1%nat].
Definition ask46 (n : string) (ch : channel) : operation :=
  mkOperation n "receive" (chan46 "asks") [] (Some (mkReply (Some ch) [])) None.
Definition event46 (n : string) : operation := mkOperation n "send" (chan46 "events") [] None None.
Definition ops46 : list (string * operation) := [("ask", ask46 "Ask" (chan46 "answers")); ("event", event46 "Event")].
Example C46_example :
  NoDup ops46.*1%list /\ no_reference ops46 /\ no_clash Application ops46 /\ no_clash User ops46 /\
  send (new_action_operations Application ops46) =
    {["event" := GOp (event46 "Event"); "answers" := GReply (ask46 "Ask" (chan46 "answers")) (chan46 "answers")]}.
Proof.
  assert (forall k o, (k, o) ∈ ops46 -> (k = "ask" /\ o = ask46 "Ask" (chan46 "answers")) \/ (k = "event" /\ o = event46 "Event")) as E.
  { intros k o H. apply elem_of_cons in H. destruct H as [[= -> ->]|H]; [by left|].
    apply elem_of_list_singleton in H. injection H as -> ->. by right. }
  split; [apply (bool_decide_unpack _); vm_compute; exact I|].
  split; [intros k o H; by destruct (E _ _ H) as [[-> ->]|[-> ->]]|].
  split; [|split].
  - intros k o ch H Hs (r & Hr & Hch). destruct (E _ _ H) as [[-> ->]|[-> ->]]; [|done].
    injection Hr as <-. injection Hch as <-. split.
    + intros k' o' H' _. destruct (E _ _ H') as [[-> ->]|[-> ->]]; done.
    + intros k' o' ch' H' Hs' _ _. destruct (E _ _ H') as [[-> ->]|[-> ->]]; done.
  - intros k o ch H Hs (r & Hr & Hch). destruct (E _ _ H) as [[-> ->]|[-> ->]]; done.
  - reflexivity.
Qed.

(** Under two keys, the same request: no mixture, though the channels have one name. *)
Example C46_exact_ex :
  let ops := [("a", ask46 "A" (chan46 "answers")); ("A", ask46 "A" (chan46 "answers"))] in
  NoDup ops.*1%list /\ no_reference ops /\ no_mixture Application ops /\ ~ no_clash Application ops.
Proof.
  cbn zeta. assert (forall k o, (k, o) ∈ [("a", ask46 "A" (chan46 "answers")); ("A", ask46 "A" (chan46 "answers"))] -> o = ask46 "A" (chan46 "answers")) as E.
  { intros k o H. apply elem_of_cons in H. destruct H as [[= -> ->]|H]; [done|]. apply elem_of_list_singleton in H. by injection H as -> ->. }
  split; [apply (bool_decide_unpack _); vm_compute; exact I|]. split; [intros k o H; by rewrite (E _ _ H)|]. split.
  - intros k o ch Ho Hs Ha. split.
    + intros k' o' Ho' Hs'. by rewrite (E _ _ Ho') in Hs'.
    + intros k' o' ch' Ho' _ _ _. by rewrite (E _ _ Ho), (E _ _ Ho').
  - intros H. assert (answered_on (ask46 "A" (chan46 "answers")) (chan46 "answers")) as Ha by (by exists (mkReply (Some (chan46 "answers")) [])).
    destruct (H "a" (ask46 "A" (chan46 "answers")) (chan46 "answers")) as [_ H2]; [left|done|done|].
    discriminate (H2 "A" (ask46 "A" (chan46 "answers")) (chan46 "answers") ltac:(right; left) eq_refl Ha eq_refl).
Qed.

(** Two requests answered on the same channel: in every iteration order one of them has no answer to send. *)
Theorem C46_reply_refuted :
  exists ops : list (string * operation), NoDup ops.*1%list /\ no_reference ops /\
    forall ops', ops' ≡ₚ ops ->
    exists k o ch, (k, o) ∈ ops /\ receives Application o /\ answered_on o ch /\
      forall k', send (new_action_operations Application ops') !! k' <> Some (GReply o ch).
Proof.
  set (c := chan46 "answers"). set (a := ("a", ask46 "A" c)). set (b := ("b", ask46 "B" c)).
  exists [a; b]. split; [apply (bool_decide_unpack _); vm_compute; exact I|].
  split.
  { intros k o H. apply elem_of_cons in H. destruct H as [[= -> ->]|H]; [done|].
    apply elem_of_list_singleton in H. by injection H as -> ->. }
  intros ops' HP. symmetry in HP. apply Permutation_length_2_inv in HP as [-> | ->].
  - exists "a", (ask46 "A" c), c. split; [left|]. split; [done|]. split; [by exists (mkReply (Some c) [])|].
    intros k'. change (({["answers" := GReply (ask46 "B" c) c]} : gmap string gop) !! k' <> Some (GReply (ask46 "A" c) c)).
    destruct (decide (k' = "answers")) as [->|]; [rewrite lookup_singleton; by intros [=]|by rewrite lookup_singleton_ne].
  - exists "b", (ask46 "B" c), c. split; [right; left|]. split; [done|]. split; [by exists (mkReply (Some c) [])|].
    intros k'. change (({["answers" := GReply (ask46 "A" c) c]} : gmap string gop) !! k' <> Some (GReply (ask46 "B" c) c)).
    destruct (decide (k' = "answers")) as [->|]; [rewrite lookup_singleton; by intros [=]|by rewrite lookup_singleton_ne].
Qed.
Print Assumptions C46_reply_refuted.

(** An operation whose key is the name of a reply channel: in every iteration order, either the application
    does not send the operation, though the user receives it, or it has no answer to send; which one depends on the order. *)
Theorem C46_dual_refuted :
  exists (ops : list (string * operation)) k o a ch, NoDup ops.*1%list /\ no_reference ops /\
    (k, o) ∈ ops /\ sends Application o /\ (exists ka, (ka, a) ∈ ops) /\ receives Application a /\ answered_on a ch /\
    (forall ops', ops' ≡ₚ ops -> receive (new_action_operations User ops') !! k = Some (GOp o)) /\
    (exists ops', ops' ≡ₚ ops /\ forall k', send (new_action_operations Application ops') !! k' <> Some (GOp o)) /\
    (exists ops', ops' ≡ₚ ops /\ forall k', send (new_action_operations Application ops') !! k' <> Some (GReply a ch)).
Proof.
  set (c := chan46 "x"). set (a := ("a", ask46 "A" c)). set (b := ("x", event46 "X")).
  assert (NoDup ([a; b].*1%list)) as Hn by (apply (bool_decide_unpack _); vm_compute; exact I).
  assert (no_reference [a; b]) as Hr.
  { intros k o H. apply elem_of_cons in H. destruct H as [[= -> ->]|H]; [done|].
    apply elem_of_list_singleton in H. by injection H as -> ->. }
  exists [a; b], "x", (event46 "X"), (ask46 "A" c), c.
  split; [done|]. split; [done|]. split; [right; left|]. split; [done|]. split; [exists "a"; left|]. split; [done|].
  split; [by exists (mkReply (Some c) [])|]. split; [|split].
  - intros ops' HP. rewrite receive_maps. apply receive_spec.
    + by rewrite HP.
    + intros k o. rewrite HP. apply Hr.
    + exists (event46 "X"). rewrite HP. split; [right; left|done].
  - exists [b; a]. split; [apply Permutation_swap|]. intros k'.
    change (({["x" := GReply (ask46 "A" c) c]} : gmap string gop) !! k' <> Some (GOp (event46 "X"))).
    destruct (decide (k' = "x")) as [->|]; [rewrite lookup_singleton; by intros [=]|by rewrite lookup_singleton_ne].
  - exists [a; b]. split; [done|]. intros k'.
    change (({["x" := GOp (event46 "X")]} : gmap string gop) !! k' <> Some (GReply (ask46 "A" c) c)).
    destruct (decide (k' = "x")) as [->|]; [rewrite lookup_singleton; by intros [=]|by rewrite lookup_singleton_ne].
Qed.
Print Assumptions C46_dual_refuted.

(** An operation that is a reference to one of the components is generated on neither side. *)
Theorem C46_reference_refuted :
  exists (ops : list (string * operation)) k o, (k, o) ∈ ops /\ receives Application o /\
    forall s, receive (new_action_operations s ops) = ∅ /\ send (new_action_operations s ops) = ∅.
Proof.
  exists [("ask", mkOperation "Ask" "" (mkChannel "" []) [] None (Some (ask46 "Asked" (chan46 "answers"))))], "ask".
  eexists. split; [left|]. split; [done|]. by intros [].
Qed.
Print Assumptions C46_reference_refuted.

(** Version 2: a side subscribes to exactly the channels it should, publishes on those the other subscribes to, and
    the subscriber interface has these channels, being generated exactly when there is one. *)
Theorem C46_v2 s (cs : list (string * channel2)) : NoDup cs.*1%list ->
  (forall k c, subscribe_channels (new_controller2 s cs) !! k = Some c <-> (k, c) ∈ cs /\ receives2 s c) /\
  publish_channels (new_controller2 s cs) = subscribe_channels (new_controller2 (opposite s) cs) /\
  new_subscriber2 s cs = (method_count (new_controller2 s cs), subscribe_channels (new_controller2 s cs)) /\
  method_count (new_controller2 s cs) = size (subscribe_channels (new_controller2 s cs)).
Proof.
  intros Hn. pose proof (count2_size s cs Hn) as Hc.
  assert (forall s, new_controller2 s cs =
    mkController2 (match s with Application => (publish_subscribe_count cs).1 | User => (publish_subscribe_count cs).2 end)
      (fold_left (fun (m : gmap string channel2) (kc : string * channel2) => if is_subscribe_channel s kc.2 then <[kc.1 := kc.2]> m else m) cs ∅)
      (fold_left (fun (m : gmap string channel2) (kc : string * channel2) => if is_publish_channel s kc.2 then <[kc.1 := kc.2]> m else m) cs ∅)) as E.
  { intros s'. unfold new_controller2. destruct (publish_subscribe_count cs) as [p sb]. rewrite fold_pair2. by destruct s'. }
  rewrite !E. simpl. split; [|split; [|split]].
  - intros k c. rewrite fold_channels2 by done. by destruct s.
  - by destruct s.
  - unfold new_subscriber2. destruct (publish_subscribe_count cs) as [p sb]. by destruct s.
  - done.
Qed.
Print Assumptions C46_v2.
Example C46_v2_example :
  NoDup ([("in", mkChannel2 true false); ("both", mkChannel2 true true)].*1%list) /\
  size (subscribe_channels (new_controller2 Application [("in", mkChannel2 true false); ("both", mkChannel2 true true)])) = 2%nat /\
  size (publish_channels (new_controller2 Application [("in", mkChannel2 true false); ("both", mkChannel2 true true)])) = 1%nat.
Proof. split; [apply (bool_decide_unpack _); vm_compute; exact I|]. by vm_compute. Qed.

(** C71: the replies are generated exactly when every reply has its channel in place, otherwise the
    generator panics.  Full statement: it never panics; see the refutation. *)
Theorem C71_replies_partial (ops : list (string * operation)) :
  (generate_replies ops = Ok tt <-> forall k o r, (k, o) ∈ ops -> o_reply o = Some r -> exists ch, r_channel r = Some ch) /\
  (generate_replies ops = Ok tt \/ generate_replies ops = Panic).
Proof.
  induction ops as [|[k o] ops [IH1 IH2]]; simpl.
  - split; [|by left]. split; [|done]. intros _ k o r H. by apply elem_of_nil in H.
  - unfold generate_reply. destruct (o_reply o) as [r|] eqn:Er.
    + destruct (r_channel r) as [ch|] eqn:Ec.
      * split; [|done]. rewrite IH1. split; intros H k' o' r' Ho Hr'.
        -- apply elem_of_cons in Ho. destruct Ho as [[= -> ->]|Ho]; [|by eapply H].
           rewrite Er in Hr'. injection Hr' as <-. by exists ch.
        -- eapply H; [by right|done].
      * split; [|by right]. split; [done|]. intros H. destruct (H k o r) as [ch Hch]; [left|done|]. congruence.
    + split; [|done]. rewrite IH1. split; intros H k' o' r' Ho Hr'.
      * apply elem_of_cons in Ho. destruct Ho as [[= -> ->]|Ho]; [congruence|by eapply H].
      * eapply H; [by right|done].
Qed.
Print Assumptions C71_replies_partial.
Example C71_example : generate_replies ops46 = Ok tt. Proof. done. Qed.

(** A reply given by its address only, as the standard allows, makes the generator panic. *)
Theorem C71_replies_refuted :
  exists ops : list (string * operation), NoDup ops.*1%list /\ no_reference ops /\ generate_replies ops = Panic.
Proof.
  exists [("ask", mkOperation "Ask" "receive" (chan46 "asks") [] (Some (mkReply None [1%nat])) None)].
  split; [apply (bool_decide_unpack _); vm_compute; exact I|]. split; [|done].
  intros k o H. apply elem_of_list_singleton in H. by injection H as -> ->.
Qed.
Print Assumptions C71_replies_refuted.

(** C72: the message of an operation that lists its messages is the first of them; without a list it is a message of the channel,
    always the same one when there is only one.  Full statement: it is the same at every evaluation; see the refutations. *)
Theorem C72_message_partial g order : order ≡ₚ ch_messages (gop_channel g) ->
  (forall m, get_message g order = Some m -> m ∈ ((match g with GOp o => o_messages o | _ => [] end) ++ ch_messages (gop_channel g))%list) /\
  (forall o m l, g = GOp o -> o_messages o = m :: l -> get_message g order = Some m) /\
  (forall m, ch_messages (gop_channel g) = [m] -> (forall o, g = GOp o -> o_messages o = []) -> get_message g order = Some m) /\
  (get_message g order = None <-> ch_messages (gop_channel g) = [] /\ forall o, g = GOp o -> o_messages o = []).
Proof.
  intros HP. assert (forall m, head order = Some m -> m ∈ ch_messages (gop_channel g)) as Hh.
  { intros m Hm. rewrite <- HP. destruct order; [done|]. injection Hm as ->. left. }
  assert (head order = None <-> ch_messages (gop_channel g) = []) as Hz.
  { split; [|intros He; rewrite He in HP; by apply Permutation_nil_r in HP as ->].
    destruct order; [intros _; by apply Permutation_nil_l in HP|done]. }
  split; [|split; [|split]].
  - intros m. rewrite elem_of_app. unfold get_message, channel_get_message.
    destruct g as [o|o ch]; [|intros H; right; by apply Hh].
    destruct (o_messages o); [intros H; right; by apply Hh|]. intros [= ->]. left. left.
  - intros o m l -> Hm. simpl. by rewrite Hm.
  - intros m Hm Hl. rewrite Hm in HP. apply Permutation_singleton_r in HP as ->.
    destruct g as [o|o ch]; [|done]. simpl. by rewrite (Hl o eq_refl).
  - unfold get_message, channel_get_message. destruct g as [o|o ch].
    + destruct (o_messages o) as [|m l] eqn:E.
      * rewrite Hz. split; [intros H; split; [done|]; by intros o' [= <-]|by intros [? _]].
      * split; [done|]. intros [_ H]. by rewrite (H o eq_refl) in E.
    + rewrite Hz. split; [intros H; split; [done|]; by intros o' [=]|by intros [? _]].
Qed.
Print Assumptions C72_message_partial.
(** Exactly when the message is the same at every evaluation. *)
Theorem C72_exact g m :
  (forall order, order ≡ₚ ch_messages (gop_channel g) -> get_message g order = Some m) <->
  match g with GOp o => o_messages o | GReply _ _ => [] end = [] /\ ch_messages (gop_channel g) <> [] /\ Forall (eq m) (ch_messages (gop_channel g)) \/
  exists l, match g with GOp o => o_messages o | GReply _ _ => [] end = m :: l.
Proof.
  assert (forall l : list nat, (forall order, order ≡ₚ l -> head order = Some m) <-> l <> [] /\ Forall (eq m) l) as Hh.
  { intros l. split.
    - intros H. split; [intros ->; discriminate (H [] (Permutation_refl _))|]. apply Forall_forall. intros x Hx.
      apply elem_of_Permutation in Hx as (k & Hk). specialize (H (x :: k)). rewrite Hk in H. specialize (H (Permutation_refl _)).
      by injection H as ->.
    - intros [Hn HF] order HP. rewrite <- HP in HF. destruct order as [|x order]; [by apply Permutation_nil_l in HP|].
      apply Forall_cons in HF as [<- _]. done. }
  unfold get_message, channel_get_message. destruct g as [o|o ch]; [destruct (o_messages o) as [|x l] eqn:E|]; cbn [gop_channel].
  - rewrite Hh. split; [intros H; left; done|]. intros [[_ H]|[l [=]]]. done.
  - split.
    + intros H. right. specialize (H _ (Permutation_refl _)). injection H as ->. by exists l.
    + intros [[[=] _]|[l' [= -> ->]]]. done.
  - rewrite Hh. split; [intros H; left; done|]. intros [[_ H]|[l [=]]]. done.
Qed.
Print Assumptions C72_exact.
Example C72_example :
  get_message (GOp (mkOperation "A" "send" (mkChannel "c" [1; 2]%nat) [2%nat] None None)) [1; 2]%nat = Some 2%nat.
Proof. done. Qed.

(** The answer of an operation that says which message it is answered with: another message can be
    taken, and two evaluations in one generation can differ. *)
Theorem C72_reply_refuted :
  exists o r ch m, o_reply o = Some r /\ r_channel r = Some ch /\ r_messages r = [m] /\ m ∈ ch_messages ch /\
    generate_reply o = Ok (Some (GReply o ch)) /\
    (exists order, order ≡ₚ ch_messages ch /\ get_message (GReply o ch) order <> Some m) /\
    (exists order, order ≡ₚ ch_messages ch /\ get_message (GReply o ch) order = Some m).
Proof.
  set (ch := mkChannel "c" [1; 2]%nat). set (r := mkReply (Some ch) [2%nat]).
  exists (mkOperation "A" "receive" (chan46 "asks") [] (Some r) None), r, ch, 2%nat.
  split; [done|]. split; [done|]. split; [done|]. split; [right; left|]. split; [done|]. split.
  - by exists [1; 2]%nat.
  - exists [2; 1]%nat. split; [apply Permutation_swap|done].
Qed.
Print Assumptions C72_reply_refuted.
