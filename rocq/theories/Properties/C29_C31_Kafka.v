(** C29-C31: the Kafka broker controller. *)
From stdpp Require Import gmap strings list.
From Verif.Model Require Import Ack Kafka.
From Verif.Spec Require Import KafkaSpec.
From Verif.Proof Require Import KafkaProof.

(** ** C29: independent configuration *)

(** The full statement: the i-th controller uses [asked] of its own options. It is false: a
    controller created without TLS uses the TLS configuration of another one. *)
Theorem C29_independent_refuted :
  exists news i os c h cs,
    k_process news dheap_init [] = (h, cs) /\ news !! i = Some (os, true) /\ cs !! i = Some (Some c) /\
    k_config h c <> Some (asked os).
Proof.
  exists [([KOther], true); ([KTLS (Some 7)], true)], 0, [KOther], (mkKctrl 0). do 2 eexists.
  split; [reflexivity|]. vm_compute. split; [reflexivity|]. split; [reflexivity|congruence].
Qed.
Print Assumptions C29_independent_refuted.

(** Exactly what they use: all controllers of the process use the last TLS and the last SASL
    configuration given to any of them, also to those whose creation failed. *)
Theorem C29_shared_configuration_partial news i c :
  let '(h, cs) := k_process news dheap_init [] in
  cs !! i = Some (Some c) -> k_config h c = Some (asked (concat (map fst news))).
Proof. exact (process_config news i c). Qed.
Print Assumptions C29_shared_configuration_partial.

(** Hence the statement holds when all creations ask for the same configuration explicitly. *)
Theorem C29_same_options_partial os n i c :
  let '(h, cs) := k_process (replicate n (os, true)) dheap_init [] in
  cs !! i = Some (Some c) -> k_config h c = Some (asked os).
Proof.
  pose proof (process_config (replicate n (os, true)) i c) as H.
  destruct (k_process _ _ _) as [h cs] eqn:E. intros Hc. rewrite (H Hc). f_equal.
  destruct n as [|n].
  { cbn in E. injection E as <- <-. discriminate. }
  clear. induction n as [|n IH]; [cbn; now rewrite app_nil_r|].
  change (concat (map fst (replicate (S (S n)) (os, true)))) with (os ++ concat (map fst (replicate (S n) (os, true)))).
  revert IH. generalize (concat (map fst (replicate (S n) (os, true)))). intros l IH.
  unfold asked in *. rewrite asked_tls_app, asked_sasl_app.
  injection IH as H1 H2. f_equal.
  - destruct (asked_tls l); [exact H1|]. reflexivity.
  - destruct (asked_sasl l); [exact H2|]. reflexivity.
Qed.
Print Assumptions C29_same_options_partial.

Example C29_example :
  let '(h, cs) := k_process [([KTLS (Some 1); KSasl (Some 2)], true); ([KTLS (Some 3)], false); ([], true)] dheap_init [] in
  map (fun c => c ≫= k_config h) cs = [Some (mkDialer (Some 3) (Some 2)); None; Some (mkDialer (Some 3) (Some 2))].
Proof. vm_compute. reflexivity. Qed.

(** ** C30: publication *)

(** Whatever the broker answers, a publication that returns made an allowed run of calls: it
    retried only after an unknown topic whose check succeeded, and returned success after the
    first successful write, or the first other error. *)
Theorem C30_allowed_runs {E} topic ws cs l r :
  @k_publish E topic ws cs = (l, r) -> r <> KPending -> publish_run l r.
Proof. exact (publish_shape topic ws cs l r). Qed.
Print Assumptions C30_allowed_runs.

(** In particular one successful write when it succeeds and none otherwise. *)
Theorem C30_one_successful_write {E} topic ws cs l r :
  @k_publish E topic ws cs = (l, r) -> r <> KPending ->
  length (List.filter (fun c => match c with KWrite WOk => true | _ => false end) l) =
  match r with KOk => 1 | _ => 0 end.
Proof. intros H Hr. exact (run_writes l r (publish_shape topic ws cs l r H Hr)). Qed.
Print Assumptions C30_one_successful_write.

(** The answers are used in order, none is skipped. *)
Theorem C30_answers_in_order {E} topic ws cs l r :
  @k_publish E topic ws cs = (l, r) ->
  exists n, omap (fun c => match c with KWrite a => Some a | _ => None end) l = take n ws /\
  exists m, omap (fun c => match c with KCheck a => Some a | _ => None end) l = map (check_topic topic) (take m cs).
Proof. exact (publish_answers topic ws cs l r). Qed.
Print Assumptions C30_answers_in_order.

(** A check that succeeds has seen the topic among the partitions, and not before. *)
Theorem C30_check_saw_topic {E} topic (c : check_script E) :
  check_topic topic c = KOk ->
  cdial c = None /\
  exists pre parts post, citers c = pre ++ (None, inl parts) :: post /\ topic ∈ parts /\
    Forall (fun it => exists ps, it = (None, inl ps) /\ topic ∉ ps) pre.
Proof.
  unfold check_topic. destruct (cdial c) eqn:Ed; [discriminate|]. intros H. split; [reflexivity|].
  exact (check_loop_ok topic (citers c) H).
Qed.
Print Assumptions C30_check_saw_topic.

Example C30_example :
  let seen := mkCheck None [(None, inl ["a"]); (None, inl ["a"; "t"])] : check_script nat in
  k_publish "t" [WUnknownTopic; WUnknownTopic; WOk; WOk] [seen; seen] =
    ([KWrite WUnknownTopic; KCheck KOk; KWrite WUnknownTopic; KCheck KOk; KWrite WOk], KOk) /\
  k_publish "t" [WUnknownTopic; WFail 3] [seen] = ([KWrite WUnknownTopic; KCheck KOk; KWrite (WFail 3)], KErr 3) /\
  k_publish "t" [WUnknownTopic; WOk] [mkCheck (Some 4) []] = ([KWrite WUnknownTopic; KCheck (KErr 4)], KErr 4).
Proof. vm_compute. auto. Qed.

(** ** C31: commits *)

(** After any history, the committed messages are those that were fetched and then settled by the
    subscriber, each once, in the order of the first settlements. *)
Theorem C31_commits_settled_partial os i :
  NoDup (kcommits (kmrun os kminit)) /\
  (i ∈ kcommits (kmrun os kminit) <->
   exists pre k post, os = pre ++ KSettle i k :: post /\ i < length (filter (fun o => o = KFetch) pre)).
Proof.
  rewrite commits_spec. split; [apply first_settled_nodup|]. rewrite first_settled_in. cbn [Nat.add].
  split; [intros [_ H]; exact H|]. intros H. split; [intros Hn; inversion Hn|exact H].
Qed.
Print Assumptions C31_commits_settled_partial.

Theorem C31_commit_order_partial os : kcommits (kmrun os kminit) = first_settled 0 [] os.
Proof. exact (commits_spec os). Qed.
Print Assumptions C31_commit_order_partial.

(** A message that was only refused is committed as well, so it is not delivered again. *)
Theorem C31_nak_commits_refuted :
  exists os i, i ∈ kcommits (kmrun os kminit) /\ ~ exists pre post, os = pre ++ KSettle i SAck :: post.
Proof.
  exists [KFetch; KFetch; KSettle 1 SAck; KSettle 0 SNak], 0. split; [vm_compute; right; left|].
  intros (pre & post & E). destruct pre as [|? [|? [|? [|? [|? ?]]]]]; discriminate.
Qed.
Print Assumptions C31_nak_commits_refuted.

Example C31_example :
  kcommits (kmrun [KFetch; KSettle 0 SAck; KSettle 0 SNak; KSettle 1 SAck; KFetch; KFetch; KSettle 2 SNak; KSettle 1 SAck] kminit)
  = [0; 2; 1].
Proof. vm_compute. reflexivity. Qed.
