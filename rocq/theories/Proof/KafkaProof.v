From stdpp Require Import gmap strings list.
From Verif.Model Require Import Ack Kafka.
From Verif.Spec Require Import KafkaSpec.
From Verif.Proof Require Import AckProof.

(** ** Configuration *)
Definition override {A} (old : A) (new : option A) : A := default old new.

Lemma last_app_cons {A} (a : A) l : last (a :: l) = Some (default a (last l)).
Proof. rewrite last_cons. destruct (last l); reflexivity. Qed.

Lemma opts_effect os h d :
  h !! 0 = Some d ->
  fold_left (kopt_apply (mkKctrl default_dialer)) os h =
  <[0 := mkDialer (default (dtls d) (asked_tls os)) (default (dsasl d) (asked_sasl os))]> h.
Proof.
  revert h d. induction os as [|o os IH]; intros h d Hd; cbn [fold_left].
  - cbn. rewrite insert_id; [reflexivity|]. destruct d; exact Hd.
  - unfold kopt_apply at 2. cbn [kdialer]. change default_dialer with 0 in *. rewrite Hd.
    unfold asked_tls, asked_sasl. destruct o as [t|t|]; cbn [omap list_omap].
    + rewrite (IH _ (mkDialer t (dsasl d))) by apply lookup_insert. rewrite insert_insert. f_equal.
      unfold asked_tls, asked_sasl. cbn. rewrite last_app_cons. cbn. reflexivity.
    + rewrite (IH _ (mkDialer (dtls d) t)) by apply lookup_insert. rewrite insert_insert. f_equal.
      unfold asked_tls, asked_sasl. cbn. rewrite last_app_cons. cbn. reflexivity.
    + rewrite (IH _ d Hd). reflexivity.
Qed.

Lemma asked_tls_app a b : asked_tls (a ++ b) = match asked_tls b with Some t => Some t | None => asked_tls a end.
Proof. unfold asked_tls. rewrite omap_app, last_app. reflexivity. Qed.
Lemma asked_sasl_app a b : asked_sasl (a ++ b) = match asked_sasl b with Some t => Some t | None => asked_sasl a end.
Proof. unfold asked_sasl. rewrite omap_app, last_app. reflexivity. Qed.

Lemma process_effect news h cs d :
  h !! 0 = Some d ->
  let '(h', cs') := k_process news h cs in
  h' = <[0 := mkDialer (default (dtls d) (asked_tls (concat (map fst news))))
                       (default (dsasl d) (asked_sasl (concat (map fst news))))]> h /\
  cs' = cs ++ map (fun n : list kopt * bool => if snd n then Some (mkKctrl 0) else None) news.
Proof.
  revert h cs d. induction news as [|[os ok] news IH]; intros h cs d Hd; cbn [k_process].
  - cbn. rewrite app_nil_r. split; [|reflexivity]. rewrite insert_id; [reflexivity|]. destruct d; exact Hd.
  - unfold k_new. rewrite (opts_effect _ _ _ Hd).
    set (d1 := mkDialer _ _).
    specialize (IH (<[0:=d1]> h) (cs ++ [if ok then Some (mkKctrl default_dialer) else None]) d1 (lookup_insert _ _ _)).
    destruct (k_process _ _ _) as [h' cs']. destruct IH as [-> ->].
    rewrite insert_insert. split.
    + f_equal. cbn [map concat fst]. rewrite asked_tls_app, asked_sasl_app. unfold d1. cbn [dtls dsasl].
      destruct (asked_tls (concat _)), (asked_sasl (concat _)); reflexivity.
    + rewrite <- app_assoc. reflexivity.
Qed.

(** Every controller of a process has the configuration of all options together. *)
Lemma process_config news i c :
  let '(h, cs) := k_process news dheap_init [] in
  cs !! i = Some (Some c) -> k_config h c = Some (asked (concat (map fst news))).
Proof.
  pose proof (process_effect news dheap_init [] (mkDialer None None) eq_refl) as H.
  destruct (k_process news dheap_init []) as [h cs]. destruct H as [-> ->]. cbn [app].
  intros Hi. change (map (fun n : list kopt * bool => if snd n then Some (mkKctrl 0) else None) news)
    with ((fun n : list kopt * bool => if snd n then Some (mkKctrl 0) else None) <$> news) in Hi.
  rewrite list_lookup_fmap in Hi. destruct (news !! i) as [[os ok]|]; [|discriminate].
  cbn in Hi. destruct ok; [|discriminate]. injection Hi as <-.
  unfold k_config. cbn [kdialer]. rewrite lookup_insert. unfold asked. cbn [dtls dsasl]. reflexivity.
Qed.

(** ** Publication *)
Lemma check_loop_ok {E} topic its :
  @check_loop E topic its = KOk ->
  exists pre parts post, its = pre ++ (None, inl parts) :: post /\ topic ∈ parts /\
    Forall (fun it => exists ps, it = (None, inl ps) /\ topic ∉ ps) pre.
Proof.
  induction its as [|[[e|] [parts|e']] its IH]; cbn [check_loop]; try discriminate.
  case_bool_decide as Hin.
  - intros _. exists [], parts, its. auto.
  - intros H. destruct (IH H) as (pre & ps & post & -> & Hp & Hf).
    exists ((None, inl parts) :: pre), ps, post. split; [reflexivity|]. split; [exact Hp|]. constructor; eauto.
Qed.

Lemma publish_shape {E} topic ws cs l r :
  @k_publish E topic ws cs = (l, r) -> r <> KPending -> publish_run l r.
Proof.
  revert cs l r. induction ws as [|w ws IH]; intros cs l r; cbn [k_publish]; [congruence|].
  destruct w as [| |e].
  - intros [= <- <-] _. constructor.
  - destruct cs as [|c cs]; [congruence|]. destruct (check_topic topic c) as [|e|] eqn:Ec.
    + destruct (k_publish topic ws cs) as [l' r'] eqn:Ep. intros [= <- <-] Hr. constructor. eauto.
    + intros [= <- <-] _. constructor.
    + congruence.
  - intros [= <- <-] _. constructor.
Qed.

Definition successful_writes {E} (l : list (kcall E)) : nat :=
  length (List.filter (fun c => match c with KWrite WOk => true | _ => false end) l).

Lemma run_writes {E} (l : list (kcall E)) r :
  publish_run l r -> successful_writes l = match r with KOk => 1 | _ => 0 end.
Proof. induction 1; cbn in *; auto. Qed.

(** The calls are answered in the given order, and each successful check did see the topic. *)
Lemma publish_answers {E} topic ws cs l r :
  @k_publish E topic ws cs = (l, r) ->
  exists n, omap (fun c => match c with KWrite a => Some a | _ => None end) l = take n ws /\
  exists m, omap (fun c => match c with KCheck a => Some a | _ => None end) l = map (check_topic topic) (take m cs).
Proof.
  revert cs l r. induction ws as [|w ws IH]; intros cs l r; cbn [k_publish].
  - intros [= <- <-]. exists 0. split; [reflexivity|]. exists 0. reflexivity.
  - destruct w as [| |e].
    + intros [= <- <-]. exists 1. split; [reflexivity|]. exists 0. reflexivity.
    + destruct cs as [|c cs].
      * intros [= <- <-]. exists 1. split; [reflexivity|]. exists 0. reflexivity.
      * destruct (check_topic topic c) as [|e|] eqn:Ec.
        -- destruct (k_publish topic ws cs) as [l' r'] eqn:Ep. intros [= <- <-].
           destruct (IH _ _ _ Ep) as (n & Hn & m & Hm). exists (S n). split; [cbn; f_equal; exact Hn|].
           exists (S m). cbn. rewrite Ec. f_equal. exact Hm.
        -- intros [= <- <-]. exists 1. split; [reflexivity|]. exists 1. cbn. rewrite Ec. reflexivity.
        -- intros [= <- <-]. exists 1. split; [reflexivity|]. exists 1. cbn. rewrite Ec. reflexivity.
    + intros [= <- <-]. exists 1. split; [reflexivity|]. exists 0. reflexivity.
Qed.

(** ** Commits *)
Definition kmstate (fetched : nat) (seen : list nat) (s : kmst) : Prop :=
  length (kmsgs s) = fetched /\ (forall i, i ∈ seen -> i < fetched) /\
  forall i a, kmsgs s !! i = Some a -> if bool_decide (i ∈ seen) then acked a = true else a = ack_new.

Lemma commits_first_settled os s fetched seen :
  kmstate fetched seen s ->
  kcommits (kmrun os s) = kcommits s ++ first_settled fetched seen os.
Proof.
  revert s fetched seen. induction os as [|o os IH]; intros s fetched seen HI.
  - cbn. now rewrite app_nil_r.
  - destruct HI as (Hl & Hb & Hs). destruct o as [|i k]; unfold kmrun; cbn [fold_left first_settled kmstep].
    + fold (kmrun os (mkKm (kmsgs s ++ [ack_new]) (kcommits s))).
      rewrite (IH _ (S fetched) seen); [reflexivity|]. split; [|split]; cbn [kmsgs].
      * rewrite app_length, Hl. cbn. lia.
      * intros i Hi. apply Hb in Hi. lia.
      * intros i a Hi. apply lookup_app_Some in Hi as [Hi|[Hge Hi]]; [now apply Hs|].
        rewrite Hl in Hi, Hge. apply list_lookup_singleton_Some in Hi as [Hi <-].
        assert (i = fetched) as -> by lia. rewrite bool_decide_eq_false_2; [reflexivity|].
        intros Hf. apply Hb in Hf. lia.
    + destruct (kmsgs s !! i) as [a|] eqn:Ei.
      * pose proof (lookup_lt_Some _ _ _ Ei) as Hlt. rewrite Hl in Hlt.
        rewrite bool_decide_eq_true_2 by exact Hlt. cbn [andb].
        pose proof (Hs i a Ei) as Ha. case_bool_decide as Hseen.
        -- rewrite bool_decide_eq_false_2 by tauto. rewrite do_settle_eq, Ha. cbn [negb].
           rewrite drop_ge by lia. cbn [List.filter map]. rewrite app_nil_r, list_insert_id by exact Ei.
           fold (kmrun os (mkKm (kmsgs s) (kcommits s))).
           rewrite (IH _ fetched seen); [reflexivity|]. split; [|split]; auto.
        -- rewrite bool_decide_eq_true_2 by exact Hseen. subst a. rewrite do_settle_eq. cbn [ack_new acked told negb app length drop].
           set (s1 := mkKm (<[i:=mkAck true [k]]> (kmsgs s)) (kcommits s ++ map (fun _ => i) (List.filter calls_commit [k]))).
           fold (kmrun os s1).
           rewrite (IH _ fetched (i :: seen)).
           ++ unfold s1. cbn [kcommits]. destruct k; cbn; rewrite <- app_assoc; reflexivity.
           ++ unfold s1. split; [|split]; cbn [kmsgs].
              ** now rewrite insert_length.
              ** intros j [->|Hj]%elem_of_cons; auto.
              ** intros j a Hj. destruct (decide (i = j)) as [<-|Hne].
                 --- rewrite list_lookup_insert in Hj by lia. injection Hj as <-.
                     rewrite bool_decide_eq_true_2 by left. reflexivity.
                 --- rewrite list_lookup_insert_ne in Hj by exact Hne. apply Hs in Hj.
                     rewrite (bool_decide_ext (j ∈ i :: seen) (j ∈ seen)); [exact Hj|].
                     rewrite elem_of_cons. split; [intros [?|?]; [congruence|auto]|auto].
      * apply lookup_ge_None in Ei. rewrite Hl in Ei. rewrite bool_decide_eq_false_2 by lia. cbn [andb].
        fold (kmrun os s). apply IH. split; [|split]; auto.
Qed.

Lemma commits_spec os : kcommits (kmrun os kminit) = first_settled 0 [] os.
Proof.
  rewrite (commits_first_settled os kminit 0 []); [reflexivity|].
  split; [reflexivity|]. split; [intros i H; inversion H|]. intros i a H. discriminate.
Qed.

Lemma first_settled_nodup f seen os : NoDup (first_settled f seen os) /\ forall i, i ∈ first_settled f seen os -> i ∉ seen.
Proof.
  revert f seen. induction os as [|o os IH]; intros f seen; cbn [first_settled].
  - split; [constructor|]. intros i H. inversion H.
  - destruct o as [|i k]; [apply IH|]. destruct (bool_decide (i < f)); cbn [andb]; [|apply IH].
    case_bool_decide as Hs; [|apply IH]. destruct (IH f (i :: seen)) as [H1 H2]. split.
    + constructor; [|exact H1]. intros Hi. apply (H2 i Hi). left.
    + intros j [->|Hj]%elem_of_cons; [exact Hs|]. specialize (H2 j Hj). intros Hin. apply H2. now right.
Qed.

Lemma first_settled_in f seen os i :
  i ∈ first_settled f seen os <-> (i ∉ seen /\ exists pre k post, os = pre ++ KSettle i k :: post /\
      i < f + length (filter (fun o => o = KFetch) pre)).
Proof.
  revert f seen. induction os as [|o os IH]; intros f seen; cbn [first_settled].
  - split; [intros H; inversion H|]. intros (_ & pre & k & post & E & _). destruct pre; discriminate.
  - destruct o as [|j k].
    + rewrite IH. split.
      * intros (Hs & pre & k & post & -> & Hlt). split; [exact Hs|]. exists (KFetch :: pre), k, post.
        split; [reflexivity|]. rewrite filter_cons, decide_True by reflexivity. cbn [length]. lia.
      * intros (Hs & pre & k & post & E & Hlt). split; [exact Hs|]. destruct pre as [|o pre]; [discriminate|].
        injection E as <- ->. exists pre, k, post. split; [reflexivity|].
        rewrite filter_cons, decide_True in Hlt by reflexivity. cbn [length] in Hlt. lia.
    + assert (Hskip : forall seen' : list nat, (i ∉ seen' /\ exists pre k post, os = pre ++ KSettle i k :: post /\
          i < f + length (filter (fun o => o = KFetch) pre)) ->
          exists pre k' post, KSettle j k :: os = pre ++ KSettle i k' :: post /\
          i < f + length (filter (fun o => o = KFetch) pre)).
      { intros seen' (Hs & pre & k' & post & -> & Hlt). exists (KSettle j k :: pre), k', post.
        split; [reflexivity|]. rewrite filter_cons, decide_False by discriminate. exact Hlt. }
      assert (Hback : forall pre k' post, KSettle j k :: os = pre ++ KSettle i k' :: post ->
          i < f + length (filter (fun o => o = KFetch) pre) ->
          (j = i /\ i < f) \/ exists pre k' post, os = pre ++ KSettle i k' :: post /\
          i < f + length (filter (fun o => o = KFetch) pre)).
      { intros pre k' post E Hlt. destruct pre as [|o pre].
        - injection E as -> -> ->. left. cbn in Hlt. split; [reflexivity|lia].
        - injection E as <- ->. right. exists pre, k', post. split; [reflexivity|].
          rewrite filter_cons, decide_False in Hlt by discriminate. exact Hlt. }
      destruct (bool_decide (j < f)) eqn:Ej; cbn [andb].
      * apply bool_decide_eq_true in Ej. case_bool_decide as Hs.
        -- rewrite elem_of_cons, IH. split.
           ++ intros [->|Hi].
              ** split; [exact Hs|]. exists [], k, os. split; [reflexivity|]. cbn. lia.
              ** split; [|eapply Hskip; eauto]. destruct Hi as [Hi _]. intros H. apply Hi. now right.
           ++ intros (Hs' & pre & k' & post & E & Hlt). destruct (decide (i = j)) as [|Hne]; [now left|right].
              split; [intros [?|?]%elem_of_cons; auto|].
              destruct (Hback _ _ _ E Hlt) as [[? _]|?]; [congruence|auto].
        -- rewrite IH. split.
           ++ intros Hi. split; [apply Hi|eapply Hskip; eauto].
           ++ intros (Hs' & pre & k' & post & E & Hlt). split; [exact Hs'|].
              destruct (Hback _ _ _ E Hlt) as [[-> _]|?]; [tauto|auto].
      * apply bool_decide_eq_false in Ej. rewrite IH. split.
        -- intros Hi. split; [apply Hi|eapply Hskip; eauto].
        -- intros (Hs' & pre & k' & post & E & Hlt). split; [exact Hs'|].
           destruct (Hback _ _ _ E Hlt) as [[-> ?]|?]; [tauto|auto].
Qed.
