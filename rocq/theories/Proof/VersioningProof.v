From stdpp Require Import gmap strings.
From Verif.Model Require Import BrokerMessage Versioning.
From Verif.Spec Require Import VersioningSpec.

(** Abstraction relation: S is exactly the set of registered (channel, version) pairs. *)
Definition abs (s : wst) (S : spec_st) : Prop :=
  forall ch v, (ch, v) ∈ S <-> exists vs, chans s !! ch = Some vs /\ v ∈ vs.

(** Invariant of states without hang. *)
Definition winv (s : wst) : Prop :=
  wstuck s = false /\ vstuck s = ∅ /\
  (forall ch vs, chans s !! ch = Some vs -> vs <> ∅) /\
  (forall ch vs v, chans s !! ch = Some vs -> v ∈ vs -> v <> "").

Lemma resolve_spec cfg m v : resolve cfg m = Some v <-> addressed (vkey cfg) (vdefault cfg) m v.
Proof.
  unfold resolve, addressed. destruct (header m (vkey cfg)) as [w|].
  - case_decide as Hw.
    + subst. split; [intros H; right; auto|].
      intros [[H1 H2]|[_ H]]; [congruence|exact H].
    + split; [intros H; left; split; congruence|].
      intros [[H1 _]|[[H|H] _]]; congruence.
  - split; [intros H; right; auto|]. intros [[H _]|[_ H]]; [congruence|exact H].
Qed.

Lemma resolve_none cfg m : resolve cfg m = None <-> forall v, ~ addressed (vkey cfg) (vdefault cfg) m v.
Proof.
  split.
  - intros H v Hv. apply resolve_spec in Hv. congruence.
  - intros H. destruct (resolve cfg m) as [v|] eqn:E; [|reflexivity].
    apply resolve_spec in E. destruct (H v E).
Qed.

Lemma on_channel_abs s S ch :
  winv s -> abs s S -> on_channel S ch <-> exists vs, chans s !! ch = Some vs.
Proof.
  intros (_ & _ & Hne & _) Ha. split.
  - intros [v Hv]. apply Ha in Hv as (vs & H & _). eauto.
  - intros [vs Hvs]. destruct (set_choose_L vs (Hne ch vs Hvs)) as [v Hv].
    exists v. apply Ha. eauto.
Qed.

Lemma wstep_refines cfg s S o s' r :
  winv s -> abs s S -> wstep cfg s o = (s', r) -> r <> OUnregistered ->
  winv s' /\ exists S', abs s' S' /\ spec_step cfg S o r S'.
Proof.
  intros Hi Ha Hs Hr. pose proof (fun ch => on_channel_abs s S ch Hi Ha) as Hon.
  pose proof Hi as (Hw & Hv & Hne & Hstr).
  pose proof Ha as Hax. unfold abs in Hax.
  destruct o as [ch ver bok|ch v|ch m]; cbn in Hs.
  - unfold w_subscribe in Hs. destruct ver as [v|].
    2:{ simplify_eq. split; [exact Hi|]. exists S; split; [exact Ha|]. constructor; auto. }
    case_decide as Hve.
    { simplify_eq. split; [exact Hi|]. exists S; split; [exact Ha|]. constructor; auto. }
    rewrite Hw in Hs. destruct (chans s !! ch) as [vs|] eqn:Hch.
    + rewrite Hv in Hs. rewrite decide_False in Hs by set_solver.
      case_decide as Hin; simplify_eq.
      * split; [exact Hi|]. exists S; split; [exact Ha|].
        apply SS_already; [exact Hve|]. apply Ha. eauto.
      * split.
        { split; [reflexivity|]. split; [reflexivity|]. split; cbn; intros c ws.
          - destruct (decide (c = ch)) as [->|Hc].
            + rewrite lookup_insert. intros [= <-]. set_solver.
            + rewrite lookup_insert_ne by congruence. apply Hne.
          - intros w. destruct (decide (c = ch)) as [->|Hc].
            + rewrite lookup_insert. intros [= <-] Hin2.
              apply elem_of_union in Hin2 as [H|H]; [set_solver|]. eapply Hstr; eauto.
            + rewrite lookup_insert_ne by congruence. apply Hstr. }
        exists ({[(ch, v)]} ∪ S). split.
        { intros c w; cbn. destruct (decide (c = ch)) as [->|Hc].
          - rewrite lookup_insert. rewrite elem_of_union, elem_of_singleton, Hax. split.
            + intros [[= ->]|(vs0 & H & Hw')]; eexists; (split; [reflexivity|]); [set_solver|].
              rewrite Hch in H. injection H as ->. set_solver.
            + intros (ws & [= <-] & H). apply elem_of_union in H as [H|H]; [left; set_solver|].
              right. eauto.
          - rewrite lookup_insert_ne by congruence.
            rewrite elem_of_union, elem_of_singleton, Hax. split; [|auto].
            intros [[= -> ->]|H]; [congruence|exact H]. }
        apply SS_subscribed; [exact Hve| |].
        { intros H. apply Ha in H as (vs0 & H & H'). congruence. }
        left. apply Hon. eauto.
    + destruct bok; simplify_eq.
      * split.
        { split; [reflexivity|]. split; [cbn; set_solver|]. split; cbn; intros c ws.
          - destruct (decide (c = ch)) as [->|Hc].
            + rewrite lookup_insert. intros [= <-]. set_solver.
            + rewrite lookup_insert_ne by congruence. apply Hne.
          - intros w. destruct (decide (c = ch)) as [->|Hc].
            + rewrite lookup_insert. intros [= <-] Hin2. set_solver.
            + rewrite lookup_insert_ne by congruence. apply Hstr. }
        exists ({[(ch, v)]} ∪ S). split.
        { intros c w; cbn. destruct (decide (c = ch)) as [->|Hc].
          - rewrite lookup_insert. rewrite elem_of_union, elem_of_singleton, Hax. split.
            + intros [[= ->]|(vs0 & H & Hw')]; [|congruence].
              eexists; (split; [reflexivity|]); set_solver.
            + intros (ws & [= <-] & H). left; set_solver.
          - rewrite lookup_insert_ne by congruence.
            rewrite elem_of_union, elem_of_singleton, Hax. split; [|auto].
            intros [[= -> ->]|H]; [congruence|exact H]. }
        apply SS_subscribed; [exact Hve| |right; reflexivity].
        intros H. apply Ha in H as (vs0 & H & _). congruence.
      * split; [exact Hi|]. exists S; split; [exact Ha|].
        apply SS_broker_error; [exact Hve|]. rewrite Hon. intros [vs H]. congruence.
  - unfold w_cancel in Hs. destruct (chans s !! ch) as [vs|] eqn:Hch.
    2:{ simplify_eq. split; [exact Hi|]. exists S; split; [exact Ha|]. apply SS_cancel_none.
        intros H. apply Ha in H as (vs0 & H & _). congruence. }
    case_decide as Hin.
    2:{ simplify_eq. split; [exact Hi|]. exists S; split; [exact Ha|]. apply SS_cancel_none.
        intros H. apply Ha in H as (vs0 & H & ?). congruence. }
    rewrite Hv, Hw in Hs. rewrite decide_False in Hs by set_solver.
    case_decide as He; simplify_eq.
    + split.
      { split; [reflexivity|]. split; [reflexivity|]. split; cbn; intros c ws.
        - intros H. apply lookup_delete_Some in H as [_ H]. eapply Hne; eauto.
        - intros w H. apply lookup_delete_Some in H as [_ H]. eapply Hstr; eauto. }
      exists (S ∖ {[(ch, v)]}). split; [|apply SS_cancel, Ha; eauto].
      intros c w; cbn. rewrite elem_of_difference, elem_of_singleton, Hax. split.
      * intros [(ws & H1 & H2) H3]. exists ws. split; [|exact H2].
        apply lookup_delete_Some. split; [|exact H1]. intros <-.
        rewrite Hch in H1. injection H1 as <-.
        assert (w ≠ v) by congruence. set_solver.
      * intros (ws & H1 & H2). apply lookup_delete_Some in H1 as [H0 H1].
        split; [eauto|]. congruence.
    + split.
      { split; [reflexivity|]. split; [reflexivity|]. split; cbn; intros c ws.
        - destruct (decide (c = ch)) as [->|Hc].
          + rewrite lookup_insert. intros [= <-]. exact He.
          + rewrite lookup_insert_ne by congruence. apply Hne.
        - intros w. destruct (decide (c = ch)) as [->|Hc].
          + rewrite lookup_insert. intros [= <-] Hin2. apply (Hstr ch vs); [exact Hch|set_solver].
          + rewrite lookup_insert_ne by congruence. apply Hstr. }
      exists (S ∖ {[(ch, v)]}). split; [|apply SS_cancel, Ha; eauto].
      intros c w; cbn. rewrite elem_of_difference, elem_of_singleton, Hax.
      destruct (decide (c = ch)) as [->|Hc].
      * rewrite lookup_insert. split.
        -- intros [(ws & H1 & H2) H3]. eexists; split; [reflexivity|].
           rewrite Hch in H1. injection H1 as <-. assert (w ≠ v) by congruence. set_solver.
        -- intros (ws & [= <-] & H). apply elem_of_difference in H as [H1 H2].
           split; [eauto|]. intros [= ->]. set_solver.
      * rewrite lookup_insert_ne by congruence. split; [intros [H _]; exact H|].
        intros H. split; [exact H|]. congruence.
  - unfold w_msg in Hs. destruct (chans s !! ch) as [vs|] eqn:Hch.
    2:{ simplify_eq. split; [exact Hi|]. exists S; split; [exact Ha|]. apply SS_not_received.
        rewrite Hon. intros [vs H]. congruence. }
    rewrite Hv in Hs. destruct (resolve cfg m) as [v|] eqn:Hres.
    + rewrite decide_False in Hs by set_solver. case_decide as Hin; [|simplify_eq; congruence].
      simplify_eq. split; [exact Hi|]. exists S; split; [exact Ha|].
      apply SS_delivered; [apply resolve_spec, Hres|apply Ha; eauto].
    + rewrite decide_False in Hs by set_solver. simplify_eq.
      split; [exact Hi|]. exists S; split; [exact Ha|].
      apply SS_unversioned; [apply Hon; eauto|]. apply resolve_none, Hres.
Qed.

Lemma winv_init : winv winit.
Proof.
  split; [reflexivity|]. split; [reflexivity|]. cbn. split; intros ch vs.
  - rewrite lookup_empty. discriminate.
  - intros v. rewrite lookup_empty. discriminate.
Qed.

Lemma abs_init : abs winit ∅.
Proof.
  intros ch v. split; [intros H; set_solver|].
  intros (vs & H & _). cbn in H. rewrite lookup_empty in H. discriminate.
Qed.

Lemma wrun_refines_gen cfg os : forall s S s' rs,
  winv s -> abs s S -> wrun cfg s os = (s', rs) -> OUnregistered ∉ rs ->
  winv s' /\ exists S', abs s' S' /\ spec_run cfg S os rs S'.
Proof.
  induction os as [|o os IH]; intros s S s' rs Hi Ha Hr Hn; cbn in Hr.
  - simplify_eq. split; [exact Hi|]. exists S. split; [exact Ha|constructor].
  - destruct (wstep cfg s o) as [s1 r] eqn:Hs. destruct (wrun cfg s1 os) as [s2 rs'] eqn:Hr'.
    simplify_eq. apply not_elem_of_cons in Hn as [Hn1 Hn2].
    destruct (wstep_refines cfg s S o s1 r Hi Ha Hs ltac:(congruence)) as (Hi1 & S1 & Ha1 & Hs1).
    destruct (IH s1 S1 s' rs' Hi1 Ha1 Hr' Hn2) as (Hi2 & S2 & Ha2 & Hs2).
    split; [exact Hi2|]. exists S2. split; [exact Ha2|]. econstructor; eauto.
Qed.

Lemma wrun_refines cfg os s' rs :
  wrun cfg winit os = (s', rs) -> OUnregistered ∉ rs ->
  exists S', abs s' S' /\ spec_run cfg ∅ os rs S'.
Proof.
  intros Hr Hn.
  destruct (wrun_refines_gen cfg os winit ∅ s' rs winv_init abs_init Hr Hn) as (_ & S & H1 & H2).
  exists S; auto.
Qed.

(** Safety without any hypothesis: deliveries are always correctly addressed. *)
Lemma wstep_delivery cfg s o s' v :
  wstep cfg s o = (s', ODelivered v) ->
  exists ch m vs, o = VMsg ch m /\ addressed (vkey cfg) (vdefault cfg) m v /\
    chans s !! ch = Some vs /\ v ∈ vs /\ s' = s.
Proof.
  destruct o as [ch ver bok|ch w|ch m]; cbn; intros H.
  - unfold w_subscribe in H. destruct ver; [|discriminate]. case_decide; [discriminate|].
    destruct (wstuck s); [discriminate|]. destruct (chans s !! ch).
    + case_decide; [discriminate|]. case_decide; discriminate.
    + destruct bok; discriminate.
  - unfold w_cancel in H. destruct (chans s !! ch); [|discriminate].
    case_decide; [|discriminate]. case_decide; [discriminate|].
    destruct (wstuck s); [discriminate|]. case_decide; discriminate.
  - unfold w_msg in H. destruct (chans s !! ch) as [vs|] eqn:Hch; [|discriminate].
    destruct (resolve cfg m) as [u|] eqn:Hu; [|case_decide; discriminate].
    case_decide; [discriminate|]. case_decide; [|discriminate]. simplify_eq.
    exists ch, m, vs. repeat split; auto. apply resolve_spec, Hu.
Qed.

Lemma wrun_delivery cfg os s' rs :
  wrun cfg winit os = (s', rs) ->
  forall i v, rs !! i = Some (ODelivered v) ->
  exists ch m vs, os !! i = Some (VMsg ch m) /\ addressed (vkey cfg) (vdefault cfg) m v /\
    chans (fst (wrun cfg winit (take i os))) !! ch = Some vs /\ v ∈ vs.
Proof.
  assert (forall os s s' rs, wrun cfg s os = (s', rs) ->
    forall i v, rs !! i = Some (ODelivered v) ->
    exists ch m vs, os !! i = Some (VMsg ch m) /\ addressed (vkey cfg) (vdefault cfg) m v /\
      chans (fst (wrun cfg s (take i os))) !! ch = Some vs /\ v ∈ vs) as G; [|apply G].
  clear. induction os as [|o os IH]; intros s s' rs Hr i v Hi; cbn in Hr.
  - simplify_eq.
  - destruct (wstep cfg s o) as [s1 r] eqn:Hs. destruct (wrun cfg s1 os) as [s2 rs'] eqn:Hr'.
    simplify_eq. destruct i as [|i]; cbn in Hi.
    + injection Hi as ->.
      destruct (wstep_delivery cfg s o s1 v Hs) as (ch & m & vs & -> & H1 & H2 & H3 & _).
      exists ch, m, vs. cbn. auto.
    + destruct (IH s1 s' rs' Hr' i v Hi) as (ch & m & vs & H1 & H2 & H3 & H4).
      exists ch, m, vs. split; [exact H1|]. split; [exact H2|].
      cbn [take firstn]. cbn [wrun]. rewrite Hs.
      destruct (wrun cfg s1 (take i os)) as [s3 rs3]. cbn in *. auto.
Qed.

(** ** Broker subscriptions *)
Lemma alive_app ch l l' : alive ch (l ++ l') = (alive ch l + alive ch l')%Z.
Proof. induction l as [|[c|c] l IH]; cbn; lia. Qed.

Definition binv (s : wst) : Prop :=
  (forall ch, alive ch (blog s) = match chans s !! ch with Some _ => 1%Z | None => 0%Z end) /\
  (wstuck s = false -> forall ch vs, chans s !! ch = Some vs -> vs <> ∅).

Lemma binv_step cfg s o : binv s -> binv (fst (wstep cfg s o)).
Proof.
  intros Hb. pose proof Hb as [H1 H2]. destruct o as [ch ver bok|ch v|ch m]; cbn.
  - unfold w_subscribe. destruct ver as [v|]; [|exact Hb]. case_decide; [exact Hb|].
    destruct (wstuck s) eqn:Hw; [exact Hb|]. destruct (chans s !! ch) as [vs|] eqn:Hch.
    + case_decide; [split; [exact H1|discriminate]|]. case_decide; [exact Hb|].
      cbn. split; cbn.
      * intros c. destruct (decide (c = ch)) as [->|Hc].
        -- rewrite lookup_insert, H1, Hch. reflexivity.
        -- rewrite lookup_insert_ne by congruence. apply H1.
      * intros _ c ws. destruct (decide (c = ch)) as [->|Hc].
        -- rewrite lookup_insert. intros [= <-]. set_solver.
        -- rewrite lookup_insert_ne by congruence. apply H2; reflexivity.
    + destruct bok; [|exact Hb]. cbn. split; cbn.
      * intros c. rewrite alive_app, H1. cbn. destruct (decide (c = ch)) as [->|Hc].
        -- rewrite lookup_insert, Hch. rewrite decide_True by reflexivity. reflexivity.
        -- rewrite lookup_insert_ne by congruence. rewrite decide_False by congruence. lia.
      * intros _ c ws. destruct (decide (c = ch)) as [->|Hc].
        -- rewrite lookup_insert. intros [= <-]. set_solver.
        -- rewrite lookup_insert_ne by congruence. apply H2; reflexivity.
  - unfold w_cancel. destruct (chans s !! ch) as [vs|] eqn:Hch; [|exact Hb].
    case_decide; [|exact Hb]. case_decide; [exact Hb|].
    destruct (wstuck s) eqn:Hw.
    + split; cbn; [|discriminate]. intros c. destruct (decide (c = ch)) as [->|Hc].
      * rewrite lookup_insert, H1, Hch. reflexivity.
      * rewrite lookup_insert_ne by congruence. apply H1.
    + case_decide; cbn; split; cbn.
      * intros c. rewrite alive_app, H1. cbn. destruct (decide (c = ch)) as [->|Hc].
        -- rewrite lookup_delete, Hch. rewrite decide_True by reflexivity. reflexivity.
        -- rewrite lookup_delete_ne by congruence. rewrite decide_False by congruence.
           destruct (chans s !! c); lia.
      * intros _ c ws Hd. apply lookup_delete_Some in Hd as [_ Hd]. eapply H2; eauto.
      * intros c. destruct (decide (c = ch)) as [->|Hc].
        -- rewrite lookup_insert, H1, Hch. reflexivity.
        -- rewrite lookup_insert_ne by congruence. apply H1.
      * intros _ c ws. destruct (decide (c = ch)) as [->|Hc].
        -- rewrite lookup_insert. intros [= <-]. assumption.
        -- rewrite lookup_insert_ne by congruence. apply H2; reflexivity.
  - unfold w_msg. destruct (chans s !! ch) as [vs|]; [|exact Hb].
    destruct (resolve cfg m); case_decide; try exact Hb. case_decide; exact Hb.
Qed.

Lemma binv_run cfg os : forall s, binv s -> binv (fst (wrun cfg s os)).
Proof.
  induction os as [|o os IH]; intros s H; cbn; [exact H|].
  pose proof (binv_step cfg s o H) as H1. destruct (wstep cfg s o) as [s1 r].
  specialize (IH s1 H1). destruct (wrun cfg s1 os) as [s2 rs]. exact IH.
Qed.

Lemma binv_init : binv winit.
Proof.
  split; cbn; [intros ch; rewrite lookup_empty; reflexivity|].
  intros _ ch vs. rewrite lookup_empty. discriminate.
Qed.

Lemma wrun_broker_subs cfg os :
  let s := fst (wrun cfg winit os) in
  wstuck s = false ->
  forall ch, alive ch (blog s) = 1%Z /\ (exists vs v, chans s !! ch = Some vs /\ v ∈ vs) \/
             alive ch (blog s) = 0%Z /\ chans s !! ch = None.
Proof.
  intros s Hw ch. destruct (binv_run cfg os winit binv_init) as [H1 H2]. fold s in H1, H2.
  rewrite H1. destruct (chans s !! ch) as [vs|] eqn:Hch; [left|right; auto].
  split; [reflexivity|]. specialize (H2 Hw ch vs Hch).
  destruct (set_choose_L vs H2) as [v Hv]. eauto.
Qed.

(** ** Publication *)
Lemma w_publish_tag cfg v h p :
  v <> "" ->
  exists m, w_publish cfg (Some v) (mkBmsg (Some h) p) = Some m /\
    payload m = p /\
    header m (vkey cfg) = Some v /\
    (forall k, k <> vkey cfg -> header m k = h !! k) /\
    (forall d, addressed (vkey cfg) d m v) /\
    (forall d w, addressed (vkey cfg) d m w -> w = v).
Proof.
  intros Hv. eexists. split; [reflexivity|]. unfold header, addressed; cbn. split; [reflexivity|].
  rewrite lookup_insert. split; [reflexivity|]. split.
  - intros k Hk. rewrite lookup_insert_ne by congruence. reflexivity.
  - split; [intros d; left; auto|].
    intros d w [[H _]|[[H|H] _]]; congruence.
Qed.

(** ** The users' view *)
Definition ainv (s : wst) (S : gset (string * string)) : Prop :=
  (forall ch v vs, chans s !! ch = Some vs -> v ∈ vs -> (ch, v) ∈ S) /\
  (wstuck s = false -> forall ch v, (ch, v) ∈ S -> exists vs, chans s !! ch = Some vs /\ v ∈ vs).

Lemma ainv_step cfg s S o : ainv s S ->
  let '(s', r) := wstep cfg s o in ainv s' (active_step S (o, r)).
Proof.
  intros Hi. pose proof Hi as [H1 H2]. destruct o as [ch ver bok|ch v|ch m]; cbn.
  - unfold w_subscribe. destruct ver as [v|]; [|exact Hi]. case_decide as Hv; [exact Hi|].
    destruct (wstuck s) eqn:Hw; [exact Hi|]. specialize (H2 eq_refl).
    destruct (chans s !! ch) as [vs|] eqn:Hch.
    + case_decide; [split; [exact H1|discriminate]|]. case_decide; [exact Hi|].
      cbn. split; cbn.
      * intros c w ws Hc Hw'. destruct (decide (c = ch)) as [->|Hne].
        -- rewrite lookup_insert in Hc. simplify_eq. apply elem_of_union in Hw' as [Hw'|Hw'].
           ++ apply elem_of_singleton in Hw'. subst. clear; set_solver.
           ++ apply elem_of_union_r. eauto.
        -- rewrite lookup_insert_ne in Hc by congruence. apply elem_of_union_r. eauto.
      * intros _ c w Hc. apply elem_of_union in Hc as [Hc|Hc].
        -- apply elem_of_singleton in Hc. simplify_eq. rewrite lookup_insert. eexists.
           split; [reflexivity|]. clear; set_solver.
        -- destruct (H2 c w Hc) as (ws & E & Hws). destruct (decide (c = ch)) as [->|Hne].
           ++ rewrite Hch in E. simplify_eq. rewrite lookup_insert. eexists. split; [reflexivity|].
              clear -Hws; set_solver.
           ++ rewrite lookup_insert_ne by congruence. eauto.
    + destruct bok; [|exact Hi]. cbn. split; cbn.
      * intros c w ws Hc Hw'. destruct (decide (c = ch)) as [->|Hne].
        -- rewrite lookup_insert in Hc. simplify_eq. apply elem_of_singleton in Hw'. subst.
           clear; set_solver.
        -- rewrite lookup_insert_ne in Hc by congruence. apply elem_of_union_r. eauto.
      * intros _ c w Hc. apply elem_of_union in Hc as [Hc|Hc].
        -- apply elem_of_singleton in Hc. simplify_eq. rewrite lookup_insert. eexists.
           split; [reflexivity|]. clear; set_solver.
        -- destruct (H2 c w Hc) as (ws & E & Hws). destruct (decide (c = ch)) as [->|Hne].
           ++ congruence.
           ++ rewrite lookup_insert_ne by congruence. eauto.
  - unfold w_cancel. destruct (chans s !! ch) as [vs|] eqn:Hch; [|exact Hi].
    case_decide as Hin; [|exact Hi]. case_decide; [exact Hi|].
    destruct (wstuck s) eqn:Hw.
    + split; cbn; [|discriminate]. intros c w ws Hc Hw'. destruct (decide (c = ch)) as [->|Hne].
      * rewrite lookup_insert in Hc. simplify_eq. apply (H1 ch w vs Hch). clear -Hw'; set_solver.
      * rewrite lookup_insert_ne in Hc by congruence. eauto.
    + specialize (H2 eq_refl). case_decide as Hemp; cbn; split; cbn.
      * intros c w ws Hc Hw'. apply lookup_delete_Some in Hc as [Hne Hc].
        apply elem_of_difference. split; [eauto|]. intros HH. apply elem_of_singleton in HH. congruence.
      * intros _ c w Hc. apply elem_of_difference in Hc as [Hc Hn].
        destruct (H2 c w Hc) as (ws & E & Hws). destruct (decide (c = ch)) as [->|Hne].
        -- rewrite Hch in E. simplify_eq. destruct (decide (w = v)) as [->|Hwv].
           ++ destruct Hn. clear; set_solver.
           ++ assert (w ∈ ws ∖ {[v]}) as Hx by (clear -Hws Hwv; set_solver).
              rewrite Hemp in Hx. clear -Hx; set_solver.
        -- exists ws. split; [|exact Hws]. rewrite lookup_delete_ne by congruence. exact E.
      * intros c w ws Hc Hw'. destruct (decide (c = ch)) as [->|Hne].
        -- rewrite lookup_insert in Hc. simplify_eq. apply elem_of_difference in Hw' as [Hw1 Hw2].
           apply elem_of_difference. split; [eauto|]. intros HH. apply elem_of_singleton in HH.
           simplify_eq. apply Hw2. clear; set_solver.
        -- rewrite lookup_insert_ne in Hc by congruence.
           apply elem_of_difference. split; [eauto|]. intros HH. apply elem_of_singleton in HH. congruence.
      * intros _ c w Hc. apply elem_of_difference in Hc as [Hc Hn].
        destruct (H2 c w Hc) as (ws & E & Hws). destruct (decide (c = ch)) as [->|Hne].
        -- rewrite Hch in E. simplify_eq. rewrite lookup_insert. eexists. split; [reflexivity|].
           destruct (decide (w = v)) as [->|Hwv]; [destruct Hn; clear; set_solver|].
           clear -Hws Hwv; set_solver.
        -- exists ws. split; [|exact Hws]. rewrite lookup_insert_ne by congruence. exact E.
  - unfold w_msg. destruct (chans s !! ch) as [vs|] eqn:Hch; [|exact Hi].
    destruct (resolve cfg m); case_decide; try exact Hi. case_decide; exact Hi.
Qed.

Lemma ainv_run cfg os : forall s S, ainv s S ->
  let '(s', rs) := wrun cfg s os in ainv s' (fold_left active_step (zip os rs) S).
Proof.
  induction os as [|o os IH]; intros s S H; cbn; [exact H|].
  pose proof (ainv_step cfg s S o H) as H1. destruct (wstep cfg s o) as [s1 r].
  specialize (IH s1 _ H1). destruct (wrun cfg s1 os) as [s2 rs]. exact IH.
Qed.

Lemma ainv_reach cfg os s rs : wrun cfg winit os = (s, rs) -> ainv s (active os rs).
Proof.
  intros H. assert (ainv winit ∅) as H0.
  { split; cbn; [intros ch v vs; rewrite lookup_empty; discriminate|].
    intros _ ch v Hin. clear -Hin; set_solver. }
  pose proof (ainv_run cfg os winit ∅ H0) as G. rewrite H in G. exact G.
Qed.

(** A step that does not hang leaves the wrapper mutex free. *)
Lemma wstuck_step cfg s o s' r :
  wstuck s = false -> wstep cfg s o = (s', r) -> r <> OHang -> wstuck s' = false.
Proof.
  intros Hw H Hr. destruct o as [ch ver bok|ch v|ch m]; cbn in H.
  - unfold w_subscribe in H. rewrite Hw in H. destruct ver; [|simplify_eq; auto].
    case_decide; [simplify_eq; auto|]. destruct (chans s !! ch).
    + case_decide; [simplify_eq|]. case_decide; simplify_eq; auto.
    + destruct bok; simplify_eq; auto.
  - unfold w_cancel in H. rewrite Hw in H. destruct (chans s !! ch); [|simplify_eq; auto].
    case_decide; [|simplify_eq; auto]. case_decide; [simplify_eq|].
    case_decide; simplify_eq; auto.
  - unfold w_msg in H. destruct (chans s !! ch); [|simplify_eq; auto].
    destruct (resolve cfg m); case_decide; simplify_eq; try auto.
    case_decide; simplify_eq; auto.
Qed.

Lemma wstuck_run cfg os : forall s s' rs,
  wstuck s = false -> wrun cfg s os = (s', rs) -> OHang ∉ rs -> wstuck s' = false.
Proof.
  induction os as [|o os IH]; intros s s' rs Hw Hr Hn; cbn in Hr; [simplify_eq; exact Hw|].
  destruct (wstep cfg s o) as [s1 r] eqn:Hs. destruct (wrun cfg s1 os) as [s2 rs'] eqn:Hr'.
  simplify_eq. apply not_elem_of_cons in Hn as [Hn1 Hn2].
  apply (IH s1 s' rs'); auto. apply (wstuck_step cfg s o s1 r); auto.
Qed.

Lemma wrun_app cfg os1 os2 : forall s,
  wrun cfg s (os1 ++ os2) =
  let '(s1, r1) := wrun cfg s os1 in let '(s2, r2) := wrun cfg s1 os2 in (s2, r1 ++ r2).
Proof.
  induction os1 as [|o os1 IH]; intros s; cbn.
  - destruct (wrun cfg s os2); reflexivity.
  - destruct (wstep cfg s o) as [s1 r]. rewrite IH. destruct (wrun cfg s1 os1) as [s2 r2].
    destruct (wrun cfg s2 os2); reflexivity.
Qed.

Lemma wrun_length cfg os : forall s s' rs, wrun cfg s os = (s', rs) -> length rs = length os.
Proof.
  induction os as [|o os IH]; intros s s' rs H; cbn in H; [simplify_eq; reflexivity|].
  destruct (wstep cfg s o) as [s1 r]. destruct (wrun cfg s1 os) as [s2 rs'] eqn:E. simplify_eq.
  cbn. f_equal. eauto.
Qed.

(** Every delivery goes to the active subscription the message is addressed to. *)
Lemma delivery_active cfg os s rs ch m s' v :
  wrun cfg winit os = (s, rs) -> wstep cfg s (VMsg ch m) = (s', ODelivered v) ->
  (ch, v) ∈ active os rs /\ addressed (vkey cfg) (vdefault cfg) m v /\ s' = s.
Proof.
  intros Hr Hs. destruct (ainv_reach cfg os s rs Hr) as [H1 _].
  destruct (wstep_delivery cfg s _ s' v Hs) as (c & m' & vs & E & Ha & Hc & Hv & ->).
  simplify_eq. eauto.
Qed.

(** A history without message of an unregistered version has no hang. *)
Lemma no_unregistered_winv cfg os s rs :
  wrun cfg winit os = (s, rs) -> OUnregistered ∉ rs -> winv s.
Proof. intros Hr Hn. apply (wrun_refines_gen cfg os winit ∅ s rs winv_init abs_init Hr Hn). Qed.

Lemma message_routed cfg os s rs ch m v :
  wrun cfg winit os = (s, rs) -> OUnregistered ∉ rs ->
  (ch, v) ∈ active os rs -> addressed (vkey cfg) (vdefault cfg) m v ->
  wstep cfg s (VMsg ch m) = (s, ODelivered v).
Proof.
  intros Hr Hn Ha Hm. destruct (no_unregistered_winv cfg os s rs Hr Hn) as (Hw & Hv & _ & _).
  destruct (ainv_reach cfg os s rs Hr) as [_ H2]. destruct (H2 Hw ch v Ha) as (vs & E & Hin).
  apply resolve_spec in Hm. cbn. unfold w_msg. rewrite E, Hm.
  rewrite decide_False by (rewrite Hv; clear; set_solver). rewrite decide_True by exact Hin. reflexivity.
Qed.

Lemma no_version_refused cfg s ch ver bok :
  ver = None \/ ver = Some "" -> wstep cfg s (VSubscribe ch ver bok) = (s, OErrNoVersion).
Proof. intros [->| ->]; reflexivity. Qed.

Lemma active_nonempty cfg os s rs ch v : wrun cfg winit os = (s, rs) -> (ch, v) ∈ active os rs -> v <> "".
Proof.
  assert (forall os s S s' rs, (forall ch v, (ch, v) ∈ S -> v <> "") ->
    wrun cfg s os = (s', rs) -> forall ch v, (ch, v) ∈ fold_left active_step (zip os rs) S -> v <> "") as G.
  { clear. induction os as [|o os IH]; intros s S s' rs HS Hr; cbn in Hr; [simplify_eq; exact HS|].
    destruct (wstep cfg s o) as [s1 r] eqn:Es. destruct (wrun cfg s1 os) as [s2 rs'] eqn:Er. simplify_eq.
    cbn. apply (IH s1 _ s' rs'); [|exact Er]. intros c w Hcw.
    destruct o as [ch [x|] b|ch x|ch m]; cbn in Hcw; [|eauto| |destruct r; eauto].
    - destruct r; eauto. apply elem_of_union in Hcw as [Hcw|Hcw]; [|eauto].
      apply elem_of_singleton in Hcw. simplify_eq. cbn in Es. unfold w_subscribe in Es.
      case_decide; [simplify_eq|assumption].
    - destruct r; eauto. apply elem_of_difference in Hcw as [Hcw _]. eauto. }
  intros Hr Ha. apply (G os winit ∅ s rs) with (ch := ch); [|exact Hr|exact Ha].
  intros c w H. clear -H; set_solver.
Qed.

Lemma duplicate_never_accepted cfg os s rs ch v bok s' r :
  wrun cfg winit os = (s, rs) -> (ch, v) ∈ active os rs ->
  wstep cfg s (VSubscribe ch (Some v) bok) = (s', r) ->
  (r = OErrAlready \/ r = OHang) /\ chans s' = chans s /\ blog s' = blog s /\
  (OUnregistered ∉ rs -> r = OErrAlready /\ s' = s).
Proof.
  intros Hr Ha Hs. pose proof (active_nonempty cfg os s rs ch v Hr Ha) as Hne.
  destruct (ainv_reach cfg os s rs Hr) as [_ H2]. cbn in Hs. unfold w_subscribe in Hs.
  rewrite decide_False in Hs by exact Hne. destruct (wstuck s) eqn:Hw.
  - simplify_eq. split; [auto|]. split; [auto|]. split; [auto|]. intros Hn.
    destruct (no_unregistered_winv cfg os s' rs Hr Hn) as (Hw' & _); congruence.
  - destruct (H2 eq_refl ch v Ha) as (vs & E & Hin). rewrite E in Hs. case_decide as Hvs.
    + simplify_eq. cbn. split; [auto|]. split; [auto|]. split; [auto|]. intros Hn.
      destruct (no_unregistered_winv cfg os s rs Hr Hn) as (_ & Hv' & _). rewrite Hv' in Hvs;
      clear -Hvs; set_solver.
    + rewrite decide_True in Hs by exact Hin. simplify_eq. auto.
Qed.

Lemma resubscribe cfg os s rs ch v :
  wrun cfg winit os = (s, rs) -> OUnregistered ∉ rs -> (ch, v) ∈ active os rs ->
  exists s1 s2, wstep cfg s (VCancel ch v) = (s1, OOk) /\
    wstep cfg s1 (VSubscribe ch (Some v) true) = (s2, OOk).
Proof.
  intros Hr Hn Ha. pose proof (active_nonempty cfg os s rs ch v Hr Ha) as Hne.
  destruct (no_unregistered_winv cfg os s rs Hr Hn) as (Hw & Hv & _ & _).
  destruct (ainv_reach cfg os s rs Hr) as [_ H2]. destruct (H2 Hw ch v Ha) as (vs & E & Hin).
  cbn. unfold w_cancel. rewrite E. rewrite decide_True by exact Hin.
  rewrite decide_False by (rewrite Hv; clear; set_solver). rewrite Hw.
  case_decide; eexists _, _; (split; [reflexivity|]); unfold w_subscribe; rewrite decide_False by exact Hne;
    cbn.
  - rewrite lookup_delete. reflexivity.
  - rewrite lookup_insert. rewrite decide_False by (rewrite Hv; clear; set_solver).
    rewrite decide_False by (clear; set_solver). reflexivity.
Qed.

Lemma broker_subs_active cfg os s rs ch :
  wrun cfg winit os = (s, rs) -> OHang ∉ rs ->
  ((exists v, (ch, v) ∈ active os rs) -> alive ch (blog s) = 1%Z) /\
  ((forall v, (ch, v) ∉ active os rs) -> alive ch (blog s) = 0%Z).
Proof.
  intros Hr Hn. assert (wstuck s = false) as Hw by (apply (wstuck_run cfg os winit s rs); auto).
  destruct (ainv_reach cfg os s rs Hr) as [H1 H2]. specialize (H2 Hw).
  pose proof (wrun_broker_subs cfg os) as G. rewrite Hr in G. cbn in G. specialize (G Hw ch).
  split.
  - intros [v Hv]. destruct (H2 ch v Hv) as (vs & E & _). destruct G as [[G _]|[_ G]]; [exact G|congruence].
  - intros Hno. destruct G as [[_ (vs & v & E & Hin)]|[G _]]; [|exact G].
    destruct (Hno v). eauto.
Qed.

(** ** After a message of an unregistered version *)
Lemma vstuck_stays cfg s o : forall ch, ch ∈ vstuck s -> is_Some (chans s !! ch) ->
  ch ∈ vstuck (fst (wstep cfg s o)) /\ is_Some (chans (fst (wstep cfg s o)) !! ch).
Proof.
  intros ch Hv [vs E]. destruct o as [c ver bok|c v|c m]; cbn.
  - unfold w_subscribe. destruct ver as [v|]; [|eauto]. case_decide; [eauto|].
    destruct (wstuck s); [eauto|]. destruct (chans s !! c) as [ws|] eqn:Ec.
    + case_decide; [eauto|]. case_decide; [eauto|]. cbn. split; [exact Hv|].
      rewrite lookup_insert_is_Some. destruct (decide (c = ch)); eauto.
    + destruct bok; [|eauto]. cbn. split.
      * assert (c <> ch) by congruence. clear -Hv H0; set_solver.
      * rewrite lookup_insert_ne by congruence. eauto.
  - unfold w_cancel. destruct (chans s !! c) as [ws|] eqn:Ec; [|eauto].
    case_decide; [|eauto]. case_decide; [eauto|]. assert (c <> ch) by congruence.
    destruct (wstuck s); [|case_decide]; cbn.
    + split; [clear -Hv; set_solver|]. rewrite lookup_insert_ne by congruence. eauto.
    + split; [exact Hv|]. rewrite lookup_delete_ne by congruence. eauto.
    + split; [exact Hv|]. rewrite lookup_insert_ne by congruence. eauto.
  - unfold w_msg. destruct (chans s !! c) as [ws|] eqn:Ec; [|eauto].
    destruct (resolve cfg m); case_decide; eauto. case_decide; eauto. cbn.
    split; [clear -Hv; set_solver|eauto].
Qed.

Lemma vstuck_stays_run cfg os : forall s ch, ch ∈ vstuck s -> is_Some (chans s !! ch) ->
  ch ∈ vstuck (fst (wrun cfg s os)) /\ is_Some (chans (fst (wrun cfg s os)) !! ch).
Proof.
  induction os as [|o os IH]; intros s ch Hv Hc; cbn; [auto|].
  destruct (vstuck_stays cfg s o ch Hv Hc) as [H1 H2]. destruct (wstep cfg s o) as [s1 r].
  destruct (IH s1 ch H1 H2). destruct (wrun cfg s1 os). auto.
Qed.

(** From then on no message of that channel is ever delivered, whatever happens. *)
Lemma unregistered_kills cfg os s rs ch m s1 :
  wrun cfg winit os = (s, rs) -> wstep cfg s (VMsg ch m) = (s1, OUnregistered) ->
  forall os' m', snd (wstep cfg (fst (wrun cfg s1 os')) (VMsg ch m')) = OHang.
Proof.
  intros Hr Hs os' m'. cbn in Hs. unfold w_msg in Hs.
  destruct (chans s !! ch) as [vs|] eqn:Ec; [|simplify_eq].
  destruct (resolve cfg m) as [v|]; [|case_decide; simplify_eq].
  case_decide; [simplify_eq|]. case_decide; [simplify_eq|]. simplify_eq.
  destruct (vstuck_stays_run cfg os' (mkW (chans s) ({[ch]} ∪ vstuck s) (wstuck s) (blog s)) ch)
    as [H1 [ws H2]]; cbn; [clear; set_solver|eauto|].
  unfold w_msg. rewrite H2. destruct (resolve cfg m'); rewrite decide_True by exact H1; reflexivity.
Qed.

(** A leaked broker subscription stays. *)
Lemma blog_stuck cfg os : forall s, wstuck s = true -> 
  blog (fst (wrun cfg s os)) = blog s /\ wstuck (fst (wrun cfg s os)) = true.
Proof.
  induction os as [|o os IH]; intros s Hw; cbn; [auto|].
  assert (blog (fst (wstep cfg s o)) = blog s /\ wstuck (fst (wstep cfg s o)) = true) as [E1 E2].
  { destruct o as [c ver bok|c v|c m]; cbn.
    - unfold w_subscribe. destruct ver; [|auto]. case_decide; [auto|]. rewrite Hw. auto.
    - unfold w_cancel. destruct (chans s !! c); [|auto]. case_decide; [|auto]. case_decide; [auto|].
      rewrite Hw. auto.
    - unfold w_msg. destruct (chans s !! c); [|auto]. destruct (resolve cfg m); case_decide; auto.
      case_decide; auto. }
  destruct (wstep cfg s o) as [s1 r]. cbn in E1, E2. destruct (IH s1 E2) as [H1 H2].
  destruct (wrun cfg s1 os). cbn in *. split; congruence.
Qed.

(** ** What is blocked, from the history alone *)
Definition hinv (s : wst) (l : list (wop * wout)) : Prop :=
  (forall ch, ch ∈ vstuck s <-> blocked l ch) /\
  (wstuck s = true <-> all_blocked l) /\
  (forall ch, ch ∈ vstuck s -> is_Some (chans s !! ch)) /\
  (forall ch v, (ch, v) ∈ fold_left active_step l ∅ -> (exists vs, chans s !! ch = Some vs /\ v ∈ vs) \/ (VCancel ch v, OHang) ∈ l).

Lemma blocked_snoc l x ch : blocked (l ++ [x]) ch <->
  blocked l ch \/ (exists m, x = (VMsg ch m, OUnregistered)) \/ (exists v, x = (VCancel ch v, OHang)).
Proof.
  unfold blocked. setoid_rewrite elem_of_app. setoid_rewrite elem_of_list_singleton. split.
  - intros [(m & [H|H])|(v & [H|H])]; eauto 6.
  - intros [[(m & H)|(v & H)]|[(m & H)|(v & H)]]; eauto 6.
Qed.
Lemma all_blocked_snoc l x : all_blocked (l ++ [x]) <-> all_blocked l \/ exists ch v bok, x = (VSubscribe ch v bok, OHang).
Proof.
  unfold all_blocked. setoid_rewrite elem_of_app. setoid_rewrite elem_of_list_singleton. split.
  - intros (ch & v & b & [H|H]); eauto 8.
  - intros [(ch & v & b & H)|(ch & v & b & H)]; eauto 8.
Qed.

Lemma hinv_same s l x : hinv s l ->
  (forall ch, blocked (l ++ [x]) ch <-> blocked l ch) -> (all_blocked (l ++ [x]) <-> all_blocked l) ->
  (forall S, active_step S x = S) -> hinv s (l ++ [x]).
Proof.
  intros (A & B & C & D) H1 H2 H3. split; [|split; [|split; [exact C|]]].
  - intros ch. rewrite H1. apply A.
  - rewrite H2. exact B.
  - intros ch v. rewrite fold_left_app. cbn [fold_left]. rewrite H3. intros Hin. destruct (D ch v Hin) as [?|?]; [by left|]. right. apply elem_of_app. by left.
Qed.

Lemma hinv_step cfg s l o s' r : hinv s l -> wstep cfg s o = (s', r) -> hinv s' (l ++ [(o, r)]).
Proof.
  intros HI Hs. pose proof HI as (A & B & C & D).
  assert (forall x, (forall ch m, x <> (VMsg ch m, OUnregistered)) -> (forall ch v, x <> (VCancel ch v, OHang)) ->
    forall ch, blocked (l ++ [x]) ch <-> blocked l ch) as Hb.
  { intros x N1 N2 ch. rewrite blocked_snoc. split; [|tauto]. intros [?|[(m & E)|(v & E)]]; [done|by destruct (N1 ch m)|by destruct (N2 ch v)]. }
  assert (forall x, (forall ch v b, x <> (VSubscribe ch v b, OHang)) -> (all_blocked (l ++ [x]) <-> all_blocked l)) as Ha.
  { intros x N. rewrite all_blocked_snoc. split; [|tauto]. intros [?|(ch & v & b & E)]; [done|by destruct (N ch v b)]. }
  destruct o as [ch ver bok|ch v|ch m]; cbn in Hs.
  - unfold w_subscribe in Hs. destruct ver as [v|]; [|injection Hs as <- <-; apply hinv_same; [done|by apply Hb|by apply Ha|done]].
    case_decide as Ev; [injection Hs as <- <-; apply hinv_same; [done|by apply Hb|by apply Ha|done]|].
    destruct (wstuck s) eqn:Hw.
    { injection Hs as <- <-. apply hinv_same; [done|by apply Hb| |done]. rewrite all_blocked_snoc. split; [|tauto]. intros _. by apply B. }
    destruct (chans s !! ch) as [vs|] eqn:Ec.
    + case_decide as Es.
      { injection Hs as <- <-. split; [intros c; cbn; rewrite (Hb _); [apply A|done|done]|]. split; [|split; [exact C|]].
        - cbn. split; [|done]. intros _. apply all_blocked_snoc. right. eauto.
        - intros c w. rewrite fold_left_app. cbn. intros Hin. destruct (D c w Hin) as [?|?]; [by left|]. right. apply elem_of_app. by left. }
      case_decide as Ei; [injection Hs as <- <-; apply hinv_same; [done|by apply Hb|by apply Ha|done]|].
      injection Hs as <- <-. split; [intros c; cbn; rewrite (Hb _); [apply A|done|done]|]. split; [cbn; rewrite (Ha _); [exact B|done]|]. split.
      * intros c Hc. cbn. rewrite lookup_insert_is_Some'. right. by apply C.
      * intros c w. rewrite fold_left_app. cbn. rewrite elem_of_union, elem_of_singleton. intros [[= -> ->]|Hin].
        -- left. exists ({[v]} ∪ vs). split; [apply lookup_insert|]. apply elem_of_union_l, elem_of_singleton. done.
        -- destruct (D c w Hin) as [(ws & E & Hw')|?]; [|right; apply elem_of_app; by left]. left.
           destruct (decide (c = ch)) as [->|Ne]; [exists ({[v]} ∪ vs); rewrite lookup_insert|exists ws; rewrite lookup_insert_ne by done; done].
           split; [done|]. apply elem_of_union_r. congruence.
    + destruct bok; [|injection Hs as <- <-; apply hinv_same; [done|by apply Hb|by apply Ha|done]].
      assert (Nv : ch ∉ vstuck s) by (intros Hin; destruct (C ch Hin); congruence).
      injection Hs as <- <-. split.
      { intros c. cbn. rewrite (Hb _); [|done|done]. rewrite <- A, elem_of_difference, elem_of_singleton. split; [tauto|]. intros Hc. split; [done|]. by intros ->. }
      split; [cbn; rewrite (Ha _); [exact B|done]|]. split.
      * intros c. cbn. rewrite elem_of_difference, lookup_insert_is_Some'. intros [Hc _]. right. by apply C.
      * intros c w. rewrite fold_left_app. cbn. rewrite elem_of_union, elem_of_singleton. intros [[= -> ->]|Hin].
        -- left. exists {[v]}. split; [apply lookup_insert|]. by apply elem_of_singleton.
        -- destruct (D c w Hin) as [(ws & E & Hw')|?]; [|right; apply elem_of_app; by left]. left.
           exists ws. rewrite lookup_insert_ne by congruence. done.
  - assert (forall q, active_step q (VCancel ch v, OHang) = q /\ active_step q (VCancel ch v, ONoSuch) = q) as Eq by done.
    unfold w_cancel in Hs. destruct (chans s !! ch) as [vs|] eqn:Ec; [|injection Hs as <- <-; apply hinv_same; [done|by apply Hb|by apply Ha|done]].
    case_decide as Ei; [|injection Hs as <- <-; apply hinv_same; [done|by apply Hb|by apply Ha|done]].
    case_decide as Es.
    { injection Hs as <- <-. apply hinv_same; [done| |by apply Ha|done]. intros c. rewrite blocked_snoc. split; [|tauto].
      intros [?|[(m & [=])|(w & [= -> _])]]; [done|]. by apply A. }
    destruct (wstuck s) eqn:Hw.
    { injection Hs as <- <-. split.
      - intros c. cbn. rewrite blocked_snoc, elem_of_union, elem_of_singleton, A. split.
        + intros [->|?]; [right; right; by exists v|by left].
        + intros [?|[(m & [=])|(w & [= -> _])]]; [by right|by left].
      - split; [cbn; rewrite (Ha _); [exact B|done]|]. split.
        + intros c. cbn. rewrite elem_of_union, elem_of_singleton, lookup_insert_is_Some'. intros [->|Hc]; [by left|right; by apply C].
        + intros c w. rewrite fold_left_app. cbn. intros Hin. destruct (D c w Hin) as [(ws & E & Hw')|?]; [|right; apply elem_of_app; by left].
          destruct (decide (c = ch)) as [->|Ne]; [|left; exists ws; rewrite lookup_insert_ne by done; done].
          destruct (decide (w = v)) as [->|Nw]; [right; apply elem_of_app; right; by apply elem_of_list_singleton|]. left.
          exists (vs ∖ {[v]}). rewrite lookup_insert. split; [done|]. apply elem_of_difference. rewrite elem_of_singleton. split; [congruence|done]. }
    assert (forall d, (forall c w, (exists ws, chans s !! c = Some ws /\ w ∈ ws) -> (c, w) <> (ch, v) -> exists ws, d !! c = Some ws /\ w ∈ ws) ->
      (forall c, c ∈ vstuck s -> is_Some (d !! c)) -> forall b, hinv (mkW d (vstuck s) (wstuck s) b) (l ++ [(VCancel ch v, OOk)])) as Hd.
    { intros d H1 H2 b. split; [intros c; cbn; rewrite (Hb _); [apply A|done|done]|]. split; [cbn; rewrite Hw, (Ha _); [exact B|done]|]. split; [exact H2|].
      intros c w. rewrite fold_left_app. cbn. rewrite elem_of_difference, elem_of_singleton. intros [Hin Ne].
      destruct (D c w Hin) as [Q|?]; [|right; apply elem_of_app; by left]. left. by apply H1. }
    case_decide as Ee; injection Hs as <- <-; rewrite <- Hw; apply Hd.
    + intros c w (ws & E & Hin) Ne. assert (c <> ch).
      { intros ->. apply Ne. f_equal. assert (ws = vs) as -> by congruence. clear - Ee Hin. destruct (decide (w = v)); [done|]. set_solver. }
      exists ws. by rewrite lookup_delete_ne.
    + intros c Hc. assert (c <> ch) by congruence. rewrite lookup_delete_ne by done. by apply C.
    + intros c w (ws & E & Hin) Ne. destruct (decide (c = ch)) as [->|Nc]; [|exists ws; by rewrite lookup_insert_ne].
      exists (vs ∖ {[v]}). rewrite lookup_insert. split; [done|]. apply elem_of_difference. rewrite elem_of_singleton. split; congruence.
    + intros c Hc. rewrite lookup_insert_is_Some'. right. by apply C.
  - unfold w_msg in Hs. destruct (chans s !! ch) as [vs|] eqn:Ec; [|injection Hs as <- <-; apply hinv_same; [done|by apply Hb|by apply Ha|done]].
    destruct (resolve cfg m) as [v|].
    2: { case_decide; injection Hs as <- <-; apply hinv_same; solve [done|by apply Hb|by apply Ha]. }
    case_decide; [injection Hs as <- <-; apply hinv_same; solve [done|by apply Hb|by apply Ha]|].
    case_decide; [injection Hs as <- <-; apply hinv_same; solve [done|by apply Hb|by apply Ha]|].
    injection Hs as <- <-. split.
    + intros c. cbn. rewrite blocked_snoc, elem_of_union, elem_of_singleton, A. split.
      * intros [->|?]; [right; left; by exists m|by left].
      * intros [?|[(w & [= -> _])|(w & [=])]]; [by right|by left].
    + split; [cbn; rewrite (Ha _); [exact B|done]|]. split.
      * intros c. cbn. rewrite elem_of_union, elem_of_singleton. intros [->|Hc]; [by exists vs|by apply C].
      * intros c w. rewrite fold_left_app. cbn. intros Hin. destruct (D c w Hin) as [?|?]; [by left|]. right. apply elem_of_app. by left.
Qed.

Lemma hinv_run cfg os : forall s l s' rs, hinv s l -> wrun cfg s os = (s', rs) -> hinv s' (l ++ zip os rs).
Proof.
  induction os as [|o os IH]; intros s l s' rs H Hr; cbn in Hr; [injection Hr as <- <-; cbn; by rewrite app_nil_r|].
  destruct (wstep cfg s o) as [s1 r] eqn:E. destruct (wrun cfg s1 os) as [s2 rs'] eqn:E'. injection Hr as <- <-.
  cbn. rewrite cons_middle, app_assoc. eapply IH; [|exact E']. by eapply hinv_step.
Qed.
Lemma hinv_reach cfg os s rs : wrun cfg winit os = (s, rs) -> hinv s (zip os rs).
Proof.
  intros H. apply (hinv_run cfg os winit [] s rs); [|exact H]. split; [|split; [|split]].
  - intros ch. cbn. split; [intros Hin; by apply elem_of_empty in Hin|]. intros [(m & Hin)|(v & Hin)]; by apply elem_of_nil in Hin.
  - cbn. split; [done|]. intros (ch & v & b & Hin). by apply elem_of_nil in Hin.
  - intros ch Hin. by apply elem_of_empty in Hin.
  - intros ch v Hin. by apply elem_of_empty in Hin.
Qed.

Lemma blocked_exact cfg os s rs : wrun cfg winit os = (s, rs) ->
  (forall ch m, (wstep cfg s (VMsg ch m)).2 = OHang <-> blocked (zip os rs) ch) /\
  (forall ch v bok, v <> "" -> ((wstep cfg s (VSubscribe ch (Some v) bok)).2 = OHang <-> all_blocked (zip os rs) \/ blocked (zip os rs) ch)) /\
  (forall ch v, (ch, v) ∈ active os rs -> (VCancel ch v, OHang) ∉ zip os rs ->
     ((wstep cfg s (VCancel ch v)).2 = OHang <-> all_blocked (zip os rs) \/ blocked (zip os rs) ch)).
Proof.
  intros H. destruct (hinv_reach cfg os s rs H) as (A & B & C & D). split; [|split].
  - intros ch m. cbn. unfold w_msg. rewrite <- A. destruct (chans s !! ch) as [vs|] eqn:E.
    + destruct (resolve cfg m); repeat case_decide; cbn; split; done.
    + split; [done|]. intros Hin. destruct (C _ Hin). congruence.
  - intros ch v bok Hv. cbn. unfold w_subscribe. rewrite decide_False by done. rewrite <- A, <- B. destruct (wstuck s); [cbn; tauto|].
    destruct (chans s !! ch) as [vs|] eqn:E.
    + repeat case_decide; cbn; split; try done; try tauto; intros [?|?]; done.
    + destruct bok; cbn; (split; [done|]); intros [?|Hin]; try done; destruct (C _ Hin); congruence.
  - intros ch v Ha Hn. cbn. unfold w_cancel. rewrite <- A, <- B. destruct (D ch v Ha) as [(vs & E & Hin)|?]; [|done]. rewrite E.
    rewrite decide_True by done. case_decide; [cbn; tauto|]. destruct (wstuck s); [cbn; tauto|]. case_decide; cbn; (split; [done|]); intros [?|?]; done.
Qed.
Lemma routing_exact cfg os s rs ch m v :
  wrun cfg winit os = (s, rs) -> (ch, v) ∈ active os rs -> addressed (vkey cfg) (vdefault cfg) m v ->
  ((wstep cfg s (VMsg ch m)).2 = ODelivered v <-> ~ blocked (zip os rs) ch).
Proof.
  intros H Ha Hm. destruct (hinv_reach cfg os s rs H) as (A & B & C & D). rewrite <- A. cbn. unfold w_msg. apply resolve_spec in Hm. split.
  - destruct (chans s !! ch); [|done]. rewrite Hm. repeat case_decide; done.
  - intros Hn. destruct (D ch v Ha) as [(vs & E & Hin)|Hc].
    + rewrite E, Hm. by rewrite decide_False, decide_True.
    + destruct Hn. apply A. right. by exists v.
Qed.

(** A channel known to the wrapper has a version whose cancellation did not return. *)
Definition einv (s : wst) (S : gset (string * string)) : Prop := forall ch, is_Some (chans s !! ch) -> exists v, (ch, v) ∈ S.
Lemma einv_step cfg s S o : ainv s S -> einv s S -> let '(s', r) := wstep cfg s o in einv s' (active_step S (o, r)).
Proof.
  intros [H1 _] He. destruct o as [ch ver bok|ch v|ch m]; cbn.
  - assert (forall d v, (forall c, is_Some (d !! c) -> c = ch \/ is_Some (chans s !! c)) -> forall a b e, einv (mkW d a b e) ({[(ch, v)]} ∪ S)) as Hd.
    { intros d v H a b e c Hc. cbn in Hc. destruct (H c Hc) as [->|Hs]; [exists v; apply elem_of_union_l; by apply elem_of_singleton|].
      destruct (He c Hs) as (w & Hw). exists w. by apply elem_of_union_r. }
    unfold w_subscribe. destruct ver as [v|]; [|exact He]. case_decide; [exact He|]. destruct (wstuck s); [exact He|].
    destruct (chans s !! ch) as [vs|] eqn:Hch.
    + case_decide; [exact He|]. case_decide; [exact He|]. apply Hd. intros c. rewrite lookup_insert_is_Some'. intros [->|?]; auto.
    + destruct bok; [|exact He]. apply Hd. intros c. rewrite lookup_insert_is_Some'. intros [->|?]; auto.
  - unfold w_cancel. destruct (chans s !! ch) as [vs|] eqn:Hch; [|exact He]. case_decide; [|exact He]. case_decide; [exact He|].
    destruct (wstuck s).
    + intros c. cbn. rewrite lookup_insert_is_Some'. intros [->|?]; apply He; [by exists vs|done].
    + assert (forall c w, (c, w) ∈ S -> (c, w) <> (ch, v) -> exists w', (c, w') ∈ S ∖ {[(ch, v)]}) as Hx.
      { intros c w Hin Ne. exists w. apply elem_of_difference. by rewrite elem_of_singleton. }
      case_decide as Ee; intros c; cbn.
      * rewrite lookup_delete_is_Some. intros [Ne Hc]. destruct (He c Hc) as (w & Hw). apply (Hx c w Hw). congruence.
      * rewrite lookup_insert_is_Some'. destruct (decide (c = ch)) as [->|Ne]; intros Hc.
        -- destruct (set_choose_L _ Ee) as [w Hw]. apply elem_of_difference in Hw as [Hw Nw]. rewrite elem_of_singleton in Nw.
           apply (Hx ch w); [by eapply H1|congruence].
        -- destruct Hc as [<-|Hc]; [done|]. destruct (He c Hc) as (w & Hw). apply (Hx c w Hw). congruence.
  - unfold w_msg. destruct (chans s !! ch); [|exact He]. destruct (resolve cfg m); case_decide; try exact He. case_decide; exact He.
Qed.
Lemma einv_run cfg os : forall s S, ainv s S -> einv s S -> let '(s', rs) := wrun cfg s os in einv s' (fold_left active_step (zip os rs) S).
Proof.
  induction os as [|o os IH]; intros s S H He; cbn; [exact He|].
  pose proof (ainv_step cfg s S o H) as H1. pose proof (einv_step cfg s S o H He) as H2. destruct (wstep cfg s o) as [s1 r].
  specialize (IH s1 _ H1 H2). destruct (wrun cfg s1 os) as [s2 rs]. exact IH.
Qed.

Lemma broker_subs_exact cfg os s rs ch : wrun cfg winit os = (s, rs) ->
  ((exists v, (ch, v) ∈ active os rs) -> alive ch (blog s) = 1%Z) /\
  ((forall v, (ch, v) ∉ active os rs) -> alive ch (blog s) = 0%Z).
Proof.
  intros Hr. destruct (hinv_reach cfg os s rs Hr) as (A & B & C & D).
  destruct (binv_run cfg os winit binv_init) as [G _]. rewrite Hr in G. cbn in G. rewrite G. split.
  - intros [v Hv]. destruct (D ch v Hv) as [(vs & -> & _)|Hc]; [done|].
    destruct (C ch) as [vs ->]; [|done]. apply A. right. by exists v.
  - intros Hno. destruct (chans s !! ch) as [vs|] eqn:E; [|done].
    assert (einv s (active os rs)) as He.
    { assert (ainv winit ∅) as H0 by (split; cbn; [intros c v' vs'; rewrite lookup_empty; discriminate|intros _ c v' Hin; by apply elem_of_empty in Hin]).
      pose proof (einv_run cfg os winit ∅ H0) as X. rewrite Hr in X. apply X. intros c [? Hc]. cbn in Hc. by rewrite lookup_empty in Hc. }
    destruct (He ch) as (v & Hv); [by exists vs|]. by destruct (Hno v).
Qed.

Lemma answer_exact cfg os s rs ch v bok : wrun cfg winit os = (s, rs) -> (ch, v) ∈ active os rs ->
  ((wstep cfg s (VSubscribe ch (Some v) bok)).2 = OErrAlready <-> ~ all_blocked (zip os rs) /\ ~ blocked (zip os rs) ch).
Proof.
  intros Hr Ha. pose proof (active_nonempty cfg os s rs ch v Hr Ha) as Hne.
  destruct (blocked_exact cfg os s rs Hr) as (_ & H & _). specialize (H ch v bok Hne).
  destruct (wstep cfg s (VSubscribe ch (Some v) bok)) as [s' r] eqn:E. cbn in *.
  destruct (duplicate_never_accepted cfg os s rs ch v bok s' r Hr Ha E) as [[->| ->] _].
  - split; [|done]. intros _. assert (~ (all_blocked (zip os rs) \/ blocked (zip os rs) ch)) by (by rewrite <- H). tauto.
  - split; [done|]. assert (all_blocked (zip os rs) \/ blocked (zip os rs) ch) by (by apply H). tauto.
Qed.
