From stdpp Require Import gmap strings.
From Verif.Model Require Import Controller.
From Verif.Spec Require Import ControllerSpec.

Arguments live : simpl never.
Arguments subscribed : simpl never.

Definition cinv (s : cst) : Prop :=
  (forall a i, csubs s !! a = Some i <-> (a, i) ∈ live (clog s)) /\
  NoDup (subscribed (clog s)) /\
  (forall a b i, csubs s !! a = Some i -> csubs s !! b = Some i -> a = b) /\
  (forall a i, CSub a i ∈ clog s -> i < cnext s).

Lemma live_snoc h e : live (h ++ [e]) = live_step (live h) e.
Proof. unfold live. rewrite fold_left_app. reflexivity. Qed.

Lemma elem_live_csub h a i : (a, i) ∈ live h -> CSub a i ∈ h.
Proof.
  induction h as [|e h IH] using rev_ind; [cbn; intros H; inversion H|].
  rewrite live_snoc. destruct e as [c j|c|j]; cbn.
  - rewrite elem_of_app, elem_of_list_singleton. intros [H|H]; apply elem_of_app; [auto|].
    right. apply elem_of_list_singleton. congruence.
  - intros H. apply elem_of_app; auto.
  - rewrite elem_of_list_filter. intros [_ H]. apply elem_of_app; auto.
Qed.

Lemma subscribed_iff s a : cinv s -> a ∈ subscribed (clog s) <-> is_Some (csubs s !! a).
Proof.
  intros (H1 & _). unfold subscribed. rewrite elem_of_list_fmap. split.
  - intros ([c i] & -> & Hin). cbn. exists i. apply H1, Hin.
  - intros [i Hi]. exists (a, i). split; [reflexivity|]. apply H1, Hi.
Qed.

Lemma NoDup_filter_fmap {A B} (f : A -> B) (P : A -> Prop) `{!forall x, Decision (P x)} (l : list A) :
  NoDup (f <$> l) -> NoDup (f <$> filter P l).
Proof.
  induction l as [|x l IH]; [auto|]. rewrite fmap_cons. intros [Hx Hl]%NoDup_cons. rewrite filter_cons.
  case_decide; [|auto]. rewrite fmap_cons. apply NoDup_cons. split; [|auto].
  intros (y & E & Hy)%elem_of_list_fmap. apply Hx. apply elem_of_list_fmap. exists y.
  split; [exact E|]. apply elem_of_list_filter in Hy. tauto.
Qed.

Lemma c_subscribe_inv s a b : cinv s -> cinv (fst (c_subscribe s a b)).
Proof.
  intros Hi. pose proof Hi as (H1 & H2 & H3 & H4). unfold c_subscribe.
  destruct (csubs s !! a) as [j|] eqn:Ea; [exact Hi|]. destruct b; cbn.
  - assert (forall c i, csubs s !! c = Some i -> i < cnext s) as Hlt.
    { intros c i Hc. apply H1 in Hc. apply elem_live_csub in Hc. eauto. }
    unfold cinv; cbn. refine (conj _ (conj _ (conj _ _))).
    + intros c i. rewrite live_snoc. cbn. rewrite elem_of_app, elem_of_list_singleton.
      destruct (decide (c = a)) as [->|Hc].
      * rewrite lookup_insert. split.
        -- intros E. right. congruence.
        -- intros [H|H]; [|congruence]. apply H1 in H. congruence.
      * rewrite lookup_insert_ne by congruence. rewrite H1. split; [auto|]. intros [H|H]; [auto|congruence].
    + unfold subscribed. rewrite live_snoc. cbn. rewrite fmap_app. apply NoDup_app.
      refine (conj H2 (conj _ (NoDup_singleton _))).
      intros c Hc. cbn. rewrite elem_of_list_singleton. intros ->.
      apply (subscribed_iff s a Hi) in Hc as [i Hc]. congruence.
    + intros c d i. destruct (decide (c = a)) as [->|Hc]; destruct (decide (d = a)) as [->|Hd]; auto;
        rewrite ?lookup_insert; rewrite ?lookup_insert_ne by congruence; intros E1 E2; eauto;
        simplify_eq.
      * apply Hlt in E2. lia.
      * apply Hlt in E1. lia.
    + intros c i Hin. apply elem_of_app in Hin as [Hin|Hin].
      * specialize (H4 c i Hin). lia.
      * apply elem_of_list_singleton in Hin. simplify_eq. lia.
  - unfold cinv; cbn. refine (conj _ (conj _ (conj H3 _))).
    + intros c i. rewrite live_snoc. apply H1.
    + unfold subscribed. rewrite live_snoc. exact H2.
    + intros c i Hin. apply elem_of_app in Hin as [Hin|Hin]; [eauto|].
      apply elem_of_list_singleton in Hin. simplify_eq.
Qed.

Lemma c_unsubscribe_inv s a : cinv s -> cinv (c_unsubscribe s a).
Proof.
  intros Hi. pose proof Hi as (H1 & H2 & H3 & H4). unfold c_unsubscribe.
  destruct (csubs s !! a) as [j|] eqn:Ea; [|exact Hi].
  unfold cinv; cbn. refine (conj _ (conj _ (conj _ _))).
  - intros c i. rewrite live_snoc. cbn. rewrite elem_of_list_filter. cbn. rewrite <- H1.
    rewrite lookup_delete_Some. split.
    + intros [Hc E]. split; [|exact E]. intros ->. apply Hc. eauto.
    + intros [Hc E]. split; [|exact E]. intros <-. congruence.
  - unfold subscribed. rewrite live_snoc. cbn. apply NoDup_filter_fmap, H2.
  - intros c d i E1 E2. apply lookup_delete_Some in E1 as [_ E1], E2 as [_ E2]. eauto.
  - intros c i Hin. apply elem_of_app in Hin as [Hin|Hin]; [eauto|].
    apply elem_of_list_singleton in Hin. simplify_eq.
Qed.

Lemma c_subscribe_list_inv l b : forall s, cinv s -> cinv (fst (c_subscribe_list s l b)).
Proof.
  induction l as [|a l IH]; intros s Hi; cbn; [exact Hi|].
  pose proof (c_subscribe_inv s a (b a) Hi) as H. destruct (c_subscribe s a (b a)) as [s1 [ | | ]]; auto.
Qed.

Lemma c_unsubscribe_list_inv l : forall s, cinv s -> cinv (fold_left c_unsubscribe l s).
Proof. induction l as [|a l IH]; intros s Hi; cbn; [exact Hi|]. apply IH, c_unsubscribe_inv, Hi. Qed.

Lemma cstep_inv ops s o : cinv s -> cinv (fst (cstep ops s o)).
Proof.
  intros Hi. destruct o; cbn.
  - apply c_subscribe_inv, Hi.
  - apply c_unsubscribe_inv, Hi.
  - apply c_subscribe_list_inv, Hi.
  - apply c_unsubscribe_list_inv, Hi.
  - apply c_unsubscribe_list_inv, Hi.
Qed.

Lemma cinv_init : cinv cinit.
Proof.
  unfold cinv; cbn. refine (conj _ (conj (NoDup_nil_2) (conj _ _))).
  - intros a i. rewrite lookup_empty. split; [discriminate|]. intros H; inversion H.
  - intros a b i. rewrite lookup_empty. discriminate.
  - intros a i H; inversion H.
Qed.

Lemma crun_inv ops os : cinv (crun ops os cinit).
Proof.
  unfold crun. assert (forall s, cinv s -> cinv (fold_left (fun s o => fst (cstep ops s o)) os s)) as G.
  { induction os as [|o os IH]; intros s H; cbn; [exact H|]. apply IH, cstep_inv, H. }
  apply G, cinv_init.
Qed.

(** One live broker subscription per subscribed address. *)
Lemma controller_one_each ops os : NoDup (subscribed (clog (crun ops os cinit))).
Proof. apply (crun_inv ops os). Qed.

Lemma controller_step ops os o s' r :
  let s := crun ops os cinit in
  match o with OSubscribe _ _ | OUnsubscribe _ => True | _ => False end ->
  cstep ops s o = (s', r) ->
  exists evs, clog s' = clog s ++ evs /\ sub_expected (clog s) o r evs.
Proof.
  intros s Ho Hs. pose proof (crun_inv ops os) as Hi. fold s in Hi.
  pose proof Hi as (H1 & H2 & H3 & H4).
  destruct o as [a b|a|b| |]; try contradiction; cbn in Hs.
  - unfold c_subscribe in Hs. destruct (csubs s !! a) as [j|] eqn:Ea.
    + simplify_eq. exists []. split; [rewrite app_nil_r; reflexivity|]. constructor.
      apply subscribed_iff; eauto.
    + assert (a ∉ subscribed (clog s)) as Hn.
      { intros H. apply (subscribed_iff s a Hi) in H as [i H]. congruence. }
      destruct b; simplify_eq; cbn; eexists; (split; [reflexivity|]); constructor; auto.
      intros c Hc. apply H4 in Hc. lia.
  - unfold c_unsubscribe in Hs. destruct (csubs s !! a) as [j|] eqn:Ea; simplify_eq; cbn.
    + eexists; split; [reflexivity|]. constructor. apply H1, Ea.
    + exists []. split; [rewrite app_nil_r; reflexivity|]. constructor.
      intros H. apply (subscribed_iff _ a Hi) in H as [i H]. congruence.
Qed.

(** ** Close *)
Lemma c_unsubscribe_subs s a c :
  csubs (c_unsubscribe s a) !! c = if decide (c = a) then None else csubs s !! c.
Proof.
  unfold c_unsubscribe. destruct (csubs s !! a) as [j|] eqn:Ea; case_decide; subst; cbn; auto.
  - apply lookup_delete.
  - apply lookup_delete_ne. congruence.
Qed.

Lemma c_unsubscribe_list_subs l : forall s c,
  csubs (fold_left c_unsubscribe l s) !! c = if decide (c ∈ l) then None else csubs s !! c.
Proof.
  induction l as [|a l IH]; intros s c; cbn.
  - rewrite decide_False; [reflexivity|]. intros H; inversion H.
  - rewrite IH, c_unsubscribe_subs.
    destruct (decide (c ∈ l)) as [Hl|Hl].
    + rewrite decide_True; [reflexivity|]. apply elem_of_cons; auto.
    + destruct (decide (c = a)) as [->|Hc].
      * rewrite decide_True; [reflexivity|]. apply elem_of_cons; auto.
      * rewrite decide_False; [reflexivity|]. rewrite elem_of_cons. tauto.
Qed.

Lemma elem_plain ops a : a ∈ plain ops <-> exists o, o ∈ ops /\ rparams o = false /\ raddr o = a.
Proof.
  unfold plain. rewrite elem_of_list_fmap. split.
  - intros (o & -> & Ho). apply elem_of_list_filter in Ho as [H1 H2]. eauto.
  - intros (o & H1 & H2 & <-). exists o. split; [reflexivity|]. apply elem_of_list_filter; auto.
Qed.

Lemma close_exact ops os a :
  let s := crun ops os cinit in
  a ∈ subscribed (clog (c_close ops s)) <->
  a ∈ subscribed (clog s) /\ (forall o, o ∈ ops -> rparams o = false -> raddr o <> a).
Proof.
  intros s. pose proof (crun_inv ops os) as Hi. fold s in Hi.
  pose proof (cstep_inv ops s OClose Hi) as Hi'. cbn in Hi'.
  rewrite (subscribed_iff _ a Hi), (subscribed_iff _ a Hi').
  unfold c_close, c_unsubscribe_all. rewrite c_unsubscribe_list_subs. case_decide as Hp.
  - split; [intros [x Hx]; discriminate|]. intros [_ Hn].
    apply elem_plain in Hp as (o & H1 & H2 & H3). destruct (Hn o H1 H2 H3).
  - split; [|tauto]. intros H. split; [exact H|]. intros o H1 H2 H3. apply Hp. apply elem_plain. eauto.
Qed.

(** ** SubscribeToAllChannels *)
Lemma c_subscribe_subs s a b s' r : c_subscribe s a b = (s', r) ->
  (r = CrOk /\ csubs s !! a = None /\ b = true /\ exists i, csubs s' = <[a := i]> (csubs s)) \/
  (r <> CrOk /\ csubs s' = csubs s /\ (is_Some (csubs s !! a) \/ b = false)).
Proof.
  unfold c_subscribe. destruct (csubs s !! a) as [j|] eqn:Ea.
  - intros H. simplify_eq. right. eauto.
  - destruct b; intros H; simplify_eq; cbn; [left|right]; eauto.
Qed.

Lemma c_subscribe_list_spec l b : forall s s' r,
  c_subscribe_list s l b = (s', r) ->
  (r = CrOk /\ NoDup l /\ (forall a, a ∈ l -> csubs s !! a = None /\ b a = true) /\
     (forall a, is_Some (csubs s' !! a) <-> is_Some (csubs s !! a) \/ a ∈ l)) \/
  (r <> CrOk /\ exists p a q, l = p ++ a :: q /\
     (forall c, is_Some (csubs s' !! c) <-> is_Some (csubs s !! c) \/ c ∈ p) /\
     (is_Some (csubs s !! a) \/ a ∈ p \/ b a = false)).
Proof.
  induction l as [|a l IH]; intros s s' r H; cbn in H.
  - simplify_eq. left. refine (conj eq_refl (conj NoDup_nil_2 (conj _ _))).
    + intros a Ha; inversion Ha.
    + intros a. split; [auto|]. intros [H|H]; [exact H|inversion H].
  - destruct (c_subscribe s a (b a)) as [s1 r1] eqn:E.
    destruct (c_subscribe_subs _ _ _ _ _ E) as [(-> & Hn & Hb & i & Es)|(Hr & Es & Hw)].
    + assert (forall c, is_Some (csubs s1 !! c) <-> is_Some (csubs s !! c) \/ c = a) as Hs1.
      { intros c. rewrite Es. rewrite lookup_insert_is_Some'. split; intros [?|?]; auto. }
      destruct (IH s1 s' r H) as [(-> & Hnd & Hall & Hsub)|(Hr & p & c & q & -> & Hsub & Hw)].
      * left. assert (a ∉ l) as Hal.
        { intros Hal. destruct (Hall a Hal) as [HN _].
          assert (is_Some (csubs s1 !! a)) as [x Hx] by (apply Hs1; auto). congruence. }
        refine (conj eq_refl (conj (NoDup_cons_2 _ _ Hal Hnd) (conj _ _))).
        -- intros c Hc. apply elem_of_cons in Hc as [->|Hc]; [auto|].
           destruct (Hall c Hc) as [HN Hbc]. split; [|exact Hbc].
           destruct (csubs s !! c) eqn:Ec; [|reflexivity].
           assert (is_Some (csubs s1 !! c)) as [x Hx] by (apply Hs1; rewrite Ec; eauto). congruence.
        -- intros c. rewrite Hsub, Hs1, elem_of_cons. tauto.
      * right. split; [exact Hr|]. exists (a :: p), c, q. refine (conj eq_refl (conj _ _)).
        -- intros d. rewrite Hsub, Hs1, elem_of_cons. tauto.
        -- rewrite Hs1 in Hw. rewrite elem_of_cons. tauto.
    + right. assert (s' = s1 /\ r = r1) as [-> ->].
      { destruct r1; [congruence|simplify_eq; auto|simplify_eq; auto]. }
      split; [exact Hr|]. exists [], a, l. refine (conj eq_refl (conj _ _)).
      * intros c. rewrite Es. split; [auto|]. intros [H'|H']; [exact H'|inversion H'].
      * tauto.
Qed.

Lemma subscribe_all_spec ops os bok s' r :
  let s := crun ops os cinit in
  c_subscribe_all ops s bok = (s', r) ->
  (r = CrOk /\ NoDup (plain ops) /\
     (forall a, a ∈ plain ops -> a ∉ subscribed (clog s) /\ bok a = true) /\
     (forall a, a ∈ subscribed (clog s') <-> a ∈ subscribed (clog s) \/ a ∈ plain ops)) \/
  (r <> CrOk /\ exists p a q, plain ops = p ++ a :: q /\
     (forall c, c ∈ subscribed (clog s') <-> c ∈ subscribed (clog s) \/ c ∈ p) /\
     (a ∈ subscribed (clog s) \/ a ∈ p \/ bok a = false)).
Proof.
  intros s H. pose proof (crun_inv ops os) as Hi. fold s in Hi.
  assert (cinv s') as Hi'.
  { pose proof (cstep_inv ops s (OSubscribeAll bok) Hi) as G. cbn in G. rewrite H in G. exact G. }
  destruct (c_subscribe_list_spec _ _ _ _ _ H) as [(-> & Hnd & Hall & Hsub)|(Hr & p & c & q & E & Hsub & Hw)].
  - left. refine (conj eq_refl (conj Hnd (conj _ _))).
    + intros a Ha. destruct (Hall a Ha) as [HN Hb]. split; [|exact Hb].
      intros Hin. apply (subscribed_iff s a Hi) in Hin as [x Hx]. congruence.
    + intros a. rewrite (subscribed_iff s a Hi), (subscribed_iff s' a Hi'). apply Hsub.
  - right. split; [exact Hr|]. exists p, c, q. refine (conj E (conj _ _)).
    + intros a. rewrite (subscribed_iff s a Hi), (subscribed_iff s' a Hi'). apply Hsub.
    + rewrite (subscribed_iff s c Hi). exact Hw.
Qed.

(** The converse: when nothing stands in the way it succeeds. *)
Lemma c_subscribe_list_ok l b : forall s, NoDup l ->
  (forall a, a ∈ l -> csubs s !! a = None /\ b a = true) -> snd (c_subscribe_list s l b) = CrOk.
Proof.
  induction l as [|a l IH]; intros s Hnd Hall; cbn; [reflexivity|].
  apply NoDup_cons in Hnd as [Ha Hnd].
  destruct (Hall a ltac:(apply elem_of_cons; auto)) as [HN Hb].
  unfold c_subscribe. rewrite HN, Hb. apply IH; [exact Hnd|].
  intros c Hc. cbn. destruct (Hall c ltac:(apply elem_of_cons; auto)) as [HN' Hb'].
  split; [|exact Hb']. rewrite lookup_insert_ne; [exact HN'|]. intros ->. contradiction.
Qed.

Lemma subscribe_all_ok ops os bok :
  let s := crun ops os cinit in
  NoDup (plain ops) -> (forall a, a ∈ plain ops -> a ∉ subscribed (clog s) /\ bok a = true) ->
  snd (c_subscribe_all ops s bok) = CrOk.
Proof.
  intros s Hnd Hall. pose proof (crun_inv ops os) as Hi. fold s in Hi.
  apply c_subscribe_list_ok; [exact Hnd|]. intros a Ha. destruct (Hall a Ha) as [Hn Hb].
  split; [|exact Hb]. destruct (csubs s !! a) eqn:E; [|reflexivity].
  destruct Hn. apply (subscribed_iff s a Hi). rewrite E. eauto.
Qed.
