From stdpp Require Import gmap strings.
From Verif.Model Require Import VersioningLocks.

Lemma lrun_inv (P : lk -> Prop) os s :
  (forall s o, P s -> P (lstep s o)) -> P s -> P (lrun os s).
Proof.
  intros Hs; revert s; induction os as [|o os IH]; intros s H; cbn; [exact H|]. apply IH, Hs, H.
Qed.

Lemma updf_same {A} (f : nat -> A) i a : updf f i a i = a.
Proof. unfold updf. rewrite Nat.eqb_refl. reflexivity. Qed.
Lemma updf_ne {A} (f : nat -> A) i j a : i <> j -> updf f i a j = f j.
Proof. intros H. unfold updf. destruct (Nat.eqb_spec j i); congruence. Qed.

(** Lock ownership is consistent with program counters, the listener excepted: it may own the
    versions lock while idle. *)
Definition own (s : lk) : Prop :=
  (forall i v, subs s i = SWantV v -> cm s = Some (TSub i)) /\
  (forall i v, subs s i = SIn v -> cm s = Some (TSub i) /\ vm s = Some (TSub i)) /\
  (forall i, subs s i = SOut -> cm s = Some (TSub i)) /\
  (forall i v, rems s i = RWantC v -> vm s = Some (TRem i)) /\
  (forall i, rems s i = RIn -> vm s = Some (TRem i) /\ cm s = Some (TRem i)) /\
  (forall v, lst s = LGot v -> vm s = Some TListener) /\
  (vm s = Some TListener -> (forall v, lst s <> LSend v)).

Ltac splits := repeat match goal with |- _ /\ _ => split end.

Lemma own_init vs : own (linit vs).
Proof. unfold own; splits; cbn; intros; congruence. Qed.

Ltac upd_cases :=
  repeat match goal with
    | H : context [updf ?f ?i ?a ?j] |- _ =>
        unfold updf in H; destruct (Nat.eqb_spec j i); subst
    | |- context [updf ?f ?i ?a ?j] =>
        unfold updf; destruct (Nat.eqb_spec j i); subst
    end.
Ltac learn t :=
  let T := type of t in
  lazymatch goal with K : T |- _ => fail | _ => pose proof t end.
Ltac own_tac :=
  intros; cbn in *; upd_cases;
  repeat match goal with
    | H : forall i v, subs ?s i = SWantV v -> _, G : subs ?s _ = SWantV _ |- _ => learn (H _ _ G)
    | H : forall i v, subs ?s i = SIn v -> _, G : subs ?s _ = SIn _ |- _ => learn (H _ _ G)
    | H : forall i, subs ?s i = SOut -> _, G : subs ?s _ = SOut |- _ => learn (H _ G)
    | H : forall i v, rems ?s i = RWantC v -> _, G : rems ?s _ = RWantC _ |- _ => learn (H _ _ G)
    | H : forall i, rems ?s i = RIn -> _, G : rems ?s _ = RIn |- _ => learn (H _ G)
    | H : forall v, LGot ?x = LGot v -> _ |- _ => learn (H _ eq_refl)
    | H : forall v, lst ?s = LGot v -> _, G : lst ?s = LGot _ |- _ => learn (H _ G)
    end; repeat match goal with H : _ /\ _ |- _ => destruct H end;
  try congruence; try (split; congruence); eauto.

Lemma own_step s o : own s -> own (lstep s o).
Proof.
  intros H. pose proof H as (H1 & H2 & H3 & H4 & H5 & H6 & H7).
  destruct o as [v| |i v other|i|i v|i]; cbn [lstep].
  - destruct (lst s) eqn:Hl; try exact H. unfold own; splits; own_tac.
  - destruct (lst s) as [|v|v|v] eqn:Hl; try exact H.
    + destruct (vm s) eqn:Hv; [exact H|]. unfold own; splits; own_tac.
    + case_decide.
      * unfold own; splits; own_tac.
      * unfold own; splits; own_tac.
    + unfold own; splits; own_tac.
  - destruct (subs s i) eqn:Hs; try exact H. unfold own; splits; own_tac.
  - destruct (subs s i) as [|v other|v|v| |] eqn:Hs; try exact H.
    + destruct (cm s) eqn:Hc; [exact H|]. unfold own; splits; own_tac; destruct other; own_tac.
    + destruct (vm s) eqn:Hv; [exact H|]. unfold own; splits; own_tac.
    + unfold own; splits; own_tac.
    + unfold own; splits; own_tac.
  - destruct (rems s i) eqn:Hr; try exact H. unfold own; splits; own_tac.
  - destruct (rems s i) as [|v|v| |] eqn:Hr; try exact H.
    + destruct (vm s) eqn:Hv; [exact H|]. unfold own; splits; own_tac.
    + destruct (cm s) eqn:Hc; [exact H|]. unfold own; splits; own_tac.
    + unfold own; splits; own_tac.
Qed.

(** ** Dead lock 1: the listener keeps the lock after an unregistered version *)
Definition leaked (s : lk) : Prop :=
  own s /\ vm s = Some TListener /\ (lst s = LIdle \/ exists v, lst s = LWant v).

Lemma leaked_step s o : leaked s -> leaked (lstep s o).
Proof.
  intros (Ho & Hv & Hl). pose proof (own_step s o Ho) as Ho'.
  split; [exact Ho'|]. destruct Ho as (H1 & H2 & H3 & H4 & H5 & H6 & H7).
  destruct o as [v| |i v other|i|i v|i]; cbn [lstep].
  - destruct Hl as [El|[w El]]; rewrite El; cbn; eauto.
  - destruct Hl as [El|[w El]]; rewrite El; rewrite ?Hv; eauto.
  - destruct (subs s i); cbn; eauto.
  - destruct (subs s i) as [|w other|w|w| |] eqn:Hs; cbn; eauto.
    + destruct (cm s); cbn; eauto.
    + rewrite Hv. eauto.
    + destruct (H2 i w Hs). congruence.
  - destruct (rems s i); cbn; eauto.
  - destruct (rems s i) as [|w|w| |] eqn:Hr; cbn; eauto.
    + rewrite Hv. eauto.
    + destruct (cm s); cbn; eauto.
    + destruct (H5 i Hr). congruence.
Qed.

Lemma leaked_run os s : leaked s -> leaked (lrun os s).
Proof. apply lrun_inv. apply leaked_step. Qed.

(** In a leaked state nothing is delivered, and nobody enters the critical section. *)
Lemma leaked_nothing os s : leaked s ->
  delivered (lrun os s) = delivered s /\ vers (lrun os s) = vers s.
Proof.
  revert s; induction os as [|o os IH]; intros s H; [auto|].
  change (delivered (lrun os (lstep s o)) = delivered s /\ vers (lrun os (lstep s o)) = vers s).
  destruct (IH (lstep s o) (leaked_step s o H)) as [-> ->].
  destruct H as ((H1 & H2 & H3 & H4 & H5 & H6 & H7) & Hv & Hl).
  destruct o as [v| |i v other|i|i v|i]; cbn [lstep].
  - destruct Hl as [El|[w El]]; rewrite El; auto.
  - destruct Hl as [El|[w El]]; rewrite El; rewrite ?Hv; auto.
  - destruct (subs s i); auto.
  - destruct (subs s i) as [|w other|w|w| |] eqn:Hs; cbn; auto.
    + destruct (cm s); auto.
    + rewrite Hv; auto.
    + destruct (H2 i w Hs). congruence.
  - destruct (rems s i); auto.
  - destruct (rems s i) as [|w|w| |] eqn:Hr; cbn; auto.
    + rewrite Hv; auto.
    + destruct (cm s); auto.
Qed.

(** Somebody holds channelsMutex while waiting for the leaked versionsMutex. *)
Definition wrapper_dead (k : nat) (s : lk) : Prop :=
  leaked s /\ cm s = Some (TSub k) /\ exists w, subs s k = SWantV w.

Lemma dead_step k s o : wrapper_dead k s -> wrapper_dead k (lstep s o).
Proof.
  intros (Hl & Hc & w & Hk). split; [apply leaked_step, Hl|].
  destruct Hl as ((H1 & H2 & H3 & H4 & H5 & H6 & H7) & Hv & Hl).
  destruct o as [v| |i v other|i|i v|i]; cbn [lstep].
  - destruct Hl as [El|[u El]]; rewrite El; cbn; eauto.
  - destruct Hl as [El|[u El]]; rewrite El; rewrite ?Hv; eauto.
  - destruct (subs s i) eqn:Hs; cbn; eauto. split; [exact Hc|]. exists w.
    rewrite updf_ne; [exact Hk|congruence].
  - destruct (subs s i) as [|u other|u|u| |] eqn:Hs; cbn; eauto.
    + rewrite Hc; eauto.
    + rewrite Hv; eauto.
    + destruct (H2 i u Hs). congruence.
    + pose proof (H3 i Hs) as Hci. assert (i = k) by congruence. subst. congruence.
  - destruct (rems s i); cbn; eauto.
  - destruct (rems s i) as [|u|u| |] eqn:Hr; cbn; eauto.
    + rewrite Hv; eauto.
    + rewrite Hc; eauto.
    + destruct (H5 i Hr). congruence.
Qed.

(** Once the wrapper is dead no subscription, even on another channel, succeeds any more. *)
Lemma dead_no_progress k os s j :
  wrapper_dead k s -> subs s j <> SDone -> subs (lrun os s) j <> SDone.
Proof.
  revert s; induction os as [|o os IH]; intros s H Hj; [exact Hj|].
  change (subs (lrun os (lstep s o)) j <> SDone). apply IH; [apply dead_step, H|].
  destruct H as (((H1 & H2 & H3 & H4 & H5 & H6 & H7) & Hv & Hl) & Hc & w & Hk).
  destruct o as [v| |i v other|i|i v|i]; cbn [lstep].
  - destruct Hl as [El|[u El]]; rewrite El; exact Hj.
  - destruct Hl as [El|[u El]]; rewrite El; rewrite ?Hv; exact Hj.
  - destruct (subs s i) eqn:Hs; try exact Hj. cbn. upd_cases; congruence.
  - destruct (subs s i) as [|u other|u|u| |] eqn:Hs; try exact Hj.
    + rewrite Hc; exact Hj.
    + rewrite Hv; exact Hj.
    + cbn. upd_cases; congruence.
    + pose proof (H3 i Hs). assert (i = k) by congruence. subst; congruence.
  - destruct (rems s i); exact Hj.
  - destruct (rems s i) as [|u|u| |] eqn:Hr; try exact Hj.
    + rewrite Hv; exact Hj.
    + rewrite Hc; exact Hj.
Qed.

(** ** Dead lock 2: lock order inversion *)
Definition inverted (i j : nat) (s : lk) : Prop :=
  own s /\ vm s = Some (TRem j) /\ cm s = Some (TSub i) /\
  (exists v, subs s i = SWantV v) /\ (exists v, rems s j = RWantC v).

Lemma inverted_step i j s o : inverted i j s -> inverted i j (lstep s o).
Proof.
  intros (Ho & Hv & Hc & [v0 Hi] & [v1 Hj]). split; [apply own_step, Ho|].
  destruct Ho as (H1 & H2 & H3 & H4 & H5 & H6 & H7).
  destruct o as [v| |k v other|k|k v|k]; cbn [lstep].
  - destruct (lst s) eqn:Hl; cbn; eauto 10.
  - destruct (lst s) as [|v|v|v] eqn:Hl; cbn; eauto 10.
    + rewrite Hv; eauto 10.
    + pose proof (H6 v eq_refl); congruence.
  - destruct (subs s k) eqn:Hs; cbn; eauto 10. repeat split; eauto 10. exists v0. rewrite updf_ne; congruence.
  - destruct (subs s k) as [|u other|u|u| |] eqn:Hs; cbn; eauto 10.
    + rewrite Hc; eauto 10.
    + rewrite Hv; eauto 10.
    + destruct (H2 k u Hs). congruence.
    + pose proof (H3 k Hs). assert (k = i) by congruence. subst; congruence.
  - destruct (rems s k) eqn:Hr; cbn; eauto 10. repeat split; eauto 10. exists v1. rewrite updf_ne; congruence.
  - destruct (rems s k) as [|u|u| |] eqn:Hr; cbn; eauto 10.
    + rewrite Hv; eauto 10.
    + rewrite Hc; eauto 10.
    + destruct (H5 k Hr). congruence.
Qed.

Lemma inverted_forever i j os s : inverted i j s ->
  subs (lrun os s) i <> SDone /\ rems (lrun os s) j <> RDone.
Proof.
  intros H. assert (inverted i j (lrun os s)) as (_ & _ & _ & [v Hv] & [w Hw]).
  { apply lrun_inv; [apply inverted_step|exact H]. }
  split; congruence.
Qed.

(** ** Without removals and with registered versions only, everybody makes progress *)
Definition benign (vs : gset string) (o : lop) : Prop :=
  match o with AMsg v => v ∈ vs | ARemove _ _ => False | _ => True end.

Definition calm (vs : gset string) (s : lk) : Prop :=
  own s /\ vs ⊆ vers s /\ (forall i, rems s i = RIdle) /\
  (forall v, lst s = LWant v \/ lst s = LGot v -> v ∈ vs) /\
  (vm s = Some TListener -> exists v, lst s = LGot v) /\
  (forall i, vm s = Some (TSub i) -> exists v, subs s i = SIn v) /\
  (forall i, vm s <> Some (TRem i)) /\
  (forall i, cm s = Some (TSub i) -> (exists v, subs s i = SWantV v) \/ (exists v, subs s i = SIn v) \/ subs s i = SOut) /\
  (forall i, cm s <> Some (TRem i)) /\ (cm s <> Some TListener).

Lemma calm_init vs : calm vs (linit vs).
Proof.
  split; [apply own_init|]. cbn. splits; try (intros; congruence); auto.
  intros v [H|H]; congruence.
Qed.

Ltac calm_tac :=
  intros; cbn in *; upd_cases;
  repeat match goal with
    | H : vm ?s = Some TListener -> _, G : vm ?s = Some TListener |- _ => learn (H G)
    | H : forall i, vm ?s = Some (TSub i) -> _, G : vm ?s = Some (TSub _) |- _ => learn (H _ G)
    | H : forall i, cm ?s = Some (TSub i) -> _, G : cm ?s = Some (TSub _) |- _ => learn (H _ G)
    end;
  repeat match goal with
    | H : exists _, _ |- _ => destruct H
    | H : _ \/ _ |- _ => destruct H
    end; simplify_eq; try congruence; eauto.

Lemma calm_step vs s o : benign vs o -> calm vs s -> calm vs (lstep s o).
Proof.
  intros Hb (Ho & Hvs & Hr & Hl & H1 & H2 & H3 & H4 & H5 & H6).
  split; [apply own_step, Ho|].
  destruct Ho as (O1 & O2 & O3 & O4 & O5 & O6 & O7).
  destruct o as [v| |i v other|i|i v|i]; cbn in Hb; cbn [lstep]; try contradiction.
  - destruct (lst s) eqn:El; try (rewrite El; splits; auto; fail).
    cbn. splits; auto; calm_tac.
  - destruct (lst s) as [|v|v|v] eqn:El; try (rewrite El; splits; auto; fail).
    + destruct (vm s) eqn:Ev; [rewrite El, Ev; splits; auto|]. cbn. splits; auto; calm_tac.
    + assert (v ∈ vs) as H by (apply Hl; auto). rewrite decide_True by (clear -Hvs H; set_solver).
      cbn. splits; auto; calm_tac.
    + cbn. splits; auto; calm_tac.
  - destruct (subs s i) eqn:Es; try (splits; auto; fail).
    cbn. splits; auto; calm_tac.
  - destruct (subs s i) as [|u other|u|u| |] eqn:Es; try (splits; auto; fail).
    + destruct (cm s) eqn:Ec; [rewrite Ec; splits; auto|]. cbn. splits; auto; calm_tac.
      destruct other; eauto.
    + destruct (vm s) eqn:Ev; [rewrite Ev; splits; auto|]. cbn. splits; auto; calm_tac.
    + cbn. pose proof (O2 i u Es) as [? ?]. assert (vs ⊆ {[u]} ∪ vers s) by (clear -Hvs; set_solver). splits; auto; calm_tac.
    + cbn. pose proof (O3 i Es). splits; auto; calm_tac.
  - rewrite Hr. splits; auto.
Qed.

Lemma calm_run vs os : Forall (benign vs) os -> calm vs (lrun os (linit vs)).
Proof.
  intros HF. assert (forall s, calm vs s -> calm vs (lrun os s)) as G.
  { induction HF as [|o os Ho HF IH]; intros s Hs; cbn; [exact Hs|].
    apply IH, calm_step; assumption. }
  apply G, calm_init.
Qed.

(** From a calm state the holder of the versions lock can release it. *)
Lemma calm_free_vm vs s : calm vs s -> exists os, Forall (benign vs) os /\
  vm (lrun os s) = None /\ calm vs (lrun os s) /\
  cm (lrun os s) = cm s /\ (forall v other j, subs s j = SWantC v other -> subs (lrun os s) j = SWantC v other) /\
  (forall v j, subs s j = SWantV v -> subs (lrun os s) j = SWantV v) /\
  (forall v j, subs s j = SIn v -> subs (lrun os s) j = SOut) /\
  (forall j, subs s j = SOut -> subs (lrun os s) j = SOut).
Proof.
  intros Hc. pose proof Hc as (Ho & Hvs & Hr & Hl & H1 & H2 & H3 & H4 & H5 & H6).
  destruct Ho as (O1 & O2 & O3 & O4 & O5 & O6 & O7).
  destruct (vm s) as [[|i|i]|] eqn:Ev.
  - destruct (H1 eq_refl) as [v El]. exists [AListener].
    assert (Forall (benign vs) [AListener]) as HF by (repeat constructor).
    split; [exact HF|].
    assert (calm vs (lrun [AListener] s)) as Hcs by (apply calm_step; [exact I|exact Hc]).
    split; [|split; [exact Hcs|]]; cbn; rewrite El;
      rewrite decide_True by (specialize (Hl v (or_intror El)); clear -Hl Hvs; set_solver); cbn; auto.
    splits; auto. intros w j Hj. destruct (O2 j w Hj). congruence.
  - destruct (H2 i eq_refl) as [v Es]. exists [ASub i].
    assert (Forall (benign vs) [ASub i]) as HF by (repeat constructor).
    split; [exact HF|].
    assert (calm vs (lrun [ASub i] s)) as Hcs by (apply calm_step; [exact I|exact Hc]).
    split; [|split; [exact Hcs|]]; cbn; rewrite Es; cbn; auto.
    splits; auto; intros; upd_cases; try congruence.
    match goal with G : subs s ?j = SIn _ |- _ => destruct (O2 _ _ G) end. congruence.
  - destruct (H3 i eq_refl).
  - exists []. split; [constructor|]. cbn. splits; auto.
    intros v j Hj. destruct (O2 j v Hj). congruence.
Qed.

Lemma calm_free_cm vs s : calm vs s -> exists os, Forall (benign vs) os /\
  cm (lrun os s) = None /\ calm vs (lrun os s) /\
  (forall v other j, subs s j = SWantC v other -> subs (lrun os s) j = SWantC v other).
Proof.
  intros Hc. destruct (calm_free_vm vs s Hc) as (os1 & HF1 & Ev & Hc1 & Ecm & Hw & HwV & HwI & HwO).
  set (s1 := lrun os1 s) in *.
  pose proof Hc1 as (Ho & Hvs & Hr & Hl & H1 & H2 & H3 & H4 & H5 & H6).
  destruct (cm s1) as [[|i|i]|] eqn:Ec.
  - congruence.
  - destruct (H4 i eq_refl) as [[v Es]|[[v Es]|Es]].
    + exists (os1 ++ [ASub i; ASub i; ASub i]).
      assert (Forall (benign vs) [ASub i; ASub i; ASub i]) as HF2 by (repeat constructor).
      split; [apply Forall_app; auto|].
      unfold lrun. rewrite fold_left_app. fold (lrun os1 s). fold s1.
      change (fold_left lstep [ASub i; ASub i; ASub i] s1) with (lrun [ASub i; ASub i; ASub i] s1).
      split; [|split].
      * cbn. rewrite Es, Ev. cbn. rewrite updf_same. cbn. rewrite updf_same. reflexivity.
      * cbn [lrun fold_left]. repeat apply calm_step; try exact I. exact Hc1.
      * intros w other j Hj. specialize (Hw w other j Hj). cbn. rewrite Es, Ev. cbn.
        rewrite updf_same. cbn. rewrite updf_same. cbn. upd_cases; congruence.
    + destruct Ho as (_ & O2 & _). destruct (O2 i v Es); congruence.
    + exists (os1 ++ [ASub i]).
      split; [apply Forall_app; split; [exact HF1|repeat constructor]|].
      unfold lrun. rewrite fold_left_app. fold (lrun os1 s). fold s1.
      change (fold_left lstep [ASub i] s1) with (lstep s1 (ASub i)).
      split; [|split].
      * cbn. rewrite Es. reflexivity.
      * apply calm_step; [exact I|exact Hc1].
      * intros w other j Hj. specialize (Hw w other j Hj). cbn. rewrite Es. cbn. upd_cases; congruence.
  - destruct (H5 i eq_refl).
  - exists os1. auto.
Qed.

Lemma calm_subscribe_completes vs os i v :
  Forall (benign vs) os ->
  let s := lrun os (linit vs) in
  subs s i = SWantC v false ->
  exists os', Forall (benign vs) os' /\ subs (lrun os' s) i = SDone /\ v ∈ vers (lrun os' s).
Proof.
  intros HF s Hi. pose proof (calm_run vs os HF) as Hc. fold s in Hc.
  destruct (calm_free_cm vs s Hc) as (os1 & HF1 & Ec & Hc1 & Hw1).
  specialize (Hw1 v false i Hi). set (s1 := lrun os1 s) in *.
  set (s2 := lstep s1 (ASub i)).
  assert (calm vs s2) as Hc2 by (apply calm_step; [exact I|exact Hc1]).
  assert (subs s2 i = SWantV v) as E2.
  { unfold s2. cbn. rewrite Hw1, Ec. cbn. apply updf_same. }
  destruct (calm_free_vm vs s2 Hc2) as (os3 & HF3 & Ev & Hc3 & _ & _ & HwV & _).
  specialize (HwV v i E2). set (s3 := lrun os3 s2) in *.
  exists (os1 ++ [ASub i] ++ os3 ++ [ASub i; ASub i; ASub i]).
  split.
  { apply Forall_app; split; [exact HF1|]. apply Forall_app; split; [repeat constructor|].
    apply Forall_app; split; [exact HF3|repeat constructor]. }
  unfold lrun. rewrite !fold_left_app. fold (lrun os1 s). fold s1.
  change (fold_left lstep [ASub i] s1) with s2. fold (lrun os3 s2). fold s3.
  cbn. rewrite HwV, Ev. cbn. rewrite updf_same. cbn. rewrite updf_same. cbn.
  rewrite updf_same. split; [reflexivity|]. clear; set_solver.
Qed.

Lemma calm_listener_delivers vs os v :
  Forall (benign vs) os ->
  let s := lrun os (linit vs) in
  lst s = LWant v ->
  exists os', Forall (benign vs) os' /\ delivered (lrun os' s) = delivered s ++ [v].
Proof.
  intros HF s Hi. pose proof (calm_run vs os HF) as Hc. fold s in Hc.
  pose proof Hc as (Ho & Hvs & Hr & Hl & H1 & H2 & H3 & H4 & H5 & H6).
  assert (v ∈ vs) as Hv by (apply Hl; auto).
  destruct (vm s) as [[|i|i]|] eqn:Ev.
  - destruct (H1 eq_refl); congruence.
  - destruct (H2 i eq_refl) as [w Es].
    exists [ASub i; AListener; AListener; AListener]. split; [repeat constructor|].
    cbn. rewrite Es. cbn. rewrite Hi. cbn. rewrite decide_True by (clear -Hv Hvs; set_solver). reflexivity.
  - destruct (H3 i eq_refl).
  - exists [AListener; AListener; AListener]. split; [repeat constructor|].
    cbn. rewrite Hi, Ev. cbn. rewrite decide_True by (clear -Hv Hvs; set_solver). reflexivity.
Qed.
