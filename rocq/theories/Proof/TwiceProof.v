(** Merging a second time. *)
From stdpp Require Import gmap list strings.
From Coq Require Import Ascii String Lia.
From Verif.Model Require Import Reference Slices Schema Location Message.
From Verif.Spec Require Import SlicesSpec SchemaSpec MessageSpec MergeSpec.
From Verif.Proof Require Import SlicesProof SchemaProof LocationProof MergeProof CopyProof MessageProof.
Local Open Scope string_scope.

Lemma upd_id s f h : valid h s -> f (cell h s) = cell h s -> upd s f h = h.
Proof.
  intros V E. unfold upd, set_cell. rewrite E. destruct h as [c m n]. cbn [cells maps next]. f_equal.
  apply insert_id. exact (valid_cell _ _ V).
Qed.
Lemma first_self (l : list string) : NoDup l -> first_occurrences id l l.
Proof.
  induction l as [|x l IH] using rev_ind; intros N; [constructor|]. apply NoDup_app in N as (N1 & N2 & _).
  constructor; [now apply IH|]. rewrite list_fmap_id. intros H. apply (N2 x H). apply elem_of_list_singleton. reflexivity.
Qed.
Lemma remove_duplicate_absorb a b : NoDup a -> (forall k, k ∈ b -> k ∈ a) -> remove_duplicate (a ++ b) = a.
Proof.
  intros N S. apply (first_unique id (a ++ b)); [apply remove_duplicate_first|].
  induction b as [|x b IH] using rev_ind; [rewrite app_nil_r; now apply first_self|].
  rewrite app_assoc. constructor; [apply IH; intros k H; apply S, elem_of_app; now left|].
  rewrite list_fmap_id. apply elem_of_app. left. apply S. apply elem_of_app. right. apply elem_of_list_singleton. reflexivity.
Qed.
Lemma fold_id {A B} (f : A -> B -> A) l a : (forall x, x ∈ l -> f a x = a) -> fold_left f l a = a.
Proof.
  induction l as [|x l IH]; intros H; [reflexivity|]. cbn [fold_left]. rewrite H by left. apply IH. intros y Hy. apply H. now right.
Qed.

(** The map of properties, once made, stays. *)
Definition has_map (s : nat) (h : heap) : Prop := s < next h /\ is_Some (s_props (cell h s)).
Lemma has_map_upd s f h : (forall c, s_props (f c) = s_props c) -> has_map s h -> has_map s (upd s f h).
Proof. intros F [L S]. split; [exact L|]. now rewrite cell_upd_same, F. Qed.
Lemma has_map_alloc s c h : has_map s h -> has_map s (snd (alloc c h)).
Proof.
  intros [L S]. split; [cbn; lia|]. cbn. unfold cell. cbn. rewrite lookup_insert_ne by lia. exact S.
Qed.
Lemma has_map_set s m g h : has_map s h -> has_map s (set_map m g h).
Proof. intros H. exact H. Qed.
Lemma alloc_refs_map s vs h : has_map s h -> has_map s (snd (alloc_refs vs h)).
Proof.
  revert h. induction vs as [|v vs IH]; intros h H; [exact H|]. cbn [alloc_refs].
  pose proof (has_map_alloc s (with_refto (Some v) empty_sch) h H) as H1. unfold alloc in *. cbn [snd] in H1. cbv beta iota zeta.
  specialize (IH _ H1). destruct (alloc_refs vs _) as [ps h2]. exact IH.
Qed.
Lemma alloc_refs_next vs h : next h <= next (snd (alloc_refs vs h)).
Proof.
  revert h. induction vs as [|v vs IH]; intros h; [reflexivity|]. cbn [alloc_refs]. unfold alloc. cbv beta iota zeta.
  specialize (IH (mkHeap (<[next h:=with_refto (Some v) empty_sch]> (cells h)) (maps h) (S (next h)))).
  destruct (alloc_refs vs _) as [ps h2]. cbn [snd next] in *. lia.
Qed.
Lemma merge_list_map get put s s2 h : (forall c l, s_props (put l c) = s_props c) -> has_map s h -> has_map s (merge_list get put s s2 h).
Proof.
  intros F H. unfold merge_list.
  pose proof (alloc_refs_map s (match s_refto s2 with Some r => get (cell h r) | None => [] end) h H) as H1.
  destruct (alloc_refs _ h) as [ps h1]. apply has_map_upd; [intros c; apply F|exact H1].
Qed.
Lemma merge_list_next get put s s2 h : next h <= next (merge_list get put s s2 h).
Proof.
  unfold merge_list. pose proof (alloc_refs_next (match s_refto s2 with Some r => get (cell h r) | None => [] end) h) as H1.
  destruct (alloc_refs _ h) as [ps h1]. exact H1.
Qed.
Lemma add_own_map s m h kv : has_map s h -> has_map s (add_own m h kv).
Proof. intros H. unfold add_own. destruct (map_at h (Some m) !! fst kv); exact H. Qed.
Lemma add_ref_map s m h kv : has_map s h -> has_map s (add_ref s m h kv).
Proof.
  intros H. unfold add_ref. destruct kv as [k v]. destruct (map_at h (Some m) !! k); [exact H|].
  pose proof (has_map_alloc s (with_isreq (s_isreq (cell h v)) (with_refto (Some v) empty_sch)) h H) as H1.
  destruct (String.eqb _ _); unfold alloc in *; cbv beta iota zeta.
  - destruct (s_isreq (cell h v)); [apply has_map_upd; [reflexivity|exact H1]|exact H1].
  - destruct (s_isreq (cell h v)); [apply has_map_upd; [reflexivity|exact H]|exact H].
Qed.
Lemma fold_map {A} (f : heap -> A -> heap) s l h : (forall h x, has_map s h -> has_map s (f h x)) -> has_map s h -> has_map s (fold_left f l h).
Proof. intros F. revert h. induction l as [|x l IH]; intros h H; [exact H|]. cbn [fold_left]. apply IH, F, H. Qed.

Section twice.
  Variable iter : nat -> gmap string nat -> list (string * nat).
  Hypothesis iter_perm : forall m g, iter m g ≡ₚ map_to_list g.

  Lemma merge_props_map s s2 h : s < next h ->
    is_Some (s_props (cell h s)) \/ s_props s2 <> None \/ (exists r, s_refto s2 = Some r /\ s_props (cell h r) <> None) ->
    has_map s (merge_props iter s s2 h).
  Proof.
    intros L H. destruct (option_eq_dec_none2 (s_props s2) (match s_refto s2 with Some r => s_props (cell h r) | None => None end)) as [[E1 E2]|Ne].
    { unfold merge_props. rewrite E1, E2. destruct H as [H|[H|(r & Hr & H)]]; [split; [exact L|exact H]|congruence|].
      rewrite Hr in E2. congruence. }
    rewrite (merge_props_unfold iter s s2 h Ne).
    set (mh := match s_props (cell h s) with
               | Some m => (m, h)
               | None => let '(m, h) := alloc_map h in (m, upd s (with_props (Some m)) h)
               end).
    assert (I : has_map s (snd mh)).
    { unfold mh. destruct (s_props (cell h s)) as [m|] eqn:E; [cbn [snd]; split; [exact L|rewrite E; eauto]|].
      cbn. split; [cbn; lia|]. rewrite cell_upd_same. cbn. eauto. }
    destruct mh as [m h1]. cbn [snd] in I.
    set (h2 := match s_props s2 with Some p => fold_left (add_own m) (iter p (map_at h1 (Some p))) h1 | None => h1 end).
    assert (J : has_map s h2).
    { unfold h2. destruct (s_props s2); [|exact I]. apply fold_map; [intros; now apply add_own_map|exact I]. }
    cbn zeta. destruct (match s_refto s2 with Some r => s_props (cell h2 r) | None => None end); [|exact J].
    apply fold_map; [intros; now apply add_ref_map|exact J].
  Qed.

  Lemma merge_list_props get put s s2 h x : closed h -> valid h x -> (forall c l, s_props (put l c) = s_props c) ->
    (forall r y, s_refto s2 = Some r -> y ∈ get (cell h r) -> valid h y) ->
    s_props (cell (merge_list get put s s2 h) x) = s_props (cell h x).
  Proof.
    intros C V F K. unfold merge_list.
    set (extra := match s_refto s2 with Some r => get (cell h r) | None => [] end).
    assert (Fe : Forall (valid h) extra).
    { unfold extra. rewrite Forall_forall. destruct (s_refto s2) as [r|]; [intros y; now apply K|intros y Hy; now apply elem_of_nil in Hy]. }
    pose proof (alloc_refs_spec s extra h C Fe) as A. cbn zeta in A.
    destruct (alloc_refs extra h) as [ps h1]. cbn in A. destruct A as (C1 & X1 & M1 & S1 & V1 & _).
    destruct (decide (x = s)) as [->|N].
    - rewrite cell_upd_same, F, S1; [reflexivity|exact V].
    - rewrite cell_upd_other by congruence. now rewrite (extends_cell s h h1).
  Qed.

  Lemma merge_with_map s s2 h : closed h -> valid h s -> ok_sch h s2 ->
    is_Some (s_props (cell h s)) \/ s_props s2 <> None \/ (exists r, s_refto s2 = Some r /\ s_props (cell h r) <> None) ->
    is_Some (s_props (cell (merge_with iter s s2 h) s)).
  Proof.
    intros C V K H. unfold merge_with. rewrite cell_upd_same.
    change (is_Some (s_props (cell (merge_props iter s s2 (merge_list s_oneof with_oneof s s2 (merge_list s_anyof with_anyof s s2
      (merge_list s_allof with_allof s s2 (upd s (with_type "object") h))))) s))).
    set (h0 := upd s (with_type "object") h).
    assert (C0 : closed h0).
    { apply closed_upd; [exact C|exact V|]. intros [a b d]. constructor; [exact a|exact b|exact d]. }
    assert (X0 : extends s h h0) by now apply extends_upd.
    assert (K0 : ok_sch h0 s2) by (apply (ok_sch_mono h); [apply (ex_valid _ _ _ X0)|auto|exact K]).
    assert (V0 : valid h0 s) by now apply (ex_valid _ _ _ X0).
    assert (L0 : forall h r y, closed h -> ok_sch h s2 -> s_refto s2 = Some r ->
              (y ∈ s_allof (cell h r) \/ y ∈ s_anyof (cell h r) \/ y ∈ s_oneof (cell h r)) -> valid h y).
    { intros g r y Cg Kg Er Hy. assert (Or : ok_sch g (cell g r)) by (apply (cl_sch g Cg r), valid_cell, (ok_refto _ _ Kg r Er)).
      destruct (ok_get_lists _ _ Or) as (F1 & F2 & F3). rewrite Forall_forall in F1, F2, F3. destruct Hy as [Hy|[Hy|Hy]]; auto. }
    destruct (merge_list_spec s_allof with_allof s s2 h0) as (C1 & X1 & M1 & _);
      [now intros []|apply ok_put_allof|intros ? ? O; now apply ok_get_lists|exact C0|exact V0|exact K0|].
    assert (P1 : forall x, valid h x -> s_props (cell (merge_list s_allof with_allof s s2 h0) x) = s_props (cell h x)).
    { intros x Hx. rewrite merge_list_props; [|exact C0|now apply (ex_valid _ _ _ X0)|reflexivity|intros r y Er Hy; apply (L0 h0 r y); auto].
      unfold h0. destruct (decide (x = s)) as [->|N]; [now rewrite cell_upd_same|now rewrite cell_upd_other by congruence]. }
    set (h1 := merge_list s_allof with_allof s s2 h0) in *.
    assert (K1 : ok_sch h1 s2).
    { apply (ok_sch_mono h0); [apply (ex_valid _ _ _ X1)| |exact K0]. intros m. unfold valid_map. now rewrite M1. }
    assert (V1 : valid h1 s) by now apply (ex_valid _ _ _ X1).
    destruct (merge_list_spec s_anyof with_anyof s s2 h1) as (C2 & X2 & M2 & _);
      [now intros []|apply ok_put_anyof|intros ? ? O; now apply ok_get_lists|exact C1|exact V1|exact K1|].
    assert (P2 : forall x, valid h x -> s_props (cell (merge_list s_anyof with_anyof s s2 h1) x) = s_props (cell h x)).
    { intros x Hx. rewrite merge_list_props; [now apply P1|exact C1|apply (ex_valid _ _ _ X1), (ex_valid _ _ _ X0), Hx|reflexivity|intros r y Er Hy; apply (L0 h1 r y); auto]. }
    set (h2 := merge_list s_anyof with_anyof s s2 h1) in *.
    assert (K2 : ok_sch h2 s2).
    { apply (ok_sch_mono h1); [apply (ex_valid _ _ _ X2)| |exact K1]. intros m. unfold valid_map. now rewrite M2. }
    assert (V2 : valid h2 s) by now apply (ex_valid _ _ _ X2).
    destruct (merge_list_spec s_oneof with_oneof s s2 h2) as (C3 & X3 & M3 & _);
      [now intros []|apply ok_put_oneof|intros ? ? O; now apply ok_get_lists|exact C2|exact V2|exact K2|].
    assert (P3 : forall x, valid h x -> s_props (cell (merge_list s_oneof with_oneof s s2 h2) x) = s_props (cell h x)).
    { intros x Hx. rewrite merge_list_props; [now apply P2|exact C2|apply (ex_valid _ _ _ X2), (ex_valid _ _ _ X1), (ex_valid _ _ _ X0), Hx|reflexivity|intros r y Er Hy; apply (L0 h2 r y); auto]. }
    apply merge_props_map.
    - apply (cl_cells _ C3). now apply (ex_valid _ _ _ X3).
    - rewrite (P3 s V). destruct H as [H|[H|(r & Er & H)]]; [now left|right; now left|right; right]. exists r. split; [exact Er|].
      rewrite P3; [exact H|now apply (ok_refto _ _ K)].
  Qed.

  (** [v] has been merged into [s] before. *)
  Record absorbed (h : heap) (s v : nat) : Prop := {
    ab_type : s_type (cell h s) = "object";
    ab_props k : is_Some (defines h v k) -> is_Some (props h (cell h s) !! k);
    ab_map m : reads h v m -> is_Some (s_props (cell h s));
    ab_nodup : NoDup (s_required (cell h s));
    ab_required k : k ∈ s_required (cell h v) -> k ∈ s_required (cell h s);
  }.

  Lemma merge_absorbed h s v : valid h s -> plain_element h v -> absorbed h s v -> merge_with iter s (cell h v) h = h.
  Proof.
    intros V [(S1 & S2 & S3) Sr] [T P M N R]. unfold merge_with.
    rewrite (upd_id s (with_type "object") h V) by (rewrite <- T; now destruct (cell h s)).
    assert (ML : forall get put, get (cell h v) = [] -> (forall r, s_refto (cell h v) = Some r -> get (cell h r) = []) ->
              (forall c, put (get c) c = c) -> merge_list get put s (cell h v) h = h).
    { intros get put E1 E2 E3. rewrite merge_list_simple by assumption. apply upd_id; [exact V|]. cbn [app]. rewrite app_nil_r. apply E3. }
    rewrite (ML s_allof with_allof), (ML s_anyof with_anyof), (ML s_oneof with_oneof);
      [|exact S3|intros r Er; now apply (Sr r Er)|now intros []|exact S2|intros r Er; now apply (Sr r Er)|now intros []|exact S1|intros r Er; now apply (Sr r Er)|now intros []].
    assert (MP : merge_props iter s (cell h v) h = h).
    { unfold merge_props. destruct (option_eq_dec_none2 (s_props (cell h v)) (match s_refto (cell h v) with Some r => s_props (cell h r) | None => None end)) as [[E1 E2]|Ne].
      { now rewrite E1, E2. }
      assert (Hm : is_Some (s_props (cell h s))).
      { destruct (s_props (cell h v)) as [m|] eqn:E1; [apply (M m); now left|].
        destruct (s_refto (cell h v)) as [r|] eqn:E2; [|now exfalso; apply Ne].
        destruct (s_props (cell h r)) as [m|] eqn:E3; [|now exfalso; apply Ne]. apply (M m). right. eauto. }
      destruct Hm as [m Em]. rewrite Em.
      assert (I1 : match s_props (cell h v) with Some p => fold_left (add_own m) (iter p (map_at h (Some p))) h | None => h end = h).
      { destruct (s_props (cell h v)) as [p|] eqn:Ep; [|reflexivity]. apply fold_id. intros [k x] Hk. unfold add_own. cbn [fst snd].
        rewrite iter_perm, elem_of_map_to_list in Hk. destruct (P k) as [y Hy].
        { unfold defines, props. rewrite Ep, Hk. eauto. }
        unfold props in Hy. rewrite Em in Hy. now rewrite Hy. }
      assert (I2 : match (match s_refto (cell h v) with Some r => s_props (cell h r) | None => None end) with
                   | Some p => fold_left (add_ref s m) (iter p (map_at h (Some p))) h | None => h end = h).
      { destruct (s_refto (cell h v)) as [r|] eqn:Er; [|reflexivity]. destruct (s_props (cell h r)) as [p|] eqn:Ep; [|reflexivity].
        apply fold_id. intros [k x] Hk. unfold add_ref.
        rewrite iter_perm, elem_of_map_to_list in Hk. destruct (P k) as [y Hy].
        { unfold defines. destruct (props h (cell h v) !! k); [eauto|]. unfold ref_props, props. rewrite Er, Ep, Hk. eauto. }
        unfold props in Hy. rewrite Em in Hy. now rewrite Hy. }
      destruct (s_props (cell h v)) as [p|]; [rewrite I1; exact I2|].
      destruct (match s_refto (cell h v) with Some r => s_props (cell h r) | None => None end); [|exact I2]. exact I2. }
    rewrite MP. apply upd_id; [exact V|]. rewrite remove_duplicate_absorb; [now destruct (cell h s)|exact N|exact R].
  Qed.

  (** Merging keeps what was merged, and absorbs what it merges. *)
  Lemma merge_keeps h s v : closed h -> valid h s -> valid h v -> apart h s v -> plain_element h v ->
    let h1 := merge_with iter s (cell h v) h in
    closed h1 /\ valid h1 s /\ absorbed h1 s v /\
    (forall w, valid h w -> apart h s w -> valid h1 w /\ apart h1 s w /\ (plain_element h w -> plain_element h1 w) /\
       (absorbed h s w -> absorbed h1 s w)).
  Proof.
    intros C Vs Vv Av Pv. cbn zeta. set (h1 := merge_with iter s (cell h v) h).
    assert (Kv : ok_sch h (cell h v)) by (apply (cl_sch h C v); now apply valid_cell).
    pose proof (merge_with_spec iter iter_perm s (cell h v) h C Vs Kv) as P. cbn zeta in P. fold h1 in P.
    destruct P as (C1 & X1 & T1 & I1 & Rf1 & M1 & P1 & F1 & R1 & Vm1 & W1_ & Nt1).
    assert (W1 : forall m, valid_map h m -> s_props (cell h1 s) = Some m -> s_props (cell h s) = Some m).
    { intros m Hm E. destruct (W1_ m E) as [H|H]; [exact H|]. apply (cl_maps h C) in Hm. lia. }
    assert (Fr : forall w, valid h w -> apart h s w -> apart h1 s w /\ cell h1 w = cell h w /\
                 (forall k, defines h1 w k = defines h w k) /\
                 (forall k p, ref_props h (cell h w) !! k = Some p -> p <> s -> s_isreq (cell h1 p) = s_isreq (cell h p))).
    { intros w Vw Aw. exact (apart_frame h h1 s w C Vw Aw X1 M1 W1). }
    assert (Ref : forall w r, valid h w -> apart h s w -> s_refto (cell h w) = Some r -> cell h1 r = cell h r).
    { intros w r Vw Aw Er. apply (extends_cell s h h1); [exact X1| |].
      - apply (ok_refto h (cell h w)); [apply (cl_sch h C w); now apply valid_cell|exact Er].
      - intros ->. now apply (ap_refto _ _ _ Aw). }
    assert (Rd : forall w m, valid h w -> apart h s w -> reads h1 w m -> reads h w m).
    { intros w m Vw Aw. destruct (Fr w Vw Aw) as (_ & Ew & _). unfold reads. rewrite Ew. intros [H|(r & Er & H)]; [now left|].
      right. exists r. split; [exact Er|]. now rewrite <- (Ref w r Vw Aw Er). }
    assert (Nd : NoDup (s_required (cell h1 s))).
    { apply first_nodup in F1. now rewrite list_fmap_id in F1. }
    assert (Pm : forall k, is_Some (props h (cell h s) !! k) \/ is_Some (defines h v k) -> is_Some (props h1 (cell h1 s) !! k)).
    { intros k H. specialize (P1 k). unfold defines in H. destruct (props h (cell h s) !! k); [rewrite P1; eauto|].
      destruct (props h (cell h v) !! k); [rewrite P1; eauto|]. destruct (ref_props h (cell h v) !! k); [destruct P1 as (p & -> & _); eauto|].
      destruct H as [[? H]|[? H]]; discriminate. }
    split; [exact C1|]. split; [now apply (ex_valid _ _ _ X1)|]. split.
    - destruct (Fr v Vv Av) as (_ & Ev & Dv & _). constructor; [exact T1| | |exact Nd|].
      + intros k. rewrite Dv. intros H. apply Pm. now right.
      + intros m H. apply (Rd v m Vv Av) in H. apply merge_with_map; [exact C|exact Vs|exact Kv|]. right.
        destruct H as [H|(r & Er & H)]; [left; congruence|]. right. exists r. split; [exact Er|congruence].
      + intros k. rewrite Ev. intros H. apply R1. auto.
    - intros w Vw Aw. destruct (Fr w Vw Aw) as (Aw1 & Ew & Dw & _). split; [now apply (ex_valid _ _ _ X1)|]. split; [exact Aw1|]. split.
      + intros [S1 S2]. split; [now rewrite Ew|]. intros r. rewrite Ew. intros Er. rewrite (Ref w r Vw Aw Er). now apply S2.
      + intros [A1 A2 A3 A4 A5]. constructor; [exact T1| | |exact Nd|].
        * intros k. rewrite Dw. intros H. apply Pm. left. now apply A2.
        * intros m H. apply (Rd w m Vw Aw) in H. apply merge_with_map; [exact C|exact Vs|exact Kv|]. left. now apply (A3 m).
        * intros k. rewrite Ew. intros H. apply R1. left. now apply A5.
  Qed.

  Lemma merge_all_absorbs s l done h : closed h -> valid h s ->
    Forall (fun v => valid h v /\ apart h s v /\ plain_element h v) (done ++ l) -> Forall (absorbed h s) done ->
    let h1 := merge_all iter s l h in
    valid h1 s /\ Forall (fun v => plain_element h1 v /\ absorbed h1 s v) (done ++ l).
  Proof.
    revert done h. induction l as [|v l IH]; intros done h C Vs F A; cbn zeta.
    { cbn [merge_all fold_left]. split; [exact Vs|]. rewrite app_nil_r in *. rewrite Forall_forall in *. intros w Hw.
      split; [now apply F|now apply A]. }
    cbn [merge_all fold_left]. fold (merge_all iter s l (merge_with iter s (cell h v) h)). set (h1 := merge_with iter s (cell h v) h).
    rewrite Forall_forall in F, A. destruct (F v) as (Vv & Av & Pv); [apply elem_of_app; right; left|].
    destruct (merge_keeps h s v C Vs Vv Av Pv) as (C1 & Vs1 & Ab & K). fold h1 in C1, Vs1, Ab, K.
    replace (done ++ v :: l)%list with ((done ++ [v]) ++ l)%list in * by (rewrite <- app_assoc; reflexivity).
    apply (IH (done ++ [v])%list h1 C1 Vs1).
    - rewrite Forall_forall. intros w Hw. destruct (F w Hw) as (Vw & Aw & Pw). destruct (K w Vw Aw) as (Vw1 & Aw1 & Pw1 & _). auto.
    - rewrite Forall_forall. intros w Hw. apply elem_of_app in Hw as [Hw|Hw].
      + destruct (F w) as (Vw & Aw & _); [rewrite !elem_of_app; auto|]. destruct (K w Vw Aw) as (_ & _ & _ & Kw). apply Kw. now apply A.
      + apply elem_of_list_singleton in Hw as ->. exact Ab.
  Qed.

  Lemma merge_all_twice s l h : closed h -> valid h s ->
    Forall (fun v => valid h v /\ apart h s v /\ plain_element h v) l ->
    merge_all iter s l (merge_all iter s l h) = merge_all iter s l h.
  Proof.
    intros C V F. destruct (merge_all_absorbs s l [] h C V F) as (V1 & A); [constructor|]. cbn [app] in A.
    set (h1 := merge_all iter s l h) in *. unfold merge_all. apply fold_id. rewrite Forall_forall in A. intros v Hv.
    destruct (A v Hv) as [P Ab]. now apply merge_absorbed.
  Qed.
End twice.

(** ** Traits *)
Lemma keep_string_absorbs own l t : t ∈ l -> keep_string (fold_left keep_string l own) t = fold_left keep_string l own.
Proof.
  intros H. unfold keep_string at 1. destruct (String.eqb_spec (fold_left keep_string l own) "") as [E|_]; [|reflexivity].
  rewrite E. pose proof (fold_keep_string own l) as F. rewrite E in F. clear E.
  assert (G : forall (l : list string), first_set "" l "" -> forall x, x ∈ l -> x = "").
  { clear. intros l. induction l as [|y l IH]; intros F x Hx; [now apply elem_of_nil in Hx|].
    inversion F as [|? ? N|? ? F']; subst; [congruence|]. apply elem_of_cons in Hx as [->|Hx]; [reflexivity|now apply IH]. }
  apply (G _ F). now right.
Qed.
Lemma keep_option_absorbs {A} (own : option A) l t : t ∈ l -> keep_option (fold_left keep_option l own) t = fold_left keep_option l own.
Proof.
  intros H. destruct (fold_left keep_option l own) eqn:E; [reflexivity|]. cbn [keep_option].
  pose proof (fold_keep_option own l) as F. rewrite E in F. clear E.
  assert (G : forall (l : list (option A)), first_set None l None -> forall x, x ∈ l -> x = None).
  { clear. intros l. induction l as [|y l IH]; intros F x Hx; [now apply elem_of_nil in Hx|].
    inversion F as [|? ? N|? ? F']; subst; [congruence|]. apply elem_of_cons in Hx as [->|Hx]; [reflexivity|now apply IH]. }
  apply (G _ F). now right.
Qed.
Lemma dedup_self {A K} `{EqDecision K} (key : A -> K) a b : NoDup (key <$> a) -> (forall k, k ∈ key <$> b -> k ∈ key <$> a) ->
  dedup_by key (a ++ b) = a.
Proof.
  intros N S. apply (first_unique key (a ++ b)); [apply dedup_first|].
  induction b as [|x b IH] using rev_ind.
  - rewrite app_nil_r. clear S. induction a as [|x a IH] using rev_ind; [constructor|].
    rewrite fmap_app in N. apply NoDup_app in N as (N1 & N2 & _). constructor; [now apply IH|].
    intros H. apply (N2 _ H). cbn. apply elem_of_list_singleton. reflexivity.
  - rewrite app_assoc. constructor; [apply IH; intros k H; apply S; rewrite fmap_app, elem_of_app; now left|].
    rewrite fmap_app, elem_of_app. left. apply S. rewrite fmap_app, elem_of_app. right. cbn. apply elem_of_list_singleton. reflexivity.
Qed.
Lemma dedup_absorbs {A K} `{EqDecision K} (key : A -> K) (own : list A) (l : list (list A)) t : t ∈ l ->
  dedup_by key (fold_left (fun a t => dedup_by key (a ++ t)) l own ++ t) = fold_left (fun a t => dedup_by key (a ++ t)) l own.
Proof.
  intros H. rewrite fold_dedup by (intros ->; now apply elem_of_nil in H).
  pose proof (dedup_first key (own ++ List.concat l)) as F. apply dedup_self; [exact (first_nodup _ _ _ F)|].
  intros k Hk. apply (first_keys _ _ _ F). rewrite fmap_app, elem_of_app. right.
  apply elem_of_list_fmap in Hk as (x & -> & Hx). apply elem_of_list_fmap. exists x. split; [reflexivity|].
  apply elem_of_list_In, in_concat. exists t. split; now apply elem_of_list_In.
Qed.
Lemma fold_twice {A T F} (step : A -> T -> A) (get : A -> F) (pick : T -> F) (keep : F -> F -> F) l a :
  (forall l a, get (fold_left step l a) = fold_left keep (pick <$> l) (get a)) ->
  (forall own l t, t ∈ l -> keep (fold_left keep l own) t = fold_left keep l own) ->
  get (fold_left step l (fold_left step l a)) = get (fold_left step l a).
Proof.
  intros G K. rewrite !G. apply fold_id. intros t Ht. now apply K.
Qed.

Lemma about_twice l a :
  let one := fold_left apply_about l a in
  fold_left apply_about l one =
  mkAbout (a_corr one) (a_content one) (a_title one) (a_summary one) (a_descr one) (a_tags one) (a_docs one) (a_bindings one)
    (a_examples one ++ List.concat (a_examples <$> l))%list.
Proof.
  cbn zeta. set (one := fold_left apply_about l a). set (two := fold_left apply_about l one).
  assert (E1 : a_corr two = a_corr one).
  { apply (fold_twice apply_about a_corr a_corr keep_option); [intros; now apply fold_about_field|apply @keep_option_absorbs]. }
  assert (E2 : a_content two = a_content one).
  { apply (fold_twice apply_about a_content a_content keep_string); [intros; now apply fold_about_field|apply keep_string_absorbs]. }
  assert (E3 : a_title two = a_title one).
  { apply (fold_twice apply_about a_title a_title keep_string); [intros; now apply fold_about_field|apply keep_string_absorbs]. }
  assert (E4 : a_summary two = a_summary one).
  { apply (fold_twice apply_about a_summary a_summary keep_string); [intros; now apply fold_about_field|apply keep_string_absorbs]. }
  assert (E5 : a_descr two = a_descr one).
  { apply (fold_twice apply_about a_descr a_descr keep_string); [intros; now apply fold_about_field|apply keep_string_absorbs]. }
  assert (E6 : a_tags two = a_tags one).
  { apply (fold_twice apply_about a_tags a_tags (fun a t => dedup_by tag_name (a ++ t))); [intros; now apply fold_about_field|].
    intros own k t H. exact (dedup_absorbs tag_name own k t H). }
  assert (E7 : a_docs two = a_docs one).
  { apply (fold_twice apply_about a_docs a_docs keep_option); [intros; now apply fold_about_field|apply @keep_option_absorbs]. }
  assert (E8 : a_bindings two = a_bindings one).
  { apply (fold_twice apply_about a_bindings a_bindings (fun a _ => a)); [intros; now apply fold_about_field|reflexivity]. }
  assert (E9 : a_examples two = (a_examples one ++ List.concat (a_examples <$> l))%list).
  { unfold two. rewrite (fold_about_field a_examples (fun a t => a ++ t)%list) by reflexivity. apply fold_app_concat. }
  rewrite <- E1, <- E2, <- E3, <- E4, <- E5, <- E6, <- E7, <- E8, <- E9. now destruct two.
Qed.
Lemma operation_twice l a :
  fold_left apply_operation_trait l (fold_left apply_operation_trait l a) = fold_left apply_operation_trait l a.
Proof.
  set (one := fold_left apply_operation_trait l a). set (two := fold_left apply_operation_trait l one).
  assert (E1 : o_title two = o_title one).
  { apply (fold_twice apply_operation_trait o_title o_title keep_string); [intros; now apply fold_operation_field|apply keep_string_absorbs]. }
  assert (E2 : o_summary two = o_summary one).
  { apply (fold_twice apply_operation_trait o_summary o_summary keep_string); [intros; now apply fold_operation_field|apply keep_string_absorbs]. }
  assert (E3 : o_descr two = o_descr one).
  { apply (fold_twice apply_operation_trait o_descr o_descr keep_string); [intros; now apply fold_operation_field|apply keep_string_absorbs]. }
  assert (E4 : o_security two = o_security one).
  { apply (fold_twice apply_operation_trait o_security o_security (fun a t => dedup_by tag_name (a ++ t))); [intros; now apply fold_operation_field|].
    intros own k t H. exact (dedup_absorbs tag_name own k t H). }
  assert (E5 : o_tags two = o_tags one).
  { apply (fold_twice apply_operation_trait o_tags o_tags (fun a t => dedup_by tag_name (a ++ t))); [intros; now apply fold_operation_field|].
    intros own k t H. exact (dedup_absorbs tag_name own k t H). }
  assert (E6 : o_docs two = o_docs one).
  { apply (fold_twice apply_operation_trait o_docs o_docs keep_option); [intros; now apply fold_operation_field|apply @keep_option_absorbs]. }
  assert (E7 : o_bindings two = o_bindings one).
  { apply (fold_twice apply_operation_trait o_bindings o_bindings keep_option); [intros; now apply fold_operation_field|apply @keep_option_absorbs]. }
  destruct two, one. cbn in *. congruence.
Qed.

Lemma traits_twice iter resolve fuel m s ts (l : list nat) d :
  (forall m g, iter m g ≡ₚ map_to_list g) -> closed (d_heap d) -> valid (d_heap d) s ->
  p_headers (m_parts (message d m)) = Some s ->
  Forall2 (fun t v => p_headers (t_parts t) = Some v /\ p_payload (t_parts t) = None) ts l ->
  Forall (fun v => valid (d_heap d) v /\ apart (d_heap d) s v /\ plain_element (d_heap d) v) l ->
  exists d1 d2, oeach (apply_trait iter resolve fuel m) ts d = ODone d1 /\ oeach (apply_trait iter resolve fuel m) ts d1 = ODone d2 /\
    d_heap d2 = d_heap d1 /\ m_parts (message d2 m) = m_parts (message d1 m).
Proof.
  intros P C V E F A. destruct (apply_traits_headers iter resolve fuel m s ts l d E F) as (d1 & H1 & Hh1 & Hp1).
  destruct (apply_traits_headers iter resolve fuel m s ts l d1) as (d2 & H2 & Hh2 & Hp2); [now rewrite Hp1|exact F|].
  exists d1, d2. split; [exact H1|]. split; [exact H2|]. split; [|exact Hp2]. rewrite Hh2, Hh1. now apply merge_all_twice.
Qed.
