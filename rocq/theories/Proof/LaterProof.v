(** What the linking of messages leaves as it is: the schemas of a message, their properties and what they require. *)
From stdpp Require Import gmap list strings.
From Coq Require Import Ascii String Lia.
From Verif.Spec Require Import ReferenceSpec ProcessSpec.
From Verif.Proof Require Import ProcessProof.
From Verif.Model Require Import GoStrings Reference Slices Schema Location Message.
From Verif.Spec Require Import SlicesSpec SchemaSpec LocationSpec CopySpec.
From Verif.Proof Require Import SlicesProof SchemaProof LocationProof MergeProof CopyProof MessageProof.
Local Open Scope string_scope.

Record more (h h' : heap) : Prop := {
  mo_valid x : valid h x -> valid h' x;
  mo_ref x : valid h x -> s_ref (cell h' x) = s_ref (cell h x);
  mo_plain x : valid h x -> s_ref (cell h x) = "" -> s_refto (cell h' x) = s_refto (cell h x) /\ s_required (cell h x) ⊆ s_required (cell h' x);
  mo_props x k v : props h (cell h x) !! k = Some v -> props h' (cell h' x) !! k = Some v;
}.
Lemma more_refl h : more h h. Proof. constructor; auto. Qed.
Lemma more_trans a b c : more a b -> more b c -> more a c.
Proof.
  intros [A1 A2 A3 A4] [B1 B2 B3 B4]. constructor; [auto|intros x V; rewrite B2, A2; auto| |auto].
  intros x V E. destruct (A3 x V E) as [R S]. destruct (B3 x (A1 x V)) as [R' S']; [now rewrite A2|]. split; [congruence|]. etransitivity; eassumption.
Qed.
Lemma more_reaches h h' l path x : more h h' -> reaches h l path x -> reaches h' l path x.
Proof. intros M. induction 1 as [|l k m path x E _ IH]; [constructor|]. econstructor; [apply (mo_props _ _ M); exact E|exact IH]. Qed.

Lemma ok_any h x : closed h -> ok_sch h (cell h x).
Proof.
  intros C. destruct (valid_dec h x) as [V|V]; [now apply cell_ok|]. rewrite (invalid_cell h x V).
  constructor; cbn; [discriminate|discriminate|]. intros y H. now apply elem_of_nil in H.
Qed.
Lemma kept_more h h' : closed h -> CopySpec.kept h h' -> more h h'.
Proof.
  intros C K. constructor.
  - intros x. now apply kept_valid.
  - intros x V. now rewrite (kept_cell h h').
  - intros x V _. rewrite (kept_cell h h') by assumption. auto.
  - intros x k v E. destruct (valid_dec h x) as [V|V]; [now rewrite (kept_props h h')|].
    rewrite (invalid_cell h x V) in E. unfold props, map_at in E. cbn in E. now rewrite lookup_empty in E.
Qed.
Lemma closed_fresh h : closed h -> fresh h.
Proof. intros C. apply (flags_fresh h h C). apply flags_refl. Qed.
Lemma flags_closed h h' : closed h -> flags h h' -> closed h' /\ more h h'.
Proof.
  intros C (M & N & V & E).
  assert (O : forall c, ok_sch h c -> ok_sch h' c).
  { intros c [A B D]. constructor; [intros r Er; now apply V, A|intros p Ep; unfold valid_map; rewrite M; now apply B|intros x Hx; now apply V, D]. }
  split; constructor.
  - intros x Hx. rewrite N. apply (cl_cells h C). now apply V.
  - intros m. unfold valid_map. rewrite M, N. apply (cl_maps h C).
  - intros l c Hc. apply O. assert (Vl : valid h l) by (apply V; now exists c). pose proof (cell_ok h l C Vl) as [A B D].
    specialize (E l). rewrite (cell_some h' l c Hc) in E.
    destruct (flags_fields _ _ E) as (_ & E2 & _ & E4 & E5 & E6 & E7 & E8 & E9 & E10 & E11 & E12 & E13).
    constructor; [rewrite E13; exact A|rewrite E2; exact B|]. rewrite E4, E5, E6, E7, E8, E9, E10, E11, E12. exact D.
  - intros m g k v Hm Hk. apply V. rewrite M in Hm. now apply (cl_entries h C m g k v).
  - intros x. apply V.
  - intros x _. now destruct (flags_fields _ _ (E x)) as (? & _).
  - intros x _ _. destruct (flags_fields _ _ (E x)) as (_ & _ & E3 & E4). rewrite E3. split; [apply E4|reflexivity].
  - intros x k v. destruct (flags_fields _ _ (E x)) as (_ & E2 & _). unfold props, map_at. now rewrite E2, M.
Qed.

Section later.
  Variable iter : nat -> gmap string nat -> list (string * nat).
  Hypothesis iter_perm : forall m g, iter m g ≡ₚ map_to_list g.
  Variable resolve : heap -> string -> res nat.
  Hypothesis resolve_mono : forall h h' ref r, enlarges h h' -> resolve h ref = Ok r -> resolve h' ref = Ok r.
  (** The schemas that references start from. *)
  Variable base : nat -> Prop.
  Hypothesis resolve_valid : forall h ref r, closed h -> (forall x, base x -> valid h x) -> resolve h ref = Ok r -> valid h r.
  Variable resolve_message : string -> res nat.
  Variable resolve_trait : string -> res nat.

  Definition ok_heap (h : heap) : Prop := closed h /\ forall x, base x -> valid h x.
  Definition step (h h' : heap) : Prop := ok_heap h' /\ more h h'.
  Lemma step_refl h : ok_heap h -> step h h. Proof. intros O. split; [exact O|apply more_refl]. Qed.
  Lemma step_trans a b c : step a b -> step b c -> step a c.
  Proof. intros [_ M1] [O M2]. split; [exact O|]. now apply (more_trans a b). Qed.
  Lemma step_of h h' : ok_heap h -> closed h' -> more h h' -> step h h'.
  Proof. intros [_ B] C M. split; [|exact M]. split; [exact C|]. intros x Hx. now apply (mo_valid _ _ M), B. Qed.

  Lemma grows_more v2 h h' : grows resolve v2 h h' -> more h h'.
  Proof.
    intros G. constructor.
    - apply (g_valid _ _ _ _ G).
    - intros x V. apply (k_ref _ _ _ (g_kept _ _ _ _ G x V)).
    - intros x V. apply (k_plain _ _ _ (g_kept _ _ _ _ G x V)).
    - intros x k v. now apply (grows_enlarges resolve v2 h h' G).
  Qed.
  Lemma merge_step s x h : ok_heap h -> valid h s -> step h (merge_with iter s (cell h x) h).
  Proof.
    intros O V. destruct O as [C B]. apply step_of; [now split| |].
    - now apply (merge_with_spec iter iter_perm s (cell h x) h C V (ok_any h x C)).
    - apply (grows_more false). now apply (merge_with_safe iter resolve resolve_mono false s (cell h x) h V (closed_fresh h C)).
  Qed.
  Lemma reference_step v2 s h h' : ok_heap h -> valid h s -> set_reference resolve v2 s h = Done h' -> step h h'.
  Proof.
    intros [C B] V H. destruct (set_reference_good resolve resolve_mono v2 s h h' (closed_fresh h C) V H) as (_ & G & _).
    apply step_of; [now split| |now apply (grows_more v2)].
    unfold set_reference in H. destruct (String.eqb (s_ref (cell h s)) ""); [now injection H as <-|].
    destruct (resolve h (s_ref (cell h s))) as [| |r] eqn:R; try discriminate. injection H as <-.
    pose proof (resolve_valid h _ r C B R) as Vr. pose proof (ok_any h r C) as [_ _ D']. 
    apply closed_upd; [exact C|exact V|]. intros [A P D].
    assert (L : forall l t, over_nats l t = l \/ over_nats l t = t) by (intros l t; unfold over_nats; destruct t; auto).
    constructor.
    - intros y. destruct v2; cbn; intros [= <-]; exact Vr.
    - intros y. destruct v2; cbn; apply P.
    - intros y. destruct v2; cbn; [|apply D].
      repeat rewrite elem_of_app. repeat rewrite elem_of_app in D. 
      repeat match goal with |- context [over_nats ?l ?t] => let e := fresh "e" in destruct (L l t) as [e|e]; rewrite e end;
        intros H; repeat match type of H with _ \/ _ => destruct H as [H|H] end;
        first [apply (D y); rewrite !elem_of_app; tauto|apply (D' y); rewrite !elem_of_app; tauto].
  Qed.
  Lemma each_step s (f : nat -> heap -> run) : (forall y h h', ok_heap h -> valid h s -> f y h = Done h' -> step h h') ->
    forall l h h', ok_heap h -> valid h s -> each f l h = Done h' -> step h h'.
  Proof.
    intros Hf l. induction l as [|y l IH]; intros h h' O V H; cbn [each] in H; [injection H as <-; now apply step_refl|].
    apply bind_done in H as (h1 & H1 & H). pose proof (Hf y h h1 O V H1) as S1. apply (step_trans h h1); [exact S1|].
    apply (IH h1); [apply S1|now apply (mo_valid _ _ (proj2 S1))|exact H].
  Qed.
  Lemma dependencies_step v2 fuel : forall s h h', ok_heap h -> set_dependencies iter resolve v2 fuel s h = Done h' -> step h h'.
  Proof.
    induction fuel as [|fuel IH]; intros s h h' O H; [discriminate|].
    destruct (valid_dec h s) as [V|V].
    2: { assert (h' = h) as ->; [|now apply step_refl].
         cbn [set_dependencies] in H. unfold set_reference in H. rewrite (invalid_cell h s V) in H. cbn in H. rewrite !(invalid_cell h s V) in H. cbn in H.
         destruct v2; repeat (first [progress cbn in H|rewrite (invalid_cell h s V) in H]); congruence. }
    cbn [set_dependencies] in H. set (go := set_dependencies iter resolve v2 fuel) in *.
    assert (Hgo : forall y h h', ok_heap h -> valid h s -> go y h = Done h' -> step h h') by (intros; now apply (IH y)).
    set (composed := fun v h => bind (go v h) (fun h => Done (merge_with iter s (cell h v) h))) in *.
    assert (Hco : forall y h h', ok_heap h -> valid h s -> composed y h = Done h' -> step h h').
    { intros y a b Oa Va E. unfold composed in E. apply bind_done in E as (c & E1 & [= <-]). pose proof (IH _ _ _ Oa E1) as S1.
      apply (step_trans a c); [exact S1|]. apply merge_step; [apply S1|now apply (mo_valid _ _ (proj2 S1))]. }
    clearbody composed go. clear IH fuel.
    assert (K : forall a b, valid a s -> step a b -> ok_heap b /\ valid b s) by (intros a b Va [Ob M]; split; [exact Ob|now apply (mo_valid _ _ M)]).
    assert (W : forall f l a b, (f = go \/ f = composed) -> ok_heap a -> valid a s -> each f l a = Done b -> step a b).
    { intros f l a b [->| ->] Oa Va E; [exact (each_step s go Hgo l a b Oa Va E)|exact (each_step s composed Hco l a b Oa Va E)]. }
    assert (T : forall l a b, ok_heap a -> valid a s -> (if v2 then Done a else each go l a) = Done b -> step a b).
    { intros l a b Oa Va E. destruct v2; [injection E as <-; now apply step_refl|exact (W go l a b (or_introl eq_refl) Oa Va E)]. }
    apply bind_done in H as (h1 & H1 & H). pose proof (reference_step v2 s h h1 O V H1) as S1. destruct (K _ _ V S1) as [O1 V1]. apply (step_trans _ _ _ S1).
    apply bind_done in H as (h2 & H2 & H). pose proof (W _ _ _ _ (or_introl eq_refl) O1 V1 H2) as S2. destruct (K _ _ V1 S2) as [O2 V2]. apply (step_trans _ _ _ S2).
    apply bind_done in H as (h3 & H3 & H). pose proof (T _ _ _ O2 V2 H3) as S3. destruct (K _ _ V2 S3) as [O3 V3]. apply (step_trans _ _ _ S3).
    apply bind_done in H as (h4 & H4 & H). pose proof (T _ _ _ O3 V3 H4) as S4. destruct (K _ _ V3 S4) as [O4 V4]. apply (step_trans _ _ _ S4).
    apply bind_done in H as (h5 & H5 & H). pose proof (T _ _ _ O4 V4 H5) as S5. destruct (K _ _ V4 S5) as [O5 V5]. apply (step_trans _ _ _ S5).
    apply bind_done in H as (h6 & H6 & H). pose proof (W _ _ _ _ (or_introl eq_refl) O5 V5 H6) as S6. destruct (K _ _ V5 S6) as [O6 V6]. apply (step_trans _ _ _ S6).
    apply bind_done in H as (h7 & H7 & H). pose proof (T _ _ _ O6 V6 H7) as S7. destruct (K _ _ V6 S7) as [O7 V7]. apply (step_trans _ _ _ S7).
    apply bind_done in H as (h8 & H8 & H). pose proof (W _ _ _ _ (or_intror eq_refl) O7 V7 H8) as S8. destruct (K _ _ V7 S8) as [O8 V8]. apply (step_trans _ _ _ S8).
    apply bind_done in H as (h9 & H9 & H). pose proof (W _ _ _ _ (or_intror eq_refl) O8 V8 H9) as S9. destruct (K _ _ V8 S9) as [O9 V9]. apply (step_trans _ _ _ S9).
    apply bind_done in H as (hx & Hx & H). pose proof (W _ _ _ _ (or_intror eq_refl) O9 V9 Hx) as Sx. destruct (K _ _ V9 Sx) as [Ox Vx]. apply (step_trans _ _ _ Sx).
    destruct v2; exact (W _ _ _ _ (or_introl eq_refl) Ox Vx H).
  Qed.

  (** *** Messages *)
  Definition ok_doc (d : doc) : Prop := ok_heap (d_heap d) /\ forall m header r, part header (m_parts (message d m)) = Some r -> valid (d_heap d) r.
  Record dmore (d d' : doc) : Prop := {
    dm_next : d_next d <= d_next d';
    dm_heap : more (d_heap d) (d_heap d');
    dm_part m header r : m < d_next d -> part header (m_parts (message d m)) = Some r -> part header (m_parts (message d' m)) = Some r;
  }.
  Definition dstep (d d' : doc) : Prop := ok_doc d' /\ dmore d d'.
  Lemma dstep_refl d : ok_doc d -> dstep d d.
  Proof. intros O. split; [exact O|]. constructor; auto. apply more_refl. Qed.
  Lemma dstep_trans a b c : dstep a b -> dstep b c -> dstep a c.
  Proof.
    intros [_ [N1 H1 P1]] [O [N2 H2 P2]]. split; [exact O|]. constructor; [lia|now apply (more_trans _ (d_heap b))|].
    intros m header r L E. apply P2; [lia|]. now apply P1.
  Qed.
  Lemma heap_dstep d h : ok_doc d -> step (d_heap d) h -> dstep d (set_heap h d).
  Proof.
    intros [O P] [O' M]. split; [split; [exact O'|]|constructor; auto].
    intros m header r E. apply (mo_valid _ _ M). now apply (P m header).
  Qed.
  Lemma lift_dstep r d d' : ok_doc d -> (forall h', r = Done h' -> step (d_heap d) h') -> lift r d = ODone d' -> dstep d d'.
  Proof. intros O S H. apply lift_done in H as (h' & E & ->). apply heap_dstep; auto. Qed.
  Lemma schema_dstep v2 fuel p d d' : ok_doc d -> schema_dependencies iter resolve v2 fuel p d = ODone d' -> dstep d d'.
  Proof.
    intros O H. destruct p as [s|]; [|injection H as <-; now apply dstep_refl]. cbn in H.
    apply (lift_dstep _ d d' O) in H; [exact H|]. intros h' E. apply (dependencies_step v2 fuel s); [apply O|exact E].
  Qed.
  (** Changing a message without taking a schema from it. *)
  Lemma upd_dstep m f d : ok_doc d ->
    (forall header r, part header (m_parts (message d m)) = Some r -> part header (m_parts (f (message d m))) = Some r) ->
    (forall header r, part header (m_parts (f (message d m))) = Some r -> valid (d_heap d) r) ->
    dstep d (upd_message m f d).
  Proof.
    intros [O P] K V. split; [split; [exact O|]|constructor; [apply Nat.le_refl|apply more_refl|]].
    - intros x header r. destruct (decide (x = m)) as [->|N]; [rewrite message_upd_same; apply V|rewrite message_upd_other by exact N; apply P].
    - intros x header r _. destruct (decide (x = m)) as [->|N]; [rewrite message_upd_same; apply K|now rewrite message_upd_other by exact N].
  Qed.
  Lemma same_dstep m f d : ok_doc d -> m_parts (f (message d m)) = m_parts (message d m) -> dstep d (upd_message m f d).
  Proof. intros O E. apply upd_dstep; [exact O|rewrite E; auto|]. intros header r. rewrite E. apply (proj2 O m header r). Qed.

  (** The two ways of the code to take a part. *)
  Definition a_part (get : parts -> option nat) (put : option nat -> parts -> parts) : Prop :=
    exists header, get = part header /\ put = set_part header.
  Lemma headers_part : a_part p_headers put_headers. Proof. exists true. split; reflexivity. Qed.
  Lemma payload_part : a_part p_payload put_payload. Proof. exists false. split; reflexivity. Qed.
  Lemma put_part header header' p m : part header m = None ->
    (forall r, part header' m = Some r -> part header' (set_part header p m) = Some r) /\
    (forall r, part header' (set_part header p m) = Some r -> p = Some r \/ part header' m = Some r).
  Proof. destruct header, header'; cbn; intros E; rewrite ?E; split; intros r; auto; discriminate. Qed.
  Lemma put_dstep get put m n d : a_part get put -> get (m_parts (message d m)) = None -> ok_doc d -> valid (d_heap d) n ->
    dstep d (upd_message m (fun c => with_parts (put (Some n) (m_parts c)) c) d).
  Proof.
    intros (header & -> & ->) N O V. apply upd_dstep; [exact O| |]; cbn.
    - intros header' r. apply (put_part header header' (Some n) _ N).
    - intros header' r H. apply (put_part header header' (Some n) _ N) in H as [[= <-]|H]; [exact V|]. now apply (proj2 O m header').
  Qed.

  Lemma merge_part_dstep fuel get put into m new d d' : a_part get put -> (exists header, into = part header) -> ok_doc d ->
    merge_part iter resolve fuel get put into m new d = ODone d' -> dstep d d'.
  Proof.
    intros A [hd ->] O H. unfold merge_part in H. destruct new as [p|]; [|injection H as <-; now apply dstep_refl].
    destruct (get (m_parts (message d m))) as [q|] eqn:G.
    - destruct (part hd (m_parts (message d m))) as [s|] eqn:S; injection H as <-; [|now apply dstep_refl].
      apply heap_dstep; [exact O|]. apply merge_step; [apply O|]. now apply (proj2 O m hd).
    - cbn [alloc] in H. set (h1 := snd (alloc (cell (d_heap d) (follow (d_heap d) p)) (d_heap d))).
      assert (C := proj1 (proj1 O)).
      assert (S1 : step (d_heap d) h1).
      { apply step_of; [apply O| |].
        - apply closed_alloc; [exact C|]. apply ok_any. exact C.
        - apply kept_more; [exact C|]. now apply kept_alloc. }
      assert (V1 : valid h1 (next (d_heap d))) by (unfold valid, h1; cbn; rewrite lookup_insert; eauto).
      change (mkHeap _ _ _) with h1 in H.
      pose proof (heap_dstep d h1 O S1) as D1.
      assert (D2 := put_dstep get put m (next (d_heap d)) (set_heap h1 d) A G (proj1 D1) V1).
      apply (dstep_trans _ _ _ D1), (dstep_trans _ _ _ D2). destruct D2 as [O2 _]. set (d2 := upd_message m _ (set_heap h1 d)) in *.
      apply obind_done in H as (d3 & H3 & H).
      assert (D3 : dstep d2 d3).
      { apply (lift_dstep _ d2 d3 O2) in H3; [exact H3|]. intros h' E. change (d_heap d2) with h1 in *.
        assert (C1 : closed h1) by apply (proj1 O2).
        pose proof (metadata_only iter iter_perm h1 fuel C1 false _ h1 h' V1 (flags_refl h1) E) as Fl.
        destruct (flags_closed h1 h' C1 Fl) as [C' M']. apply step_of; [apply O2|exact C'|exact M']. }
      apply (dstep_trans _ _ _ D3). destruct D3 as [O3 _]. apply (lift_dstep _ d3 d' O3) in H; [exact H|].
      intros h' E. apply (dependencies_step false fuel (next (d_heap d))); [apply O3|exact E].
  Qed.
  Lemma trait_dstep fuel m t d d' : ok_doc d -> apply_trait iter resolve fuel m t d = ODone d' -> dstep d d'.
  Proof.
    intros O H. unfold apply_trait in H. apply obind_done in H as (d1 & H1 & H). apply obind_done in H as (d2 & H2 & H). injection H as <-.
    pose proof (merge_part_dstep _ _ _ _ _ _ _ _ headers_part (ex_intro _ true eq_refl) O H1) as S1. apply (dstep_trans _ _ _ S1).
    pose proof (merge_part_dstep _ _ _ _ _ _ _ _ payload_part (ex_intro _ true eq_refl) (proj1 S1) H2) as S2. apply (dstep_trans _ _ _ S2).
    apply same_dstep; [apply S2|reflexivity].
  Qed.
  Lemma trait_dependencies_dstep fuel t d d' : ok_doc d -> trait_dependencies iter resolve resolve_trait fuel t d = ODone d' -> dstep d d'.
  Proof.
    intros O H. unfold trait_dependencies in H. apply obind_done in H as (d1 & H1 & H). apply obind_done in H as (d2 & H2 & H).
    assert (S1 : dstep d d1).
    { destruct (String.eqb (t_ref (trait_at d t)) ""); [injection H1 as <-; now apply dstep_refl|].
      destruct (resolve_trait (t_ref (trait_at d t))) as [| |r]; try discriminate. injection H1 as <-.
      split; [exact O|]. constructor; [apply Nat.le_refl|apply more_refl|auto]. }
    apply (dstep_trans _ _ _ S1). pose proof (schema_dstep _ _ _ _ _ (proj1 S1) H2) as S2. apply (dstep_trans _ _ _ S2).
    exact (schema_dstep _ _ _ _ _ (proj1 S2) H).
  Qed.
  Lemma merge_message_part_dstep fuel get put m new d d' : a_part get put -> ok_doc d -> (forall p, new = Some p -> valid (d_heap d) p) ->
    merge_message_part iter fuel get put m new d = ODone d' -> dstep d d'.
  Proof.
    intros A O V H. unfold merge_message_part in H. destruct new as [p|]; [|injection H as <-; now apply dstep_refl].
    destruct (get (m_parts (message d m))) as [s|] eqn:G.
    - injection H as <-. apply heap_dstep; [exact O|]. apply merge_step; [apply O|]. destruct A as (hd & -> & _). now apply (proj2 O m hd).
    - destruct (deep_copy iter fuel p (d_heap d)) as [[n h]|] eqn:E; [|discriminate]. injection H as <-.
      assert (C := proj1 (proj1 O)). destruct (deep_copies iter iter_perm fuel p (d_heap d) n h C (V p eq_refl) E) as (C' & K & Cp).
      pose proof (heap_dstep d h O (step_of _ _ (proj1 O) C' (kept_more _ _ C K))) as S1. apply (dstep_trans _ _ _ S1).
      apply (put_dstep get put m n (set_heap h d) A G (proj1 S1)). apply (cp_valid _ _ _ _ Cp).
  Qed.
  Definition parts_in (d : doc) (c : msg) : Prop := forall header r, part header (m_parts c) = Some r -> valid (d_heap d) r.
  Lemma parts_in_mono d d' c : dmore d d' -> parts_in d c -> parts_in d' c.
  Proof. intros D P header r E. apply (mo_valid _ _ (dm_heap _ _ D)). now apply (P header). Qed.
  Lemma alloc_dstep c d : ok_doc d -> parts_in d c -> dstep d (snd (alloc_message c d)).
  Proof.
    intros [O P] Pc. split; [split; [exact O|]|constructor; [cbn; lia|apply more_refl|]].
    - intros x header r. destruct (decide (x = d_next d)) as [->|N]; [rewrite message_alloc_same; apply Pc|rewrite message_alloc_other by exact N; apply P].
    - intros x header r L. rewrite message_alloc_other by lia. auto.
  Qed.
  Lemma merge_message_dstep fuel : forall m m2 d d', ok_doc d -> parts_in d m2 ->
    merge_message iter resolve_message fuel m m2 d = ODone d' -> dstep d d'.
  Proof.
    induction fuel as [|fuel IH]; intros m m2 d d' O P H; [discriminate|]. cbn [merge_message] in H.
    apply obind_done in H as (d1 & H1 & H). apply obind_done in H as (d2 & H2 & H). apply obind_done in H as (d3 & H3 & H).
    assert (S1 : dstep d d1).
    { destruct (String.eqb (m_ref (message d m)) ""); [injection H1 as <-; now apply dstep_refl|].
      destruct (resolve_message (m_ref (message d m))) as [| |r]; try discriminate. cbn zeta in H1.
      pose proof (same_dstep m (with_ref "") d O eq_refl) as S0. apply (dstep_trans _ _ _ S0).
      apply (IH _ _ _ _ (proj1 S0)) in H1; [exact H1|]. intros header x. apply (proj2 (proj1 S0)). }
    apply (dstep_trans _ _ _ S1). pose proof (parts_in_mono _ _ _ (proj2 S1) P) as P1.
    assert (S2 : dstep d1 d2).
    { destruct (String.eqb (m_ref m2) ""); [injection H2 as <-; apply dstep_refl, S1|].
      destruct (resolve_message (m_ref m2)) as [| |r]; try discriminate.
      pose proof (alloc_dstep m2 d1 (proj1 S1) P1) as S0. destruct (alloc_message m2 d1) as [q e]. cbn in S0. apply (dstep_trans _ _ _ S0).
      apply (IH _ _ _ _ (proj1 S0)) in H2; [exact H2|]. intros header x. apply (proj2 (proj1 S0)). }
    apply (dstep_trans _ _ _ S2). pose proof (parts_in_mono _ _ _ (proj2 S2) P1) as P2.
    assert (S3 : dstep d2 d3) by (apply (merge_message_part_dstep _ _ _ _ _ _ _ payload_part (proj1 S2)) in H3; [exact H3|intros p; apply (P2 false)]).
    apply (dstep_trans _ _ _ S3). pose proof (parts_in_mono _ _ _ (proj2 S3) P2) as P3.
    apply (merge_message_part_dstep _ _ _ _ _ _ _ headers_part (proj1 S3)) in H; [exact H|intros p; apply (P3 true)].
  Qed.
  Lemma oeach_dstep {A} (f : A -> doc -> out doc) : (forall y d d', ok_doc d -> f y d = ODone d' -> dstep d d') ->
    forall l d d', ok_doc d -> oeach f l d = ODone d' -> dstep d d'.
  Proof.
    intros Hf l. induction l as [|y l IH]; intros d d' O H; cbn [oeach] in H; [injection H as <-; now apply dstep_refl|].
    apply obind_done in H as (d1 & H1 & H). pose proof (Hf _ _ _ O H1) as S1. apply (dstep_trans _ _ _ S1). exact (IH _ _ (proj1 S1) H).
  Qed.
  Lemma message_dstep v2 fuel : forall m d d', ok_doc d ->
    message_dependencies iter resolve resolve_message resolve_trait v2 fuel m d = ODone d' -> dstep d d'.
  Proof.
    induction fuel as [|fuel IH]; intros m d d' O H; [discriminate|]. cbn [message_dependencies] in H.
    apply obind_done in H as (d1 & H1 & H). apply obind_done in H as (d2 & H2 & H). apply obind_done in H as (d3 & H3 & H).
    apply obind_done in H as (d4 & H4 & H). apply obind_done in H as (d5 & H5 & H).
    assert (S1 : dstep d d1).
    { unfold message_reference in H1. destruct (String.eqb (m_ref (message d m)) ""); [injection H1 as <-; now apply dstep_refl|].
      destruct (resolve_message (m_ref (message d m))) as [| |r]; try discriminate. injection H1 as <-. now apply same_dstep. }
    apply (dstep_trans _ _ _ S1). pose proof (schema_dstep _ _ _ _ _ (proj1 S1) H2) as S2.
    apply (dstep_trans _ _ _ S2). pose proof (schema_dstep _ _ _ _ _ (proj1 S2) H3) as S3. apply (dstep_trans _ _ _ S3).
    assert (E4 : d4 = d3).
    { destruct v2; [|congruence]. unfold headers_object in H4. destruct (p_headers (m_parts (message d3 m))); [|congruence].
      destruct (String.eqb _ _); congruence. }
    subst d4.
    assert (S5 : dstep d3 d5).
    { apply (oeach_dstep _) in H5; [exact H5| |apply S3]. intros y a b Oa E. apply obind_done in E as (c & E1 & E).
      pose proof (IH _ _ _ Oa E1) as Sc. apply (dstep_trans _ _ _ Sc). apply (merge_message_dstep _ _ _ _ _ (proj1 Sc)) in E; [exact E|].
      intros header x. apply (proj2 (proj1 Sc)). }
    apply (dstep_trans _ _ _ S5). destruct v2; [injection H as <-; apply dstep_refl, S5|].
    apply (oeach_dstep _) in H; [exact H| |apply S5]. intros t a b Oa E. apply obind_done in E as (c & E1 & E).
    pose proof (trait_dependencies_dstep _ _ _ _ Oa E1) as Sc. apply (dstep_trans _ _ _ Sc). exact (trait_dstep _ _ _ _ _ (proj1 Sc) E).
  Qed.
End later.

(** References start from the schemas of the documents: components, payloads and headers of messages. *)
Definition mentioned (w : world) (d : spec) (x : nat) : Prop :=
  (exists s n, (s = d \/ exists i, s = specs w i) /\ comps s "schemas" !! n = Some x) \/
  (exists m, msg_payload w m = Some x \/ msg_headers w m = Some x).
Lemma leads_valid w h l ns l' : closed h -> valid h l -> leads (world_of w h) l ns l' -> valid h l'.
Proof.
  intros C V H. induction H as [|l n l1 ns l2 E _ IH]; [exact V|]. apply IH. cbn in E.
  now apply (props_valid h (cell h l) n l1 C (ok_any h l C)).
Qed.
Lemma resolve_in_valid v2 w d h ref r : closed h -> (forall x, mentioned w d x -> valid h x) -> resolve_in v2 w d h ref = Ok r -> valid h r.
Proof.
  intros C B. rewrite resolve_in_spec. intros (used & p & steps & D & _ & S).
  assert (U : used = d \/ exists i, used = specs w i) by (destruct D; [now left|right; eauto]).
  destruct S as [n l ns l' H1 H2|st m f l ns l' H1 H2 H3].
  - apply (leads_valid w h l ns); [exact C| |exact H2]. apply B. left. eauto.
  - apply (leads_valid w h l ns); [exact C| |exact H3]. apply B. right. exists m. destruct H2; auto.
Qed.
