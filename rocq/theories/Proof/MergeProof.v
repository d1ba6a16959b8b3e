(** Several merges into the same schema. *)
From stdpp Require Import gmap list strings.
From Coq Require Import Ascii String Lia.
From Verif.Model Require Import Reference Slices Schema.
From Verif.Spec Require Import SlicesSpec SchemaSpec MessageSpec MergeSpec.
From Verif.Proof Require Import SlicesProof SchemaProof LocationProof.
Local Open Scope string_scope.

Section merges.
  Variable iter : nat -> gmap string nat -> list (string * nat).
  Hypothesis iter_perm : forall m g, iter m g ≡ₚ map_to_list g.

  Definition merge_all (s : nat) (l : list nat) (h : heap) : heap :=
    fold_left (fun h v => merge_with iter s (cell h v) h) l h.

  Lemma map_at_frame h h' s p : closed h ->
    (forall m, valid_map h m -> Some m <> s_props (cell h s) -> maps h' !! m = maps h !! m) ->
    (forall m, p = Some m -> valid_map h m) -> (forall m, p = Some m -> s_props (cell h s) <> Some m) ->
    map_at h' p = map_at h p.
  Proof.
    intros C M V N. destruct p as [m|]; [|reflexivity]. unfold map_at. rewrite M; [reflexivity|now apply V|].
    intros E. now apply (N m eq_refl).
  Qed.

  (** What is merged later still looks the same. *)
  Lemma apart_frame h h' s v : closed h -> valid h v -> apart h s v -> extends s h h' ->
    (forall m, valid_map h m -> Some m <> s_props (cell h s) -> maps h' !! m = maps h !! m) ->
    (forall m, valid_map h m -> s_props (cell h' s) = Some m -> s_props (cell h s) = Some m) ->
    apart h' s v /\ cell h' v = cell h v /\ (forall k, defines h' v k = defines h v k) /\
    (forall k p, ref_props h (cell h v) !! k = Some p -> p <> s -> s_isreq (cell h' p) = s_isreq (cell h p)).
  Proof.
    intros C V [N1 N2 N3] X M W.
    assert (Ok : forall x, valid h x -> ok_sch h (cell h x)).
    { intros x Hx. apply (cl_sch h C x). now apply valid_cell. }
    assert (Ev : cell h' v = cell h v) by now apply (extends_cell s).
    assert (Er : forall r, s_refto (cell h v) = Some r -> cell h' r = cell h r).
    { intros r E. apply (extends_cell s); [exact X|now apply (ok_refto _ _ (Ok v V))|]. intros ->. now apply N2. }
    assert (R : forall p, reads h' v p <-> reads h v p).
    { intros p. unfold reads. rewrite Ev. split; (intros [H|(r & H & G)]; [now left|right; exists r; split; [exact H|]]).
      - now rewrite <- (Er r H).
      - now rewrite (Er r H). }
    assert (Vp : forall p, reads h v p -> valid_map h p).
    { intros p [H|(r & H & G)]; [now apply (ok_props _ _ (Ok v V))|].
      apply (ok_props _ _ (Ok r (ok_refto _ _ (Ok v V) r H)) p G). }
    assert (P : props h' (cell h' v) = props h (cell h v)).
    { unfold props. rewrite Ev. apply (map_at_frame h h' s); [exact C|exact M| |].
      - intros m E. apply Vp. now left.
      - intros m E. apply N3. now left. }
    assert (Q : ref_props h' (cell h' v) = ref_props h (cell h v)).
    { unfold ref_props. rewrite Ev. destruct (s_refto (cell h v)) as [r|] eqn:E; [|reflexivity].
      unfold props. rewrite (Er r eq_refl). apply (map_at_frame h h' s); [exact C|exact M| |].
      - intros m G. apply Vp. right. eauto.
      - intros m G. apply N3. right. eauto. }
    split; [|split; [exact Ev|split]].
    - constructor; [exact N1|now rewrite Ev|]. intros p H. apply R in H. intros E. apply (N3 p H). apply W; [now apply Vp|exact E].
    - intros k. unfold defines. now rewrite P, Q.
    - intros k p E Np. rewrite (extends_cell s h h'); [reflexivity|exact X| |exact Np].
      unfold ref_props in E. destruct (s_refto (cell h v)) as [r|]; [|now rewrite lookup_empty in E].
      unfold props, map_at in E. destruct (s_props (cell h r)) as [m|]; [|now rewrite lookup_empty in E].
      destruct (maps h !! m) as [g|] eqn:G; [|cbn in E; now rewrite lookup_empty in E]. apply (cl_entries h C m g k p G E).
  Qed.

  Lemma props_in h c k p : closed h -> props h c !! k = Some p -> valid h p.
  Proof.
    intros C E. unfold props, map_at in E. destruct (s_props c) as [m|]; [|now rewrite lookup_empty in E].
    destruct (maps h !! m) as [g|] eqn:G; [|cbn in E; now rewrite lookup_empty in E]. apply (cl_entries h C m g k p G E).
  Qed.

  Lemma merge_all_spec s l h : closed h -> valid h s -> Forall (fun v => valid h v /\ apart h s v) l ->
    let h' := merge_all s l h in
    closed h' /\ extends s h h' /\
    (forall m, valid_map h m -> valid_map h' m) /\
    (forall m, valid_map h m -> Some m <> s_props (cell h s) -> maps h' !! m = maps h !! m) /\
    (forall m, valid_map h m -> s_props (cell h' s) = Some m -> s_props (cell h s) = Some m) /\
    s_isreq (cell h' s) = s_isreq (cell h s) /\
    s_refto (cell h' s) = s_refto (cell h s) /\
    (forall k p, props h (cell h s) !! k = Some p -> props h' (cell h' s) !! k = Some p) /\
    (forall k x, first_set None (props h (cell h s) !! k :: ((fun v => defines h v k) <$> l)) x ->
       match x with
       | Some q => exists p, props h' (cell h' s) !! k = Some p /\ stands_for h' p q
       | None => props h' (cell h' s) !! k = None
       end) /\
    (forall k, k ∈ s_required (cell h s) -> k ∈ s_required (cell h' s)) /\
    (forall v k, v ∈ l -> k ∈ s_required (cell h v) -> k ∈ s_required (cell h' s)) /\
    (forall k, k ∈ s_required (cell h' s) -> k ∈ s_required (cell h s) \/
       exists v, v ∈ l /\ (k ∈ s_required (cell h v) \/
         exists p, ref_props h (cell h v) !! k = Some p /\ s_isreq (cell h p) = true)).
  Proof.
    revert h. induction l as [|v l IH]; intros h C Vs F; cbn zeta.
    { cbn [merge_all fold_left fmap list_fmap]. split; [exact C|]. split; [apply extends_refl|].
      split; [auto|]. split; [auto|]. split; [auto|]. split; [reflexivity|]. split; [reflexivity|]. split; [auto|]. split.
      { intros k x H. inversion H as [|? ? N|? ? H']; subst.
        - destruct (props h (cell h s) !! k) as [q|]; [|congruence]. exists q. split; [reflexivity|now left].
        - inversion H'; subst. congruence. }
      split; [auto|]. split; [intros v k H; now apply elem_of_nil in H|auto]. }
    inversion F as [|? ? [Vv Av] F']; subst. cbn [merge_all fold_left].
    set (h1 := merge_with iter s (cell h v) h). fold (merge_all s l h1).
    pose proof (merge_with_spec iter iter_perm s (cell h v) h C Vs) as P. cbn zeta in P. fold h1 in P.
    destruct P as (C1 & X1 & T1 & I1 & Rf1 & M1 & P1 & _ & R1 & Vm1 & W1_ & Nt1).
    { apply (cl_sch h C v). now apply valid_cell. }
    assert (W1 : forall m, valid_map h m -> s_props (cell h1 s) = Some m -> s_props (cell h s) = Some m).
    { intros m Hm E. destruct (W1_ m E) as [H|H]; [exact H|]. apply (cl_maps h C) in Hm. lia. }
    assert (Fr : forall w, valid h w -> apart h s w -> apart h1 s w /\ cell h1 w = cell h w /\
                 (forall k, defines h1 w k = defines h w k) /\
                 (forall k p, ref_props h (cell h w) !! k = Some p -> p <> s -> s_isreq (cell h1 p) = s_isreq (cell h p))).
    { intros w Vw Aw. exact (apart_frame h h1 s w C Vw Aw X1 M1 W1). }
    assert (Vs1 : valid h1 s) by now apply (ex_valid _ _ _ X1).
    destruct (IH h1 C1 Vs1) as (C2 & X2 & Vm2 & M2 & W2 & I2 & Rf2 & K2 & P2 & R2 & R2' & R2'').
    { rewrite Forall_forall in F' |- *. intros w Hw. destruct (F' w Hw) as [Vw Aw].
      split; [now apply (ex_valid _ _ _ X1)|]. now apply Fr. }
    set (h2 := merge_all s l h1) in *. rewrite Forall_forall in F'.
    split; [exact C2|]. split; [eapply extends_trans; eassumption|]. split; [auto|]. split.
    { intros m Hm N. rewrite M2; [now apply M1|now apply Vm1|]. intros E. apply N. symmetry. apply W1; [exact Hm|now symmetry]. }
    split; [intros m Hm E; apply W1; [exact Hm|]; apply W2; [now apply Vm1|exact E]|].
    split; [congruence|]. split; [congruence|]. split.
    { intros k p E. apply K2. specialize (P1 k). rewrite E in P1. exact P1. }
    split; [|split; [|split]].
    - intros k x H. specialize (P1 k). cbn [fmap list_fmap] in H.
      assert (D : ((fun w => defines h1 w k) <$> l) = ((fun w => defines h w k) <$> l)).
      { apply list_fmap_ext. intros i w Hi. apply elem_of_list_lookup_2 in Hi. destruct (F' w Hi) as [Vw Aw]. now apply Fr. }
      destruct (props h (cell h s) !! k) as [q|] eqn:Eo.
      { assert (x = Some q) as -> by (inversion H; congruence). exists q. split; [apply K2; exact P1|now left]. }
      assert (H' : first_set None (defines h v k :: ((fun w => defines h w k) <$> l)) x).
      { inversion H as [|? ? N|? ? H']; subst; [congruence|exact H']. }
      clear H. unfold defines in H' at 1.
      destruct (props h (cell h v) !! k) as [q|] eqn:Ev.
      { assert (x = Some q) as -> by (inversion H'; congruence). exists q. split; [apply K2; exact P1|now left]. }
      destruct (ref_props h (cell h v) !! k) as [q|] eqn:Er.
      { assert (x = Some q) as -> by (inversion H'; congruence). destruct P1 as (p & Hp & Tk). exists p.
        split; [now apply K2|]. unfold taken_over in Tk. destruct (String.eqb _ _); [|now left; subst].
        destruct Tk as [Np Tk]. right. assert (p <> s) by (intros ->; contradiction).
        assert (valid h1 p) by (eexists; exact Tk).
        rewrite (extends_cell s h1 h2) by assumption. now rewrite (cell_some h1 p _ Tk). }
      apply P2. rewrite D, P1. exact H'.
    - intros k H. apply R2, R1. auto.
    - intros w k Hw Hk. apply elem_of_cons in Hw as [->|Hw]; [apply R2, R1; auto|].
      apply (R2' w); [exact Hw|]. destruct (F' w Hw) as [Vw Aw]. destruct (Fr w Vw Aw) as (_ & -> & _). exact Hk.
    - intros k H. apply R2'' in H as [H|(w & Hw & H)].
      + apply R1 in H as [H|[H|(_ & _ & p & E & Q)]]; [now left| |];
          (right; exists v; split; [left|]); [now left|right; eauto].
      + right. exists w. split; [now right|]. destruct (F' w Hw) as [Vw Aw].
        destruct (Fr w Vw Aw) as (_ & Ew & _ & Iw). rewrite Ew in H. destruct H as [H|(p & E & Q)]; [now left|].
        right. exists p. assert (E' : ref_props h (cell h w) !! k = Some p).
        { revert E. unfold ref_props. destruct (s_refto (cell h w)) as [r|] eqn:Rw; [|tauto].
          assert (Vr : valid h r) by (eapply ok_refto; [apply (cl_sch h C w); now apply valid_cell|exact Rw]).
          destruct Aw as [A1 A2 A3].
          assert (Nr : r <> s) by (intros ->; now apply A2).
          rewrite (extends_cell s h h1 r X1 Vr Nr). unfold props.
          rewrite (map_at_frame h h1 s); [tauto|exact C|exact M1| |].
          - intros m G. eapply ok_props; [apply (cl_sch h C r); now apply valid_cell|exact G].
          - intros m G. apply A3. right. exists r. auto. }
        split; [exact E'|]. destruct (decide (p = s)) as [->|Np]; [now rewrite <- I1|]. now rewrite <- (Iw k p E' Np).
  Qed.

  Variable resolve : heap -> string -> res nat.

  (** setReference of v3 on the structure. *)
  Definition refined (r : nat) (t c : sch) : sch :=
    with_isreq (s_isreq c || s_isreq t)%bool (with_required (over_list (s_required c) (s_required t)) (with_refto (Some r) c)).

  Lemma each_id {A} (f : A -> heap -> run) l h : (forall x, x ∈ l -> f x h = Done h) -> each f l h = Done h.
  Proof.
    induction l as [|x l IH]; intros H; [reflexivity|]. cbn [each]. rewrite H by left. cbn [bind]. apply IH.
    intros y Hy. apply H. now right.
  Qed.

  Lemma dep_bare v2 fuel s h : bare (cell h s) -> s_props (cell h s) = None -> s_ref (cell h s) = "" ->
    set_dependencies iter resolve v2 (S fuel) s h = Done h.
  Proof.
    intros [B1 B2 B3 B4 B5 B6 B7 B8 B9] P R. cbn [set_dependencies]. unfold set_reference. rewrite R. cbn [String.eqb bind].
    destruct v2; cbn [bind]; rewrite P; cbn [each bind]; rewrite ?B1; cbn [each bind]; rewrite ?B2; cbn [opt_list each bind];
    rewrite ?B3; cbn [each bind]; rewrite B4; cbn [opt_list each bind]; rewrite ?B5; cbn [each bind]; rewrite B6; cbn [each bind];
    rewrite B7; cbn [each bind]; rewrite B8; cbn [each bind]; rewrite ?B2, ?B9; reflexivity.
  Qed.

  Lemma dep_flat v2 fuel s h : flat h s -> set_dependencies iter resolve v2 (S (S fuel)) s h = Done h.
  Proof.
    intros [[B1 B2 B3 B4 B5 B6 B7 B8 B9] R _ L]. remember (S fuel) as n eqn:En. cbn [set_dependencies]. unfold set_reference.
    rewrite R. cbn [String.eqb bind].
    rewrite each_id.
    { destruct v2; cbn [bind]; rewrite ?B1; cbn [each bind]; rewrite ?B2; cbn [opt_list each bind];
      rewrite ?B3; cbn [each bind]; rewrite B4; cbn [opt_list each bind]; rewrite ?B5; cbn [each bind]; rewrite B6; cbn [each bind];
      rewrite B7; cbn [each bind]; rewrite B8; cbn [each bind]; rewrite ?B2, ?B9; reflexivity. }
    intros x Hx. subst n. destruct (s_props (cell h s)) as [p|] eqn:E; [|now apply elem_of_nil in Hx].
    apply elem_of_list_fmap in Hx as ((k & y) & -> & Hx). rewrite iter_perm, elem_of_map_to_list in Hx.
    destruct (L k y) as (Lb & Lp & Lr & _); [unfold props; now rewrite E|]. now apply dep_bare.
  Qed.

  Lemma dep_ref fuel v h r : bare (cell h v) -> s_props (cell h v) = None -> s_ref (cell h v) <> "" ->
    resolve h (s_ref (cell h v)) = Ok r ->
    set_dependencies iter resolve false (S fuel) v h = Done (upd v (refined r (cell h r)) h).
  Proof.
    intros [B1 B2 B3 B4 B5 B6 B7 B8 B9] P R E. cbn [set_dependencies]. unfold set_reference.
    destruct (String.eqb_spec (s_ref (cell h v)) "") as [Z|_]; [contradiction|]. rewrite E.
    change (upd v _ h) with (upd v (refined r (cell h r)) h). cbn [bind].
    set (h1 := upd v (refined r (cell h r)) h).
    assert (Ec : cell h1 v = refined r (cell h r) (cell h v)) by apply cell_upd_same.
    assert (G : forall (f : sch -> list nat), (forall c t, f (refined r t c) = f c) -> f (cell h v) = [] -> f (cell h1 v) = []).
    { intros f H Hn. rewrite Ec, H. exact Hn. }
    assert (Gp : s_props (cell h1 v) = None) by (rewrite Ec; exact P).
    rewrite Gp. cbn [each bind].
    rewrite (G s_pattern) by (reflexivity || exact B1). cbn [each bind].
    assert (G2 : s_addprops (cell h1 v) = None) by (rewrite Ec; exact B2). rewrite G2. cbn [opt_list each bind].
    rewrite (G s_additems) by (reflexivity || exact B3). cbn [each bind].
    assert (G4 : s_items (cell h1 v) = None) by (rewrite Ec; exact B4). rewrite G4. cbn [opt_list each bind].
    rewrite (G s_contains) by (reflexivity || exact B5). cbn [each bind].
    rewrite (G s_anyof) by (reflexivity || exact B6). cbn [each bind].
    rewrite (G s_oneof) by (reflexivity || exact B7). cbn [each bind].
    rewrite (G s_allof) by (reflexivity || exact B8). cbn [each bind].
    assert (G9 : s_not (cell h1 v) = None) by (rewrite Ec; exact B9). rewrite G9. reflexivity.
  Qed.

  (** One element of an allOf: its dependencies. *)
  Lemma element_dep fuel s h v t : closed h -> valid h s -> valid h v -> valid h t -> v <> s -> t <> s ->
    (forall m, s_props (cell h t) = Some m -> s_props (cell h s) <> Some m) ->
    element resolve h v t ->
    exists h0, set_dependencies iter resolve false (S (S fuel)) v h = Done h0 /\
      closed h0 /\ extends v h h0 /\ maps h0 = maps h /\
      (forall x, valid h x -> s_ref (cell h x) = "" -> cell h0 x = cell h x) /\
      apart h0 s v /\ (forall k, defines h0 v k = props h (cell h t) !! k) /\
      (forall k, k ∈ s_required (cell h t) -> k ∈ s_required (cell h0 v)) /\
      (simple (cell h t) -> simple (cell h0 v) /\ forall r, s_refto (cell h0 v) = Some r -> r <> s /\ simple (cell h0 r)).
  Proof.
    intros C Vs Vv Vt Nv Nt Np [[-> F]|(B & P & R & Nvt & Res)].
    - exists h. rewrite dep_flat by exact F. destruct F as [FB FR FT FL]. split; [reflexivity|]. split; [exact C|].
      split; [apply extends_refl|]. split; [reflexivity|]. split; [auto|]. split; [|split; [|split; [auto|]]].
      + constructor; [exact Nv|rewrite FT; discriminate|]. intros m [H|(r & H & _)]; [now apply Np|congruence].
      + intros k. unfold defines, ref_props. rewrite FT, lookup_empty. now destruct (props h (cell h v) !! k).
      + intros S. split; [exact S|]. intros r H. congruence.
    - exists (upd v (refined t (cell h t)) h). rewrite (dep_ref (S fuel) v h t B P R (Res h)).
      assert (Ec : cell (upd v (refined t (cell h t)) h) v = refined t (cell h t) (cell h v)) by apply cell_upd_same.
      assert (Et : cell (upd v (refined t (cell h t)) h) t = cell h t) by (apply cell_upd_other; congruence).
      split; [reflexivity|]. split.
      { apply closed_upd; [exact C|exact Vv|]. intros [a b d]. constructor; [|exact b|exact d].
        cbn. intros r [= <-]. exact Vt. }
      split; [now apply extends_upd|]. split; [reflexivity|]. split.
      { intros x Hx Rx. apply cell_upd_other. intros ->. contradiction. }
      split; [|split; [|split]].
      + constructor; [exact Nv|rewrite Ec; cbn; congruence|].
        assert (Es : cell (upd v (refined t (cell h t)) h) s = cell h s) by (apply cell_upd_other; congruence).
        rewrite Es. intros m [H|(r & H & G)].
        * rewrite Ec in H. change (s_props (cell h v) = Some m) in H. congruence.
        * rewrite Ec in H. injection H as <-. rewrite Et in G. now apply Np.
      + intros k. unfold defines, ref_props. rewrite Ec.
        assert (Z : props (upd v (refined t (cell h t)) h) (refined t (cell h t) (cell h v)) = ∅).
        { unfold props. change (s_props (refined t (cell h t) (cell h v))) with (s_props (cell h v)). now rewrite P. }
        rewrite Z, lookup_empty. change (s_refto (refined t (cell h t) (cell h v))) with (Some t). cbv beta iota. rewrite Et. reflexivity.
      + intros k Hk. rewrite Ec. unfold refined. cbn [with_isreq with_required s_required]. unfold over_list.
        destruct (s_required (cell h t)); [now apply elem_of_nil in Hk|exact Hk].
      + intros S. rewrite Ec. split; [destruct B; split; [assumption|split; assumption]|]. cbn. intros r [= <-]. split; [exact Nt|now rewrite Et].
  Qed.

  (** Merging what is not composed leaves the compositions of [s]. *)
  Lemma merge_list_simple get put s s2 h : get s2 = [] -> (forall r, s_refto s2 = Some r -> get (cell h r) = []) ->
    merge_list get put s s2 h = upd s (fun c => put (get c ++ [] ++ [])%list c) h.
  Proof.
    intros E R. unfold merge_list. rewrite E.
    assert (match s_refto s2 with Some r => get (cell h r) | None => [] end = []) as -> by (destruct (s_refto s2); auto). reflexivity.
  Qed.
  Lemma merge_with_simple s s2 h : closed h -> valid h s -> ok_sch h s2 -> simple s2 ->
    (forall r, s_refto s2 = Some r -> r <> s /\ simple (cell h r)) ->
    let c := cell (merge_with iter s s2 h) s in
    s_allof c = s_allof (cell h s) /\ s_anyof c = s_anyof (cell h s) /\ s_oneof c = s_oneof (cell h s).
  Proof.
    intros C V K (S1 & S2 & S3) R. unfold merge_with.
    set (h0 := upd s (with_type "object") h).
    assert (O : forall x f h, x <> s -> cell (upd s f h) x = cell h x) by (intros x f h' N; apply cell_upd_other; congruence).
    rewrite (merge_list_simple s_allof with_allof s s2 h0) by (intros; unfold h0; rewrite ?O by (apply R; assumption); auto; apply R; assumption).
    set (h1 := upd s _ h0).
    rewrite (merge_list_simple s_anyof with_anyof s s2 h1) by (intros; unfold h1, h0; rewrite ?O by (apply R; assumption); auto; apply R; assumption).
    set (h2 := upd s _ h1).
    rewrite (merge_list_simple s_oneof with_oneof s s2 h2) by (intros; unfold h2, h1, h0; rewrite ?O by (apply R; assumption); auto; apply R; assumption).
    set (h3 := upd s _ h2).
    assert (C0 : closed h0 /\ valid h0 s).
    { split; [|now apply valid_upd]. apply closed_upd; [exact C|exact V|]. intros [a b d]. constructor; [exact a|exact b|exact d]. }
    assert (C1 : closed h1 /\ valid h1 s).
    { split; [|apply valid_upd, C0]. apply closed_upd; [apply C0|apply C0|]. rewrite !app_nil_r. intros Q. apply ok_put_allof; [exact Q|]. now apply ok_get_lists. }
    assert (C2 : closed h2 /\ valid h2 s).
    { split; [|apply valid_upd, C1]. apply closed_upd; [apply C1|apply C1|]. rewrite !app_nil_r. intros Q. apply ok_put_anyof; [exact Q|]. now apply ok_get_lists. }
    assert (C3 : closed h3 /\ valid h3 s).
    { split; [|apply valid_upd, C2]. apply closed_upd; [apply C2|apply C2|]. rewrite !app_nil_r. intros Q. apply ok_put_oneof; [exact Q|]. now apply ok_get_lists. }
    assert (K3 : ok_sch h3 s2).
    { apply (ok_sch_mono h); [intros x Hx; do 4 apply valid_upd; exact Hx|auto|exact K]. }
    pose proof (merge_props_spec iter iter_perm s s2 h3 (proj1 C3) (proj2 C3) K3) as P. cbn zeta in P.
    destruct P as (_ & _ & U & _). unfold upto_props in U. cbv zeta. rewrite cell_upd_same.
    assert (E3 : s_allof (cell h3 s) = s_allof (cell h s) /\ s_anyof (cell h3 s) = s_anyof (cell h s) /\ s_oneof (cell h3 s) = s_oneof (cell h s)).
    { unfold h3, h2, h1, h0. rewrite !cell_upd_same. cbn. rewrite !app_nil_r. auto. }
    cbn [s_allof s_anyof s_oneof with_required]. rewrite U. cbn. exact E3.
  Qed.

  Definition composed fuel s := fun v h => bind (set_dependencies iter resolve false fuel v h) (fun h => Done (merge_with iter s (cell h v) h)).

  Record ready (h : heap) (s : nat) (e : nat * nat) : Prop := {
    rd_v : valid h (fst e);
    rd_t : valid h (snd e);
    rd_vs : fst e <> s;
    rd_ts : snd e <> s;
    rd_maps m : s_props (cell h (snd e)) = Some m -> s_props (cell h s) <> Some m;
    rd_element : element resolve h (fst e) (snd e);
    rd_entries k p : fst e = snd e -> props h (cell h (fst e)) !! k = Some p -> p <> s;
  }.

  Lemma composed_all fuel s l h : closed h -> valid h s -> Forall (ready h s) l -> NoDup (fst <$> l) ->
    (forall v t, (v, t) ∈ l -> v <> t -> t ∉ fst <$> l) ->
    exists h', each (composed (S (S fuel)) s) (fst <$> l) h = Done h' /\
    closed h' /\ valid h' s /\
    (forall x, valid h x -> x <> s -> x ∉ fst <$> l -> cell h' x = cell h x) /\
    (forall m, valid_map h m -> Some m <> s_props (cell h s) -> maps h' !! m = maps h !! m) /\
    (forall k p, props h (cell h s) !! k = Some p -> props h' (cell h' s) !! k = Some p) /\
    (forall k x, first_set None (props h (cell h s) !! k :: ((fun e => props h (cell h (snd e)) !! k) <$> l)) x ->
       match x with
       | Some q => exists p, props h' (cell h' s) !! k = Some p /\ stands_for h' p q
       | None => props h' (cell h' s) !! k = None
       end) /\
    (forall k, k ∈ s_required (cell h s) -> k ∈ s_required (cell h' s)) /\
    (forall e k, e ∈ l -> k ∈ s_required (cell h (snd e)) -> k ∈ s_required (cell h' s)) /\
    s_not (cell h' s) = s_not (cell h s) /\
    (l <> [] -> s_type (cell h' s) = "object") /\
    ((forall e, e ∈ l -> simple (cell h (snd e))) -> s_allof (cell h' s) = s_allof (cell h s) /\ s_anyof (cell h' s) = s_anyof (cell h s) /\ s_oneof (cell h' s) = s_oneof (cell h s)).
  Proof.
    revert h. induction l as [|[v t] l IH]; intros h C Vs F D Dr.
    { exists h. cbn [fmap list_fmap each]. split; [reflexivity|]. split; [exact C|]. split; [exact Vs|]. split; [auto|].
      split; [auto|]. split; [auto|]. split.
      { intros k x H. inversion H as [|? ? N|? ? H']; subst.
        - destruct (props h (cell h s) !! k) as [q|]; [|congruence]. exists q. split; [reflexivity|now left].
        - inversion H'; subst. congruence. }
      split; [auto|]. split; [intros e k H; now apply elem_of_nil in H|]. split; [reflexivity|]. split; [congruence|auto]. }
    cbn [fmap list_fmap fst] in D. apply NoDup_cons in D as [Dv D]. inversion F as [|? ? [Rv Rt Nv Nt Rm Re Rp] F']; subst.
    cbn [fst snd] in *. rewrite Forall_forall in F'.
    destruct (element_dep fuel s h v t C Vs Rv Rt Nv Nt Rm Re) as (h0 & E0 & C0 & X0 & M0 & Id0 & A0 & D0 & Q0 & Si0).
    assert (Vs0 : valid h0 s) by now apply (ex_valid _ _ _ X0).
    assert (Vv0 : valid h0 v) by now apply (ex_valid _ _ _ X0).
    assert (Es0 : cell h0 s = cell h s) by (apply (extends_cell v); [exact X0|exact Vs|congruence]).
    set (h1 := merge_with iter s (cell h0 v) h0).
    pose proof (merge_with_spec iter iter_perm s (cell h0 v) h0 C0 Vs0) as P. cbn zeta in P. fold h1 in P.
    destruct P as (C1 & X1 & T1 & I1 & Rf1 & M1 & P1 & _ & R1 & Vm1 & W1_ & Nt1).
    { apply (cl_sch h0 C0 v). now apply valid_cell. }
    assert (W1 : forall m, valid_map h0 m -> s_props (cell h1 s) = Some m -> s_props (cell h0 s) = Some m).
    { intros m Hm E. destruct (W1_ m E) as [H|H]; [exact H|]. apply (cl_maps h0 C0) in Hm. lia. }
    assert (Vs1 : valid h1 s) by now apply (ex_valid _ _ _ X1).
    assert (MA0 : forall c, props h0 c = props h c).
    { intros c. unfold props, map_at. destruct (s_props c); [|reflexivity]. now rewrite M0. }
    assert (Cx : forall x, valid h x -> x <> s -> x <> v -> cell h1 x = cell h x).
    { intros x Hx N1 N2. rewrite (extends_cell s h0 h1 x X1 (ex_valid _ _ _ X0 x Hx) N1). now apply (extends_cell v). }
    assert (Vx : forall x, valid h x -> valid h1 x) by (intros x Hx; apply (ex_valid _ _ _ X1), (ex_valid _ _ _ X0), Hx).
    assert (Mx : forall m, valid_map h m -> Some m <> s_props (cell h s) -> maps h1 !! m = maps h !! m).
    { intros m Hm N. rewrite M1; [now rewrite M0|unfold valid_map; now rewrite M0|now rewrite Es0]. }
    assert (Wx : forall m, valid_map h m -> s_props (cell h1 s) = Some m -> s_props (cell h s) = Some m).
    { intros m Hm E. rewrite <- Es0. apply W1; [unfold valid_map; now rewrite M0|exact E]. }
    assert (Vu : forall u m, valid h u -> s_props (cell h u) = Some m -> valid_map h m).
    { intros u m Hu E. eapply ok_props; [apply (cl_sch h C u); now apply valid_cell|exact E]. }
    assert (Un : forall w u, (w, u) ∈ l -> u <> v).
    { intros w u Hw ->. destruct (decide (w = v)) as [->|N].
      - apply Dv. apply elem_of_list_fmap. exists (v, v). auto.
      - apply (Dr w v); [now right|exact N|]. cbn. left. }
    assert (Wn : forall w u, (w, u) ∈ l -> w <> v).
    { intros w u Hw ->. apply Dv. apply elem_of_list_fmap. exists (v, u). auto. }
    assert (PU : forall w u, (w, u) ∈ l -> props h1 (cell h1 u) = props h (cell h u)).
    { intros w u Hw. destruct (F' _ Hw) as [Rv' Rt' Nv' Nt' Rm' _ _]. cbn [fst snd] in *.
      rewrite (Cx u Rt' Nt' (Un w u Hw)). unfold props.
      apply (map_at_frame h h1 s); [exact C|exact Mx| |exact Rm']. intros m E. now apply (Vu u). }
    destruct (IH h1 C1 Vs1) as (h' & E' & C' & Vs' & Cx' & Mx' & K' & P' & R' & Q' & N' & T' & L').
    { rewrite Forall_forall. intros [w u] Hw. destruct (F' _ Hw) as [Rv' Rt' Nv' Nt' Rm' Re' Rp']. cbn [fst snd] in *.
      constructor; cbn [fst snd]; [now apply Vx|now apply Vx|exact Nv'|exact Nt'| | |].
      - intros m Em. rewrite (Cx u Rt' Nt' (Un w u Hw)) in Em. intros Es. apply (Rm' m Em). apply Wx; [now apply (Vu u)|exact Es].
      - pose proof (Cx w Rv' Nv' (Wn w u Hw)) as Ew. destruct Re' as [[-> [FB FR FT FL]]|(B & P & R & Nwu & Res)].
        + left. split; [reflexivity|]. constructor; [now rewrite Ew|now rewrite Ew|now rewrite Ew|].
          intros k p Hp. rewrite (PU w w Hw) in Hp. pose proof (Rp' k p eq_refl Hp) as Nps.
          assert (Vp : valid h p) by (eapply props_in; [exact C|exact Hp]).
          pose proof (FL k p Hp) as L. unfold leaf in L |- *.
          assert (Ep : cell h1 p = cell h p).
          { rewrite (extends_cell s h0 h1 p X1 (ex_valid _ _ _ X0 p Vp) Nps). apply Id0; [exact Vp|apply L]. }
          rewrite Ep. exact L.
        + right. rewrite Ew. auto.
      - intros k p Ewu Hp. subst u. rewrite (PU w w Hw) in Hp. eapply Rp'; [reflexivity|exact Hp]. }
    { exact D. }
    { intros w u Hw N Hu. apply (Dr w u); [now right|exact N|now right]. }
    exists h'. split; [cbn [fmap list_fmap fst each]; unfold composed at 1; rewrite E0; cbn [bind]; fold h1; exact E'|].
    split; [exact C'|]. split; [exact Vs'|]. split.
    { intros x Hx N1 N2. cbn [fmap list_fmap fst] in N2. apply not_elem_of_cons in N2 as [N2 N3].
      rewrite Cx'; [now apply Cx|now apply Vx|exact N1|exact N3]. }
    split.
    { intros m Hm N. assert (maps h1 !! m = maps h !! m) as <- by now apply Mx. apply Mx'.
      - unfold valid_map. rewrite Mx; [exact Hm|exact Hm|exact N].
      - intros E. apply N. symmetry. apply Wx; [exact Hm|now symmetry]. }
    assert (Pk : forall k p, props h (cell h s) !! k = Some p -> props h1 (cell h1 s) !! k = Some p).
    { intros k p E. specialize (P1 k). rewrite MA0, Es0, E in P1. exact P1. }
    split; [intros k p E; apply K', Pk, E|]. split; [|split; [|split; [|split; [|split]]]].
    - intros k x H. cbn [fmap list_fmap snd] in H.
      assert (PL : ((fun e => props h1 (cell h1 (snd e)) !! k) <$> l) = ((fun e => props h (cell h (snd e)) !! k) <$> l)).
      { apply list_fmap_ext. intros i [w u] Hi. apply elem_of_list_lookup_2 in Hi. cbn [snd]. now rewrite (PU w u Hi). }
      pose proof (P1 k) as Pk1. rewrite (MA0 (cell h0 s)), Es0 in Pk1.
      destruct (props h (cell h s) !! k) as [q|] eqn:Eo.
      { assert (x = Some q) as -> by (inversion H; congruence). exists q. split; [apply K', Pk, Eo|now left]. }
      assert (H' : first_set None (props h (cell h t) !! k :: ((fun e => props h (cell h (snd e)) !! k) <$> l)) x).
      { inversion H as [|? ? N|? ? H']; subst; [congruence|exact H']. }
      clear H. rewrite <- (D0 k) in H'. unfold defines in H'.
      destruct (props h0 (cell h0 v) !! k) as [q|] eqn:Ev.
      { assert (x = Some q) as -> by (inversion H'; congruence). exists q. split; [apply K', Pk1|now left]. }
      destruct (ref_props h0 (cell h0 v) !! k) as [q|] eqn:Er.
      { assert (x = Some q) as -> by (inversion H'; congruence). destruct Pk1 as (p & Hp & Tk). exists p.
        split; [now apply K'|]. unfold taken_over in Tk. destruct (String.eqb _ _); [|now left; subst].
        destruct Tk as [Np Tk]. right. assert (Nps : p <> s) by (intros ->; contradiction).
        assert (Vp : valid h1 p) by (eexists; exact Tk).
        rewrite Cx'; [now rewrite (cell_some h1 p _ Tk)|exact Vp|exact Nps|].
        intros Hp'. apply elem_of_list_fmap in Hp' as ((w & u) & -> & Hw). apply Np. apply (ex_valid _ _ _ X0).
        destruct (F' _ Hw) as [Rw _ _ _ _ _ _]. exact Rw. }
      apply P'. rewrite PL, Pk1. exact H'.
    - intros k H. apply R', R1. left. now rewrite Es0.
    - intros [w u] k Hw Hk. apply elem_of_cons in Hw as [[= -> ->]|Hw].
      + apply R', R1. right. left. now apply Q0.
      + cbn [snd] in *. apply (Q' (w, u)); [exact Hw|]. cbn [snd]. destruct (F' _ Hw) as [_ Rt' _ Nt' _ _ _]. cbn [snd] in *.
        rewrite (Cx u Rt' Nt' (Un w u Hw)). exact Hk.
    - rewrite N', <- Es0. exact Nt1.
    - intros _. destruct l as [|e l]; [|now apply T'].
      cbn [fmap list_fmap each] in E'. injection E' as <-. exact T1.
    - intros S. destruct (Si0 (S (v, t) (elem_of_list_here _ _))) as [S1 S2].
      destruct (merge_with_simple s (cell h0 v) h0 C0 Vs0 (cl_sch h0 C0 v _ (valid_cell _ _ Vv0)) S1 S2) as (G1 & G2 & G3). fold h1 in G1, G2, G3.
      destruct L' as (-> & -> & ->); [|rewrite G1, G2, G3, Es0; auto].
      intros [w u] Hw. cbn [snd]. destruct (F' _ Hw) as [_ Rt' _ Nt' _ _ _]. cbn [snd] in *. rewrite (Cx u Rt' Nt' (Un w u Hw)). apply (S (w, u)). now right.
  Qed.

  (** A schema composed of such elements. *)
  Lemma composition_flat how fuel s (l : list (nat * nat)) h :
    closed h -> valid h s -> l <> [] -> composition how h s (fst <$> l) -> NoDup (fst <$> l) ->
    (forall v t, (v, t) ∈ l -> valid h v /\ valid h t /\ v <> s /\ t <> s /\ element resolve h v t /\
       (forall m, s_props (cell h t) = Some m -> s_props (cell h s) <> Some m)) ->
    (forall v t, (v, t) ∈ l -> v <> t -> t ∉ fst <$> l) ->
    (how <> AllOf -> forall v t, (v, t) ∈ l -> simple (cell h t)) ->
    exists h', set_dependencies iter resolve false (S (S (S fuel))) s h = Done h' /\
    closed h' /\ s_type (cell h' s) = "object" /\
    (forall x, valid h x -> x <> s -> x ∉ fst <$> l -> cell h' x = cell h x) /\
    (forall m, valid_map h m -> Some m <> s_props (cell h s) -> maps h' !! m = maps h !! m) /\
    (forall k x, first_set None (props h (cell h s) !! k :: ((fun e => props h (cell h (snd e)) !! k) <$> l)) x ->
       match x with
       | Some q => exists p, props h' (cell h' s) !! k = Some p /\ stands_for h' p q
       | None => props h' (cell h' s) !! k = None
       end) /\
    (forall k, k ∈ s_required (cell h s) -> k ∈ s_required (cell h' s)) /\
    (forall e k, e ∈ l -> k ∈ s_required (cell h (snd e)) -> k ∈ s_required (cell h' s)).
  Proof.
    intros C Vs Nl Cp D El Dr Sm.
    destruct Cp as [A1 A2 A3 A4 A5 A6 A7 A8 A9 A10 A11].
    assert (Nleaf : forall p, leaf (cell h p) -> p <> s).
    { intros p (B & _) ->. destruct how.
      - apply ba_allof in B. rewrite A8 in B. destruct l; [congruence|discriminate].
      - apply ba_anyof in B. rewrite A6 in B. destruct l; [congruence|discriminate].
      - apply ba_oneof in B. rewrite A7 in B. destruct l; [congruence|discriminate]. }
    destruct (composed_all fuel s l h C Vs) as (h' & E & C' & Vs' & Cx & Mx & _ & P & R & Q & N & T & L).
    { rewrite Forall_forall. intros [v t] Hv. destruct (El v t Hv) as (V1 & V2 & N1 & N2 & Ee & Em).
      constructor; cbn [fst snd]; [exact V1|exact V2|exact N1|exact N2|exact Em|exact Ee|].
      intros k p -> Hp. apply Nleaf. destruct Ee as [[_ [_ _ _ L]]|(_ & _ & _ & Z & _)]; [now apply (L k)|congruence]. }
    { exact D. }
    { exact Dr. }
    exists h'. split; [|split; [exact C'|split; [now apply T|split; [exact Cx|split; [exact Mx|split; [exact P|split; [exact R|exact Q]]]]]]].
    remember (S (S fuel)) as n eqn:En. cbn [set_dependencies]. unfold set_reference. rewrite A10. cbn [String.eqb bind].
    rewrite each_id.
    2: { intros x Hx. destruct (s_props (cell h s)) as [p|] eqn:Ep; [|now apply elem_of_nil in Hx].
         apply elem_of_list_fmap in Hx as ((k & y) & -> & Hx). rewrite iter_perm, elem_of_map_to_list in Hx.
         destruct (A11 k y) as (Lb & Lp & Lr & _); [unfold props; now rewrite Ep|]. subst n. now apply dep_bare. }
    cbn [bind]. rewrite A1. cbn [each bind]. rewrite A2. cbn [opt_list each bind]. rewrite A3. cbn [each bind].
    rewrite A4. cbn [opt_list each bind]. rewrite A5. cbn [each bind]. unfold composed in E. rewrite A6. destruct how.
    - cbn [each bind]. rewrite A7. cbn [each bind]. rewrite A8, E. cbn [bind]. rewrite N, A9. reflexivity.
    - destruct L as (L1 & L2 & L3); [intros [v t] H; apply (Sm ltac:(discriminate) v t H)|].
      rewrite E. cbn [bind]. rewrite L3, A7. cbn [each bind]. rewrite L1, A8. cbn [each bind]. rewrite N, A9. reflexivity.
    - destruct L as (L1 & L2 & L3); [intros [v t] H; apply (Sm ltac:(discriminate) v t H)|].
      cbn [each bind]. rewrite A7, E. cbn [bind]. rewrite L1, A8. cbn [each bind]. rewrite N, A9. reflexivity.
  Qed.
End merges.
