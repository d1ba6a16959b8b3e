From stdpp Require Import gmap list strings.
From Coq Require Import Ascii String Lia.
From Verif.Model Require Import Reference Slices Schema.
From Verif.Spec Require Import SlicesSpec SchemaSpec.
From Verif.Proof Require Import SlicesProof.
Local Open Scope string_scope.

(** * Heap lemmas *)
Lemma cell_some h l c : cells h !! l = Some c -> cell h l = c.
Proof. unfold cell. now intros ->. Qed.
Lemma valid_cell h l : valid h l -> cells h !! l = Some (cell h l).
Proof. intros [c E]. rewrite E. f_equal. symmetry. now apply cell_some. Qed.

Lemma cell_set_same l c h : cell (set_cell l c h) l = c.
Proof. unfold cell, set_cell. cbn. now rewrite lookup_insert. Qed.
Lemma cell_set_other l l' c h : l <> l' -> cell (set_cell l c h) l' = cell h l'.
Proof. intros N. unfold cell, set_cell. cbn. now rewrite lookup_insert_ne. Qed.
Lemma cell_upd_same l f h : cell (upd l f h) l = f (cell h l).
Proof. apply cell_set_same. Qed.
Lemma cell_upd_other l l' f h : l <> l' -> cell (upd l f h) l' = cell h l'.
Proof. apply cell_set_other. Qed.
Lemma valid_upd l f h x : valid h x -> valid (upd l f h) x.
Proof.
  intros [c E]. unfold valid, upd, set_cell. cbn. destruct (decide (l = x)) as [->|N].
  - rewrite lookup_insert. eauto.
  - rewrite lookup_insert_ne by exact N. eauto.
Qed.
Lemma valid_upd_inv l f h x : valid h l -> valid (upd l f h) x -> valid h x.
Proof.
  intros V [c E]. unfold upd, set_cell in E. cbn in E. destruct (decide (l = x)) as [->|N]; [exact V|].
  rewrite lookup_insert_ne in E by exact N. exists c. exact E.
Qed.
Lemma map_at_upd l f h m : map_at (upd l f h) m = map_at h m.
Proof. reflexivity. Qed.

Lemma ok_sch_mono h h' c :
  (forall x, valid h x -> valid h' x) -> (forall m, valid_map h m -> valid_map h' m) -> ok_sch h c -> ok_sch h' c.
Proof. intros V M [A B C]. constructor; eauto. Qed.

Lemma closed_upd l f h : closed h -> valid h l -> (ok_sch h (cell h l) -> ok_sch h (f (cell h l))) -> closed (upd l f h).
Proof.
  intros [A B C D] V F. constructor.
  - intros x Hx. apply (A x). eapply valid_upd_inv; eassumption.
  - exact B.
  - intros x c E. apply (ok_sch_mono h); [intros; now apply valid_upd|auto|].
    unfold upd, set_cell in E. cbn in E. destruct (decide (l = x)) as [<-|N].
    + rewrite lookup_insert in E. injection E as <-. apply F. eapply C. now apply valid_cell.
    + rewrite lookup_insert_ne in E by exact N. eauto.
  - intros m g k v E1 E2. apply valid_upd. eauto.
Qed.

Lemma closed_alloc c h : closed h -> ok_sch h c -> closed (snd (alloc c h)).
Proof.
  intros [A B C D] O.
  assert (V : forall x, valid h x -> valid (snd (alloc c h)) x).
  { intros x Hx. unfold valid. cbn. destruct (decide (next h = x)) as [<-|N]; [rewrite lookup_insert; eauto|].
    rewrite lookup_insert_ne by exact N. exact Hx. }
  constructor.
  - intros x [c' E]. cbn in *. destruct (decide (next h = x)) as [<-|N]; [lia|].
    rewrite lookup_insert_ne in E by exact N. specialize (A x (ex_intro _ c' E)). lia.
  - intros m Hm. cbn. specialize (B m Hm). lia.
  - intros x c' E. apply (ok_sch_mono h); [exact V|auto|]. cbn in E.
    destruct (decide (next h = x)) as [<-|N].
    + rewrite lookup_insert in E. now injection E as <-.
    + rewrite lookup_insert_ne in E by exact N. eauto.
  - intros m g k v E1 E2. apply V. eauto.
Qed.

Lemma closed_set_map m g h : closed h -> valid_map h m -> (forall k v, g !! k = Some v -> valid h v) -> closed (set_map m g h).
Proof.
  intros [A B C D] V G.
  assert (M : forall x, valid_map (set_map m g h) x <-> valid_map h x).
  { intros x. unfold valid_map, set_map. cbn. destruct (decide (m = x)) as [->|N].
    - rewrite lookup_insert. split; eauto.
    - now rewrite lookup_insert_ne. }
  constructor.
  - exact A.
  - intros x Hx. apply (B x). now apply M.
  - intros l c E. apply (ok_sch_mono h); [auto|intros; now apply M|eauto].
  - intros x g' k v E1 E2. unfold set_map in E1. cbn in E1. destruct (decide (m = x)) as [->|N].
    + rewrite lookup_insert in E1. injection E1 as <-. apply (G k v E2).
    + rewrite lookup_insert_ne in E1 by exact N. apply (D x g' k v E1 E2).
Qed.

Lemma closed_alloc_map h : closed h -> closed (snd (alloc_map h)).
Proof.
  intros [A B C D].
  assert (M : forall x, valid_map h x -> valid_map (snd (alloc_map h)) x).
  { intros x Hx. unfold valid_map. cbn. destruct (decide (next h = x)) as [<-|N]; [rewrite lookup_insert; eauto|].
    now rewrite lookup_insert_ne. }
  constructor.
  - intros x Hx. cbn. specialize (A x Hx). lia.
  - intros x [g E]. cbn in *. destruct (decide (next h = x)) as [<-|N]; [lia|].
    rewrite lookup_insert_ne in E by exact N. specialize (B x (ex_intro _ g E)). lia.
  - intros l c E. apply (ok_sch_mono h); [auto|exact M|eauto].
  - intros x g' k v E1 E2. cbn in E1. destruct (decide (next h = x)) as [<-|N].
    + rewrite lookup_insert in E1. injection E1 as <-. now rewrite lookup_empty in E2.
    + rewrite lookup_insert_ne in E1 by exact N. apply (D x g' k v E1 E2).
Qed.

Lemma ok_ref v h b : valid h v -> ok_sch h (with_isreq b (with_refto (Some v) empty_sch)).
Proof.
  intros V. constructor; cbn.
  - now intros r [= <-].
  - discriminate.
  - intros x Hx. now apply elem_of_nil in Hx.
Qed.

(** [h'] extends [h]: valid cells stay and keep everything, except that [s] may change. *)
Record extends (s : nat) (h h' : heap) : Prop := {
  ex_next : next h <= next h';
  ex_other x : valid h x -> x <> s -> cells h' !! x = cells h !! x;
  ex_valid x : valid h x -> valid h' x;
  ex_new x : valid h' x -> valid h x \/ next h <= x;
}.
Lemma extends_refl s h : extends s h h.
Proof. constructor; auto. Qed.
Lemma extends_trans s h1 h2 h3 : extends s h1 h2 -> extends s h2 h3 -> extends s h1 h3.
Proof.
  intros [A1 B1 C1 D1] [A2 B2 C2 D2]. constructor.
  - lia.
  - intros x V N. rewrite B2 by auto. auto.
  - auto.
  - intros x V. destruct (D2 x V) as [H|H]; [|right; lia]. destruct (D1 x H); auto.
Qed.
Lemma extends_upd s f h : valid h s -> extends s h (upd s f h).
Proof.
  intros V. constructor.
  - cbn. lia.
  - intros x _ N. unfold upd, set_cell. cbn. now rewrite lookup_insert_ne by congruence.
  - intros x Hx. now apply valid_upd.
  - intros x Hx. left. eapply valid_upd_inv; eassumption.
Qed.
Lemma extends_alloc s c h : closed h -> extends s h (snd (alloc c h)).
Proof.
  intros C. constructor; cbn.
  - lia.
  - intros x V N. rewrite lookup_insert_ne; [reflexivity|]. intros <-. apply (cl_cells h C) in V. lia.
  - intros x V. unfold valid. cbn. destruct (decide (next h = x)) as [<-|N]; [rewrite lookup_insert; eauto|].
    now rewrite lookup_insert_ne.
  - intros x [c' E]. cbn in E. destruct (decide (next h = x)) as [<-|N]; [right; lia|].
    rewrite lookup_insert_ne in E by exact N. left. eexists. exact E.
Qed.
Lemma extends_cell s h h' x : extends s h h' -> valid h x -> x <> s -> cell h' x = cell h x.
Proof. intros E V N. unfold cell. now rewrite (ex_other _ _ _ E). Qed.

(** * Lists of compositions *)
Lemma option_eq_dec_none2 {A B} (x : option A) (y : option B) : {x = None /\ y = None} + {~ (x = None /\ y = None)}.
Proof. destruct x, y; [right; intros [? ?]; discriminate..|left; auto]. Defined.

Section schema.
  Variable iter : nat -> gmap string nat -> list (string * nat).

  Lemma alloc_refs_spec s vs h : closed h -> Forall (valid h) vs ->
    let r := alloc_refs vs h in
    closed (snd r) /\ extends s h (snd r) /\ maps (snd r) = maps h /\ (valid h s -> cell (snd r) s = cell h s) /\
    Forall (valid (snd r)) (fst r) /\
    Forall2 (fun v p => ~ valid h p /\ cell (snd r) p = with_refto (Some v) empty_sch) vs (fst r).
  Proof.
    revert h. induction vs as [|v vs IH]; intros h C F.
    - cbn. split; [exact C|]. split; [apply extends_refl|]. auto.
    - apply Forall_cons in F as [V F]. cbn [alloc_refs].
      destruct (alloc (with_refto (Some v) empty_sch) h) as [p h1] eqn:E1.
      assert (C1 : closed h1).
      { replace h1 with (snd (alloc (with_refto (Some v) empty_sch) h)) by now rewrite E1.
        apply closed_alloc; [exact C|]. exact (ok_ref v h false V). }
      assert (X1 : extends s h h1).
      { replace h1 with (snd (alloc (with_refto (Some v) empty_sch) h)) by now rewrite E1. now apply extends_alloc. }
      assert (Xp : extends p h h1).
      { replace h1 with (snd (alloc (with_refto (Some v) empty_sch) h)) by now rewrite E1. now apply extends_alloc. }
      cbn in E1. injection E1 as <- <-.
      specialize (IH _ C1 ltac:(eapply Forall_impl; [exact F|]; intros; now apply (ex_valid _ _ _ X1))).
      destruct (alloc_refs vs _) as [ps h2] eqn:E2. cbn in IH |- *.
      destruct IH as (C2 & X2 & M2 & S2 & V2 & F2).
      assert (Nn : ~ valid h (next h)) by (intros H; apply (cl_cells h C) in H; lia).
      set (h1 := {| cells := <[next h:=with_refto (Some v) empty_sch]> (cells h); maps := maps h; next := S (next h) |}) in *.
      assert (Vn : valid h1 (next h)) by (unfold valid, h1; cbn; rewrite lookup_insert; eauto).
      assert (Hp : cell h2 (next h) = with_refto (Some v) empty_sch).
      { destruct (decide (next h = s)) as [<-|N].
        - rewrite S2 by exact Vn. unfold cell, h1. cbn. now rewrite lookup_insert.
        - rewrite (extends_cell s h1 h2) by assumption. unfold cell, h1. cbn. now rewrite lookup_insert. }
      split; [exact C2|]. split; [eapply extends_trans; eassumption|]. split; [exact M2|]. split.
      { intros Vs. rewrite S2 by now apply (ex_valid _ _ _ X1). unfold cell, h1. cbn.
        rewrite lookup_insert_ne; [reflexivity|]. intros E. apply Nn. now rewrite E. }
      split.
      { constructor; [|exact V2]. apply (ex_valid _ _ _ X2). exact Vn. }
      constructor; [split; [exact Nn|exact Hp]|].
      eapply Forall2_impl; [exact F2|]. intros x y [Ny Hy]. split; [|exact Hy].
      intros H. apply Ny. now apply (ex_valid _ _ _ X1).
  Qed.

  (** What changes of [s] keep, in the steps before the properties. *)
  Definition same_core (c c' : sch) : Prop :=
    s_props c' = s_props c /\ s_required c' = s_required c /\ s_isreq c' = s_isreq c /\
    s_refto c' = s_refto c /\ s_items c' = s_items c /\ s_not c' = s_not c.

  Lemma merge_list_spec get put s s2 h :
    (forall c l, same_core c (put l c) /\ s_type (put l c) = s_type c /\ s_addprops (put l c) = s_addprops c) ->
    (forall h c l, ok_sch h c -> Forall (valid h) l -> ok_sch h (put l c)) ->
    (forall h c, ok_sch h c -> Forall (valid h) (get c)) ->
    closed h -> valid h s -> ok_sch h s2 ->
    let h' := merge_list get put s s2 h in
    closed h' /\ extends s h h' /\ maps h' = maps h /\ same_core (cell h s) (cell h' s) /\
    s_type (cell h' s) = s_type (cell h s).
  Proof.
    intros P O G C V K. unfold merge_list.
    set (extra := match s_refto s2 with Some r => get (cell h r) | None => [] end).
    assert (Fe : Forall (valid h) extra).
    { unfold extra. destruct (s_refto s2) as [r|] eqn:E; [|constructor]. apply G. eapply (cl_sch h C).
      apply valid_cell. now apply (ok_refto _ _ K). }
    pose proof (alloc_refs_spec s extra h C Fe) as A. cbn zeta in A.
    destruct (alloc_refs extra h) as [ps h1]. cbn in A. destruct A as (C1 & X1 & M1 & S1 & V1 & _).
    assert (Vs : valid h1 s) by now apply (ex_valid _ _ _ X1).
    cbn zeta. set (l := (get (cell h1 s) ++ get s2 ++ ps)%list).
    split; [|split; [|split; [exact M1|split]]].
    - apply closed_upd; [exact C1|exact Vs|]. intros Ok. apply O; [exact Ok|].
      rewrite !Forall_app. split; [now apply G|]. split; [|exact V1].
      eapply Forall_impl; [apply G, K|]. intros x. apply (ex_valid _ _ _ X1).
    - eapply extends_trans; [exact X1|]. apply extends_upd. exact Vs.
    - rewrite cell_upd_same. rewrite S1 by exact V. apply P.
    - rewrite cell_upd_same. rewrite S1 by exact V. apply P.
  Qed.

  (** * Properties *)
  Lemma add_own_fold m l h : valid_map h m -> NoDup (l.*1) ->
    let h' := fold_left (add_own m) l h in
    cells h' = cells h /\ next h' = next h /\ valid_map h' m /\
    (forall m', m' <> m -> maps h' !! m' = maps h !! m') /\
    (forall k, map_at h' (Some m) !! k =
       match map_at h (Some m) !! k with Some p => Some p | None => (list_to_map l : gmap string nat) !! k end).
  Proof.
    revert h. induction l as [|[k v] l IH]; intros h V N.
    - cbn. repeat split; auto. intros k. destruct (default ∅ (maps h !! m) !! k); [reflexivity|]. now rewrite lookup_empty.
    - cbn [fmap list_fmap fst] in N. apply NoDup_cons in N as [Nk N]. cbn [fold_left].
      assert (St : cells (add_own m h (k, v)) = cells h /\ next (add_own m h (k, v)) = next h /\
                   valid_map (add_own m h (k, v)) m /\
                   (forall m', m' <> m -> maps (add_own m h (k, v)) !! m' = maps h !! m') /\
                   map_at (add_own m h (k, v)) (Some m) =
                     match map_at h (Some m) !! k with Some _ => map_at h (Some m) | None => <[k := v]> (map_at h (Some m)) end).
      { unfold add_own. cbn [fst snd]. destruct (map_at h (Some m) !! k) eqn:E.
        - repeat split; auto.
        - unfold set_map, valid_map. cbn [cells next maps]. repeat split; auto.
          + rewrite lookup_insert. eauto.
          + intros m' Hm. now rewrite lookup_insert_ne by congruence.
          + unfold map_at at 1. cbn [maps]. now rewrite lookup_insert. }
      destruct St as (S1 & S2 & S3 & S4 & S5).
      destruct (IH _ S3 N) as (I1 & I2 & I3 & I4 & I5). cbn zeta.
      split; [congruence|]. split; [congruence|]. split; [exact I3|]. split.
      { intros m' Hm. rewrite I4 by exact Hm. auto. }
      intros k'. rewrite I5, S5. rewrite list_to_map_cons.
      destruct (decide (k' = k)) as [->|Nk'].
      + rewrite lookup_insert. destruct (map_at h (Some m) !! k) eqn:E; [now rewrite E|]. now rewrite lookup_insert.
      + rewrite (lookup_insert_ne (list_to_map l)) by congruence.
        destruct (map_at h (Some m) !! k); [reflexivity|]. now rewrite lookup_insert_ne by congruence.
  Qed.

  (** Same cell up to the required names. *)
  Definition upto_required (c c' : sch) : Prop := c' = with_required (s_required c') c.

  Lemma upto_refl c : upto_required c c. Proof. unfold upto_required. now destruct c. Qed.
  Lemma upto_trans a b c : upto_required a b -> upto_required b c -> upto_required a c.
  Proof. unfold upto_required. intros -> ->. now destruct a. Qed.
  Lemma upto_fields c c' : upto_required c c' ->
    s_type c' = s_type c /\ s_isreq c' = s_isreq c /\ s_props c' = s_props c /\ s_refto c' = s_refto c /\ s_ref c' = s_ref c.
  Proof. intros ->. now destruct c. Qed.

  Definition took (h h' : heap) (v p : nat) : Prop :=
    if String.eqb (s_type (cell h v)) "object"
    then ~ valid h p /\ cells h' !! p = Some (with_isreq (s_isreq (cell h v)) (with_refto (Some v) empty_sch))
    else p = v.

  Lemma add_ref_step s m h k v : closed h -> valid_map h m -> valid h s -> valid h v ->
    let h' := add_ref s m h (k, v) in
    closed h' /\ valid_map h' m /\ extends s h h' /\
    (forall m', m' <> m -> maps h' !! m' = maps h !! m') /\
    upto_required (cell h s) (cell h' s) /\
    s_required (cell h' s) = (s_required (cell h s) ++
      match map_at h (Some m) !! k with Some _ => [] | None => if s_isreq (cell h v) then [k] else [] end)%list /\
    match map_at h (Some m) !! k with
    | Some p => map_at h' (Some m) = map_at h (Some m)
    | None => exists p, map_at h' (Some m) = <[k := p]> (map_at h (Some m)) /\ took h h' v p
    end.
  Proof.
    intros C Vm Vs Vv. unfold add_ref. destruct (map_at h (Some m) !! k) as [p0|] eqn:E.
    { cbn zeta. split; [exact C|]. split; [exact Vm|]. split; [apply extends_refl|]. split; [auto|].
      split; [apply upto_refl|]. rewrite app_nil_r. auto. }
    set (c := cell h v).
    set (ph := if String.eqb (s_type c) "object"
               then alloc (with_isreq (s_isreq c) (with_refto (Some v) empty_sch)) h else (v, h)).
    assert (H1 : closed (snd ph) /\ maps (snd ph) = maps h /\ extends s h (snd ph) /\ cell (snd ph) s = cell h s /\
                 valid (snd ph) (fst ph) /\
                 (if String.eqb (s_type c) "object"
                  then ~ valid h (fst ph) /\ cells (snd ph) !! fst ph = Some (with_isreq (s_isreq c) (with_refto (Some v) empty_sch))
                  else fst ph = v)).
    { unfold ph. destruct (String.eqb (s_type c) "object").
      - split; [apply closed_alloc; [exact C|now apply ok_ref]|]. split; [reflexivity|].
        split; [now apply extends_alloc|]. split.
        { unfold cell. cbn. rewrite lookup_insert_ne; [reflexivity|]. intros <-. apply (cl_cells h C) in Vs. lia. }
        split; [unfold valid; cbn; rewrite lookup_insert; eauto|]. cbn. split.
        { intros H. apply (cl_cells h C) in H. lia. }
        now rewrite lookup_insert.
      - cbn. split; [exact C|]. split; [reflexivity|]. split; [apply extends_refl|]. auto. }
    destruct ph as [p h1]. cbn [fst snd] in H1. destruct H1 as (C1 & M1 & X1 & S1 & V1 & T1).
    assert (E1 : map_at h1 (Some m) = map_at h (Some m)) by (unfold map_at; now rewrite M1).
    set (h2 := set_map m (<[k:=p]> (map_at h1 (Some m))) h1).
    assert (Vs1 : valid h1 s) by now apply (ex_valid _ _ _ X1).
    assert (C2 : closed h2).
    { apply closed_set_map; [exact C1|unfold valid_map; now rewrite M1|].
      intros k' v' E'. destruct (decide (k = k')) as [<-|N].
      - rewrite lookup_insert in E'. now injection E' as <-.
      - rewrite lookup_insert_ne in E' by exact N. unfold map_at in E'.
        destruct (maps h1 !! m) as [g|] eqn:G; [|cbn in E'; now rewrite lookup_empty in E'].
        apply (cl_entries h1 C1 m g k' v' G E'). }
    assert (Vs2 : valid h2 s) by exact Vs1.
    assert (X2 : extends s h h2).
    { destruct X1 as [a b c' d]. constructor; auto. }
    assert (Map2 : map_at h2 (Some m) = <[k := p]> (map_at h (Some m))).
    { rewrite <- E1. unfold h2, set_map. unfold map_at at 1. cbn [maps]. now rewrite lookup_insert. }
    assert (Mo2 : forall m', m' <> m -> maps h2 !! m' = maps h !! m').
    { intros m' Hm. unfold h2, set_map. cbn [maps]. rewrite lookup_insert_ne by congruence. now rewrite M1. }
    assert (Vm2 : valid_map h2 m) by (unfold valid_map, h2, set_map; cbn [maps]; rewrite lookup_insert; eauto).
    assert (S2 : cell h2 s = cell h s) by exact S1.
    destruct (s_isreq c) eqn:Rq; cbn zeta.
    - split.
      { apply closed_upd; [exact C2|exact Vs2|]. intros [a b d]. constructor; [exact a|exact b|exact d]. }
      split; [exact Vm2|]. split.
      { eapply extends_trans; [exact X2|]. apply extends_upd. exact Vs2. }
      split; [exact Mo2|]. rewrite cell_upd_same, S2. split; [|split].
      + unfold upto_required. now destruct (cell h s).
      + reflexivity.
      + exists p. split; [exact Map2|]. unfold took. fold c. destruct (String.eqb (s_type c) "object"); [|exact T1].
        destruct T1 as [Nv T1]. split; [exact Nv|]. unfold upd, set_cell. cbn [cells].
        rewrite lookup_insert_ne by (intros Eq; apply Nv; rewrite <- Eq; exact Vs).
        rewrite Rq. exact T1.
    - split; [exact C2|]. split; [exact Vm2|]. split; [exact X2|]. split; [exact Mo2|].
      rewrite S2. split; [apply upto_refl|]. split; [now rewrite app_nil_r|].
      exists p. split; [exact Map2|]. unfold took. fold c. rewrite Rq. exact T1.
  Qed.

  Lemma add_ref_fold s m l h : closed h -> valid_map h m -> valid h s -> NoDup (l.*1) ->
    (forall k v, (k, v) ∈ l -> valid h v) ->
    let h' := fold_left (add_ref s m) l h in
    closed h' /\ valid_map h' m /\ extends s h h' /\
    (forall m', m' <> m -> maps h' !! m' = maps h !! m') /\
    upto_required (cell h s) (cell h' s) /\
    (forall k, k ∈ s_required (cell h' s) <-> k ∈ s_required (cell h s) \/
       (map_at h (Some m) !! k = None /\ exists v, (k, v) ∈ l /\ s_isreq (cell h v) = true)) /\
    (forall k p, map_at h (Some m) !! k = Some p -> map_at h' (Some m) !! k = Some p) /\
    (forall k v, (k, v) ∈ l -> map_at h (Some m) !! k = None -> exists p, map_at h' (Some m) !! k = Some p /\ took h h' v p) /\
    (forall k, map_at h (Some m) !! k = None -> (forall v, (k, v) ∉ l) -> map_at h' (Some m) !! k = None).
  Proof.
    revert h. induction l as [|[k v] l IH]; intros h C Vm Vs N Vl.
    { cbn zeta. cbn [fold_left]. split; [exact C|]. split; [exact Vm|]. split; [apply extends_refl|]. split; [auto|].
      split; [apply upto_refl|]. split.
      { intros k. split; [auto|]. intros [H|(_ & v & H & _)]; [exact H|]. now apply elem_of_nil in H. }
      split; [auto|]. split; [|auto]. intros k v H. now apply elem_of_nil in H. }
    change ((((k, v) :: l).*1)) with (k :: l.*1) in N. apply NoDup_cons in N as [Nk N].
    assert (Vv : valid h v) by (apply (Vl k v); left).
    pose proof (add_ref_step s m h k v C Vm Vs Vv) as St. cbn [fold_left]. cbn zeta in St.
    set (h1 := add_ref s m h (k, v)) in *. destruct St as (C1 & Vm1 & X1 & Mo1 & U1 & R1 & P1).
    assert (Vs1 : valid h1 s) by now apply (ex_valid _ _ _ X1).
    assert (Vl1 : forall k v, (k, v) ∈ l -> valid h1 v).
    { intros k' v' H. apply (ex_valid _ _ _ X1). apply (Vl k' v'). now right. }
    specialize (IH h1 C1 Vm1 Vs1 N Vl1). cbn zeta in IH |- *.
    set (h2 := fold_left (add_ref s m) l h1) in *.
    destruct IH as (C2 & Vm2 & X2 & Mo2 & U2 & R2 & P2 & Q2 & Z2).
    assert (Hd : forall x, valid h x -> s_type (cell h1 x) = s_type (cell h x) /\ s_isreq (cell h1 x) = s_isreq (cell h x)).
    { intros x Hx. destruct (decide (x = s)) as [->|Nx].
      - destruct (upto_fields _ _ U1) as (a & b & _). auto.
      - now rewrite (extends_cell s h h1). }
    assert (Keep : forall k' p, map_at h (Some m) !! k' = Some p -> map_at h1 (Some m) !! k' = Some p).
    { intros k' p E. destruct (map_at h (Some m) !! k) as [p0|] eqn:Ek.
      - now rewrite P1.
      - destruct P1 as (q & E1 & _). rewrite E1. rewrite lookup_insert_ne; [exact E|congruence]. }
    assert (Fresh : forall k', k' <> k -> map_at h1 (Some m) !! k' = map_at h (Some m) !! k').
    { intros k' Nk'. destruct (map_at h (Some m) !! k) as [p0|] eqn:Ek; [now rewrite P1|].
      destruct P1 as (q & E1 & _). rewrite E1. now rewrite lookup_insert_ne by congruence. }
    assert (NotIn : forall v', (k, v') ∉ l).
    { intros v' H. apply Nk. apply elem_of_list_fmap. exists (k, v'). auto. }
    split; [exact C2|]. split; [exact Vm2|]. split; [eapply extends_trans; eassumption|]. split.
    { intros m' Hm. rewrite Mo2 by exact Hm. auto. }
    split; [eapply upto_trans; eassumption|]. split; [|split; [|split]].
    - intros k'. rewrite R2, R1, elem_of_app. split.
      + intros [[H|H]|(E & v' & H & Rq)].
        * auto.
        * right. destruct (map_at h (Some m) !! k) as [p0|] eqn:Ek; [now apply elem_of_nil in H|].
          destruct (s_isreq (cell h v)) eqn:Rq; [|now apply elem_of_nil in H].
          apply elem_of_list_singleton in H as ->. split; [exact Ek|]. exists v. split; [left|exact Rq].
        * right. assert (k' <> k) by (intros ->; now apply (NotIn v')).
          rewrite Fresh in E by assumption. split; [exact E|]. exists v'. split; [now right|].
          destruct (Hd v' ltac:(apply (Vl k' v'); now right)) as [_ <-]. exact Rq.
      + intros [H|(E & v' & H & Rq)]; [auto|]. apply elem_of_cons in H as [[= -> ->]|H].
        * left. right. rewrite E, Rq. now left.
        * right. assert (k' <> k) by (intros ->; now apply (NotIn v')).
          rewrite Fresh by assumption. split; [exact E|]. exists v'. split; [exact H|].
          destruct (Hd v' ltac:(apply (Vl k' v'); now right)) as [_ ->]. exact Rq.
    - intros k' p E. apply P2. auto.
    - intros k' v' H E. apply elem_of_cons in H as [[= -> ->]|H].
      + rewrite E in P1. destruct P1 as (p & E1 & T1). exists p. split.
        * apply P2. rewrite E1. apply lookup_insert.
        * unfold took in *. destruct (String.eqb (s_type (cell h v)) "object"); [|exact T1].
          destruct T1 as [Nv T1]. split; [exact Nv|]. rewrite (ex_other _ _ _ X2); [exact T1|eexists; exact T1|].
          intros ->. contradiction.
      + assert (k' <> k) by (intros ->; now apply (NotIn v')).
        destruct (Q2 k' v' H) as (p & E1 & T1); [now rewrite Fresh|]. exists p. split; [exact E1|].
        unfold took in *. destruct (Hd v' ltac:(apply (Vl k' v'); now right)) as [Ht Hr].
        rewrite Ht, Hr in T1. destruct (String.eqb (s_type (cell h v')) "object"); [|exact T1].
        destruct T1 as [Nv T1]. split; [|exact T1]. intros H1. apply Nv. now apply (ex_valid _ _ _ X1).
    - intros k' E H. apply Z2.
      + rewrite Fresh; [exact E|]. intros ->. apply (H v). left.
      + intros v' H'. apply (H v'). now right.
  Qed.

  Hypothesis iter_perm : forall m g, iter m g ≡ₚ map_to_list g.

  Lemma iter_in m g k v : (k, v) ∈ iter m g <-> g !! k = Some v.
  Proof. rewrite iter_perm. apply elem_of_map_to_list. Qed.
  Lemma iter_nodup m g : NoDup ((iter m g).*1).
  Proof. rewrite iter_perm. apply NoDup_fst_map_to_list. Qed.
  Lemma iter_map m g : (list_to_map (iter m g) : gmap string nat) = g.
  Proof.
    apply map_eq. intros k. apply option_eq. intros v. rewrite <- elem_of_list_to_map by apply iter_nodup.
    apply iter_in.
  Qed.

  Definition upto_props (c c' : sch) : Prop := c' = with_required (s_required c') (with_props (s_props c') c).

  Lemma merge_props_unfold s s2 h :
    ~ (s_props s2 = None /\ match s_refto s2 with Some r => s_props (cell h r) | None => None end = None) ->
    merge_props iter s s2 h =
        (let '(m, h) := match s_props (cell h s) with
                       | Some m => (m, h)
                       | None => let '(m, h) := alloc_map h in (m, upd s (with_props (Some m)) h)
                       end in
        let h := match s_props s2 with
                 | Some p => fold_left (add_own m) (iter p (map_at h (Some p))) h
                 | None => h
                 end in
        match (match s_refto s2 with Some r => s_props (cell h r) | None => None end) with
        | Some p => fold_left (add_ref s m) (iter p (map_at h (Some p))) h
        | None => h
        end).
  Proof.
    intros Ne. unfold merge_props.
    destruct (s_props s2), (match s_refto s2 with Some r => s_props (cell h r) | None => None end);
      try reflexivity. exfalso. now apply Ne.
  Qed.

  (** The properties phase. *)
  Lemma merge_props_spec s s2 h : closed h -> valid h s -> ok_sch h s2 ->
    let h' := merge_props iter s s2 h in
    closed h' /\ extends s h h' /\ upto_props (cell h s) (cell h' s) /\
    (forall m, valid_map h m -> Some m <> s_props (cell h s) -> maps h' !! m = maps h !! m) /\
    (forall m, valid_map h m -> valid_map h' m) /\
    (forall k, match props h (cell h s) !! k, props h s2 !! k, ref_props h s2 !! k with
       | Some p, _, _ => props h' (cell h' s) !! k = Some p
       | None, Some p, _ => props h' (cell h' s) !! k = Some p
       | None, None, Some v => exists p, props h' (cell h' s) !! k = Some p /\ took h h' v p
       | None, None, None => props h' (cell h' s) !! k = None
       end) /\
    (forall k, k ∈ s_required (cell h' s) <-> k ∈ s_required (cell h s) \/ newly_required h s s2 k) /\
    (forall m, s_props (cell h' s) = Some m -> s_props (cell h s) = Some m \/ next h <= m).
  Proof.
    intros C Vs K.
    set (rprops := match s_refto s2 with Some r => s_props (cell h r) | None => None end).
    assert (Er : ref_props h s2 = map_at h rprops).
    { unfold ref_props, rprops, props. now destruct (s_refto s2). }
    destruct (option_eq_dec_none2 (s_props s2) rprops) as [[E1 E2]|Ne].
    { unfold merge_props. fold rprops. rewrite E1, E2. cbn zeta. split; [exact C|]. split; [apply extends_refl|]. split.
      { unfold upto_props. now destruct (cell h s). }
      split; [auto|]. split; [auto|].
      assert (Z2 : props h s2 = ∅) by (unfold props; now rewrite E1).
      assert (ZR : ref_props h s2 = ∅) by (rewrite Er, E2; reflexivity).
      split.
      - intros k. rewrite Z2, ZR, !lookup_empty. destruct (props h (cell h s) !! k); reflexivity.
      - split; [|auto]. intros k. split; [auto|]. intros [H|(_ & _ & v & H & _)]; [exact H|]. rewrite ZR, lookup_empty in H. discriminate. }
    rewrite (merge_props_unfold s s2 h Ne).
    set (mh := match s_props (cell h s) with
               | Some m => (m, h)
               | None => let '(m, h) := alloc_map h in (m, upd s (with_props (Some m)) h)
               end).
    (* the map of [s] exists *)
    assert (I : closed (snd mh) /\ extends s h (snd mh) /\ valid_map (snd mh) (fst mh) /\
                cell (snd mh) s = with_props (Some (fst mh)) (cell h s) /\
                map_at (snd mh) (Some (fst mh)) = props h (cell h s) /\
                (forall m, valid_map h m -> valid_map (snd mh) m /\ maps (snd mh) !! m = maps h !! m) /\
                (s_props (cell h s) = Some (fst mh) \/ next h <= fst mh)).
    { unfold mh. destruct (s_props (cell h s)) as [m|] eqn:E.
      - cbn [fst snd]. split; [exact C|]. split; [apply extends_refl|].
        split; [eapply ok_props; [eapply (cl_sch h C); apply valid_cell; exact Vs|exact E]|].
        split; [rewrite <- E; now destruct (cell h s)|]. split; [unfold props; now rewrite E|auto].
      - cbn [alloc_map fst snd]. set (h0 := {| cells := cells h; maps := <[next h:=∅]> (maps h); next := S (next h) |}).
        assert (C0 : closed h0) by exact (closed_alloc_map h C).
        assert (Vs0 : valid h0 s) by exact Vs.
        assert (Vm0 : valid_map h0 (next h)) by (unfold valid_map, h0; cbn; rewrite lookup_insert; eauto).
        split.
        { apply closed_upd; [exact C0|exact Vs0|]. intros [a b d]. constructor; [exact a| |exact d].
          cbn. intros p [= <-]. exact Vm0. }
        split.
        { eapply (extends_trans s h h0); [|apply extends_upd; exact Vs0]. constructor; cbn; auto; lia. }
        split; [exact Vm0|]. split; [rewrite cell_upd_same; reflexivity|]. split.
        { rewrite map_at_upd. unfold props. rewrite E. unfold map_at, h0. cbn. now rewrite lookup_insert. }
        split; [|right; lia].
        intros m Hm. assert (m <> next h) by (intros ->; apply (cl_maps h C) in Hm; lia).
        unfold valid_map, upd, set_cell, h0. cbn. rewrite lookup_insert_ne by congruence. auto. }
    destruct mh as [m h1]. cbn [fst snd] in I. destruct I as (C1 & X1 & Vm1 & S1 & P1 & M1 & W1).
    (* own properties *)
    set (h2 := match s_props s2 with
               | Some p => fold_left (add_own m) (iter p (map_at h1 (Some p))) h1
               | None => h1
               end).
    assert (Same : forall p, valid_map h p -> map_at h1 (Some p) = map_at h (Some p)).
    { intros p Hp. unfold map_at. now rewrite (proj2 (M1 p Hp)). }
    assert (J : cells h2 = cells h1 /\ next h2 = next h1 /\ valid_map h2 m /\
                (forall m', m' <> m -> maps h2 !! m' = maps h1 !! m') /\
                (forall k, map_at h2 (Some m) !! k =
                   match props h (cell h s) !! k with Some p => Some p | None => props h s2 !! k end)).
    { unfold h2. destruct (s_props s2) as [p|] eqn:E.
      - destruct (add_own_fold m (iter p (map_at h1 (Some p))) h1 Vm1 (iter_nodup _ _)) as (a & b & c & d & e).
        split; [exact a|]. split; [exact b|]. split; [exact c|]. split; [exact d|].
        intros k. rewrite e, P1, iter_map. rewrite (Same p) by (now apply (ok_props _ _ K)).
        unfold props at 3. now rewrite E.
      - split; [reflexivity|]. split; [reflexivity|]. split; [exact Vm1|]. split; [auto|].
        intros k. rewrite P1. unfold props at 3. rewrite E. cbn. rewrite lookup_empty.
        now destruct (props h (cell h s) !! k). }
    destruct J as (Ce2 & Nx2 & Vm2 & Mo2 & P2). clearbody h2. cbn zeta.
    assert (Vx : forall x, valid h2 x <-> valid h1 x) by (intros x; unfold valid; now rewrite Ce2).
    assert (Vmx : forall x, valid_map h1 x -> valid_map h2 x).
    { intros x Hx. destruct (decide (x = m)) as [->|N]; [exact Vm2|]. unfold valid_map. now rewrite Mo2. }
    assert (Cl2 : forall x, cell h2 x = cell h1 x) by (intros x; unfold cell; now rewrite Ce2).
    assert (P2v : forall k p, map_at h2 (Some m) !! k = Some p -> valid h p).
    { intros k p. rewrite P2. destruct (props h (cell h s) !! k) as [q|] eqn:E.
      - intros [= <-]. unfold props, map_at in E. destruct (s_props (cell h s)) as [m0|]; [|now rewrite lookup_empty in E].
        destruct (maps h !! m0) as [g|] eqn:G; [|cbn in E; now rewrite lookup_empty in E]. apply (cl_entries h C m0 g k q G E).
      - intros E'. unfold props, map_at in E'. destruct (s_props s2) as [m0|]; [|now rewrite lookup_empty in E'].
        destruct (maps h !! m0) as [g|] eqn:G; [|cbn in E'; now rewrite lookup_empty in E']. apply (cl_entries h C m0 g k p G E'). }
    assert (C2 : closed h2).
    { destruct C1 as [a b c d]. constructor.
      - intros x Hx. rewrite Nx2. apply a. now apply Vx.
      - intros x Hx. rewrite Nx2. destruct (decide (x = m)) as [->|N]; [now apply b|].
        apply b. unfold valid_map in Hx |- *. now rewrite Mo2 in Hx.
      - intros x c' E. rewrite Ce2 in E. apply (ok_sch_mono h1); [intros; now apply Vx|exact Vmx|eauto].
      - intros m' g k v G E. apply Vx. destruct (decide (m' = m)) as [->|N].
        + apply (ex_valid _ _ _ X1). apply (P2v k v). unfold map_at. now rewrite G.
        + rewrite Mo2 in G by exact N. eauto. }
    assert (Vs2 : valid h2 s) by (apply Vx, (ex_valid _ _ _ X1), Vs).
    assert (X2 : extends s h h2).
    { destruct X1 as [a b c d]. constructor.
      - now rewrite Nx2.
      - intros x Hx N. rewrite Ce2. auto.
      - intros x Hx. apply Vx. auto.
      - intros x Hx. apply d. now apply Vx. }
    set (rp := match s_refto s2 with Some r => s_props (cell h2 r) | None => None end).
    (* its entries, as far as they are new *)
    assert (L : forall k, map_at h2 (Some m) !! k = None -> map_at h2 rp !! k = ref_props h s2 !! k).
    { intros k Hk. rewrite Er. unfold rp, rprops. destruct (s_refto s2) as [r|] eqn:Rr; [|reflexivity].
      assert (Vr : valid h r) by now apply (ok_refto _ _ K).
      rewrite Cl2. destruct (decide (r = s)) as [->|Nr].
      - rewrite S1. cbn [with_props s_props]. rewrite Hk.
        change (map_at h (s_props (cell h s))) with (props h (cell h s)).
        rewrite P2 in Hk. now destruct (props h (cell h s) !! k).
      - rewrite (extends_cell s h h1) by assumption. destruct (s_props (cell h r)) as [p|] eqn:Ep; [|reflexivity].
        assert (Vp : valid_map h p) by (eapply ok_props; [eapply (cl_sch h C); apply valid_cell; exact Vr|exact Ep]).
        destruct (decide (p = m)) as [->|Np].
        + rewrite Hk. rewrite <- (Same m Vp), P1. rewrite P2 in Hk. now destruct (props h (cell h s) !! k).
        + unfold map_at. rewrite Mo2 by exact Np. now rewrite (proj2 (M1 p Vp)). }
    assert (Vrp : forall k v, map_at h2 rp !! k = Some v -> valid h2 v).
    { intros k v E. unfold map_at in E. destruct rp as [p|]; [|now rewrite lookup_empty in E].
      destruct (maps h2 !! p) as [g|] eqn:G; [|cbn in E; now rewrite lookup_empty in E].
      apply (cl_entries h2 C2 p g k v G E). }
    assert (Type2 : forall v, valid h v -> s_type (cell h2 v) = s_type (cell h v) /\ s_isreq (cell h2 v) = s_isreq (cell h v)).
    { intros v Hv. rewrite Cl2. destruct (decide (v = s)) as [->|N]; [rewrite S1; auto|].
      now rewrite (extends_cell s h h1). }
    assert (VR : forall k v, ref_props h s2 !! k = Some v -> valid h v).
    { intros k v E. rewrite Er in E. unfold map_at in E. destruct rprops as [p|]; [|now rewrite lookup_empty in E].
      destruct (maps h !! p) as [g|] eqn:G; [|cbn in E; now rewrite lookup_empty in E].
      apply (cl_entries h C p g k v G E). }
    set (h3 := match rp with
               | Some p => fold_left (add_ref s m) (iter p (map_at h2 (Some p))) h2
               | None => h2
               end).
    assert (Q : closed h3 /\ valid_map h3 m /\ extends s h2 h3 /\
      (forall m', m' <> m -> maps h3 !! m' = maps h2 !! m') /\
      upto_required (cell h2 s) (cell h3 s) /\
      (forall k, k ∈ s_required (cell h3 s) <-> k ∈ s_required (cell h2 s) \/
         (map_at h2 (Some m) !! k = None /\ exists v, map_at h2 rp !! k = Some v /\ s_isreq (cell h2 v) = true)) /\
      (forall k p, map_at h2 (Some m) !! k = Some p -> map_at h3 (Some m) !! k = Some p) /\
      (forall k v, map_at h2 rp !! k = Some v -> map_at h2 (Some m) !! k = None ->
         exists p, map_at h3 (Some m) !! k = Some p /\ took h2 h3 v p) /\
      (forall k, map_at h2 (Some m) !! k = None -> map_at h2 rp !! k = None -> map_at h3 (Some m) !! k = None)).
    { unfold h3. destruct rp as [p|].
      - pose proof (add_ref_fold s m (iter p (map_at h2 (Some p))) h2 C2 Vm2 Vs2 (iter_nodup _ _)) as F.
        cbn zeta in F. destruct F as (a & b & c & d & e & f & g & i & j).
        { intros k v H. apply iter_in in H. eauto. }
        split; [exact a|]. split; [exact b|]. split; [exact c|]. split; [exact d|]. split; [exact e|].
        split; [|split; [exact g|split]].
        + intros k. rewrite f. setoid_rewrite iter_in. reflexivity.
        + intros k v H. apply i. now apply iter_in.
        + intros k H1 H2. apply j; [exact H1|]. intros v H. apply iter_in in H. congruence.
      - split; [exact C2|]. split; [exact Vm2|]. split; [apply extends_refl|]. split; [auto|].
        split; [apply upto_refl|]. split; [|split; [auto|split; [|auto]]].
        + intros k. split; [auto|]. intros [H|(_ & v & H & _)]; [exact H|]. cbn in H. now rewrite lookup_empty in H.
        + intros k v H. cbn in H. now rewrite lookup_empty in H. }
    clearbody h3. destruct Q as (C3 & Vm3 & X3 & Mo3 & U3 & R3 & K3 & A3 & Z3).
    assert (S2' : cell h2 s = with_props (Some m) (cell h s)) by now rewrite Cl2.
    assert (Pm : s_props (cell h3 s) = Some m).
    { destruct (upto_fields _ _ U3) as (_ & _ & E & _). rewrite E, S2'. reflexivity. }
    split; [exact C3|]. split; [eapply extends_trans; eassumption|]. split.
    { unfold upto_props. rewrite Pm. unfold upto_required in U3. rewrite S2' in U3. exact U3. }
    split.
    { intros m' Hm Ns. assert (m' <> m).
      { intros ->. destruct W1 as [W1|W1]; [now apply Ns|]. apply (cl_maps h C) in Hm. lia. }
      rewrite Mo3, Mo2 by assumption. now apply M1. }
    split.
    { intros m' Hm. destruct (decide (m' = m)) as [->|N]; [exact Vm3|]. unfold valid_map. rewrite Mo3, Mo2 by exact N.
      rewrite (proj2 (M1 m' Hm)). exact Hm. }
    split.
    - intros k. assert (E3 : props h3 (cell h3 s) = map_at h3 (Some m)) by (unfold props; now rewrite Pm).
      rewrite !E3. pose proof (P2 k) as P2k.
      destruct (props h (cell h s) !! k) as [p|] eqn:Ek; [now apply K3|].
      destruct (props h s2 !! k) as [p|] eqn:Ek2; [now apply K3|].
      pose proof (L k P2k) as Lk. destruct (ref_props h s2 !! k) as [v|] eqn:Ev; [|now apply Z3].
      destruct (A3 k v Lk P2k) as (p & Hp & T). exists p. split; [exact Hp|].
      unfold took in *. destruct (Type2 v (VR k v Ev)) as [T1 T2]. rewrite T1, T2 in T.
      destruct (String.eqb (s_type (cell h v)) "object"); [|exact T].
      destruct T as [Nv T]. split; [|exact T]. intros Hv. apply Nv. now apply (ex_valid _ _ _ X2).
    - split; [|intros m' E; rewrite Pm in E; injection E as <-; exact W1].
      intros k. rewrite R3, S2'. cbn [with_props s_required]. unfold newly_required.
      pose proof (P2 k) as P2k. split.
      + intros [H|(E & v & H & Rq)]; [auto|]. right. pose proof (L k E) as Lk. rewrite E in P2k.
        destruct (props h (cell h s) !! k); [discriminate|]. split; [reflexivity|]. split; [now rewrite <- P2k|].
        exists v. rewrite <- Lk. split; [exact H|]. rewrite Lk in H. destruct (Type2 v (VR k v H)) as [_ <-]. exact Rq.
      + intros [H|(E1 & E2 & v & H & Rq)]; [auto|]. right. rewrite E1, E2 in P2k. split; [exact P2k|].
        exists v. rewrite (L k P2k). split; [exact H|]. destruct (Type2 v (VR k v H)) as [_ ->]. exact Rq.
  Qed.

  Lemma ok_put_allof h c l : ok_sch h c -> Forall (valid h) l -> ok_sch h (with_allof l c).
  Proof.
    intros [a b d] F. constructor; [exact a|exact b|]. intros x. cbn. rewrite !elem_of_app. intros H.
    rewrite Forall_forall in F. specialize (d x). rewrite !elem_of_app in d. intuition auto.
  Qed.
  Lemma ok_put_anyof h c l : ok_sch h c -> Forall (valid h) l -> ok_sch h (with_anyof l c).
  Proof.
    intros [a b d] F. constructor; [exact a|exact b|]. intros x. cbn. rewrite !elem_of_app. intros H.
    rewrite Forall_forall in F. specialize (d x). rewrite !elem_of_app in d. intuition auto.
  Qed.
  Lemma ok_put_oneof h c l : ok_sch h c -> Forall (valid h) l -> ok_sch h (with_oneof l c).
  Proof.
    intros [a b d] F. constructor; [exact a|exact b|]. intros x. cbn. rewrite !elem_of_app. intros H.
    rewrite Forall_forall in F. specialize (d x). rewrite !elem_of_app in d. intuition auto.
  Qed.
  Lemma ok_get_lists h c : ok_sch h c -> Forall (valid h) (s_allof c) /\ Forall (valid h) (s_anyof c) /\ Forall (valid h) (s_oneof c).
  Proof.
    intros [_ _ d]. rewrite !Forall_forall.
    split; [|split]; intros x Hx; apply (d x); rewrite !elem_of_app; auto 10.
  Qed.

  (** Everything [MergeWith] does. *)
  Lemma merge_with_spec s s2 h : closed h -> valid h s -> ok_sch h s2 ->
    let h' := merge_with iter s s2 h in
    closed h' /\ extends s h h' /\
    s_type (cell h' s) = "object" /\
    s_isreq (cell h' s) = s_isreq (cell h s) /\ s_refto (cell h' s) = s_refto (cell h s) /\
    (forall m, valid_map h m -> Some m <> s_props (cell h s) -> maps h' !! m = maps h !! m) /\
    merged_props h h' s s2 /\
    first_occurrences id (s_required (cell (merge_props iter s s2
        (merge_list s_oneof with_oneof s s2 (merge_list s_anyof with_anyof s s2
          (merge_list s_allof with_allof s s2 (upd s (with_type "object") h))))) s) ++ s_required s2)
      (s_required (cell h' s)) /\
    (forall k, k ∈ s_required (cell h' s) <->
       k ∈ s_required (cell h s) \/ k ∈ s_required s2 \/ newly_required h s s2 k) /\
    (forall m, valid_map h m -> valid_map h' m) /\
    (forall m, s_props (cell h' s) = Some m -> s_props (cell h s) = Some m \/ next h <= m) /\
    s_not (cell h' s) = s_not (cell h s).
  Proof.
    intros C Vs K. unfold merge_with.
    set (h0 := upd s (with_type "object") h).
    assert (C0 : closed h0).
    { apply closed_upd; [exact C|exact Vs|]. intros [a b d]. constructor; [exact a|exact b|exact d]. }
    assert (X0 : extends s h h0) by now apply extends_upd.
    assert (K0 : ok_sch h0 s2) by (apply (ok_sch_mono h); [apply (ex_valid _ _ _ X0)|auto|exact K]).
    assert (V0 : valid h0 s) by now apply (ex_valid _ _ _ X0).
    assert (S0 : same_core (cell h s) (cell h0 s) /\ s_type (cell h0 s) = "object").
    { unfold h0. rewrite cell_upd_same. unfold same_core. now destruct (cell h s). }
    destruct (merge_list_spec s_allof with_allof s s2 h0) as (C1 & X1 & M1 & S1 & T1);
      [now intros []|apply ok_put_allof|intros ? ? O; now apply ok_get_lists|exact C0|exact V0|exact K0|].
    set (h1 := merge_list s_allof with_allof s s2 h0) in *.
    assert (K1 : ok_sch h1 s2).
    { apply (ok_sch_mono h0); [apply (ex_valid _ _ _ X1)| |exact K0]. intros m. unfold valid_map. now rewrite M1. }
    assert (V1 : valid h1 s) by now apply (ex_valid _ _ _ X1).
    destruct (merge_list_spec s_anyof with_anyof s s2 h1) as (C2 & X2 & M2 & S2 & T2);
      [now intros []|apply ok_put_anyof|intros ? ? O; now apply ok_get_lists|exact C1|exact V1|exact K1|].
    set (h2 := merge_list s_anyof with_anyof s s2 h1) in *.
    assert (K2 : ok_sch h2 s2).
    { apply (ok_sch_mono h1); [apply (ex_valid _ _ _ X2)| |exact K1]. intros m. unfold valid_map. now rewrite M2. }
    assert (V2 : valid h2 s) by now apply (ex_valid _ _ _ X2).
    destruct (merge_list_spec s_oneof with_oneof s s2 h2) as (C3 & X3 & M3 & S3 & T3);
      [now intros []|apply ok_put_oneof|intros ? ? O; now apply ok_get_lists|exact C2|exact V2|exact K2|].
    set (h3 := merge_list s_oneof with_oneof s s2 h2) in *.
    assert (K3 : ok_sch h3 s2).
    { apply (ok_sch_mono h2); [apply (ex_valid _ _ _ X3)| |exact K2]. intros m. unfold valid_map. now rewrite M3. }
    assert (V3 : valid h3 s) by now apply (ex_valid _ _ _ X3).
    assert (X : extends s h h3) by (repeat (eapply extends_trans; [eassumption|]); apply extends_refl).
    assert (M : maps h3 = maps h) by (rewrite M3, M2, M1; reflexivity).
    destruct S0 as [S0 T0].
    assert (Score : same_core (cell h s) (cell h3 s) /\ s_type (cell h3 s) = "object").
    { split; [|congruence]. destruct S0 as (?&?&?&?&?&?), S1 as (?&?&?&?&?&?), S2 as (?&?&?&?&?&?), S3 as (?&?&?&?&?&?).
      unfold same_core. repeat split; congruence. }
    clearbody h3. clear h0 h1 h2 C0 C1 C2 X0 X1 X2 X3 K0 K1 K2 V0 V1 V2 S0 S1 S2 S3 T0 T1 T2 T3 M1 M2 M3.
    destruct Score as [(Sp & Sr & Si & Sf & _ & Sn) T].
    assert (MA : forall p, map_at h3 p = map_at h p) by (intros [p|]; unfold map_at; now rewrite ?M).
    assert (PP : forall c, props h3 c = props h c) by (intros c; apply MA).
    assert (RP : ref_props h3 s2 = ref_props h s2).
    { unfold ref_props. destruct (s_refto s2) as [r|] eqn:E; [|reflexivity]. rewrite PP. unfold props.
      destruct (decide (r = s)) as [->|N]; [now rewrite Sp|].
      rewrite (extends_cell s h h3); [reflexivity|exact X|now apply (ok_refto _ _ K)|exact N]. }
    assert (PS : props h3 (cell h3 s) = props h (cell h s)) by (rewrite PP; unfold props; now rewrite Sp).
    assert (VR : forall k v, ref_props h s2 !! k = Some v -> valid h v).
    { intros k v E. unfold ref_props in E. destruct (s_refto s2) as [r|]; [|now rewrite lookup_empty in E].
      unfold props, map_at in E. destruct (s_props (cell h r)) as [p|]; [|now rewrite lookup_empty in E].
      destruct (maps h !! p) as [g|] eqn:G; [|cbn in E; now rewrite lookup_empty in E].
      apply (cl_entries h C p g k v G E). }
    assert (Rq : forall v, valid h v -> s_isreq (cell h3 v) = s_isreq (cell h v)).
    { intros v Hv. destruct (decide (v = s)) as [->|N]; [exact Si|]. now rewrite (extends_cell s h h3). }
    pose proof (merge_props_spec s s2 h3 C3 V3 K3) as P. cbn zeta in P.
    set (h4 := merge_props iter s s2 h3) in *. destruct P as (C4 & X4 & U4 & M4 & Vm4 & P4 & R4 & W4).
    assert (V4 : valid h4 s) by now apply (ex_valid _ _ _ X4).
    assert (Ty4 : forall v, valid h3 v -> s_type (cell h4 v) = s_type (cell h3 v)).
    { intros v Hv. destruct (decide (v = s)) as [->|N]; [|now rewrite (extends_cell s h3 h4)].
      unfold upto_props in U4. rewrite U4. now destruct (cell h3 s). }
    cbn zeta. set (f := fun c => with_required (remove_duplicate (s_required c ++ s_required s2)) c).
    assert (Cf : cell (upd s f h4) s = f (cell h4 s)) by apply cell_upd_same.
    assert (Props5 : props (upd s f h4) (cell (upd s f h4) s) = props h4 (cell h4 s)) by (rewrite Cf; reflexivity).
    split.
    { apply closed_upd; [exact C4|exact V4|]. intros [a b d]. constructor; [exact a|exact b|exact d]. }
    split.
    { eapply extends_trans; [exact X|]. eapply extends_trans; [exact X4|]. now apply extends_upd. }
    rewrite Cf. unfold upto_props in U4.
    split; [change (s_type (cell h4 s) = "object"); rewrite U4; destruct (cell h3 s); exact T|].
    split; [change (s_isreq (cell h4 s) = s_isreq (cell h s)); rewrite U4; rewrite <- Si; now destruct (cell h3 s)|].
    split; [change (s_refto (cell h4 s) = s_refto (cell h s)); rewrite U4; rewrite <- Sf; now destruct (cell h3 s)|].
    split.
    { intros m Hm N. change (maps h4 !! m = maps h !! m). rewrite M4; [now rewrite M| |].
      - unfold valid_map. now rewrite M.
      - now rewrite Sp. }
    split.
    { intros k. specialize (P4 k). rewrite PS, PP, RP in P4. rewrite Props5.
      destruct (props h (cell h s) !! k); [exact P4|]. destruct (props h s2 !! k); [exact P4|].
      destruct (ref_props h s2 !! k) as [v|] eqn:Ev; [|exact P4]. destruct P4 as (p & Hp & Tk).
      exists p. split; [exact Hp|]. pose proof (VR k v Ev) as Vv. unfold taken_over, took in *.
      rewrite (Rq v Vv) in Tk.
      assert (Tyv : s_type (cell (upd s f h4) v) = s_type (cell h3 v)).
      { destruct (decide (v = s)) as [->|N].
        - rewrite Cf. change (s_type (cell h4 s) = s_type (cell h3 s)). now apply Ty4.
        - rewrite cell_upd_other by congruence. apply Ty4. now apply (ex_valid _ _ _ X). }
      rewrite Tyv. destruct (String.eqb (s_type (cell h3 v)) "object"); [|exact Tk].
      destruct Tk as [Nv Tk]. split; [intros Hv; apply Nv; now apply (ex_valid _ _ _ X)|].
      unfold upd, set_cell. cbn [cells]. rewrite lookup_insert_ne; [exact Tk|].
      intros Eq. apply Nv. rewrite <- Eq. exact V3. }
    split; [apply remove_duplicate_first|].
    split; [|split; [|split]].
    2: { intros m Hm. change (valid_map h4 m). apply Vm4. unfold valid_map. now rewrite M. }
    3: { change (s_not (cell h4 s) = s_not (cell h s)). rewrite U4, <- Sn. now destruct (cell h3 s). }
    2: { intros m E. rewrite <- Sp. destruct (W4 m E) as [H|H]; [now left|]. right. pose proof (ex_next _ _ _ X). lia. }
    intros k. unfold f at 1. cbn [with_required s_required]. rewrite remove_duplicate_in, elem_of_app, R4, Sr.
    unfold newly_required. rewrite PS, PP, RP.
    assert (E : (exists v, ref_props h s2 !! k = Some v /\ s_isreq (cell h3 v) = true) <->
                (exists v, ref_props h s2 !! k = Some v /\ s_isreq (cell h v) = true)).
    { split; intros (v & E & H); exists v; (split; [exact E|]); [rewrite <- (Rq v (VR k v E))|rewrite (Rq v (VR k v E))]; exact H. }
    rewrite E. tauto.
  Qed.

  (** Mandatory fields after a merge. *)
  Lemma merge_mandatory s s2 h : closed h -> valid h s -> ok_sch h s2 ->
    forall k, mandatory (merge_with iter s s2 h) (cell (merge_with iter s s2 h) s) k <->
      k ∈ s_required (cell h s) \/ k ∈ s_required s2 \/
      exists p, origin h s s2 k = Some p /\ s_isreq (cell h p) = true.
  Proof.
    intros C Vs K k. pose proof (merge_with_spec s s2 h C Vs K) as P. cbn zeta in P.
    destruct P as (C' & X & T & I & F & M & P & _ & R & _). set (h' := merge_with iter s s2 h) in *.
    specialize (P k). unfold mandatory. rewrite R. clear R M F.
    assert (Rq : forall v, valid h v -> s_isreq (cell h' v) = s_isreq (cell h v)).
    { intros v Hv. destruct (decide (v = s)) as [->|N]; [exact I|]. now rewrite (extends_cell s h h'). }
    assert (VP : forall c v, ok_sch h c -> props h c !! k = Some v -> valid h v).
    { intros c v O E. unfold props, map_at in E. destruct (s_props c) as [p|]; [|now rewrite lookup_empty in E].
      destruct (maps h !! p) as [g|] eqn:G; [|cbn in E; now rewrite lookup_empty in E].
      apply (cl_entries h C p g k v G E). }
    assert (Oc : forall l, valid h l -> ok_sch h (cell h l)).
    { intros l Hl. apply (cl_sch h C l). now apply valid_cell. }
    assert (VR : forall v, ref_props h s2 !! k = Some v -> valid h v).
    { intros v E. unfold ref_props in E. destruct (s_refto s2) as [r|] eqn:Er; [|now rewrite lookup_empty in E].
      apply (VP (cell h r)); [|exact E]. apply Oc. now apply (ok_refto _ _ K). }
    unfold newly_required, origin.
    destruct (props h (cell h s) !! k) as [p|] eqn:E1.
    { assert (Vp : valid h p) by (apply (VP (cell h s)); [now apply Oc|exact E1]). rewrite P. split.
      - intros [[H|[H|(H & _)]]|(q & [= <-] & Hq)]; [tauto|tauto|discriminate|]. right. right. exists p.
        split; [reflexivity|]. now rewrite <- (Rq p Vp).
      - intros [H|[H|(q & [= <-] & Hq)]]; [tauto|tauto|]. right. exists p. split; [reflexivity|]. now rewrite (Rq p Vp). }
    destruct (props h s2 !! k) as [p|] eqn:E2.
    { assert (Vp : valid h p) by (apply (VP s2); [exact K|exact E2]). rewrite P. split.
      - intros [[H|[H|(_ & H & _)]]|(q & [= <-] & Hq)]; [tauto|tauto|discriminate|]. right. right. exists p.
        split; [reflexivity|]. now rewrite <- (Rq p Vp).
      - intros [H|[H|(q & [= <-] & Hq)]]; [tauto|tauto|]. right. exists p. split; [reflexivity|]. now rewrite (Rq p Vp). }
    destruct (ref_props h s2 !! k) as [v|] eqn:E3.
    - destruct P as (p & Hp & Tk). assert (Vv : valid h v) by now apply VR. split.
      + intros [[H|[H|(_ & _ & H)]]|(q & Hq & Rqq)]; [tauto|tauto|tauto|].
        rewrite Hp in Hq. injection Hq as <-. right. right. exists v. split; [reflexivity|].
        unfold taken_over in Tk. destruct (String.eqb (s_type (cell h' v)) "object").
        * destruct Tk as [_ Tk]. rewrite (cell_some h' p _ Tk) in Rqq. exact Rqq.
        * subst p. now rewrite <- (Rq v Vv).
      + intros [H|[H|H]]; [tauto|tauto|]. left. right. right. auto.
    - rewrite P. split.
      + intros [[H|[H|(_ & _ & q & H & _)]]|(q & H & _)]; [tauto|tauto|discriminate..].
      + intros [H|[H|(q & H & _)]]; [tauto|tauto|discriminate].
  Qed.
End schema.

(** A check for concrete graphs. *)
Definition closedb (h : heap) : bool :=
  (forallb (fun '(l, c) =>
     Nat.ltb l (next h) && forallb (fun x => bool_decide (is_Some (cells h !! x)))
        (opt_list (s_refto c) ++ s_pattern c ++ opt_list (s_addprops c) ++ s_additems c ++ opt_list (s_items c)
         ++ s_contains c ++ s_anyof c ++ s_oneof c ++ s_allof c ++ opt_list (s_not c))
     && forallb (fun m => bool_decide (is_Some (maps h !! m))) (opt_list (s_props c))) (map_to_list (cells h))
   && forallb (fun '(m, g) => Nat.ltb m (next h) && forallb (fun kv => bool_decide (is_Some (cells h !! snd kv))) (map_to_list g))
        (map_to_list (maps h)))%bool.

Lemma closed_check h : closedb h = true -> closed h.
Proof.
  unfold closedb. rewrite andb_true_iff, !forallb_forall. intros [A B]. constructor.
  - intros l [c E]. apply elem_of_map_to_list, elem_of_list_In in E. specialize (A (l, c) E). cbn in A.
    rewrite !andb_true_iff in A. destruct A as [[A _] _]. now apply Nat.ltb_lt.
  - intros m [g E]. apply elem_of_map_to_list, elem_of_list_In in E. specialize (B (m, g) E). cbn in B.
    rewrite andb_true_iff in B. destruct B as [B _]. now apply Nat.ltb_lt.
  - intros l c E. apply elem_of_map_to_list, elem_of_list_In in E. specialize (A (l, c) E). cbn -[app] in A.
    rewrite !andb_true_iff, !forallb_forall in A. destruct A as [[_ A] M]. constructor.
    + intros r Hr. refine (proj1 (bool_decide_eq_true _) (A r _)). rewrite Hr. now left.
    + intros p Hp. refine (proj1 (bool_decide_eq_true _) (M p _)). rewrite Hp. now left.
    + intros x Hx. refine (proj1 (bool_decide_eq_true _) (A x _)). apply elem_of_list_In in Hx. apply in_or_app. now right.
  - intros m g k v E Ek. apply elem_of_map_to_list, elem_of_list_In in E. specialize (B (m, g) E). cbn in B.
    rewrite andb_true_iff, forallb_forall in B. destruct B as [_ B].
    refine (proj1 (bool_decide_eq_true _) (B (k, v) _)). apply elem_of_list_In, elem_of_map_to_list. exact Ek.
Qed.

Global Instance mandatory_dec h c k : Decision (mandatory h c k).
Proof.
  unfold mandatory. refine (or_dec _ _).
  refine (match props h c !! k as o return Decision (exists p, o = Some p /\ s_isreq (cell h p) = true) with
          | Some p => match s_isreq (cell h p) as b return s_isreq (cell h p) = b -> _ with
                      | true => fun E => left _ | false => fun E => right _ end eq_refl
          | None => right _ end).
  - now exists p.
  - intros (q & [= <-] & H). congruence.
  - intros (q & H & _). discriminate.
Defined.
