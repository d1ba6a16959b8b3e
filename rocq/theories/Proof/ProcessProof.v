From stdpp Require Import gmap list strings.
From Coq Require Import Ascii String Lia.
From Verif.Model Require Import Reference Slices Schema.
From Verif.Spec Require Import SlicesSpec SchemaSpec ReferenceSpec ProcessSpec.
From Verif.Proof Require Import SlicesProof ReferenceProof SchemaProof.

(** * Every schema is visited and its reference set *)
Record fresh (h : heap) : Prop := {
  fr_cells l : valid h l -> l < next h;
  fr_maps m : valid_map h m -> m < next h;
  fr_props l m : s_props (cell h l) = Some m -> m < next h;
}.
(** Properties only come in addition. *)
Definition enlarges (h h' : heap) : Prop := forall l k v, props h (cell h l) !! k = Some v -> props h' (cell h' l) !! k = Some v.

Section visit.
  Variable iter : nat -> gmap string nat -> list (string * nat).
  Hypothesis iter_perm : forall m g, iter m g ≡ₚ map_to_list g.
  Variable resolve : heap -> string -> res nat.
  Hypothesis resolve_mono : forall h h' ref r, enlarges h h' -> resolve h ref = Ok r -> resolve h' ref = Ok r.
  Variable v2 : bool.

  Definition lists (c : sch) : Prop := v2 = false \/ s_ref c = ""%string.
  Record kept (c c' : sch) : Prop := {
    k_ref : s_ref c' = s_ref c;
    k_pattern : s_pattern c' = s_pattern c;
    k_addprops : s_addprops c' = s_addprops c;
    k_additems : s_additems c' = s_additems c;
    k_items : s_items c' = s_items c;
    k_contains : s_contains c' = s_contains c;
    k_not : s_not c' = s_not c;
    k_lists : lists c -> s_anyof c ⊆ s_anyof c' /\ s_oneof c ⊆ s_oneof c' /\ s_allof c ⊆ s_allof c';
    k_props m : s_props c = Some m -> s_props c' = Some m;
    k_flag : s_isreq c = true -> s_isreq c' = true;
    k_same : s_ref c = ""%string -> s_isreq c' = s_isreq c;
    k_plain : s_ref c = ""%string -> s_refto c' = s_refto c /\ s_required c ⊆ s_required c';
  }.
  Definition linked (h : heap) (c : sch) : Prop := exists r, resolve h (s_ref c) = Ok r /\ s_refto c = Some r.
  Record grows (h h' : heap) : Prop := {
    g_valid x : valid h x -> valid h' x;
    g_kept x : valid h x -> kept (cell h x) (cell h' x);
    g_maps m g : maps h !! m = Some g -> exists g', maps h' !! m = Some g' /\ g ⊆ g';
    g_refto x : valid h x -> s_refto (cell h' x) = s_refto (cell h x) \/ linked h' (cell h' x);
    g_next : next h <= next h';
  }.

  Lemma invalid_cell h x : ~ valid h x -> cell h x = empty_sch.
  Proof. intros V. unfold cell. destruct (cells h !! x) eqn:E; [exfalso; apply V; eexists; exact E|reflexivity]. Qed.
  Lemma valid_dec h x : valid h x \/ ~ valid h x.
  Proof. unfold valid. destruct (cells h !! x); [left; eauto|right; intros [? ?]; discriminate]. Qed.

  Lemma grows_enlarges h h' : grows h h' -> enlarges h h'.
  Proof.
    intros G l k v E. destruct (valid_dec h l) as [V|V].
    - unfold props, map_at in *. destruct (s_props (cell h l)) as [m|] eqn:Em; [|now rewrite lookup_empty in E].
      rewrite (k_props _ _ (g_kept _ _ G l V) m Em). destruct (maps h !! m) as [g|] eqn:Eg; cbn in E; [|now rewrite lookup_empty in E].
      destruct (g_maps _ _ G m g Eg) as (g' & -> & S). cbn. now apply (lookup_weaken g).
    - rewrite (invalid_cell h l V) in E. unfold props, map_at in E. cbn in E. now rewrite lookup_empty in E.
  Qed.
  Lemma kept_refl c : kept c c.
  Proof. constructor; try reflexivity. all: auto. Qed.
  Lemma kept_trans a b c : kept a b -> kept b c -> kept a c.
  Proof.
    intros [A1 A2 A3 A4 A5 A6 A7 A8 A9 A10 A11 A12] [B1 B2 B3 B4 B5 B6 B7 B8 B9 B10 B11 B12]. constructor; try congruence.
    - intros L. destruct (A8 L) as (? & ? & ?). destruct B8 as (? & ? & ?); [unfold lists in *; rewrite A1; exact L|].
      split; [|split]; etransitivity; eassumption.
    - intros m E. apply B9, A9, E.
    - intros E. apply B10, A10, E.
    - intros E. rewrite B11 by congruence. now apply A11.
    - intros E. destruct (A12 E) as [A R]. destruct B12 as [B R']; [congruence|]. split; [congruence|]. etransitivity; eassumption.
  Qed.
  Lemma grows_refl h : grows h h.
  Proof. constructor; [auto|intros; apply kept_refl|intros m g E; exists g; auto|auto|lia]. Qed.
  Lemma linked_grows h h' x : grows h h' -> valid h x -> linked h (cell h x) -> linked h' (cell h' x).
  Proof.
    intros G V (r & R & E). destruct (g_refto _ _ G x V) as [S|S]; [|exact S]. exists r. split; [|congruence].
    rewrite (k_ref _ _ (g_kept _ _ G x V)). apply (resolve_mono h); [now apply grows_enlarges|exact R].
  Qed.
  Lemma grows_trans a b c : grows a b -> grows b c -> grows a c.
  Proof.
    intros G1 G2. constructor.
    - intros x V. apply (g_valid _ _ G2), (g_valid _ _ G1), V.
    - intros x V. eapply kept_trans; [apply (g_kept _ _ G1 x V)|apply (g_kept _ _ G2), (g_valid _ _ G1), V].
    - intros m g E. destruct (g_maps _ _ G1 m g E) as (g' & E' & S). destruct (g_maps _ _ G2 m g' E') as (g'' & E'' & S').
      exists g''. split; [exact E''|]. etransitivity; eassumption.
    - intros x V. pose proof (g_valid _ _ G1 x V) as V'. destruct (g_refto _ _ G2 x V') as [E|L]; [|now right].
      destruct (g_refto _ _ G1 x V) as [E'|L]; [left; congruence|]. right. now apply (linked_grows b).
    - pose proof (g_next _ _ G1). pose proof (g_next _ _ G2). lia.
  Qed.

  (** ** Elementary changes *)
  Definition good (h h' : heap) : Prop := fresh h -> fresh h' /\ grows h h'.
  Lemma good_refl h : good h h. Proof. intros F. split; [exact F|apply grows_refl]. Qed.
  Lemma good_trans a b c : good a b -> good b c -> good a c.
  Proof. intros A B F. destruct (A F) as [F' G]. destruct (B F') as [F'' G']. split; [exact F''|]. now apply (grows_trans a b). Qed.
  Lemma good_upd l f h : valid h l -> kept (cell h l) (f (cell h l)) -> (forall m, s_props (f (cell h l)) = Some m -> s_props (cell h l) = Some m \/ m < next h) ->
    (s_refto (f (cell h l)) = s_refto (cell h l) \/ linked (upd l f h) (f (cell h l))) -> good h (upd l f h).
  Proof.
    intros V K P R [A B D]. split.
    { constructor; [intros x Hx; apply A; now apply valid_upd_inv in Hx|exact B|]. intros x m.
      destruct (decide (l = x)) as [<-|N]; [rewrite cell_upd_same|rewrite cell_upd_other by exact N; apply D].
      intros E. destruct (P m E) as [E'|E']; [exact (D l m E')|exact E']. }
    constructor.
    - intros x. apply valid_upd.
    - intros x Hx. destruct (decide (l = x)) as [<-|N]; [now rewrite cell_upd_same|rewrite cell_upd_other by exact N; apply kept_refl].
    - intros m g E. exists g. auto.
    - intros x Hx. destruct (decide (l = x)) as [<-|N]; [now rewrite cell_upd_same|rewrite cell_upd_other by exact N; now left].
    - cbn. lia.
  Qed.
  Lemma good_alloc c h : s_props c = None -> good h (snd (alloc c h)).
  Proof.
    intros P [A B D]. assert (N : forall x, valid h x -> next h <> x) by (intros x Hx E; specialize (A x Hx); lia).
    split; [|constructor].
    - constructor; cbn.
      + intros x [c' E]. cbn in E. destruct (decide (next h = x)) as [<-|Ne]; [lia|]. rewrite lookup_insert_ne in E by exact Ne.
        specialize (A x (ex_intro _ c' E)). lia.
      + intros m Hm. specialize (B m Hm). lia.
      + intros x m. unfold cell. cbn. destruct (decide (next h = x)) as [<-|Ne]; [rewrite lookup_insert; cbn; congruence|].
        rewrite lookup_insert_ne by exact Ne. intros E. specialize (D x m E). lia.
    - intros x Hx. unfold valid. cbn. rewrite lookup_insert_ne by now apply N. exact Hx.
    - intros x Hx. unfold cell. cbn. rewrite lookup_insert_ne by now apply N. apply kept_refl.
    - intros m g E. exists g. auto.
    - intros x Hx. left. unfold cell. cbn. now rewrite lookup_insert_ne by now apply N.
    - cbn. lia.
  Qed.
  Lemma good_alloc_map h : good h (snd (alloc_map h)).
  Proof.
    intros [A B D]. split; [|constructor].
    - constructor; cbn.
      + intros x Hx. specialize (A x Hx). lia.
      + intros m [g E]. cbn in E. destruct (decide (next h = m)) as [<-|Ne]; [lia|]. rewrite lookup_insert_ne in E by exact Ne.
        specialize (B m (ex_intro _ g E)). lia.
      + intros x m E. specialize (D x m E). lia.
    - auto.
    - intros x Hx. apply kept_refl.
    - intros m g E. exists g. split; [|reflexivity]. cbn. rewrite lookup_insert_ne; [exact E|]. intros <-.
      specialize (B (next h) (ex_intro _ g E)). lia.
    - auto.
    - cbn. lia.
  Qed.
  (** Entering a property that was not there. *)
  Lemma good_enter m k v h : map_at h (Some m) !! k = None -> m < next h -> good h (set_map m (<[k := v]> (map_at h (Some m))) h).
  Proof.
    intros N L [A B D]. split; [|constructor].
    - constructor; [exact A| |exact D]. intros x Hx. unfold valid_map, set_map in Hx. cbn in *.
      destruct (decide (m = x)) as [<-|Ne]; [exact L|]. rewrite lookup_insert_ne in Hx by exact Ne. apply B, Hx.
    - auto.
    - intros x Hx. apply kept_refl.
    - intros x g E. unfold set_map. cbn [maps]. destruct (decide (m = x)) as [<-|Ne].
      + rewrite lookup_insert. eexists. split; [reflexivity|]. unfold map_at in *. rewrite E in *. cbn in *. now apply insert_subseteq.
      + rewrite lookup_insert_ne by exact Ne. exists g. auto.
    - auto.
    - cbn. lia.
  Qed.

  Lemma alloc_refs_good vs : forall h, good h (snd (alloc_refs vs h)).
  Proof.
    induction vs as [|v vs IH]; intros h; cbn; [apply good_refl|].
    set (h1 := snd (alloc (with_refto (Some v) empty_sch) h)). specialize (IH h1).
    change (good h (alloc_refs (v :: vs) h).2). cbn [alloc_refs]. change (alloc (with_refto (Some v) empty_sch) h) with (next h, h1).
    apply (good_trans _ h1); [now apply good_alloc|]. cbn zeta beta iota. destruct (alloc_refs vs h1). exact IH.
  Qed.
  Lemma good_valid h h' x : good h h' -> fresh h -> valid h x -> valid h' x.
  Proof. intros G F V. apply (g_valid h); [now apply G|exact V]. Qed.

  (** As [good], for changes of a given schema. *)
  Definition safe (s : nat) (h h' : heap) : Prop := valid h s -> good h h'.
  Lemma safe_trans s a b c : safe s a b -> safe s b c -> safe s a c.
  Proof. intros A B V F. destruct (A V F) as [F' G]. specialize (B (g_valid _ _ G s V) F') as [F'' G']. split; [exact F''|]. now apply (grows_trans a b). Qed.
  Lemma safe_upd s f h : (forall c, kept c (f c) /\ s_props (f c) = s_props c /\ s_refto (f c) = s_refto c) -> safe s h (upd s f h).
  Proof. intros H V. destruct (H (cell h s)) as (K & P & R). apply good_upd; [exact V|exact K|intros m; rewrite P; auto|now left]. Qed.

  Lemma merge_list_safe get put s s2 h :
    (forall c l, get c ⊆ l -> kept c (put l c) /\ s_props (put l c) = s_props c /\ s_refto (put l c) = s_refto c) -> safe s h (merge_list get put s s2 h).
  Proof.
    intros H. unfold merge_list. set (extra := match s_refto s2 with Some r => get (cell h r) | None => [] end).
    pose proof (alloc_refs_good extra h) as A. destruct (alloc_refs extra h) as [ps h1]. cbn in A.
    apply (safe_trans s h h1); [intros _; exact A|]. apply safe_upd. intros c. apply H. intros x. rewrite elem_of_app. auto.
  Qed.
  Lemma add_own_good m h kv : m < next h -> good h (add_own m h kv) /\ next (add_own m h kv) = next h.
  Proof.
    intros V. unfold add_own. destruct (map_at h (Some m) !! kv.1) eqn:E; [split; [apply good_refl|reflexivity]|].
    split; [now apply good_enter|reflexivity].
  Qed.
  Lemma add_ref_safe s m h kv : m < next h -> safe s h (add_ref s m h kv) /\ next h <= next (add_ref s m h kv).
  Proof.
    intros V. unfold add_ref. destruct kv as [k v]. destruct (map_at h (Some m) !! k) eqn:E; [split; [intros _; apply good_refl|lia]|].
    assert (L : forall p h1, good h h1 -> maps h1 = maps h -> next h <= next h1 -> let h2 := set_map m (<[k := p]> (map_at h1 (Some m))) h1 in
      safe s h (if s_isreq (cell h v) then upd s (fun c => with_required (s_required c ++ [k])%list c) h2 else h2) /\
      next h <= next (if s_isreq (cell h v) then upd s (fun c => with_required (s_required c ++ [k])%list c) h2 else h2)).
    { intros p h1 G M Nx h2.
      assert (G2 : good h h2). { apply (good_trans _ h1); [exact G|]. apply good_enter; [|lia]. unfold map_at in *. now rewrite M. }
      destruct (s_isreq (cell h v)); [|split; [intros _; exact G2|exact Nx]]. split; [|exact Nx].
      apply (safe_trans s h h2); [intros _; exact G2|]. apply safe_upd. intros c. split; [|now destruct c]. constructor; destruct c; cbn; auto.
      intros _. split; [reflexivity|]. intros x. rewrite elem_of_app. auto. }
    destruct (String.eqb (s_type (cell h v)) "object").
    - apply (L (next h) (snd (alloc (with_isreq (s_isreq (cell h v)) (with_refto (Some v) empty_sch)) h))); [now apply good_alloc|reflexivity|cbn; lia].
    - apply (L v h); [apply good_refl|reflexivity|lia].
  Qed.
  Lemma fold_own_good m l : forall h, m < next h -> good h (fold_left (add_own m) l h) /\ next (fold_left (add_own m) l h) = next h.
  Proof.
    induction l as [|kv l IH]; intros h V; cbn; [split; [apply good_refl|reflexivity]|].
    destruct (add_own_good m h kv V) as [G N]. destruct (IH (add_own m h kv)) as [G' N']; [lia|]. split; [now apply (good_trans _ (add_own m h kv))|lia].
  Qed.
  Lemma fold_ref_safe s m l : forall h, m < next h -> safe s h (fold_left (add_ref s m) l h).
  Proof.
    induction l as [|kv l IH]; intros h V; cbn; [intros _; apply good_refl|].
    destruct (add_ref_safe s m h kv V) as [G N]. apply (safe_trans s _ (add_ref s m h kv)); [exact G|]. apply IH. lia.
  Qed.
  Lemma merge_props_safe s s2 h : safe s h (merge_props iter s s2 h).
  Proof.
    unfold merge_props.
    assert (L : safe s h (let '(m, h) := match s_props (cell h s) with
                       | Some m => (m, h)
                       | None => let '(m, h) := alloc_map h in (m, upd s (with_props (Some m)) h)
                       end in
        let h := match s_props s2 with
                 | Some p => fold_left (add_own m) (iter p (map_at h (Some p))) h
                 | None => h
                 end in
        match (match s_refto s2 with Some r => s_props (cell h r) | None => None end) with
        | Some p => fold_left (add_ref s m) (iter p (map_at h (Some p))) h
        | None => h
        end)).
    2: { destruct (s_props s2); [exact L|]. destruct (match s_refto s2 with Some r => s_props (cell h r) | None => None end); [exact L|]. intros _. apply good_refl. }
    intros V F.
    assert (S1 : exists m h1, match s_props (cell h s) with
                       | Some m => (m, h)
                       | None => let '(m, h) := alloc_map h in (m, upd s (with_props (Some m)) h)
                       end = (m, h1) /\ fresh h1 /\ grows h h1 /\ m < next h1).
    { destruct (s_props (cell h s)) as [m|] eqn:E.
      - exists m, h. split; [reflexivity|]. split; [exact F|]. split; [apply grows_refl|]. now apply (fr_props h F s).
      - eexists _, _. split; [reflexivity|]. destruct (good_alloc_map h F) as [F1 G1].
        assert (V1 : valid (snd (alloc_map h)) s) by now apply (g_valid _ _ G1).
        destruct (good_upd s (with_props (Some (next h))) (snd (alloc_map h)) V1) as [F2 G2]; [| | |exact F1|].
        + change (cell (snd (alloc_map h)) s) with (cell h s). constructor; try (now destruct (cell h s)).
          intros m. rewrite E. discriminate.
        + cbn. intros m [= <-]. right. lia.
        + left. reflexivity.
        + split; [exact F2|]. split; [now apply (grows_trans _ (snd (alloc_map h)))|]. cbn. lia. }
    destruct S1 as (m & h1 & -> & F1 & G1 & L1). cbn zeta.
    set (h2 := match s_props s2 with Some p => fold_left (add_own m) (iter p (map_at h1 (Some p))) h1 | None => h1 end).
    assert (S2 : fresh h2 /\ grows h1 h2 /\ m < next h2).
    { unfold h2. destruct (s_props s2) as [p|]; [|split; [exact F1|]; split; [apply grows_refl|exact L1]].
      destruct (fold_own_good m (iter p (map_at h1 (Some p))) h1 L1) as [G N]. destruct (G F1) as [F2 G2]. split; [exact F2|]. split; [exact G2|lia]. }
    destruct S2 as (F2 & G2 & L2). pose proof (grows_trans _ _ _ G1 G2) as G3.
    destruct (match s_refto s2 with Some r => s_props (cell h2 r) | None => None end) as [p|]; [|split; [exact F2|exact G3]].
    destruct (fold_ref_safe s m (iter p (map_at h2 (Some p))) h2 L2 (g_valid _ _ G3 s V) F2) as [F4 G4].
    split; [exact F4|]. now apply (grows_trans _ h2).
  Qed.
  Lemma merge_with_safe s s2 h : safe s h (merge_with iter s s2 h).
  Proof.
    unfold merge_with.
    eapply safe_trans; [eapply safe_trans; [eapply safe_trans; [eapply safe_trans; [eapply safe_trans|]|]|]|].
    - apply (safe_upd s (with_type "object")). intros []. split; [constructor; cbn; auto|]. auto.
    - apply (merge_list_safe s_allof with_allof). intros [] l. cbn. split; [constructor; cbn; auto|]. auto.
    - apply (merge_list_safe s_anyof with_anyof). intros [] l. cbn. split; [constructor; cbn; auto|]. auto.
    - apply (merge_list_safe s_oneof with_oneof). intros [] l. cbn. split; [constructor; cbn; auto|]. auto.
    - apply merge_props_safe.
    - apply (safe_upd s (fun c => with_required (remove_duplicate (s_required c ++ s_required s2)) c)). intros []. split; [constructor; cbn; auto|auto].
      intros _. split; [reflexivity|]. intros x H. apply remove_duplicate_in. apply elem_of_app. now left.
  Qed.

  (** ** The parts that are visited *)
  Inductive visited (h : heap) (a : nat) : nat -> Prop :=
  | vi_property k x : props h (cell h a) !! k = Some x -> visited h a x
  | vi_always x : s_addprops (cell h a) = Some x \/ s_items (cell h a) = Some x -> visited h a x
  | vi_three x : v2 = false -> x ∈ s_pattern (cell h a) \/ x ∈ s_additems (cell h a) \/ x ∈ s_contains (cell h a) \/ s_not (cell h a) = Some x -> visited h a x
  | vi_lists x : lists (cell h a) -> x ∈ s_anyof (cell h a) \/ x ∈ s_oneof (cell h a) \/ x ∈ s_allof (cell h a) -> visited h a x.
  Inductive inside (h : heap) : nat -> nat -> Prop :=
  | in_self a : inside h a a
  | in_part a y x : visited h a y -> inside h y x -> inside h a x.

  Lemma visited_valid h a x : visited h a x -> valid h a.
  Proof.
    intros H. destruct (valid_dec h a) as [V|V]; [exact V|exfalso]. pose proof (invalid_cell h a V) as E.
    destruct H as [k x H|x H|x _ H|x _ H]; rewrite E in H; cbn in H.
    - unfold props, map_at in H. cbn in H. now rewrite lookup_empty in H.
    - intuition discriminate.
    - rewrite !elem_of_nil in H. intuition discriminate.
    - rewrite !elem_of_nil in H. tauto.
  Qed.
  Lemma visited_grows h h' a x : grows h h' -> visited h a x -> visited h' a x.
  Proof.
    intros G H. pose proof (visited_valid h a x H) as V. destruct (g_kept _ _ G a V) as [A1 A2 A3 A4 A5 A6 A7 A8 A9 _ _ _].
    destruct H as [k x H|x H|x E H|x L H].
    - apply (vi_property _ _ k). now apply (grows_enlarges h h' G).
    - apply vi_always. now rewrite A3, A5.
    - apply vi_three; [exact E|]. now rewrite A2, A4, A6, A7.
    - apply vi_lists; [unfold lists in *; now rewrite A1|]. destruct (A8 L) as (S1 & S2 & S3).
      destruct H as [H|[H|H]]; [left; now apply S1|right; left; now apply S2|right; right; now apply S3].
  Qed.
  Lemma inside_grows h h' a x : grows h h' -> inside h a x -> inside h' a x.
  Proof. intros G. induction 1 as [|a y x H _ IH]; [constructor|]. eapply in_part; [eapply visited_grows; eassumption|exact IH]. Qed.

  (** ** The walk *)
  Definition done (h : heap) (x : nat) : Prop := s_ref (cell h x) = ""%string \/ linked h (cell h x).
  Lemma done_grows h h' x : grows h h' -> valid h x -> done h x -> done h' x.
  Proof.
    intros G V [E|L]; [left; now rewrite (k_ref _ _ (g_kept _ _ G x V))|right; now apply (linked_grows h)].
  Qed.
  (** [y] is visited between [h] and [h']. *)
  Definition walked (y : nat) (h h' : heap) : Prop := forall x, valid h x -> inside h y x -> done h' x.
  Lemma walked_before y h0 h h' : grows h0 h -> walked y h h' -> walked y h0 h'.
  Proof. intros G W x V H. apply W; [now apply (g_valid _ _ G)|now apply (inside_grows h0)]. Qed.
  Lemma walked_after y h h' h1 : grows h h' -> grows h' h1 -> walked y h h' -> walked y h h1.
  Proof. intros G0 G W x V H. apply (done_grows h'); [exact G|now apply (g_valid _ _ G0)|]. now apply W. Qed.

  Lemma bind_done r k h' : bind r k = Done h' -> exists h, r = Done h /\ k h = Done h'.
  Proof. destruct r; cbn; try discriminate. eauto. Qed.
  Lemma each_walk s (f : nat -> heap -> run) :
    (forall y h h', fresh h -> valid h s -> f y h = Done h' -> fresh h' /\ grows h h' /\ walked y h h') ->
    forall l h h', fresh h -> valid h s -> Schema.each f l h = Done h' -> fresh h' /\ grows h h' /\ forall y, y ∈ l -> walked y h h'.
  Proof.
    intros Hf l. induction l as [|y l IH]; intros h h' F V H; cbn in H.
    { injection H as <-. split; [exact F|]. split; [apply grows_refl|]. intros y Hy. now apply elem_of_nil in Hy. }
    apply bind_done in H as (h1 & H1 & H). destruct (Hf y h h1 F V H1) as (F1 & G1 & W1).
    destruct (IH h1 h' F1 (g_valid _ _ G1 s V) H) as (F2 & G2 & W2). split; [exact F2|]. split; [now apply (grows_trans _ h1)|].
    intros z Hz. apply elem_of_cons in Hz as [->|Hz]; [now apply (walked_after y h h1)|]. apply (walked_before z h h1); [exact G1|]. now apply W2.
  Qed.

  Lemma set_reference_good s h h' : fresh h -> valid h s -> set_reference resolve v2 s h = Done h' -> fresh h' /\ grows h h' /\ done h' s.
  Proof.
    intros F V H. unfold set_reference in H. destruct (String.eqb_spec (s_ref (cell h s)) ""%string) as [E|N].
    { injection H as <-. split; [exact F|]. split; [apply grows_refl|now left]. }
    destruct (resolve h (s_ref (cell h s))) as [| |r] eqn:R; try discriminate. injection H as <-.
    set (f := fun c : sch => _).
    assert (E : enlarges h (upd s f h)).
    { intros l k v. destruct (decide (s = l)) as [<-|Ne]; [rewrite cell_upd_same|now rewrite cell_upd_other].
      unfold props. rewrite map_at_upd. unfold f. destruct (cell h s), v2; cbn; auto. }
    assert (L : linked (upd s f h) (f (cell h s))).
    { exists r. split; [|unfold f; destruct (cell h s), v2; reflexivity]. apply (resolve_mono h); [exact E|].
      rewrite <- R. unfold f. destruct (cell h s), v2; reflexivity. }
    destruct (good_upd s f h V) as [F' G]; [| |now right|exact F|].
    - constructor; try (unfold f; destruct (cell h s), v2; reflexivity).
      + intros [W|W]; [|congruence]. unfold f. rewrite W. destruct (cell h s). cbn. auto.
      + intros m. unfold f. destruct (cell h s), v2; cbn; auto.
      + intros E1. unfold f. destruct (cell h s), v2; cbn in *; now rewrite E1.
      + intros W. congruence.
      + intros W. congruence.
    - intros m. unfold f. destruct (cell h s), v2; cbn; auto.
    - split; [exact F'|]. split; [exact G|]. right. rewrite cell_upd_same. exact L.
  Qed.

  Lemma iter_in m g k (x : nat) : g !! k = Some x -> x ∈ map snd (iter m g).
  Proof.
    intros H. apply (elem_of_list_fmap_1 snd _ (k, x)). rewrite iter_perm. now apply elem_of_map_to_list.
  Qed.

  Lemma dependencies_walk fuel : forall s h h', fresh h -> set_dependencies iter resolve v2 fuel s h = Done h' -> fresh h' /\ grows h h' /\ walked s h h'.
  Proof.
    induction fuel as [|fuel IH]; intros s h h' F H; [discriminate|].
    destruct (valid_dec h s) as [V|V].
    2: { assert (h' = h) as ->.
         { cbn [set_dependencies] in H. unfold set_reference in H. rewrite (invalid_cell h s V) in H. cbn in H. rewrite !(invalid_cell h s V) in H. cbn in H.
           destruct v2; repeat (first [progress cbn in H|rewrite (invalid_cell h s V) in H]); congruence. }
         split; [exact F|]. split; [apply grows_refl|]. intros x Hx I. inversion I as [a|a y z Hv _]; subst; [contradiction|].
         now apply visited_valid in Hv. }
    cbn [set_dependencies] in H.
    set (go := set_dependencies iter resolve v2 fuel) in *.
    assert (Hgo : forall y h h', fresh h -> valid h s -> go y h = Done h' -> fresh h' /\ grows h h' /\ walked y h h') by (intros; now apply (IH y)).
    set (composed := fun v h => bind (go v h) (fun h => Done (merge_with iter s (cell h v) h))) in *.
    assert (Hco : forall y h h', fresh h -> valid h s -> composed y h = Done h' -> fresh h' /\ grows h h' /\ walked y h h').
    { intros y a b Fa Va E. unfold composed in E. apply bind_done in E as (c & E1 & [= <-]). destruct (IH _ _ _ Fa E1) as (F1 & G1 & W1).
      destruct (merge_with_safe s (cell c y) c (g_valid _ _ G1 s Va) F1) as [F2 G2]. split; [exact F2|]. split; [now apply (grows_trans _ c)|].
      now apply (walked_after y a c). }
    clearbody composed go. clear IH fuel.
    assert (W : forall (l : heap -> list nat) f a b, (f = go \/ f = composed) -> fresh a -> valid a s -> Schema.each f (l a) a = Done b ->
      fresh b /\ valid b s /\ grows a b /\ forall y, y ∈ l a -> walked y a b).
    { intros l f a b Hf Fa Va E. destruct (each_walk s f) with (l := l a) (h := a) (h' := b) as (F1 & G1 & W1);
        [destruct Hf as [->| ->]; assumption|exact Fa|exact Va|exact E|]. split; [exact F1|]. split; [now apply (g_valid _ _ G1)|]. auto. }
    apply bind_done in H as (h1 & H1 & H). destruct (set_reference_good s h h1 F V H1) as (F1 & G1 & D1). pose proof (g_valid _ _ G1 s V) as V1.
    set (pl := fun h => match s_props (cell h s) with Some p => map snd (iter p (map_at h (Some p))) | None => [] end).
    apply bind_done in H as (h2 & H2 & H). destruct (W pl go h1 h2 (or_introl eq_refl) F1 V1 H2) as (F2 & V2 & G2 & W2). clear H2.
    assert (T : forall (l : heap -> list nat) a b, fresh a -> valid a s -> (if v2 then Done a else Schema.each go (l a) a) = Done b ->
      fresh b /\ valid b s /\ grows a b /\ (v2 = false -> forall y, y ∈ l a -> walked y a b)).
    { intros l a b Fa Va E. destruct v2.
      - injection E as <-. split; [exact Fa|]. split; [exact Va|]. split; [apply grows_refl|discriminate].
      - destruct (W l go a b (or_introl eq_refl) Fa Va E) as (? & ? & ? & ?). auto. }
    apply bind_done in H as (h3 & H3 & H). destruct (T (fun h => s_pattern (cell h s)) h2 h3 F2 V2 H3) as (F3 & V3 & G3 & W3). clear H3.
    apply bind_done in H as (h4 & H4 & H). destruct (T (fun h => opt_list (s_addprops (cell h s))) h3 h4 F3 V3 H4) as (F4 & V4 & G4 & W4). clear H4.
    apply bind_done in H as (h5 & H5 & H). destruct (T (fun h => s_additems (cell h s)) h4 h5 F4 V4 H5) as (F5 & V5 & G5 & W5). clear H5.
    apply bind_done in H as (h6 & H6 & H). destruct (W (fun h => opt_list (s_items (cell h s))) go h5 h6 (or_introl eq_refl) F5 V5 H6) as (F6 & V6 & G6 & W6). clear H6.
    apply bind_done in H as (h7 & H7 & H). destruct (T (fun h => s_contains (cell h s)) h6 h7 F6 V6 H7) as (F7 & V7 & G7 & W7). clear H7.
    apply bind_done in H as (h8 & H8 & H). destruct (W (fun h => s_anyof (cell h s)) composed h7 h8 (or_intror eq_refl) F7 V7 H8) as (F8 & V8 & G8 & W8). clear H8.
    apply bind_done in H as (h9 & H9 & H). destruct (W (fun h => s_oneof (cell h s)) composed h8 h9 (or_intror eq_refl) F8 V8 H9) as (F9 & V9 & G9 & W9). clear H9.
    apply bind_done in H as (hx & Hx & H). destruct (W (fun h => s_allof (cell h s)) composed h9 hx (or_intror eq_refl) F9 V9 Hx) as (Fx & Vx & Gx & Wx). clear Hx.
    assert (Z : fresh h' /\ grows hx h' /\ forall y, y ∈ opt_list (if v2 then s_addprops (cell hx s) else s_not (cell hx s)) -> walked y hx h').
    { destruct v2.
      - destruct (W (fun h => opt_list (s_addprops (cell h s))) go hx h' (or_introl eq_refl) Fx Vx H) as (? & _ & ? & ?). auto.
      - destruct (W (fun h => opt_list (s_not (cell h s))) go hx h' (or_introl eq_refl) Fx Vx H) as (? & _ & ? & ?). auto. }
    destruct Z as (Fz & Gz & Wz). clear H T W H1 Hgo Hco.
    split; [exact Fz|].
    (* growth up to and from each point *)
    pose proof (grows_trans _ _ _ G1 G2) as A2. pose proof (grows_trans _ _ _ A2 G3) as A3. pose proof (grows_trans _ _ _ A3 G4) as A4.
    pose proof (grows_trans _ _ _ A4 G5) as A5. pose proof (grows_trans _ _ _ A5 G6) as A6. pose proof (grows_trans _ _ _ A6 G7) as A7.
    pose proof (grows_trans _ _ _ A7 G8) as A8. pose proof (grows_trans _ _ _ A8 G9) as A9. pose proof (grows_trans _ _ _ A9 Gx) as Ax.
    pose proof (grows_trans _ _ _ Gx Gz) as B9. pose proof (grows_trans _ _ _ G9 B9) as B8. pose proof (grows_trans _ _ _ G8 B8) as B7.
    pose proof (grows_trans _ _ _ G7 B7) as B6. pose proof (grows_trans _ _ _ G6 B6) as B5. pose proof (grows_trans _ _ _ G5 B5) as B4.
    pose proof (grows_trans _ _ _ G4 B4) as B3. pose proof (grows_trans _ _ _ G3 B3) as B2. pose proof (grows_trans _ _ _ G2 B2) as B1.
    split; [now apply (grows_trans _ h1)|].
    assert (M : forall y a b, grows h a -> grows a b -> grows b h' -> walked y a b -> walked y h h').
    { intros y a b Ga Gab Gb Wab. apply (walked_before y h a); [exact Ga|]. now apply (walked_after y a b). }
    assert (opt_in : forall (o : option nat) y, o = Some y -> y ∈ opt_list o) by (intros o y ->; left).
    intros x Hx I. inversion I as [a|a y z Hv Hi]; subst.
    { apply (done_grows h1); [exact B1|exact V1|exact D1]. }
    enough (walked y h h') as Wy by now apply Wy.
    destruct Hv as [k y Hy|y Hy|y E Hy|y L Hy].
    - apply (M y h1 h2 G1 G2 B2). apply W2. apply (grows_enlarges h h1 G1) in Hy. unfold pl. unfold props in Hy.
      destruct (s_props (cell h1 s)) as [p|]; [|unfold map_at in Hy; now rewrite lookup_empty in Hy]. now apply (iter_in p _ k).
    - destruct Hy as [Hy|Hy].
      + destruct v2 eqn:Ev.
        * apply (M y hx h' Ax Gz (grows_refl _)). apply Wz. apply opt_in. now rewrite (k_addprops _ _ (g_kept _ _ Ax s V)).
        * apply (M y h3 h4 A3 G4 B4). apply W4; [reflexivity|]. apply opt_in. now rewrite (k_addprops _ _ (g_kept _ _ A3 s V)).
      + apply (M y h5 h6 A5 G6 B6). apply W6. apply opt_in. now rewrite (k_items _ _ (g_kept _ _ A5 s V)).
    - destruct Hy as [Hy|[Hy|[Hy|Hy]]].
      + apply (M y h2 h3 A2 G3 B3). apply W3; [exact E|]. now rewrite (k_pattern _ _ (g_kept _ _ A2 s V)).
      + apply (M y h4 h5 A4 G5 B5). apply W5; [exact E|]. now rewrite (k_additems _ _ (g_kept _ _ A4 s V)).
      + apply (M y h6 h7 A6 G7 B7). apply W7; [exact E|]. now rewrite (k_contains _ _ (g_kept _ _ A6 s V)).
      + apply (M y hx h' Ax Gz (grows_refl _)). apply Wz. rewrite E. apply opt_in. now rewrite (k_not _ _ (g_kept _ _ Ax s V)).
    - destruct Hy as [Hy|[Hy|Hy]].
      + apply (M y h7 h8 A7 G8 B8). apply W8. now apply (k_lists _ _ (g_kept _ _ A7 s V) L).
      + apply (M y h8 h9 A8 G9 B9). apply W9. now apply (k_lists _ _ (g_kept _ _ A8 s V) L).
      + apply (M y h9 hx A9 Gx Gz). apply Wx. now apply (k_lists _ _ (g_kept _ _ A9 s V) L).
  Qed.

  (** ** The flags *)
  Definition flags (h h' : heap) : Prop :=
    maps h' = maps h /\ next h' = next h /\ (forall x, valid h' x <-> valid h x) /\ forall x, with_isreq false (cell h' x) = with_isreq false (cell h x).
  Lemma flags_refl h : flags h h. Proof. split; [reflexivity|]. split; [reflexivity|]. split; [intros; reflexivity|]. reflexivity. Qed.
  Lemma flags_fields c d : with_isreq false c = with_isreq false d ->
    s_ref c = s_ref d /\ s_props c = s_props d /\ s_required c = s_required d /\ s_pattern c = s_pattern d /\ s_addprops c = s_addprops d /\ s_additems c = s_additems d /\
    s_items c = s_items d /\ s_contains c = s_contains d /\ s_anyof c = s_anyof d /\ s_oneof c = s_oneof d /\ s_allof c = s_allof d /\ s_not c = s_not d /\ s_refto c = s_refto d.
  Proof. destruct c, d. cbn. intros E. injection E. intros. subst. auto 20. Qed.
  Lemma flags_part h h' a p x : flags h h' -> part h a p x -> part h' a p x.
  Proof.
    intros (M & _ & _ & C) H. destruct (flags_fields _ _ (C a)) as (_ & E2 & _ & E4 & E5 & E6 & E7 & E8 & E9 & E10 & E11 & E12 & _).
    destruct H as [k x H|x H]; constructor.
    - unfold props, map_at in *. now rewrite E2, M.
    - now rewrite E4, E5, E6, E7, E8, E9, E10, E11, E12.
  Qed.
  Lemma flags_below h h' a x : flags h h' -> below h a x -> below h' a x.
  Proof. intros F. induction 1 as [|a p y x H _ IH]; [constructor|]. eapply below_part; [eapply flags_part; eassumption|exact IH]. Qed.

  Lemma closed_part h a p x : closed h -> part h a p x -> valid h a /\ valid h x.
  Proof.
    intros C H. assert (V : valid h a).
    { destruct (valid_dec h a) as [V|V]; [exact V|exfalso]. pose proof (invalid_cell h a V) as E.
      destruct H as [k x H|x H]; rewrite E in H; cbn in H.
      - unfold props, map_at in H. cbn in H. now rewrite lookup_empty in H.
      - rewrite !elem_of_nil in H. intuition discriminate. }
    split; [exact V|]. pose proof (cl_sch h C a _ (valid_cell h a V)) as O. destruct H as [k x H|x H].
    - unfold props, map_at in H. destruct (s_props (cell h a)) as [m|]; [|now rewrite lookup_empty in H].
      destruct (maps h !! m) as [g|] eqn:E; [|cbn in H; now rewrite lookup_empty in H]. apply (cl_entries h C m g k x E H).
    - apply (ok_children _ _ O). rewrite !elem_of_app.
      assert (L : forall o : option nat, o = Some x -> x ∈ opt_list o) by (intros o ->; left).
      intuition auto.
  Qed.

  Section metadata.
    Variable h0 : heap.
    Variable components : list nat.
    Hypothesis C0 : closed h0.
    Hypothesis once : written_once h0 components.
    Hypothesis known : forall c, c ∈ components -> valid h0 c.

    Definition right (h : heap) (x : nat) : Prop := s_isreq (cell h x) = true <-> asked_for h0 x.
    (** Nothing but flags changed, towards the right ones. *)
    Definition betters (h h' : heap) : Prop := flags h0 h' /\ forall x, right h x -> right h' x.

    Lemma asked_property a k x : part h0 a (Property k) x -> asked_for h0 x <-> k ∈ s_required (cell h0 a).
    Proof.
      intros P. split; [|intros H; exists a, k; auto]. intros (a' & k' & P' & H). destruct (wo_part _ _ once _ _ _ _ _ P P') as [-> E]. now injection E as ->.
    Qed.
    Lemma asked_elsewhere a x : part h0 a Elsewhere x -> ~ asked_for h0 x.
    Proof. intros P (a' & k' & P' & H). destruct (wo_part _ _ once _ _ _ _ _ P P') as [_ E]. discriminate. Qed.
    Lemma asked_component x : x ∈ components -> ~ asked_for h0 x.
    Proof. intros P (a' & k' & P' & H). apply (wo_component _ _ once _ _ _ P' P). Qed.

    Lemma each_flags {A} (f : A -> heap -> run) (key : A -> nat) l :
      (forall y h h', y ∈ l -> flags h0 h -> f y h = Done h' -> betters h h' /\ forall x, below h0 (key y) x -> right h' x) ->
      forall h h', flags h0 h -> Schema.each f l h = Done h' -> betters h h' /\ forall y x, y ∈ l -> below h0 (key y) x -> right h' x.
    Proof.
      induction l as [|y l IH]; intros Hf h h' F H; cbn in H.
      { injection H as <-. split; [split; auto|]. intros y x Hy. now apply elem_of_nil in Hy. }
      apply bind_done in H as (h1 & H1 & H). destruct (Hf y h h1) as ([F1 B1] & R1); [left|exact F|exact H1|].
      destruct (IH (fun z a b Hz => Hf z a b (elem_of_list_further _ _ _ Hz)) h1 h' F1 H) as ([F2 B2] & R2).
      split; [split; [exact F2|auto]|]. intros z x Hz Hx. apply elem_of_cons in Hz as [->|Hz]; [apply B2, R1, Hx|exact (R2 z x Hz Hx)].
    Qed.

    Lemma generate_flags fuel : forall b s h h', (b = true <-> asked_for h0 s) -> valid h0 s -> flags h0 h ->
      generate_metadata iter fuel b s h = Done h' -> betters h h' /\ forall x, below h0 s x -> right h' x.
    Proof.
      induction fuel as [|fuel IH]; intros b s h h' Hb V F H; cbn [generate_metadata] in H; [discriminate|].
      set (plain := (s_pattern (cell h s) ++ _)%list) in H.
      set (ps := match s_props (cell h s) with Some p => iter p (map_at h (Some p)) | None => [] end) in H.
      destruct (flags_fields _ _ (proj2 (proj2 (proj2 F)) s)) as (_ & E2 & E3 & E4 & E5 & E6 & E7 & E8 & E9 & E10 & E11 & E12 & _).
      apply bind_done in H as (h1 & H1 & H). apply bind_done in H as (h2 & H2 & [= <-]).
      assert (Pp : forall k y, (k, y) ∈ ps -> part h0 s (Property k) y).
      { intros k y Hy. unfold ps in Hy. constructor. unfold props, map_at. rewrite <- E2, <- (proj1 F). destruct (s_props (cell h s)) as [p|]; [|now apply elem_of_nil in Hy].
        rewrite iter_perm in Hy. now apply elem_of_map_to_list in Hy. }
      assert (Pq : forall y, y ∈ plain -> part h0 s Elsewhere y).
      { intros y Hy. constructor. unfold plain in Hy. rewrite E4, E5, E6, E7, E8, E9, E10, E11, E12, !elem_of_app in Hy.
        assert (L : forall o : option nat, y ∈ opt_list o -> o = Some y) by (intros [o|] Ho; [apply elem_of_list_singleton in Ho as ->; reflexivity|now apply elem_of_nil in Ho]).
        intuition auto. }
      apply (each_flags _ snd) in H1 as ([F1 B1] & R1); [| |exact F].
      2: { intros [k y] a c Hy Fa Ha. pose proof (Pp k y Hy) as P. eapply IH; [|now apply (closed_part h0 s (Property k))|exact Fa|exact Ha].
           cbn. rewrite is_in_slice_spec, E3. symmetry. now apply asked_property. }
      apply (each_flags _ id) in H2 as ([F2 B2] & R2); [| |exact F1].
      2: { intros y a c Hy Fa Ha. pose proof (Pq y Hy) as P. eapply IH; [|now apply (closed_part h0 s Elsewhere)|exact Fa|exact Ha].
           pose proof (asked_elsewhere s y P). split; [discriminate|tauto]. }
      set (h3 := upd s (with_isreq b) h2).
      assert (R3 : forall x, right h2 x -> right h3 x).
      { intros x R. unfold right, h3. destruct (decide (s = x)) as [<-|N]; [rewrite cell_upd_same; exact Hb|rewrite cell_upd_other by exact N; exact R]. }
      assert (Rs : right h3 s) by (unfold right, h3; rewrite cell_upd_same; exact Hb).
      split; [split|].
      - destruct F2 as (A & B & C & D). split; [exact A|]. split; [exact B|]. split.
        + intros x. rewrite <- C. split; [apply valid_upd_inv; now apply C|apply valid_upd].
        + intros x. rewrite <- D. unfold h3. destruct (decide (s = x)) as [<-|N]; [rewrite cell_upd_same; reflexivity|now rewrite cell_upd_other].
      - auto.
      - intros x Hx. inversion Hx as [|a p y z Hp Hy]; subst; [exact Rs|]. apply R3. destruct Hp as [k y Hp|y Hp].
        + apply B2. apply (R1 (k, y)); [|exact Hy]. unfold ps. unfold props, map_at in Hp. rewrite <- E2, <- (proj1 F) in Hp.
          destruct (s_props (cell h s)) as [p|]; [|now rewrite lookup_empty in Hp]. rewrite iter_perm. now apply elem_of_map_to_list.
        + apply (R2 y); [|exact Hy]. unfold plain. rewrite E4, E5, E6, E7, E8, E9, E10, E11, E12, !elem_of_app.
          assert (L : forall o : option nat, o = Some y -> y ∈ opt_list o) by (intros o ->; left). intuition auto.
    Qed.
    Lemma all_flags fuel h' : Schema.each (generate_metadata iter fuel false) components h0 = Done h' ->
      flags h0 h' /\ forall c x, c ∈ components -> below h0 c x -> right h' x.
    Proof.
      intros H. apply (each_flags _ id) in H as ([F _] & R); [auto| |apply flags_refl].
      intros y a b Hy Fa Ha. eapply generate_flags; [|now apply known|exact Fa|exact Ha]. pose proof (asked_component y Hy). split; [discriminate|tauto].
    Qed.
  End metadata.
End visit.

Section document.
  Variable iter : nat -> gmap string nat -> list (string * nat).
  Hypothesis iter_perm : forall m g, iter m g ≡ₚ map_to_list g.

  Lemma each_only {A} (f : A -> heap -> run) (I : heap -> Prop) l : (forall y h h', y ∈ l -> I h -> f y h = Done h' -> I h') ->
    forall h h', I h -> Schema.each f l h = Done h' -> I h'.
  Proof.
    induction l as [|y l IH]; intros Hf h h' Hh H; cbn in H; [now injection H as <-|].
    apply bind_done in H as (h1 & H1 & H). eapply IH; [|eapply Hf; [left|exact Hh|exact H1]|exact H].
    intros z a b Hz. apply Hf. now right.
  Qed.
  Lemma metadata_only h0 fuel : closed h0 -> forall b s h h', valid h0 s -> flags h0 h -> generate_metadata iter fuel b s h = Done h' -> flags h0 h'.
  Proof.
    intros C0. induction fuel as [|fuel IH]; intros b s h h' V F H; cbn [generate_metadata] in H; [discriminate|].
    destruct (flags_fields _ _ (proj2 (proj2 (proj2 F)) s)) as (_ & E2 & _ & E4 & E5 & E6 & E7 & E8 & E9 & E10 & E11 & E12 & _).
    apply bind_done in H as (h1 & H1 & H). apply bind_done in H as (h2 & H2 & [= <-]).
    pose proof (cl_sch h0 C0 s _ (valid_cell h0 s V)) as O. pose proof (proj1 F) as MF.
    assert (F1 : flags h0 h1).
    { revert F H1. apply each_only. intros [k y] a c Hy Fa Ha. eapply IH; [|exact Fa|exact Ha]. cbn.
      apply (closed_part h0 s (Property k) y C0). constructor. unfold props, map_at. rewrite <- E2, <- MF.
      destruct (s_props (cell h s)) as [p|]; [|now apply elem_of_nil in Hy]. rewrite iter_perm in Hy. now apply elem_of_map_to_list in Hy. }
    assert (F2 : flags h0 h2).
    { revert F1 H2. apply each_only. intros y a c Hy Fa Ha. eapply IH; [|exact Fa|exact Ha]. apply (ok_children _ _ O).
      now rewrite <- E4, <- E5, <- E6, <- E7, <- E8, <- E9, <- E10, <- E11, <- E12. }
    destruct F2 as (A & B & C & D). split; [exact A|]. split; [exact B|]. split.
    - intros x. rewrite <- C. split; [apply valid_upd_inv; now apply C|apply valid_upd].
    - intros x. rewrite <- D. destruct (decide (s = x)) as [<-|N]; [rewrite cell_upd_same; reflexivity|now rewrite cell_upd_other].
  Qed.

  Lemma leads_enlarges w h h' l ns l' : enlarges h h' -> leads (world_of w h) l ns l' -> leads (world_of w h') l ns l'.
  Proof. intros E. induction 1 as [|l n l1 ns l2 H _ IH]; [constructor|]. econstructor; [|exact IH]. cbn in *. now apply E. Qed.
  Lemma resolve_in_spec v2 w d h ref r :
    resolve_in v2 w d h ref = Ok r <-> designates (schema_steps (negb v2) (world_of w h)) (world_of w h) d ref r.
  Proof.
    unfold resolve_in. change (mkWorld _ _ _ _ _) with (world_of w h). destruct v2; cbn [negb].
    - apply (reference_schema_exact false v2_kinds).
    - apply (reference_schema_exact true v3_kinds).
  Qed.
  Lemma resolve_in_mono v2 w d h h' ref r : enlarges h h' -> resolve_in v2 w d h ref = Ok r -> resolve_in v2 w d h' ref = Ok r.
  Proof.
    intros E. rewrite !resolve_in_spec. intros (used & p & steps & D & W & S). exists used, p, steps.
    split; [destruct D as [p D|file key p d' D1 D2 D3 D4 D5]; [now constructor|now apply (doc_there (world_of w h') d file key p d')]|]. split; [exact W|].
    assert (M : forall steps m, message_steps (negb v2) (world_of w h) used steps m -> message_steps (negb v2) (world_of w h') used steps m).
    { intros st m [n m' H|c ch n m' V H1 H2]; [now constructor|]. now apply (in_channel _ _ _ c ch n m'). }
    destruct S as [n l ns l' H1 H2|st m f l ns l' H1 H2 H3].
    - econstructor; [exact H1|]. now apply (leads_enlarges w h).
    - apply (in_message _ _ _ st m f l ns l'); [now apply M| |now apply (leads_enlarges w h h')]. destruct H2 as [l H2|l H2]; now constructor.
  Qed.

  Lemma flags_fresh h0 h : closed h0 -> flags h0 h -> fresh h.
  Proof.
    intros C (M & N & V & E). constructor.
    - intros l Hl. rewrite N. apply (cl_cells h0 C). now apply V.
    - intros m. unfold valid_map. rewrite M, N. apply (cl_maps h0 C).
    - intros l m Hm. rewrite N. destruct (flags_fields _ _ (E l)) as (_ & E2 & _). rewrite E2 in Hm.
      destruct (valid_dec h0 l) as [Vl|Vl]; [|now rewrite (invalid_cell h0 l Vl) in Hm].
      apply (cl_maps h0 C). apply (ok_props _ _ (cl_sch h0 C l _ (valid_cell h0 l Vl)) m Hm).
  Qed.

  Lemma below_valid h c x : closed h -> valid h c -> below h c x -> valid h x.
  Proof. intros C V. induction 1 as [|a p y x H _ IH]; [exact V|]. apply IH. now apply (closed_part h a p y C H). Qed.

  Lemma below_inside v2 h : (v2 = true -> forall l, version2 (cell h l)) -> forall c x, below h c x -> inside v2 h c x.
  Proof.
    intros V c x. induction 1 as [|a p y x H _ IH]; [constructor|]. eapply in_part; [|exact IH].
    destruct H as [k y H|y H]; [now apply (vi_property _ _ _ k)|]. destruct v2.
    - destruct (V eq_refl a) as (E1 & E2 & E3 & E4 & E5). rewrite E1, E2, E3, E4, !elem_of_nil in H.
      destruct (decide (s_ref (cell h a) = ""%string)) as [E|N].
      + destruct H as [[]|[H|[[]|[H|[[]|[H|[H|[H|H]]]]]]]]; [apply vi_always; auto|apply vi_always; auto|apply vi_lists; [now right|auto]..|discriminate].
      + destruct (E5 N) as (W1 & W2 & W3). rewrite W1, W2, W3, !elem_of_nil in H. apply vi_always. intuition discriminate.
    - destruct H as [H|[H|[H|[H|[H|[H|[H|[H|H]]]]]]]]; try (apply vi_always; now auto); try (apply vi_lists; [now left|now auto]); apply vi_three; auto.
  Qed.

  Lemma process_spec v2 w d fuel components h h' :
    closed h -> (forall c, c ∈ components -> valid h c) -> (v2 = true -> forall l, version2 (cell h l)) ->
    process iter (resolve_in v2 w d) v2 fuel components h = Done h' ->
    exists h1, Schema.each (generate_metadata iter fuel false) components h = Done h1 /\ flags h h1 /\
      grows (resolve_in v2 w d) v2 h1 h' /\ forall c x, c ∈ components -> below h c x -> resolved (negb v2) w d h' x.
  Proof.
    intros C K V2 H. unfold process in H. apply bind_done in H as (h1 & H1 & H).
    assert (F1 : flags h h1).
    { generalize (flags_refl h), H1. apply each_only. intros y a b Hy Fa Ha. apply (metadata_only h fuel C false y a b (K y Hy) Fa Ha). }
    exists h1. split; [exact H1|]. split; [exact F1|].
    assert (W : forall l a b, fresh a -> Schema.each (set_dependencies iter (resolve_in v2 w d) v2 fuel) l a = Done b ->
      fresh b /\ grows (resolve_in v2 w d) v2 a b /\ forall y, y ∈ l -> walked (resolve_in v2 w d) v2 y a b).
    { pose proof (resolve_in_mono v2 w d) as Mono. induction l as [|y l IH]; intros a b Fa E; cbn in E.
      - injection E as <-. split; [exact Fa|]. split; [apply grows_refl|]. intros y Hy. now apply elem_of_nil in Hy.
      - apply bind_done in E as (m & E1 & E).
        destruct (dependencies_walk iter iter_perm _ Mono v2 fuel y a m Fa E1) as (Fm & Gm & Wm).
        destruct (IH m b Fm E) as (Fb & Gb & Wb). split; [exact Fb|]. split; [now apply (grows_trans _ Mono v2 _ m)|].
        intros z Hz. apply elem_of_cons in Hz as [->|Hz]; [now apply (walked_after _ Mono v2 y a m)|].
        apply (walked_before _ v2 z a m); [exact Gm|]. now apply Wb. }
    destruct (W components h1 h' (flags_fresh h h1 C F1) H) as (_ & G & Wd). split; [exact G|].
    intros c x Hc Hx. pose proof (below_valid h c x C (K c Hc) Hx) as Vx.
    destruct (Wd c Hc x) as [E|(r & R & E)]; [now apply F1| |now left|right; exists r; split; [exact E|now apply resolve_in_spec]].
    apply below_inside; [|now apply (flags_below h)].
    intros E l. specialize (V2 E l). destruct (flags_fields _ _ (proj2 (proj2 (proj2 F1)) l)) as (E1 & _ & _ & E4 & _ & E6 & _ & E8 & E9 & E10 & E11 & E12 & _).
    unfold version2. now rewrite E1, E4, E6, E8, E9, E10, E11, E12.
  Qed.

  Lemma process_flags v2 w d fuel components h h' :
    closed h -> (forall c, c ∈ components -> valid h c) -> (v2 = true -> forall l, version2 (cell h l)) -> written_once h components ->
    process iter (resolve_in v2 w d) v2 fuel components h = Done h' ->
    forall c x, c ∈ components -> below h c x ->
      (asked_for h x -> s_isreq (cell h' x) = true) /\
      (s_ref (cell h x) = ""%string -> s_isreq (cell h' x) = true -> asked_for h x).
  Proof.
    intros C K V2 O H c x Hc Hx. destruct (process_spec v2 w d fuel components h h' C K V2 H) as (h1 & H1 & F1 & G & _).
    destruct (all_flags iter iter_perm h components C O K fuel h1 H1) as [_ R]. specialize (R c x Hc Hx).
    pose proof (below_valid h c x C (K c Hc) Hx) as Vx. assert (V1 : valid h1 x) by now apply F1.
    pose proof (g_kept _ _ _ _ G x V1) as Kx. split.
    - intros A. apply (k_flag _ _ _ Kx). now apply R.
    - intros E B. apply R. rewrite <- (k_same _ _ _ Kx); [exact B|].
      destruct (flags_fields _ _ (proj2 (proj2 (proj2 F1)) x)) as (E1 & _). now rewrite E1.
  Qed.
End document.

(** A check for concrete documents. *)
Definition parts_of (h : heap) (a : nat) : list (nat * spot * nat) :=
  let c := cell h a in
  ((fun kv : string * nat => (a, Property kv.1, kv.2)) <$> map_to_list (props h c)) ++
  ((fun x => (a, Elsewhere, x)) <$> (s_pattern c ++ opt_list (s_addprops c) ++ s_additems c ++ opt_list (s_items c)
    ++ s_contains c ++ s_anyof c ++ s_oneof c ++ s_allof c ++ opt_list (s_not c)))%list.
Definition parts (h : heap) : list (nat * spot * nat) := List.concat (parts_of h <$> (fst <$> map_to_list (cells h))).
Lemma parts_in h a p x : part h a p x -> (a, p, x) ∈ parts h.
Proof.
  intros H.
  assert (V : valid h a).
  { destruct (valid_dec h a) as [V|V]; [exact V|exfalso]. pose proof (invalid_cell h a V) as E.
    destruct H as [k x H|x H]; rewrite E in H; cbn in H.
    - unfold props, map_at in H. cbn in H. now rewrite lookup_empty in H.
    - rewrite !elem_of_nil in H. intuition discriminate. }
  unfold parts. apply elem_of_list_In, in_concat. exists (parts_of h a). split.
  - apply elem_of_list_In, elem_of_list_fmap_1. destruct V as [c V]. apply elem_of_map_to_list in V. exact (elem_of_list_fmap_1 fst _ _ V).
  - apply elem_of_list_In. unfold parts_of. apply elem_of_app. destruct H as [k x H|x H].
    + left. apply elem_of_map_to_list in H. exact (elem_of_list_fmap_1 (fun kv : string * nat => (a, Property kv.1, kv.2)) _ _ H).
    + right. apply elem_of_list_fmap_1. rewrite !elem_of_app.
      assert (L : forall o : option nat, o = Some x -> x ∈ opt_list o) by (intros o ->; left). intuition auto.
Qed.
Lemma written_once_check h components :
  bool_decide (base.NoDup (snd <$> parts h)) && forallb (fun e => negb (bool_decide (e.2 ∈ components))) (parts h) = true -> written_once h components.
Proof.
  rewrite andb_true_iff, bool_decide_eq_true, forallb_forall. intros [N F]. constructor.
  - intros a b p q x H1 H2. apply parts_in, elem_of_list_lookup in H1 as [i Hi]. apply parts_in, elem_of_list_lookup in H2 as [j Hj].
    assert (i = j) as <-.
    { eapply NoDup_lookup; [exact N| |]; rewrite list_lookup_fmap; [rewrite Hi|rewrite Hj]; reflexivity. }
    rewrite Hi in Hj. now injection Hj as -> ->.
  - intros a p x H Hx. apply parts_in in H. specialize (F _ (proj1 (elem_of_list_In _ _) H)). cbn in F. now rewrite bool_decide_true in F.
Qed.
