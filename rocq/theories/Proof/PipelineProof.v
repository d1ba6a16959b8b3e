From stdpp Require Import gmap list strings.
From Coq Require Import NArith Ascii String.
From Verif.Model Require Import Slices Reference Schema Naming Names Types Pipeline.
From Verif.Spec Require Import NamingSpec NamesSpec SchemaSpec TypesSpec PipelineSpec.
From Verif.Proof Require Import SchemaProof NamesProof TypesProof.

(** * What the processing leaves as it is, without compositions. *)
Definition core (c : sch) : sch := with_isreq false (with_required [] (with_refto None c)).
(** Besides, what is referred to satisfies [P]. *)
Definition same (P : nat -> Prop) (h h' : heap) : Prop :=
  maps h' = maps h /\ (forall l, core (cell h' l) = core (cell h l)) /\
  forall l r, s_refto (cell h' l) = Some r -> s_refto (cell h l) = Some r \/ P r.

Lemma same_refl P h : same P h h. Proof. split; [done|]. split; [done|]. auto. Qed.
Lemma same_trans P a b c : same P a b -> same P b c -> same P a c.
Proof.
  intros (M1 & C1 & R1) (M2 & C2 & R2). split; [congruence|]. split; [intros l; by rewrite C2|]. intros l r H. apply R2 in H as [H|H]; auto.
Qed.
Lemma same_upd P l f h : core (f (cell h l)) = core (cell h l) -> (forall r, s_refto (f (cell h l)) = Some r -> s_refto (cell h l) = Some r \/ P r) ->
  same P h (upd l f h).
Proof.
  intros E HP. split; [done|]. split; intros x.
  - destruct (decide (l = x)) as [->|N]; [by rewrite cell_upd_same|by rewrite cell_upd_other].
  - intros r. destruct (decide (l = x)) as [->|N]; [rewrite cell_upd_same; apply HP|rewrite cell_upd_other by done; auto].
Qed.
Lemma core_fields c d : core c = core d -> s_type c = s_type d /\ s_props c = s_props d /\ s_addprops c = s_addprops d /\ s_items c = s_items d /\
  s_anyof c = s_anyof d /\ s_oneof c = s_oneof d /\ s_allof c = s_allof d /\ s_ref c = s_ref d.
Proof. destruct c, d. unfold core. cbn. intros E. injection E. intros. subst. by repeat (split; [reflexivity|]). Qed.
Lemma same_uncomposed P h h' : same P h h' -> uncomposed h -> uncomposed h'.
Proof. intros (_ & C & _) U l. destruct (core_fields _ _ (C l)) as (_ & _ & _ & _ & -> & -> & -> & _). apply U. Qed.

Section processing.
  Variable iter : nat -> gmap string nat -> list (string * nat).
  Variable resolve : heap -> string -> res nat.
  Variable P : nat -> Prop.
  Variable h0 : heap.
  Hypothesis resolve_P : forall h l x, s_ref (cell h0 l) <> ""%string -> resolve h (s_ref (cell h0 l)) = Ok x -> P x.

  Definition good (h : heap) : Prop := uncomposed h /\ forall l, s_ref (cell h l) = s_ref (cell h0 l).
  Lemma same_good h h' : same P h h' -> good h -> good h'.
  Proof.
    intros S [U R]. split; [by eapply same_uncomposed|]. intros l. destruct S as (_ & C & _). destruct (core_fields _ _ (C l)) as (_ & _ & _ & _ & _ & _ & _ & ->). apply R.
  Qed.

  Lemma bind_done r k h' : bind r k = Done h' -> exists h, r = Done h /\ k h = Done h'.
  Proof. destruct r; cbn; try discriminate. eauto. Qed.
  Lemma each_same {A} (f : A -> heap -> run) : (forall x h h', good h -> f x h = Done h' -> same P h h') ->
    forall l h h', good h -> Schema.each f l h = Done h' -> same P h h'.
  Proof.
    intros Hf l. induction l as [|x l IH]; intros h h' U H; cbn in H; [injection H as <-; apply same_refl|].
    apply bind_done in H as (h1 & H1 & H). apply Hf in H1; [|done]. eapply same_trans; [done|]. eapply IH; [by eapply same_good|done].
  Qed.
  Lemma set_reference_same v2 s h h' : good h -> set_reference resolve v2 s h = Done h' -> same P h h'.
  Proof.
    intros U H. unfold set_reference in H. destruct (String.eqb_spec (s_ref (cell h s)) ""%string) as [|Hr]; [injection H as <-; apply same_refl|].
    destruct (resolve h (s_ref (cell h s))) as [| |r] eqn:R; try discriminate. injection H as <-. destruct U as [U Er]. rewrite Er in R, Hr. apply resolve_P in R; [|done]. apply same_upd.
    - destruct (U r) as (-> & -> & ->). destruct (cell h s). by destruct v2.
    - intros r'. destruct (cell h s). destruct v2; cbn; intros [= <-]; by right.
  Qed.
  Lemma set_dependencies_same v2 fuel : forall s h h', good h -> set_dependencies iter resolve v2 fuel s h = Done h' -> same P h h'.
  Proof.
    induction fuel as [|fuel IH]; intros s h h' U H; cbn [set_dependencies] in H; [discriminate|].
    set (go := set_dependencies iter resolve v2 fuel) in *.
    assert (Hgo : forall l h h', good h -> Schema.each go l h = Done h' -> same P h h') by (apply each_same, IH).
    assert (Hif : forall (b : bool) l h h', good h -> (if b then Done h else Schema.each go l h) = Done h' -> same P h h').
    { intros b l a a' Ua E. destruct b; [injection E as <-; apply same_refl|by apply (Hgo l)]. }
    assert (S : forall k h h', (forall h1, same P h h1 -> good h1 -> k h1 = Done h' -> same P h1 h') ->
      forall r, good h -> (forall h1, r = Done h1 -> same P h h1) -> bind r k = Done h' -> same P h h').
    { intros k a a' Hk r Ua Hr E. apply bind_done in E as (a1 & E1 & E). specialize (Hr _ E1). eapply same_trans; [done|].
      apply Hk; [done|by eapply same_good|done]. }
    revert H. apply S; [|done|intros ?; by apply set_reference_same]. intros h1 _ U1.
    apply S; [|done|intros ?; by apply Hgo]. intros h2 _ U2.
    apply S; [|done|intros ?; by apply Hif]. intros h3 _ U3.
    apply S; [|done|intros ?; by apply Hif]. intros h4 _ U4.
    apply S; [|done|intros ?; by apply Hif]. intros h5 _ U5.
    apply S; [|done|intros ?; by apply Hgo]. intros h6 _ U6.
    apply S; [|done|intros ?; by apply Hif]. intros h7 _ U7.
    destruct (proj1 U7 s) as (-> & _ & _). cbn [Schema.each bind]. destruct (proj1 U7 s) as (_ & -> & _). cbn [Schema.each bind]. destruct (proj1 U7 s) as (_ & _ & ->). cbn [Schema.each bind].
    destruct v2; apply Hgo; done.
  Qed.
  Lemma generate_metadata_same fuel : forall b s h h', good h -> generate_metadata iter fuel b s h = Done h' -> same P h h'.
  Proof.
    induction fuel as [|fuel IH]; intros b s h h' U H; cbn [generate_metadata] in H; [discriminate|].
    apply bind_done in H as (h1 & H1 & H). apply bind_done in H as (h2 & H2 & H). injection H as <-.
    apply each_same in H1; [|intros ? ? ?; apply IH|done]. apply each_same in H2; [|intros ? ? ?; apply IH|by eapply same_good].
    eapply same_trans; [done|]. eapply same_trans; [done|]. apply same_upd; [by destruct (cell h2 s)|]. destruct (cell h2 s). cbn. auto.
  Qed.
  Lemma process_same v2 fuel cs h h' : good h -> process iter resolve v2 fuel cs h = Done h' -> same P h h'.
  Proof.
    intros U H. apply bind_done in H as (h1 & H1 & H). apply each_same in H1; [|intros ? ? ?; apply generate_metadata_same|done].
    eapply same_trans; [done|]. eapply each_same; [|by eapply same_good|done]. intros ? ? ?. apply set_dependencies_same.
  Qed.
End processing.

(** * The names of what the templates read. *)
Section types.
  Variable listing : gmap string nat -> list (string * nat).
  Hypothesis listing_perm : forall m, listing m ≡ₚ map_to_list m.
  Variable pattern_key : nat -> string.
  Variable name format ext : nat -> string.
  Variable ul ud : N -> bool.
  Variable uu : N -> bytes.

  Lemma listing_in m k v : (k, v) ∈ listing m -> m !! k = Some v.
  Proof. rewrite listing_perm. apply elem_of_map_to_list. Qed.

  Definition text (n : list ascii) := string_of_list_ascii n.
  Local Notation from_pairs l := (map (fun x : list step * list ascii => text x.2) l).

  Lemma reify_names P h h' : same P h h' -> forall fuel s t parent nm number at_ l g,
    tree_of listing pattern_key fuel h s = Some t -> schema_names ul ud uu parent nm number at_ t = Some l ->
    (forall p x n, leads h s p x -> (at_ ++ p, n) ∈ l -> name x = text n) ->
    reify listing name format ext fuel h' s = Some g -> all_names g ⊆+ from_pairs l.
  Proof.
    intros (M & C & _). induction fuel as [|fuel IH]; intros s t parent nm number at_ l g Ht Hl Hn Hg; [discriminate|].
    cbn [tree_of reify] in Ht, Hg.
    destruct (core_fields _ _ (C s)) as (Ety & Epr & Ead & Eit & _).
    assert (Hmap : map_at h' (s_props (cell h' s)) = map_at h (s_props (cell h s))).
    { rewrite Epr. destruct (s_props (cell h s)); [|done]. cbn. by rewrite M. }
    rewrite Hmap, Ead, Eit in Hg.
    repeat match type of Ht with _ ≫= _ = Some _ => let E := fresh "T" in apply bind_Some in Ht as (? & E & Ht) end. injection Ht as <-.
    repeat match type of Hg with _ ≫= _ = Some _ => let E := fresh "G" in apply bind_Some in Hg as (? & E & Hg) end. injection Hg as <-.
    cbn [schema_names] in Hl.
    repeat match type of Hl with _ ≫= _ = Some _ => let E := fresh "L" in apply bind_Some in Hl as (? & E & Hl) end. injection Hl as <-.
    rename x12 into me, x13 into l1, x15 into l3, x17 into l5.
    assert (Hchild : forall st v t' nm' number' l' g' par, tree_of listing pattern_key fuel h v = Some t' ->
      schema_names ul ud uu par nm' number' (at_ ++ [st]) t' = Some l' -> (forall p y, leads h v p y -> leads h s (st :: p) y) ->
      (forall z, z ∈ l' -> z ∈ l1 ++ l3 ++ l5) -> reify listing name format ext fuel h' v = Some g' -> all_names g' ⊆+ from_pairs l').
    { intros st v t' nm' number' l' g' par Ht' Hl' Hlead Hin Hg'. eapply IH; [exact Ht'|exact Hl'| |exact Hg'].
      intros p y n Hp Hz. apply (Hn (st :: p)); [by apply Hlead|]. rewrite <- app_assoc in Hz. cbn in Hz. apply Hin in Hz.
      right. rewrite !elem_of_app in *. tauto. }
    assert (HA : List.concat (map (fun kp => all_names kp.2.2) x9) ⊆+ from_pairs l1).
    { assert (Hsub : forall kv, kv ∈ listing (map_at h (s_props (cell h s))) -> map_at h (s_props (cell h s)) !! kv.1 = Some kv.2).
      { intros [k v] Hkv. by apply listing_in. }
      assert (Hin : forall z, z ∈ l1 -> z ∈ l1 ++ l3 ++ l5) by (intros z Hz; rewrite !elem_of_app; tauto).
      clear Hn. revert x x9 l1 T L0 G Hsub Hin Hchild. generalize 0%nat as i. induction (listing _) as [|[k v] kvs IHk]; intros i x x9 l1 T L0 G Hsub Hin Hchild.
      - injection T as <-. injection G as <-. apply submseteq_nil_l.
      - cbn [mapM] in T, G.
        apply bind_Some in T as (kt & Tk & T). apply bind_Some in T as (x' & T & Tx). injection Tx as <-. apply bind_Some in Tk as (t & Tk & Tkt). injection Tkt as <-.
        apply bind_Some in G as (kg & Gk & G). apply bind_Some in G as (x9' & G & Gx). injection Gx as <-. apply bind_Some in Gk as (g & Gk & Gkt). injection Gkt as <-.
        cbn in L0. apply bind_Some in L0 as (la & La & L0). apply bind_Some in L0 as (lb & Lb & L0). injection L0 as <-.
        cbn. rewrite map_app. apply submseteq_app.
        + eapply Hchild; [exact Tk|exact La| | |exact Gk].
          * intros p y Hp. apply (leads_prop h s k v p y); [|done]. apply (Hsub (k, v)). left.
          * intros z Hz. apply Hin. apply elem_of_app. by left.
        + eapply (IHk _ x' x9' lb); [exact T|exact Lb|exact G| | |].
          * intros kv Hkv. apply Hsub. by right.
          * intros z Hz. rewrite elem_of_app. by left.
          * intros st v' t' nm' number' l' g' par Ht' Hl' Hlead Hz Hg'. eapply Hchild; [exact Ht'|exact Hl'|exact Hlead| |exact Hg'].
            intros z Hz'. apply Hz in Hz'. rewrite !elem_of_app in *. tauto. }
    assert (HB : match x10 with Some i => all_names i | None => [] end ⊆+ from_pairs l5).
    { destruct (s_items (cell h s)) as [v|] eqn:Ev.
      - apply bind_Some in T3 as (t & T3 & E). injection E as <-. apply bind_Some in G0 as (g & G0 & E). injection E as <-. cbn [one] in L4.
        eapply Hchild; [exact T3|exact L4| | |exact G0]; [intros p y Hp; by apply (leads_items h s v)|intros z Hz; rewrite !elem_of_app; tauto].
      - injection G0 as <-. apply submseteq_nil_l. }
    assert (HC : match x11 with Some i => all_names i | None => [] end ⊆+ from_pairs l3).
    { destruct (s_addprops (cell h s)) as [v|] eqn:Ev.
      - apply bind_Some in T1 as (t & T1 & E). injection E as <-. apply bind_Some in G1 as (g & G1 & E). injection E as <-. cbn [one] in L2.
        eapply Hchild; [exact T1|exact L2| | |exact G1]; [intros p y Hp; by apply (leads_addl h s v)|intros z Hz; rewrite !elem_of_app; tauto].
      - injection G1 as <-. apply submseteq_nil_l. }
    cbn [all_names]. rewrite (Hn [] s me); [|constructor|rewrite app_nil_r; left]. cbn [map snd]. apply submseteq_skip.
    etransitivity; [apply submseteq_app; [exact HA|apply submseteq_app; [exact HB|exact HC]]|].
    rewrite !map_app. rewrite (Permutation_app_comm (from_pairs l5) (from_pairs l3)).
    apply submseteq_app; [done|]. etransitivity; [|apply submseteq_inserts_l; reflexivity].
    apply submseteq_app; [done|]. etransitivity; [|apply submseteq_inserts_l; reflexivity].
    apply submseteq_inserts_r. done.
  Qed.

  (** All the components. *)
  Lemma component_names P h h' (cs : list (string * nat)) fuel : same P h h' -> forall ts names gs,
    mapM (fun c : string * nat => t ← tree_of listing pattern_key fuel h c.2; Some (list_ascii_of_string c.1, t)) cs = Some ts ->
    forall i, each (fun _ kp => l ← schema_names ul ud uu [] (kp.1 ++ list_ascii_of_string "_Schema") None [] kp.2; Some (map (fun x => (PSchema kp.1 x.1, x.2)) l)) i ts = Some names ->
    carries name h cs names -> mapM (reify listing name format ext fuel h') (cs.*2) = Some gs ->
    List.concat (map all_names gs) ⊆+ map (fun x : place * list ascii => text x.2) names.
  Proof.
    intros HS. induction cs as [|[k s] cs IH]; intros ts names gs Hts i Hn Hc Hg.
    - injection Hg as <-. apply submseteq_nil_l.
    - cbn [mapM fmap list_fmap snd fst] in Hts, Hg.
      apply bind_Some in Hts as (kt & Tk & T). apply bind_Some in T as (x' & T & Tx). injection Tx as <-. apply bind_Some in Tk as (t & Tk & Tkt). injection Tkt as <-.
      apply bind_Some in Hg as (g & Gk & G). apply bind_Some in G as (gs' & G & Gx). injection Gx as <-.
      cbn [each] in Hn. apply bind_Some in Hn as (la & La & Hn). apply bind_Some in Hn as (lb & Lb & Hn). injection Hn as <-.
      apply bind_Some in La as (l & La & E). injection E as <-. cbn [map List.concat]. rewrite map_app. apply submseteq_app.
      + rewrite map_map. cbn. cbn [fst snd] in *. eapply (reify_names P h h' HS fuel s t); [exact Tk|exact La| |exact Gk].
        intros p x n Hp Hin. apply (Hc k s p x n); [left|done|]. apply elem_of_app. left. apply elem_of_list_fmap. exists (p, n). split; [done|exact Hin].
      + eapply IH; [exact T|exact Lb| |exact G]. intros k' s' p l' n Hk Hp Hin. apply (Hc k' s' p l' n); [by right|done|]. apply elem_of_app. by right.
  Qed.
End types.

(** * Checking [carries] by computation. *)
Fixpoint walk (h : heap) (s : nat) (p : list step) : option nat :=
  match p with
  | [] => Some s
  | SProperty k :: p => match map_at h (s_props (cell h s)) !! string_of_list_ascii k with Some v => walk h v p | None => None end
  | SAddl :: p => match s_addprops (cell h s) with Some v => walk h v p | None => None end
  | SItems :: p => match s_items (cell h s) with Some v => walk h v p | None => None end
  | _ => None
  end.
Lemma leads_walk h s p l : leads h s p l -> walk h s p = Some l.
Proof.
  induction 1 as [|s k v p l E _ IH|s v p l E _ IH|s v p l E _ IH]; cbn; [done|..].
  - by rewrite string_of_list_ascii_of_string, E.
  - by rewrite E.
  - by rewrite E.
Qed.
Definition carries_b (name : nat -> string) (h : heap) (cs : list (string * nat)) (names : list (place * list ascii)) : bool :=
  forallb (fun e : place * list ascii => forallb (fun c : string * nat =>
    match e.1 with
    | PSchema k p => if bool_decide (k = list_ascii_of_string c.1)
                     then match walk h c.2 p with Some l => String.eqb (name l) (string_of_list_ascii e.2) | None => true end else true
    | _ => true
    end) cs) names.
Lemma carries_check name h cs names : carries_b name h cs names = true -> carries name h cs names.
Proof.
  intros H k s p l n Hk Hp Hn. unfold carries_b in H. rewrite forallb_forall in H. specialize (H _ (proj1 (elem_of_list_In _ _) Hn)).
  rewrite forallb_forall in H. specialize (H _ (proj1 (elem_of_list_In _ _) Hk)). cbn in H. rewrite bool_decide_eq_true_2 in H by done.
  rewrite (leads_walk _ _ _ _ Hp) in H. by apply String.eqb_eq.
Qed.
Definition uncomposed_b (h : heap) : bool := forallb (fun c : nat * sch => bool_decide (s_anyof c.2 = [] /\ s_oneof c.2 = [] /\ s_allof c.2 = [])) (map_to_list (cells h)).
Lemma uncomposed_check h : uncomposed_b h = true -> uncomposed h.
Proof.
  intros H l. unfold uncomposed_b in H. rewrite forallb_forall in H. unfold cell. destruct (cells h !! l) as [c|] eqn:E; [|done].
  specialize (H (l, c) (proj1 (elem_of_list_In _ _) (proj2 (elem_of_map_to_list _ _ _) E))). by apply bool_decide_eq_true in H.
Qed.

(** * Checking [clear] by computation. *)
Definition readable_b (ks : list (list ascii)) : bool :=
  bool_decide (Forall (Forall is_ascii) ks) && forallb (fun k => negb (from_b (name_of k))) ks.
Lemma readable_check ks : readable_b ks = true -> readable ks.
Proof.
  intros [H1 H2]%andb_true_iff. split; [by apply bool_decide_eq_true in H1|]. rewrite forallb_forall in H2. apply Forall_forall. intros k Hk.
  apply from_b_spec. apply negb_true_iff. apply H2. by apply elem_of_list_In.
Qed.
Definition opt_b {A} (f : A -> bool) (o : option A) : bool := match o with Some x => f x | None => true end.
Fixpoint clear_b (t : tree) : bool :=
  match t with
  | Tree props patterns addl additems items contains anyof oneof allof not_ =>
      readable_b (map fst props) && readable_b (map fst patterns) &&
      bool_decide (NoDup (kind_names "Property" (map fst props) ++ kind_names "Pattern_Property" (map fst patterns))) &&
      (Nat.leb (List.length anyof) 1 && Nat.leb (List.length oneof) 1 && Nat.leb (List.length allof) 1) &&
      match contains with [] => true | _ => false end &&
      (forallb (fun kp => clear_b kp.2) props && forallb (fun kp => clear_b kp.2) patterns && forallb clear_b additems &&
       forallb clear_b anyof && forallb clear_b oneof && forallb clear_b allof &&
       match addl with Some x => clear_b x | None => true end && match items with Some x => clear_b x | None => true end &&
       match not_ with Some x => clear_b x | None => true end)
  end.
Fixpoint depth (t : tree) : nat :=
  match t with
  | Tree props patterns addl additems items contains anyof oneof allof not_ =>
      S (max_list (map (fun kp => depth kp.2) props) + max_list (map (fun kp => depth kp.2) patterns) + max_list (map depth additems) +
         max_list (map depth anyof) + max_list (map depth oneof) + max_list (map depth allof) +
         match addl with Some x => depth x | None => 0%nat end + match items with Some x => depth x | None => 0%nat end +
         match not_ with Some x => depth x | None => 0%nat end)
  end.
Lemma max_list_in (n : nat) l : n ∈ l -> (n <= max_list l)%nat.
Proof. induction 1; cbn; lia. Qed.
Lemma clear_check t : clear_b t = true -> clear t.
Proof.
  assert (G : forall n t, (depth t <= n)%nat -> clear_b t = true -> clear t); [|by apply (G (depth t))].
  clear t. induction n as [|n IH]; intros [props patterns addl additems items contains anyof oneof allof not_] Hd H; [cbn in Hd; lia|].
  cbn [clear_b] in H. rewrite !andb_true_iff in H.
  destruct H as (((((Hp & Hq) & Hn) & ((L1 & L2) & L3)) & Hc) & ((((((((C1 & C2) & C3) & C4) & C5) & C6) & C7) & C8) & C9)).
  destruct contains; [|done]. cbn [depth] in Hd. rewrite forallb_forall in C1, C2, C3, C4, C5, C6.
  constructor; [by apply readable_check|by apply readable_check|by apply bool_decide_eq_true in Hn|by apply Nat.leb_le|by apply Nat.leb_le|by apply Nat.leb_le|].
  assert (Hl : forall x (l : list tree), x ∈ l -> (depth x <= max_list (map depth l))%nat) by (intros x l Hx; apply max_list_in, elem_of_list_fmap; eauto).
  assert (Hkl : forall k x (l : list (list ascii * tree)), (k, x) ∈ l -> (depth x <= max_list (map (fun kp => depth kp.2) l))%nat) by (intros k x l Hx; apply max_list_in, elem_of_list_fmap; eexists (_, _); eauto).
  intros t [(k & H)|[H|[E|[E|E]]]]; try subst addl; try subst items; try subst not_.
  - apply elem_of_app in H as [H|H]; (apply IH; [apply Hkl in H; lia|]).
    + by apply (C1 (k, t)), elem_of_list_In.
    + by apply (C2 (k, t)), elem_of_list_In.
  - rewrite !elem_of_app in H. destruct H as [H|[H|[H|H]]]; (apply IH; [apply Hl in H; lia|]).
    + by apply C3, elem_of_list_In.
    + by apply C4, elem_of_list_In.
    + by apply C5, elem_of_list_In.
    + by apply C6, elem_of_list_In.
  - apply IH; [lia|done].
  - apply IH; [lia|done].
  - apply IH; [lia|done].
Qed.
Definition schemas_b (ts : list (list ascii * tree)) : bool :=
  readable_b (map fst ts) && bool_decide (NoDup (kind_names "Schema" (map fst ts))) && forallb (fun kt => clear_b kt.2) ts.
Lemma schemas_check ts : schemas_b ts = true -> clear_document (mkDocument [] [] ts).
Proof.
  intros H. apply andb_true_iff in H as [H H3]. apply andb_true_iff in H as [H1 H2]. split; cbn.
  - split; constructor.
  - constructor.
  - intros ? ? H. by apply elem_of_nil in H.
  - split; [split; constructor|]. split; [constructor|]. intros ? ? H. by apply elem_of_nil in H.
  - by apply readable_check.
  - by apply bool_decide_eq_true in H2.
  - intros k t H. rewrite forallb_forall in H3. by apply clear_check, (H3 (k, t)), elem_of_list_In.
Qed.

(** * What is used is defined. *)
Section defined.
  Variable listing : gmap string nat -> list (string * nat).
  Variable name format ext : nat -> string.
  Local Notation reify := (reify listing name format ext).

  Lemma reify_inside fuel h s g x : reify fuel h s = Some g -> inside g x -> exists fuel' l, reify fuel' h l = Some x.
  Proof.
    intros Hg Hin. revert fuel s Hg. induction Hin as [g|g c x Hc Hin IH]; intros fuel s Hg; [eauto|].
    assert (exists f l, reify f h l = Some c) as (f & l & Hl); [|by eapply IH].
    destruct fuel as [|fuel]; [done|]. cbn [Pipeline.reify] in Hg.
    apply bind_Some in Hg as (ps & P & Hg). apply bind_Some in Hg as (it & I & Hg). apply bind_Some in Hg as (ad & A & Hg). injection Hg as <-.
    inversion Hc as [n t f e ps' it' ad' r k b p Hk|n t f e ps' it' ad' r|n t f e ps' it' ad' r]; subst.
    - apply mapM_Some in P. apply elem_of_list_lookup in Hk as (j & Hk). destruct (Forall2_lookup_r _ _ _ _ _ P Hk) as ([k' v] & _ & E). cbn in E. apply bind_Some in E as (g' & E & F). injection F as -> _ ->. eauto.
    - destruct (s_items (cell h s)) as [v|]; [|done]. apply bind_Some in I as (g' & E & F). injection F as ->. eauto.
    - destruct (s_addprops (cell h s)) as [v|]; [|done]. apply bind_Some in A as (g' & E & F). injection F as ->. eauto.
  Qed.
  Lemma reify_head fuel h s g : reify fuel h s = Some g -> g_name g = name s /\ g_type g = s_type (cell h s) /\
    forall u, reference_of g u -> exists r, s_refto (cell h s) = Some r /\ u = name r.
  Proof.
    intros Hg. destruct fuel as [|fuel]; [done|]. cbn [Pipeline.reify] in Hg.
    apply bind_Some in Hg as (ps & P & Hg). apply bind_Some in Hg as (it & I & Hg). apply bind_Some in Hg as (ad & A & Hg). injection Hg as <-.
    cbn. split; [done|]. split; [done|]. intros u (_ & _ & H). destruct (s_refto (cell h s)) as [r|]; [|done]. injection H as <-. eauto.
  Qed.
  Lemma reify_depth fuel h s g : flat h -> reify fuel h s = Some g -> (array_depth g <= 1)%nat.
  Proof.
    intros F Hg. destruct fuel as [|fuel]; [done|]. cbn [Pipeline.reify] in Hg.
    apply bind_Some in Hg as (ps & P & Hg). apply bind_Some in Hg as (it & I & Hg). apply bind_Some in Hg as (ad & A & Hg). injection Hg as <-.
    cbn [array_depth]. destruct (String.eqb_spec (s_type (cell h s)) "array") as [Et|]; [|lia].
    destruct (s_items (cell h s)) as [v|] eqn:Ei; [|by injection I as <-].
    apply bind_Some in I as (g' & E & H). injection H as <-. apply reify_head in E as (_ & E & _).
    specialize (F _ _ Et Ei). destruct g' as [n t f e ps' it' ad' r]. cbn in E. subst t. cbn [array_depth]. by destruct (String.eqb_spec (s_type (cell h v)) "array").
  Qed.
  Lemma reify_shallow fuel h s g : flat h -> reify fuel h s = Some g -> shallow g.
  Proof.
    intros F Hg. split; [apply (reify_depth _ _ _ _ F) in Hg; lia|]. intros o c Ho _ Hc.
    destruct (reify_inside fuel h s g c Hg) as (f & l & E); [|by eapply reify_depth].
    clear Hg. induction Ho as [|a b x Hab Hb IH]; [by apply (inside_child _ c); [|constructor]|]. by apply (inside_child _ b); [|apply IH].
  Qed.
  Lemma same_flat P h h' : same P h h' -> flat h -> flat h'.
  Proof.
    intros (_ & C & _) F l i Ht Hi. destruct (core_fields _ _ (C l)) as (E1 & _ & _ & E2 & _). destruct (core_fields _ _ (C i)) as (E3 & _).
    rewrite E3. apply (F l); congruence.
  Qed.
End defined.
