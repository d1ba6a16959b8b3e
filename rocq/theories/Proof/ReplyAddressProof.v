From stdpp Require Import gmap list strings.
From Coq Require Import Ascii String Lia.
From Verif.Model Require Import GoStrings Reference Slices Schema Location Message ReplyAddress.
From Verif.Spec Require Import SchemaSpec LocationSpec ReplyAddressSpec.
From Verif.Proof Require Import GoStringsProof SlicesProof SchemaProof LocationProof MessageProof.
Local Open Scope string_scope.

Lemma down_parent path : forall l h, closed h -> valid h l -> path <> [] ->
  exists q, fst (down path l h) = Some q /\ reaches (snd (down path l h)) l (removelast path) q.
Proof.
  induction path as [|k path IH]; intros l h C V N; [congruence|].
  pose proof (down_spec (k :: path) l h C V N) as S. cbn [down] in *.
  destruct (match map_at h (s_props (cell h l)) !! k with
      | Some c => (c, h) | None => let '(c, h) := new_schema match path with [] => "string" | _ => "header" end h in (c, put_property l k c h) end) as [next h1] eqn:E.
  destruct path as [|k' path].
  - exists l. split; [reflexivity|constructor].
  - assert (K : closed h1 /\ valid h1 next /\ valid h1 l /\ props h1 (cell h1 l) !! k = Some next).
    { destruct (map_at h (s_props (cell h l)) !! k) as [c|] eqn:El.
      - injection E as <- <-. split; [exact C|]. split; [exact (props_valid h (cell h l) k c C (cell_ok h l C V) El)|]. split; [exact V|exact El].
      - pose proof (create_step "header" l k h C V El) as T. destruct (new_schema "header" h) as [c h2]. injection E as <- <-. cbn zeta in T.
        destruct T as (C2 & G & _ & Vc & _ & P & _). split; [exact C2|]. split; [exact Vc|]. split; [now apply G|exact P]. }
    destruct K as (C1 & V1 & Vl & P1). destruct (IH next h1 C1 V1 ltac:(discriminate)) as (q & D & R). exists q. split; [exact D|].
    cbn [removelast]. cbn [removelast] in R. econstructor; [|exact R].
    pose proof (down_spec (k' :: path) next h1 C1 V1 ltac:(discriminate)) as S'. destruct (down (k' :: path) next h1) as [p h2]. destruct S' as (_ & G & _). cbn.
    now apply (G l Vl).
Qed.
(** Below a new schema nothing is required. *)
Lemma down_new path : forall l h, closed h -> valid h l -> props h (cell h l) = ∅ -> s_required (cell h l) = [] -> path <> [] ->
  exists q, fst (down path l h) = Some q /\ s_required (cell (snd (down path l h)) q) = [].
Proof.
  induction path as [|k path IH]; intros l h C V E R N; [congruence|]. cbn [down].
  assert (El : map_at h (s_props (cell h l)) !! k = None) by (change (props h (cell h l) !! k = None); rewrite E; apply lookup_empty). rewrite El.
  set (t := match path with [] => "string" | _ => "header" end).
  pose proof (create_step t l k h C V El) as T. pose proof (new_schema_spec t h C) as T0. destruct (new_schema t h) as [c h1]. cbn zeta in T.
  destruct T as (C2 & G & _ & Vc & _ & P & _ & Pe). destruct T0 as (C1 & _ & V1 & _ & _ & _ & _ & Rc & O & _).
  assert (Rq : forall x, valid h1 x -> s_required (cell (put_property l k c h1) x) = s_required (cell h1 x)).
  { intros x _. unfold put_property. destruct (s_props (cell h1 l)) as [m|]; [reflexivity|]. cbn.
    change (s_required (cell (upd l (with_props (Some (next h1))) (snd (alloc_map h1))) x) = s_required (cell h1 x)).
    destruct (decide (x = l)) as [->|Nx]; [now rewrite cell_upd_same|now rewrite cell_upd_other by congruence]. }
  destruct path as [|k' path].
  - exists l. split; [reflexivity|]. cbn. rewrite Rq by now apply O. now rewrite (proj1 (O l V)).
  - apply IH; [exact C2|exact Vc|exact Pe| |discriminate]. rewrite Rq by exact V1. exact Rc.
Qed.

Lemma last_app_one (ks : list string) k : List.last (ks ++ [k])%list "" = k /\ removelast (ks ++ [k])%list = ks.
Proof. split; [apply List.last_last|apply List.removelast_last]. Qed.
Lemma path_end (path : list string) : path <> [] -> path = (removelast path ++ [List.last path ""])%list.
Proof. apply List.app_removelast_last. Qed.

Lemma stands_target h root : stands_for h root (target h root).
Proof. unfold target. destruct (s_refto (cell h root)) as [r|] eqn:E; [now constructor|now constructor]. Qed.
Lemma stands_unique h root x : stands_for h root x -> x = target h root.
Proof. unfold target. destruct 1 as [E|r E]; now rewrite E. Qed.
Lemma reaches_unique h l ks x y : reaches h l ks x -> reaches h l ks y -> x = y.
Proof. intros H. revert y. induction H as [|l k m ks x E _ IH]; intros y H'; inversion H' as [|? ? m' ? ? E']; subst; [reflexivity|]. rewrite E in E'. injection E' as <-. auto. Qed.
Lemma holder_exact d m header path parent root : path <> [] -> part header (m_parts (message d m)) = Some root ->
  reaches (d_heap d) (target (d_heap d) root) (removelast path) parent -> forall q, holder d m header path q <-> q = parent.
Proof.
  intros N A R q. split.
  - intros (root' & top & ks & k & H1 & H2 & -> & H3). unfold has_part in H1. unfold part in A. rewrite A in H1. injection H1 as <-. rewrite (stands_unique _ _ _ H2) in H3.
    rewrite (proj2 (last_app_one ks k)) in R. exact (reaches_unique _ _ _ _ _ H3 R).
  - intros ->. exists root, (target (d_heap d) root), (removelast path), (List.last path ""). split; [exact A|]. split; [apply stands_target|]. split; [now apply path_end|exact R].
Qed.

Lemma required_exact header path op d m : closed (d_heap d) -> get_message d op = Some m -> ok_part (d_heap d) (part header (m_parts (message d m))) ->
  Forall plain_name path -> path <> [] ->
  exists b d', location_required (location_of header path) op d = ODone (b, d') /\ closed (d_heap d') /\
    (b = true <-> field_required d' m header path) /\
    grown path (d_heap d) (d_heap d') /\ (forall x, x <> m -> message d' x = message d x) /\
    (part header (m_parts (message d m)) <> None -> message d' m = message d m) /\
    exists root parent, part header (m_parts (message d' m)) = Some root /\ reaches (d_heap d') (target (d_heap d') root) (removelast path) parent /\
      (exists x, reaches (d_heap d') (target (d_heap d') root) path x) /\ (part header (m_parts (message d m)) = None -> s_required (cell (d_heap d') parent) = []).
Proof.
  intros C G V F N. unfold location_required. rewrite location_nonempty, G.
  pose proof (create_tree_spec header path (m_parts (message d m)) (d_heap d) C V F N) as S.
  assert (Q : exists q, fst (fst (create_tree (location_of header path) (m_parts (message d m)) (d_heap d))) = Some q /\
     let '(_, ps, h) := create_tree (location_of header path) (m_parts (message d m)) (d_heap d) in
     (forall root, part header ps = Some root -> reaches h (target h root) (removelast path) q) /\ (part header (m_parts (message d m)) = None -> s_required (cell h q) = [])).
  { rewrite create_tree_unfold in *. unfold create_from in *. rewrite (location_steps header path F) in *.
    destruct (part header (m_parts (message d m))) as [root|] eqn:P.
    - set (child := match s_refto (cell (d_heap d) root) with Some r => r | None => root end) in *.
      assert (Vc : valid (d_heap d) child).
      { unfold child. destruct (s_refto (cell (d_heap d) root)) as [r|] eqn:E; [|exact V]. apply (ok_refto _ _ (cell_ok _ root C V) r E). }
      destruct (down_parent path child (d_heap d) C Vc N) as (q & E1 & E2). exists q.
      pose proof (down_spec path child (d_heap d) C Vc N) as D. destruct (down path child (d_heap d)) as [p h'] eqn:Ed. cbn in *. split; [exact E1|].
      split; [|discriminate]. intros root'. rewrite P. intros [= <-]. destruct D as (_ & Gr & _).
      replace (target h' root) with child; [exact E2|]. unfold target, child.
      destruct (Gr root V) as (_ & (ps & Ec & _) & _). now rewrite Ec.
    - pose proof (new_schema_spec "object" (d_heap d) C) as T. destruct (new_schema "object" (d_heap d)) as [root h1].
      destruct T as (C1 & _ & V1 & _ & _ & Rf & Pr & Rq & _).
      destruct (down_parent path root h1 C1 V1 N) as (q & E1 & E2). exists q.
      destruct (down_new path root h1 C1 V1 Pr Rq N) as (q' & E1' & E2'). rewrite E1 in E1'. injection E1' as <-.
      pose proof (down_spec path root h1 C1 V1 N) as D.
      destruct (down path root h1) as [p h'] eqn:Ed. cbn in *. split; [exact E1|]. split; [|auto].
      intros root'. assert (Ep : part header (set_part header (Some root) (m_parts (message d m))) = Some root) by now destruct header.
      rewrite Ep. intros [= <-]. replace (target h' root) with root; [exact E2|]. unfold target. destruct D as (_ & Gr & _).
      destruct (Gr root V1) as (_ & (ps & Ec & _) & _). rewrite Ec. cbn. now rewrite Rf. }
  destruct (create_tree (location_of header path) (m_parts (message d m)) (d_heap d)) as [[p ps] h'].
  destruct Q as (q & Eq & Q1 & Q2). cbn in Eq. subst p.
  destruct S as (C' & Gr & _ & K & root & Er & _ & x & Rx & _).
  eexists _, _. split; [reflexivity|]. set (d' := upd_message m (with_parts ps) (set_heap h' d)).
  assert (Ep : m_parts (message d' m) = ps) by (unfold d'; now rewrite message_upd_same).
  split; [exact C'|]. split; [|split; [exact Gr|split; [intros y Ny; unfold d'; now rewrite message_upd_other|split]]].
  - rewrite is_in_slice_spec, last_split_location by assumption. pose proof (Q1 root Er) as Rq.
    assert (H : forall y, holder d' m header path y <-> y = q).
    { apply (holder_exact d' m header path q root N); [now rewrite Ep|exact Rq]. }
    change (cell h' q) with (cell (d_heap d') q). split.
    + intros Hin. exists q, (removelast path), (List.last path ""). split; [now apply path_end|]. split; [now apply H|exact Hin].
    + intros (y & ks & k & -> & Hy & Hin). apply H in Hy as ->. now rewrite (proj1 (last_app_one ks k)).
  - intros Np. unfold d'. rewrite message_upd_same. rewrite (K Np). change (message (set_heap h' d) m) with (message d m). apply with_parts_same.
  - exists root, q. rewrite Ep. split; [exact Er|]. split; [now apply Q1|]. split; [eauto|exact Q2].
Qed.

Lemma existing_exact header path op d m : get_message d op = Some m -> Forall plain_name path -> field_exists d m header path ->
  exists b d', location_required (location_of header path) op d = ODone (b, d') /\ d_heap d' = d_heap d /\ (forall x, message d' x = message d x) /\
    (b = true <-> field_required d m header path).
Proof.
  intros G F (parent & ks & k & x & E & (root & top & ks' & k' & A & S & E' & R) & P).
  assert (N : path <> []) by (rewrite E; now destruct ks). rewrite E in E'. apply app_inj_tail in E' as [<- <-].
  pose proof (stands_unique _ _ _ S) as ->. assert (Rp : reaches (d_heap d) (target (d_heap d) root) path x).
  { rewrite E. clear -R P. induction R as [l|l k1 m1 ks1 x1 E1 _ IH]; [econstructor; [exact P|constructor]|]. cbn. econstructor; [exact E1|auto]. }
  destruct (down_existing _ _ _ _ Rp N) as (q & D & Rq & _).
  assert (q = parent) as ->. { rewrite E, (proj2 (last_app_one ks k)) in Rq. exact (reaches_unique _ _ _ _ _ Rq R). }
  unfold location_required. rewrite location_nonempty, G, create_tree_unfold. unfold create_from. rewrite (location_steps header path F).
  assert (Ap : part header (m_parts (message d m)) = Some root) by exact A.
  rewrite Ap. change (match s_refto (cell (d_heap d) root) with Some r => r | None => root end) with (target (d_heap d) root). rewrite D.
  eexists _, _. split; [reflexivity|]. split; [reflexivity|]. split.
  - intros y. destruct (decide (y = m)) as [->|Ny]; [rewrite message_upd_same; apply with_parts_same|now rewrite message_upd_other].
  - rewrite is_in_slice_spec, last_split_location by assumption. rewrite E at 1. rewrite (proj1 (last_app_one ks k)).
    pose proof (holder_exact d m header path parent root N Ap Rq) as H. split.
    + intros Hin. exists parent, ks, k. split; [exact E|]. split; [now apply H|exact Hin].
    + intros (y & ks2 & k2 & E2 & Hy & Hin). apply H in Hy as ->. rewrite E in E2. apply app_inj_tail in E2 as [_ <-]. exact Hin.
Qed.
Lemma field_grown ks d d' m header path : closed (d_heap d) -> grown ks (d_heap d) (d_heap d') -> message d' m = message d m ->
  ok_part (d_heap d) (part header (m_parts (message d m))) -> field_required d m header path -> field_required d' m header path.
Proof.
  intros C G E V (parent & ks0 & k & P & (root & top & ks' & k' & A & S & E' & R) & Hin).
  assert (Vr : valid (d_heap d) root) by (unfold has_part in A; unfold part in V; rewrite A in V; exact V).
  pose proof (stands_unique _ _ _ S) as ->.
  assert (Vt : valid (d_heap d) (target (d_heap d) root)).
  { unfold target. destruct (s_refto (cell (d_heap d) root)) as [r|] eqn:Er; [|exact Vr]. apply (ok_refto _ _ (cell_ok _ root C Vr) r Er). }
  assert (Vp : valid (d_heap d) parent).
  { clear -C R Vt. induction R as [l|l k1 m1 ks1 x1 E1 _ IH]; [exact Vt|]. apply IH. exact (props_valid _ _ _ _ C (cell_ok _ l C Vt) E1). }
  exists parent, ks0, k. split; [exact P|]. split.
  - exists root, (target (d_heap d') root), ks', k'. split; [unfold has_part; now rewrite E|]. split; [apply stands_target|]. split; [exact E'|].
    replace (target (d_heap d') root) with (target (d_heap d) root); [exact (grown_reaches ks _ _ _ _ _ C G Vt R)|].
    destruct (G root Vr) as (_ & (q & Ec & _) & _). unfold target. now rewrite Ec.
  - destruct (G parent Vp) as (_ & (q & Ec & _) & _). now rewrite Ec.
Qed.
