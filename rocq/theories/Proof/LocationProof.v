From stdpp Require Import gmap list strings.
From Coq Require Import Ascii String Lia.
From Verif.Model Require Import GoStrings Reference Slices Schema Location.
From Verif.Spec Require Import SchemaSpec LocationSpec.
From Verif.Proof Require Import GoStringsProof SlicesProof SchemaProof.
Local Open Scope string_scope.

Lemma with_props_same c : with_props (s_props c) c = c. Proof. now destruct c. Qed.

Lemma grown_refl ks h : grown ks h h.
Proof.
  intros l Hl. split; [exact Hl|]. split; [|auto]. exists (s_props (cell h l)). now rewrite with_props_same.
Qed.

Lemma grown_mono ks ks' h h' : (forall k, k ∈ ks -> k ∈ ks') -> grown ks h h' -> grown ks' h h'.
Proof.
  intros S G l Hl. destruct (G l Hl) as (A & B & C & D). split; [exact A|]. split; [exact B|]. split; [exact C|].
  intros k x E. destruct (D k x E) as [?|[? ?]]; [auto|]. right. auto.
Qed.

Lemma grown_trans ks h1 h2 h3 : grown ks h1 h2 -> grown ks h2 h3 -> grown ks h1 h3.
Proof.
  intros G1 G2 l Hl. destruct (G1 l Hl) as (A & (p & B & B') & C & D). destruct (G2 l A) as (A2 & (p2 & B2 & B2') & C2 & D2).
  split; [exact A2|]. split.
  - exists p2. rewrite B2, B. split; [reflexivity|]. intros N. rewrite B in B2'. cbn in B2'.
    rewrite B2'; [now apply B'|]. rewrite (B' N). exact N.
  - split; [auto|]. intros k x E. destruct (D2 k x E) as [E'|[K N]]; [exact (D k x E')|]. right. split; [exact K|].
    intros V. apply N. now apply G1.
Qed.

Lemma props_valid h c k x : closed h -> ok_sch h c -> props h c !! k = Some x -> valid h x.
Proof.
  intros C O E. unfold props, map_at in E. destruct (s_props c) as [p|]; [|now rewrite lookup_empty in E].
  destruct (maps h !! p) as [g|] eqn:G; [|cbn in E; now rewrite lookup_empty in E].
  exact (cl_entries h C p g k x G E).
Qed.
Lemma cell_ok h l : closed h -> valid h l -> ok_sch h (cell h l).
Proof. intros C V. apply (cl_sch h C l). now apply valid_cell. Qed.

Lemma ok_with_props h c m : ok_sch h c -> valid_map h m -> ok_sch h (with_props (Some m) c).
Proof. intros [a b d] V. constructor; [exact a| |exact d]. now intros p [= <-]. Qed.

Lemma ok_empty h t : ok_sch h (with_type t empty_sch).
Proof. constructor; [discriminate..|]. intros x H. cbn in H. now apply elem_of_nil in H. Qed.

Lemma fresh_cell h : closed h -> cells h !! next h = None.
Proof.
  intros C. destruct (cells h !! next h) eqn:E; [|reflexivity]. exfalso.
  assert (V : valid h (next h)) by (unfold valid; rewrite E; eauto). apply (cl_cells h C) in V. lia.
Qed.
Lemma fresh_map h : closed h -> maps h !! next h = None.
Proof.
  intros C. destruct (maps h !! next h) eqn:E; [|reflexivity]. exfalso.
  assert (V : valid_map h (next h)) by (unfold valid_map; rewrite E; eauto). apply (cl_maps h C) in V. lia.
Qed.

Lemma alloc_map_facts h : closed h ->
  let '(m, h1) := alloc_map h in
  closed h1 /\ ~ valid_map h m /\ maps h1 !! m = Some ∅ /\ cells h1 = cells h /\
  (forall m', m' <> m -> maps h1 !! m' = maps h !! m') /\ next h1 = S (next h).
Proof.
  intros C. unfold alloc_map. split; [exact (closed_alloc_map h C)|]. cbn.
  split; [unfold valid_map; rewrite (fresh_map h C); intros [? ?]; discriminate|].
  split; [apply lookup_insert|]. split; [reflexivity|]. split; [|reflexivity].
  intros m' N. now rewrite lookup_insert_ne by congruence.
Qed.

Lemma new_schema_spec t h : closed h ->
  let '(c, h1) := new_schema t h in
  closed h1 /\ ~ valid h c /\ valid h1 c /\ c = S (next h) /\
  s_type (cell h1 c) = t /\ s_refto (cell h1 c) = None /\ props h1 (cell h1 c) = ∅ /\ s_required (cell h1 c) = [] /\
  (forall l, valid h l -> cell h1 l = cell h l /\ valid h1 l) /\
  (forall m, valid_map h m -> maps h1 !! m = maps h !! m) /\
  (exists m, s_props (cell h1 c) = Some m /\ ~ valid_map h m).
Proof.
  intros C. unfold new_schema. pose proof (alloc_map_facts h C) as F. destruct (alloc_map h) as [m h0] eqn:E.
  destruct F as (C0 & Nm & M0 & K0 & Mo & N0). unfold alloc. cbn zeta iota beta.
  set (c := with_props (Some m) (with_type t empty_sch)).
  assert (Oc : ok_sch h0 c) by (apply ok_with_props; [apply ok_empty|unfold valid_map; rewrite M0; eauto]).
  split; [exact (closed_alloc c h0 C0 Oc)|].
  assert (Cc : cell (mkHeap (<[next h0 := c]> (cells h0)) (maps h0) (S (next h0))) (next h0) = c).
  { apply cell_some. cbn. apply lookup_insert. }
  split. { unfold valid. rewrite <- K0, (fresh_cell h0 C0). intros [? ?]; discriminate. }
  split. { unfold valid. cbn. rewrite lookup_insert. eauto. }
  split; [exact N0|]. rewrite Cc. split; [reflexivity|]. split; [reflexivity|].
  split. { unfold props, map_at. cbn. rewrite M0. reflexivity. }
  split; [reflexivity|]. split.
  { intros l [c' El]. unfold valid, cell. cbn. rewrite lookup_insert_ne, K0, El.
    - split; [reflexivity|eauto].
    - intros <-. assert (X : cells h0 !! next h0 = None) by now apply fresh_cell. rewrite K0, El in X. discriminate. }
  split. { intros m' Vm. cbn. apply Mo. intros ->. contradiction. }
  exists m. split; [reflexivity|exact Nm].
Qed.

Lemma put_property_spec parent k c h : closed h -> valid h parent -> valid h c ->
  props h (cell h parent) !! k = None ->
  let h1 := put_property parent k c h in
  closed h1 /\ props h1 (cell h1 parent) !! k = Some c /\ (forall l, valid h l -> valid h1 l) /\
  (forall l, valid h l ->
     (exists p, cell h1 l = with_props p (cell h l) /\ (s_props (cell h l) <> None -> p = s_props (cell h l))) /\
     (forall j x, props h (cell h l) !! j = Some x -> props h1 (cell h1 l) !! j = Some x) /\
     (forall j x, props h1 (cell h1 l) !! j = Some x -> props h (cell h l) !! j = Some x \/ (j = k /\ x = c))) /\
  (forall l, valid h l -> l <> parent -> s_props (cell h l) <> s_props (cell h parent) ->
     props h1 (cell h1 l) = props h (cell h l)).
Proof.
  intros C V Vc N. unfold put_property. pose proof (cell_ok h parent C V) as O.
  destruct (s_props (cell h parent)) as [m|] eqn:Em.
  - assert (Vm : valid_map h m) by now apply (ok_props _ _ O).
    assert (Cl : forall l, cell (set_map m (<[k:=c]> (map_at h (Some m))) h) l = cell h l) by reflexivity.
    assert (Pr : forall l, props (set_map m (<[k:=c]> (map_at h (Some m))) h) (cell h l) =
      if decide (s_props (cell h l) = Some m) then <[k:=c]> (props h (cell h l)) else props h (cell h l)).
    { intros l. unfold props, set_map. destruct (decide (s_props (cell h l) = Some m)) as [E|E].
      - rewrite E. unfold map_at at 1. cbn. now rewrite lookup_insert.
      - unfold map_at. destruct (s_props (cell h l)) as [m'|]; [|reflexivity]. cbn. rewrite lookup_insert_ne; congruence. }
    cbn zeta. split; [|split; [|split; [|split]]].
    + apply closed_set_map; [exact C|exact Vm|]. intros j x. rewrite lookup_insert_Some.
      intros [[<- <-]|[_ E]]; [exact Vc|]. apply (props_valid h (cell h parent) j x C O). unfold props. now rewrite Em.
    + rewrite Cl, Pr, Em. rewrite decide_True by reflexivity. apply lookup_insert.
    + intros l Hl. exact Hl.
    + intros l Hl. rewrite !Cl. split; [exists (s_props (cell h l)); split; [now rewrite with_props_same|reflexivity]|].
      rewrite Pr. destruct (decide (s_props (cell h l) = Some m)) as [E|E]; [|split; auto]. split.
      * intros j x Hj. destruct (decide (j = k)) as [->|Nk]; [|now rewrite lookup_insert_ne by congruence].
        exfalso. unfold props in Hj, N. rewrite Em in N. rewrite E in Hj. congruence.
      * intros j x. rewrite lookup_insert_Some. intros [[<- <-]|[_ Hj]]; auto.
    + intros l Hl _ D. rewrite Cl, Pr. rewrite decide_False; [reflexivity|]. exact D.
  - pose proof (alloc_map_facts h C) as F. destruct (alloc_map h) as [m h0] eqn:E.
    destruct F as (C0 & Nm & M0 & K0 & Mo & N0).
    assert (Cell0 : forall l, cell h0 l = cell h l) by (intros l; unfold cell; now rewrite K0).
    assert (V0 : valid h0 parent) by (unfold valid; rewrite K0; exact V).
    set (h2 := upd parent (with_props (Some m)) h0).
    assert (C2 : closed h2).
    { apply closed_upd; [exact C0|exact V0|]. intros O'. apply ok_with_props; [exact O'|]. unfold valid_map. rewrite M0. eauto. }
    assert (Cp : cell h2 parent = with_props (Some m) (cell h parent)).
    { unfold h2. rewrite cell_upd_same. now rewrite Cell0. }
    assert (Co : forall l, l <> parent -> cell h2 l = cell h l).
    { intros l Nl. unfold h2. rewrite cell_upd_other by congruence. apply Cell0. }
    assert (V2 : forall l, valid h l -> valid h2 l).
    { intros l Hl. apply valid_upd. unfold valid. now rewrite K0. }
    cbn zeta. set (h3 := set_map m {[k := c]} h2).
    assert (Cl3 : forall l, cell h3 l = cell h2 l) by reflexivity.
    assert (Po : forall l, l <> parent -> valid h l -> props h3 (cell h3 l) = props h (cell h l)).
    { intros l Nl Hl. rewrite Cl3, (Co l Nl). unfold props, map_at.
      destruct (s_props (cell h l)) as [m'|] eqn:Em'; [|reflexivity].
      assert (Vm' : valid_map h m') by (apply (ok_props _ _ (cell_ok h l C Hl)); exact Em').
      assert (m' <> m) by (intros ->; contradiction). f_equal. unfold h3, h2. cbn.
      rewrite lookup_insert_ne by congruence. now apply Mo. }
    assert (Pp : props h3 (cell h3 parent) = {[k := c]}).
    { rewrite Cl3, Cp. unfold props, map_at. cbn. now rewrite lookup_insert. }
    split; [|split; [|split; [|split]]].
    + apply closed_set_map; [exact C2| |].
      * unfold valid_map, h2. cbn. rewrite M0. eauto.
      * intros j x. rewrite lookup_singleton_Some. intros [<- <-]. now apply V2.
    + rewrite Pp. apply lookup_singleton.
    + intros l Hl. apply V2, Hl.
    + intros l Hl. destruct (decide (l = parent)) as [->|Nl].
      * rewrite Pp. rewrite Cl3, Cp. split; [exists (Some m); split; [reflexivity|]; intros X; now rewrite Em in X|].
        split; [|intros j x; rewrite lookup_singleton_Some; intros [<- <-]; auto].
        intros j x. unfold props. rewrite Em. cbn. now rewrite lookup_empty.
      * rewrite (Po l Nl Hl). rewrite Cl3, (Co l Nl). split; [|auto].
        exists (s_props (cell h l)). split; [now rewrite with_props_same|reflexivity].
    + intros l Hl Nl _. now apply Po.
Qed.

(** One missing step. *)
Lemma create_step t parent k h : closed h -> valid h parent -> props h (cell h parent) !! k = None ->
  let '(c, h1) := new_schema t h in
  let h2 := put_property parent k c h1 in
  closed h2 /\ grown [k] h h2 /\ ~ valid h c /\ valid h2 c /\ s_type (cell h2 c) = t /\
  props h2 (cell h2 parent) !! k = Some c /\ s_refto (cell h2 c) = None /\
  props h2 (cell h2 c) = ∅.
Proof.
  intros C V N. pose proof (new_schema_spec t h C) as S. destruct (new_schema t h) as [c h1].
  destruct S as (C1 & Nc & Vc & _ & T & R & P & _ & O & M & (mc & Emc & Nmc)).
  assert (V1 : valid h1 parent) by now apply O.
  assert (Pe : forall l, valid h l -> props h1 (cell h1 l) = props h (cell h l)).
  { intros l Hl. rewrite (proj1 (O l Hl)). unfold props, map_at. destruct (s_props (cell h l)) as [m|] eqn:Em; [|reflexivity].
    now rewrite (M m (ok_props _ _ (cell_ok h l C Hl) m Em)). }
  assert (N1 : props h1 (cell h1 parent) !! k = None) by now rewrite Pe.
  destruct (put_property_spec parent k c h1 C1 V1 Vc N1) as (C2 & P2 & V2 & G2 & D2). cbn zeta in *.
  set (h2 := put_property parent k c h1) in *. split; [exact C2|]. split.
  { intros l Hl. destruct (O l Hl) as [Ec Vl]. destruct (G2 l Vl) as ((p & Ep & Ep') & A & B).
    split; [now apply V2|]. split; [exists p; rewrite Ep, Ec; rewrite Ec in Ep'; auto|].
    rewrite (Pe l Hl) in A, B. split; [exact A|]. intros j x E. destruct (B j x E) as [?|[-> ->]]; [auto|].
    right. split; [left|exact Nc]. }
  split; [exact Nc|]. split; [now apply V2|]. destruct (G2 c Vc) as ((p & Ep & _) & _). split; [now rewrite Ep|].
  split; [exact P2|]. split; [now rewrite Ep|]. rewrite <- P. apply D2; [exact Vc|intros ->; contradiction|].
  rewrite Emc, (proj1 (O parent V)). intros E. symmetry in E. apply Nmc.
  exact (ok_props _ _ (cell_ok h parent C V) mc E).
Qed.

(** Existing paths are walked without any change. *)
Lemma down_existing h l path x : reaches h l path x -> path <> [] ->
  exists p, down path l h = (Some p, h) /\ reaches h l (removelast path) p /\
            props h (cell h p) !! List.last path "" = Some x.
Proof.
  induction 1 as [l|l k m path x E R IH]; intros N; [congruence|]. cbn [down]. unfold props in E. rewrite E.
  destruct path as [|k' path].
  - inversion R; subst. exists l. split; [reflexivity|]. split; [constructor|exact E].
  - destruct IH as (p & D & Rp & L); [discriminate|]. exists p. split; [exact D|].
    split; [|exact L]. cbn [removelast]. econstructor; [exact E|exact Rp].
Qed.

Lemma down_spec path : forall l h, closed h -> valid h l -> path <> [] ->
  let '(p, h') := down path l h in
  closed h' /\ grown path h h' /\
  exists x, reaches h' l path x /\ valid h' x /\ (reaches h l path x \/ (~ valid h x /\ s_type (cell h' x) = "string")).
Proof.
  induction path as [|k path IH]; intros l h C V N; [congruence|]. cbn [down].
  set (t := match path with [] => "string" | _ => "header" end).
  assert (Step : let '(next, h1) := match map_at h (s_props (cell h l)) !! k with
      | Some c => (c, h) | None => let '(c, h) := new_schema t h in (c, put_property l k c h) end in
      closed h1 /\ grown [k] h h1 /\ valid h1 next /\ props h1 (cell h1 l) !! k = Some next /\
      ((props h (cell h l) !! k = Some next /\ h1 = h) \/
       (~ valid h next /\ s_type (cell h1 next) = t /\ props h1 (cell h1 next) = ∅))).
  { destruct (map_at h (s_props (cell h l)) !! k) as [c|] eqn:E.
    - assert (Vc : valid h c) by exact (props_valid h (cell h l) k c C (cell_ok h l C V) E).
      split; [exact C|]. split; [apply grown_refl|]. split; [exact Vc|]. split; [exact E|]. left. auto.
    - pose proof (create_step t l k h C V E) as S. destruct (new_schema t h) as [c h1]. cbn zeta in S.
      destruct S as (C2 & G & Nc & Vc & T & P & _ & Em). auto 10. }
  destruct (match map_at h (s_props (cell h l)) !! k with
      | Some c => (c, h) | None => let '(c, h) := new_schema t h in (c, put_property l k c h) end) as [next h1].
  destruct Step as (C1 & G1 & Vn & P1 & T1).
  destruct path as [|k' path].
  - split; [exact C1|]. split; [exact G1|]. exists next. split; [econstructor; [exact P1|constructor]|]. split; [exact Vn|].
    destruct T1 as [[E _]|(Nn & T & _)]; [left; econstructor; [exact E|constructor]|right; auto].
  - specialize (IH next h1 C1 Vn ltac:(discriminate)). destruct (down (k' :: path) next h1) as [p h2].
    destruct IH as (C2 & G2 & x & R & Vx & Tx). split; [exact C2|]. split.
    + eapply grown_trans; (eapply grown_mono; [|eassumption]); intros j; [rewrite elem_of_list_singleton; intros ->; left|].
      intros Hj. now right.
    + exists x. split; [|split; [exact Vx|]].
      * econstructor; [|exact R]. apply (G2 l); [now apply G1|exact P1].
      * destruct Tx as [Rx|[Nx Tx]].
        -- destruct T1 as [[E ->]|(_ & _ & Em)]; [left; econstructor; [exact E|exact Rx]|].
           inversion Rx as [|? ? ? ? ? E]; subst. rewrite Em, lookup_empty in E. discriminate.
        -- right. split; [|exact Tx]. intros Vh. apply Nx. now apply G1.
Qed.

Lemma grown_reaches ks h h' l path x : closed h -> grown ks h h' -> valid h l -> reaches h l path x -> reaches h' l path x.
Proof.
  intros C G V R. induction R as [l|l k m path x E R IH]; [constructor|]. econstructor.
  - apply (G l V). exact E.
  - apply IH. exact (props_valid h (cell h l) k m C (cell_ok h l C V) E).
Qed.

(** The second walk changes nothing and gives the same parent. *)
Lemma down_twice path l h : closed h -> valid h l -> path <> [] ->
  let '(p, h') := down path l h in
  exists q, down path l h' = (Some q, h') /\ reaches h' l (removelast path) q.
Proof.
  intros C V N. pose proof (down_spec path l h C V N) as S. destruct (down path l h) as [p h'].
  destruct S as (C' & G & x & R & _). destruct (down_existing h' l path x R N) as (q & D & Rq & _). eauto.
Qed.

Lemma slashes_slashed path : slashes path = slashed path.
Proof. induction path as [|k path IH]; [reflexivity|]. cbn [slashes slashed]. rewrite IH. reflexivity. Qed.

Lemma location_steps header path : Forall plain_name path -> tl (split "/" (location_of header path)) = path.
Proof.
  intros F. unfold location_of. rewrite slashes_slashed. rewrite split_slashed; [reflexivity|].
  constructor; [|exact F]. unfold lacks. destruct header; apply (bool_decide_unpack _); vm_compute; exact I.
Qed.

Definition part (header : bool) (m : parts) : option nat := if header then p_headers m else p_payload m.
Definition other (header : bool) (m : parts) : option nat := if header then p_payload m else p_headers m.
Definition set_part (header : bool) (p : option nat) (m : parts) : parts :=
  if header then mkParts p (p_payload m) else mkParts (p_headers m) p.

Lemma create_tree_unfold header path m h :
  create_tree (location_of header path) m h = create_from (part header) (set_part header) (location_of header path) m h.
Proof. destruct header; reflexivity. Qed.

Definition ok_part (h : heap) (p : option nat) : Prop := match p with Some r => valid h r | None => True end.

(** The schema a message part stands for. *)
Definition target (h : heap) (root : nat) : nat := match s_refto (cell h root) with Some r => r | None => root end.

Lemma create_tree_spec header path m h : closed h -> ok_part h (part header m) -> Forall plain_name path -> path <> [] ->
  let '(_, m', h') := create_tree (location_of header path) m h in
  closed h' /\ grown path h h' /\ other header m' = other header m /\
  (part header m <> None -> m' = m) /\
  exists root, part header m' = Some root /\ valid h' root /\
    exists x, reaches h' (target h' root) path x /\
      ((exists r, part header m = Some r /\ reaches h (target h r) path x) \/ s_type (cell h' x) = "string") /\
    create_tree (location_of header path) m' h' =
      (fst (down path (target h' root) h'), m', h') /\
    exists q, fst (down path (target h' root) h') = Some q /\ reaches h' (target h' root) (removelast path) q.
Proof.
  intros C V F N. rewrite create_tree_unfold. unfold create_from at 1. rewrite (location_steps header path F).
  assert (Again : forall root h' x, part header (set_part header (Some root) m) = Some root -> reaches h' (target h' root) path x ->
    forall m', part header m' = Some root ->
    create_tree (location_of header path) m' h' = (fst (down path (target h' root) h'), m', h') /\
    exists q, fst (down path (target h' root) h') = Some q /\ reaches h' (target h' root) (removelast path) q).
  { intros root h' x _ R m' E. rewrite create_tree_unfold. unfold create_from. rewrite E, (location_steps header path F).
    destruct (down_existing h' (target h' root) path x R N) as (q & D & Rq & _). fold (target h' root). rewrite D.
    split; [reflexivity|]. exists q. auto. }
  destruct (part header m) as [root|] eqn:Em.
  - cbn in V. fold (target h root).
    assert (Vt : valid h (target h root)).
    { unfold target. destruct (s_refto (cell h root)) eqn:E; [|exact V]. exact (ok_refto _ _ (cell_ok h root C V) n E). }
    pose proof (down_spec path (target h root) h C Vt N) as S. destruct (down path (target h root) h) as [p h'].
    destruct S as (C' & G & x & R & Vx & T). split; [exact C'|]. split; [exact G|]. split; [reflexivity|].
    split; [reflexivity|]. exists root. split; [exact Em|]. split; [now apply G|].
    assert (Et : target h' root = target h root).
    { unfold target. destruct (G root V) as (_ & (pp & -> & _) & _). reflexivity. }
    exists x. rewrite Et. split; [exact R|]. split.
    + destruct T as [T|[_ T]]; [left; eauto|right; exact T].
    + pose proof (fun A B => Again root h' x A B m) as Ag. rewrite Et in Ag.
      apply Ag; [now destruct header|exact R|exact Em].
  - pose proof (new_schema_spec "object" h C) as S. destruct (new_schema "object" h) as [root h1].
    destruct S as (C1 & Nr & Vr & _ & T1 & R1 & P1 & _ & O1 & M1 & _).
    pose proof (down_spec path root h1 C1 Vr N) as S. destruct (down path root h1) as [p h'].
    destruct S as (C' & G & x & R & Vx & T). split; [exact C'|]. split.
    + apply (grown_trans path h h1 h'); [|exact G]. intros l Hl. destruct (O1 l Hl) as [El Vl].
      split; [exact Vl|]. rewrite El. split; [exists (s_props (cell h l)); split; [now rewrite with_props_same|reflexivity]|].
      assert (Pe : props h1 (cell h l) = props h (cell h l)).
      { unfold props, map_at. destruct (s_props (cell h l)) as [mm|] eqn:Emm; [|reflexivity].
        now rewrite (M1 mm (ok_props _ _ (cell_ok h l C Hl) mm Emm)). }
      rewrite Pe. auto.
    + split; [now destruct header|]. split; [congruence|]. exists root. split; [now destruct header|].
      split; [now apply G|]. exists x.
      assert (Et : target h' root = root).
      { unfold target. destruct (G root Vr) as (_ & (pp & -> & _) & _). cbn. now rewrite R1. }
      rewrite Et. split; [exact R|]. split.
      * right. destruct T as [T|[_ T]]; [|exact T]. destruct path as [|k path]; [congruence|].
        inversion T as [|? ? ? ? ? E]; subst. rewrite P1, lookup_empty in E. discriminate.
      * pose proof (fun A B => Again root h' x A B (set_part header (Some root) m)) as Ag. rewrite Et in Ag.
        apply Ag; [now destruct header|exact R|now destruct header].
Qed.

(** *** Accessor paths *)
Lemma replace_char_lacks a b s : lacks a s -> replace_char a b s = s.
Proof.
  induction s as [|c s IH]; [reflexivity|]. rewrite lacks_cons. intros [N L]. cbn [replace_char].
  destruct (Ascii.eqb_spec c a); [congruence|]. now rewrite IH.
Qed.
Lemma replace_char_app a b s t : replace_char a b (s ++ t) = replace_char a b s ++ replace_char a b t.
Proof.
  induction s as [|c s IH]; [reflexivity|]. rewrite sapp_cons. cbn [replace_char]. rewrite IH.
  destruct (Ascii.eqb c a); now rewrite sapp_assoc.
Qed.

Lemma slice_path_location header path : Forall plain_name path ->
  Forall (fun k => lacks "." k /\ lacks "#" k) path ->
  slice_path (location_of header path) = (if header then "header" else "payload") :: path.
Proof.
  intros F G. unfold slice_path, location_of. rewrite slashes_slashed.
  assert (L1 : lacks "." (slashed path)).
  { apply lacks_slashed; [discriminate|]. eapply Forall_impl; [exact G|]. now intros k [? _]. }
  assert (L2 : lacks "#" (slashed path)).
  { apply lacks_slashed; [discriminate|]. eapply Forall_impl; [exact G|]. now intros k [_ ?]. }
  rewrite !replace_char_app. rewrite (replace_char_lacks "." "/" (slashed path) L1).
  rewrite (replace_char_lacks "#" "" (slashed path) L2).
  assert (E : replace_char "#" "" (replace_char "." "/" (if header then "$message.header#" else "$message.payload#")) =
              "$message" ++ slashed [if header then "header" else "payload"]) by (destruct header; reflexivity).
  rewrite E, sapp_assoc.
  assert (A : slashed [if header then "header" else "payload"] ++ slashed path =
              slashed ((if header then "header" else "payload") :: path)) by (destruct header; cbn [slashed]; now rewrite sapp_nil_r).
  rewrite A, split_slashed; [reflexivity|]. constructor; [|constructor; [|exact F]].
  - apply (bool_decide_unpack _). vm_compute. exact I.
  - unfold lacks. destruct header; apply (bool_decide_unpack _); vm_compute; exact I.
Qed.

Lemma attribute_steps_location header path : Forall plain_name path ->
  Forall (fun k => lacks "." k /\ lacks "#" k /\ k <> "header") path ->
  attribute_steps (location_of header path) = (if header then "headers" else "payload") :: path.
Proof.
  intros F G. unfold attribute_steps. rewrite slice_path_location; [|exact F|].
  - cbn [map]. f_equal; [now destruct header|].
    induction G as [|k path (_ & _ & N) G IH]; [reflexivity|]. inversion F; subst. cbn [map].
    rewrite IH by assumption. destruct (String.eqb_spec k "header"); [contradiction|reflexivity].
  - eapply Forall_impl; [exact G|]. now intros k (? & ? & _).
Qed.

(** Exactly which names the templates find again. *)
Fixpoint cnt (a : ascii) (s : string) : nat :=
  match s with "" => 0 | String c r => ((if Ascii.eqb c a then 1 else 0) + cnt a r)%nat end.
Lemma cnt_app a s t : cnt a (s ++ t) = (cnt a s + cnt a t)%nat.
Proof. induction s as [|c s IH]; [reflexivity|]. rewrite sapp_cons. cbn [cnt]. rewrite IH. lia. Qed.
Lemma cnt_lacks a s : cnt a s = 0%nat <-> lacks a s.
Proof.
  induction s as [|c s IH]; [split; [intros _; apply lacks_nil|reflexivity]|]. rewrite lacks_cons. cbn [cnt].
  destruct (Ascii.eqb_spec c a) as [->|N]; [split; [lia|intros [[] _]; reflexivity]|]. rewrite <- IH. split; [intros H; split; [congruence|lia]|intros [_ H]; lia].
Qed.
Lemma split_length a s : List.length (split a s) = S (cnt a s).
Proof.
  induction s as [|c s IH]; [reflexivity|]. cbn [split cnt]. destruct (Ascii.eqb c a); [cbn [List.length]; rewrite IH; reflexivity|].
  destruct (split a s) as [|x xs]; [discriminate|]. cbn [List.length] in *. rewrite IH. reflexivity.
Qed.
Lemma cnt_drop s : cnt "/" (replace_char "#" "" s) = cnt "/" s.
Proof.
  induction s as [|c s IH]; [reflexivity|]. cbn [replace_char cnt]. rewrite cnt_app, IH.
  destruct (Ascii.eqb_spec c "#") as [->|N]; [reflexivity|]. cbn [cnt]. lia.
Qed.
Lemma cnt_turn s : cnt "/" (replace_char "." "/" s) = (cnt "/" s + cnt "." s)%nat.
Proof.
  induction s as [|c s IH]; [reflexivity|]. cbn [replace_char cnt]. rewrite cnt_app, IH.
  destruct (Ascii.eqb_spec c ".") as [->|N]; [cbn; lia|]. cbn [cnt]. lia.
Qed.
Lemma cnt_slashed path : Forall plain_name path -> cnt "/" (slashed path) = List.length path.
Proof.
  induction 1 as [|k path P F IH]; [reflexivity|]. cbn [slashed cnt]. rewrite cnt_app, IH. apply cnt_lacks in P. rewrite P. reflexivity.
Qed.
Lemma slashed_lacks a path : lacks a (slashed path) -> Forall (lacks a) path.
Proof.
  induction path as [|k path IH]; [constructor|]. cbn [slashed]. rewrite lacks_cons. intros [_ H]. apply cnt_lacks in H. rewrite cnt_app in H.
  constructor; [apply cnt_lacks; lia|apply IH, cnt_lacks; lia].
Qed.
Lemma replace_slashed path : replace_char "#" "" (slashed path) = slashed (map (replace_char "#" "") path).
Proof.
  induction path as [|k path IH]; [reflexivity|]. cbn [slashed map replace_char]. rewrite replace_char_app, IH. reflexivity.
Qed.
Lemma replace_clean s : lacks "#" (replace_char "#" "" s).
Proof.
  induction s as [|c s IH]; [apply lacks_nil|]. cbn [replace_char]. apply cnt_lacks. rewrite cnt_app. apply cnt_lacks in IH. rewrite IH.
  destruct (Ascii.eqb_spec c "#") as [->|N]; [reflexivity|]. cbn [cnt]. destruct (Ascii.eqb_spec c "#"); [contradiction|reflexivity].
Qed.

Lemma attribute_steps_exact header path : Forall plain_name path ->
  attribute_steps (location_of header path) = (if header then "headers" else "payload") :: path <->
  Forall (fun k => lacks "." k /\ lacks "#" k /\ k <> "header") path.
Proof.
  intros F. split; [|apply attribute_steps_location, F]. intros H.
  assert (Hd : Forall (lacks ".") path).
  { apply (f_equal (@List.length string)) in H. unfold attribute_steps, slice_path in H. rewrite map_length in H.
    assert (Hl : forall A (l : list A), List.length (tl l) = pred (List.length l)) by (intros A [|? ?]; reflexivity).
    rewrite Hl, split_length, cnt_drop, cnt_turn in H. unfold location_of in H. rewrite slashes_slashed, !cnt_app, (cnt_slashed _ F) in H.
    apply slashed_lacks, cnt_lacks. destruct header; cbn in H; lia. }
  assert (E : slice_path (location_of header path) = (if header then "header" else "payload") :: map (replace_char "#" "") path).
  { unfold slice_path, location_of. rewrite slashes_slashed, !replace_char_app.
    rewrite (replace_char_lacks "." "/" (slashed path)) by (apply lacks_slashed; [discriminate|exact Hd]). rewrite replace_slashed.
    assert (E : replace_char "#" "" (replace_char "." "/" (if header then "$message.header#" else "$message.payload#")) =
              "$message" ++ slashed [if header then "header" else "payload"]) by (destruct header; reflexivity).
    rewrite E, sapp_assoc.
    assert (A : forall q, slashed [if header then "header" else "payload"] ++ slashed q =
              slashed ((if header then "header" else "payload") :: q)) by (intros q; destruct header; cbn [slashed]; now rewrite sapp_nil_r).
    rewrite A, split_slashed; [reflexivity|]. constructor; [|constructor].
    - apply (bool_decide_unpack _). vm_compute. exact I.
    - unfold lacks. destruct header; apply (bool_decide_unpack _); vm_compute; exact I.
    - clear -F. induction F as [|k path P F IH]; [constructor|]. constructor; [|exact IH]. apply cnt_lacks. rewrite cnt_drop. apply cnt_lacks, P. }
  unfold attribute_steps in H. rewrite E in H. cbn [map] in H. injection H as _ H. clear E F.
  induction Hd as [|k path Hk Hd IH]; [constructor|]. cbn [map] in H. injection H as Hk' H. constructor; [|apply IH, H].
  assert (Hh : lacks "#" k).
  { rewrite <- Hk'. destruct (String.eqb _ "header"); [unfold lacks; apply (bool_decide_unpack _); vm_compute; exact I|apply replace_clean]. }
  split; [exact Hk|]. split; [exact Hh|]. rewrite (replace_char_lacks "#" "" k Hh) in Hk'. intros ->. discriminate Hk'.
Qed.

(** *** The requirement *)
Lemma last_split_location header path : Forall plain_name path -> path <> [] ->
  List.last (split "/" (location_of header path)) "" = List.last path "".
Proof.
  intros F N. pose proof (location_steps header path F) as T.
  destruct (split_nonnil "/" (location_of header path)) as (x & xs & E). rewrite E in T |- *. cbn [tl] in T. subst xs.
  destruct path; [congruence|reflexivity].
Qed.

Lemma location_nonempty header path : String.eqb (location_of header path) "" = false.
Proof. destruct header; reflexivity. Qed.

Lemma correlation_spec header path m h : closed h -> ok_part h (part header m) -> Forall plain_name path -> path <> [] ->
  exists b m' h', correlation_id (Some (location_of header path)) m h = Some (b, m', h') /\
  create_tree (location_of header path) m h = (fst (fst (create_tree (location_of header path) m h)), m', h') /\
  exists root parent, part header m' = Some root /\ reaches h' (target h' root) (removelast path) parent /\
    (b = true <-> List.last path "" ∈ s_required (cell h' parent)).
Proof.
  intros C V F N. pose proof (create_tree_spec header path m h C V F N) as S. unfold correlation_id.
  destruct (create_tree (location_of header path) m h) as [[p m'] h'] eqn:E.
  destruct S as (_ & _ & _ & _ & root & Er & _ & x & _ & _ & Again & q & Eq & Rq).
  rewrite location_nonempty, Again, Eq, last_split_location by assumption.
  do 3 eexists. split; [reflexivity|]. split; [reflexivity|]. exists root, q. split; [exact Er|]. split; [exact Rq|].
  apply is_in_slice_spec.
Qed.

(** Paths as a function, for concrete graphs. *)
Fixpoint walk (h : heap) (l : nat) (path : list string) : option nat :=
  match path with
  | [] => Some l
  | k :: r => match props h (cell h l) !! k with Some m => walk h m r | None => None end
  end.
Lemma walk_reaches h l path x : walk h l path = Some x <-> reaches h l path x.
Proof.
  split.
  - revert l. induction path as [|k path IH]; intros l; cbn [walk]; [intros [= ->]; constructor|].
    destruct (props h (cell h l) !! k) as [m|] eqn:E; [|discriminate]. intros H. econstructor; [exact E|now apply IH].
  - induction 1 as [l|l k m path x E R IH]; [reflexivity|]. cbn [walk]. now rewrite E.
Qed.
