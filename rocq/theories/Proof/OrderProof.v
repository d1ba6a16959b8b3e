(** Processing a document without compositions: the result does not depend on the order of the maps. *)
From stdpp Require Import gmap list strings.
From Coq Require Import Ascii String Lia.
From Verif.Model Require Import Reference Slices Schema.
From Verif.Spec Require Import SlicesSpec SchemaSpec ReferenceSpec ProcessSpec.
From Verif.Proof Require Import SlicesProof ReferenceProof SchemaProof ProcessProof.

#[local] Instance sch_eq_dec : EqDecision sch.
Proof. solve_decision. Qed.

Section metadata.
  Variable iter : nat -> gmap string nat -> list (string * nat).
  Hypothesis iter_perm : forall m g, iter m g ≡ₚ map_to_list g.
  Variable h0 : heap.
  Hypothesis C0 : closed h0.

  Lemma each_outside {A} (f : A -> heap -> run) (I : heap -> Prop) (x : nat) (l : list A) :
    (forall y h h', y ∈ l -> I h -> f y h = Done h' -> I h' /\ cell h' x = cell h x) ->
    forall h h', I h -> Schema.each f l h = Done h' -> I h' /\ cell h' x = cell h x.
  Proof.
    induction l as [|y l IH]; intros Hf h h' Hh H; cbn in H; [by injection H as <-|].
    apply bind_done in H as (h1 & H1 & H). destruct (Hf y h h1) as [I1 E1]; [left|done|done|].
    destruct (IH (fun z a b Hz => Hf z a b (elem_of_list_further _ _ _ Hz)) h1 h' I1 H) as [I2 E2]. split; [done|congruence].
  Qed.

  Lemma metadata_outside fuel x : forall b s h h', valid h0 s -> flags h0 h -> ~ below h0 s x -> generate_metadata iter fuel b s h = Done h' -> cell h' x = cell h x.
  Proof.
    induction fuel as [|fuel IH]; intros b s h h' V F Hx H; [done|].
    pose proof (metadata_only iter iter_perm h0 (S fuel) C0 b s h h' V F H) as F'. cbn [generate_metadata] in H.
    destruct (flags_fields _ _ (proj2 (proj2 (proj2 F)) s)) as (_ & E2 & _ & E4 & E5 & E6 & E7 & E8 & E9 & E10 & E11 & E12 & _).
    apply bind_done in H as (h1 & H1 & H). apply bind_done in H as (h2 & H2 & [= <-]).
    rewrite cell_upd_other by (intros ->; apply Hx; constructor).
    apply (each_outside _ (flags h0) x) in H1 as [F1 <-]; [| |done].
    2: { intros [k y] a c Hy Fa Ha. assert (P : part h0 s (Property k) y).
         { constructor. unfold props, map_at. rewrite <- E2, <- (proj1 F). destruct (s_props (cell h s)) as [p|]; [|by apply elem_of_nil in Hy].
           rewrite iter_perm in Hy. by apply elem_of_map_to_list in Hy. }
         assert (Vy : valid h0 y) by (by eapply closed_part). split; [by eapply metadata_only|]. eapply IH; [exact Vy|exact Fa| |exact Ha].
         intros B. apply Hx. by eapply below_part. }
    apply (each_outside _ (flags h0) x) in H2 as [F2 <-]; [done| |done].
    intros y a c Hy Fa Ha. assert (P : part h0 s Elsewhere y).
    { constructor. rewrite E4, E5, E6, E7, E8, E9, E10, E11, E12, !elem_of_app in Hy.
      assert (L : forall o : option nat, y ∈ opt_list o -> o = Some y) by (intros [o|] Ho; [apply elem_of_list_singleton in Ho as ->; reflexivity|by apply elem_of_nil in Ho]).
      intuition auto. }
    assert (Vy : valid h0 y) by (by eapply closed_part). split; [by eapply metadata_only|]. eapply IH; [exact Vy|exact Fa| |exact Ha].
    intros B. apply Hx. by eapply below_part.
  Qed.
End metadata.

(** Everything but what following a reference changes. *)
Definition shape (c : sch) : sch := with_refto None (with_required [] (with_isreq false c)).
Lemma shape_fields c e : shape c = shape e ->
  s_ref c = s_ref e /\ s_props c = s_props e /\ s_pattern c = s_pattern e /\ s_addprops c = s_addprops e /\ s_additems c = s_additems e /\
  s_items c = s_items e /\ s_contains c = s_contains e /\ s_anyof c = s_anyof e /\ s_oneof c = s_oneof e /\ s_allof c = s_allof e /\ s_not c = s_not e.
Proof. destruct c, e. cbn. intros E. injection E. intros. subst. auto 20. Qed.

(** The schema [c] after its reference to [r], whose schema is [t], is set. *)
Definition set_to (r : nat) (t c : sch) : sch :=
  with_isreq (s_isreq c || s_isreq t) (with_required (over_list (s_required c) (s_required t)) (with_refto (Some r) c)).
Lemma over_twice l l' : over_list (over_list l l') l' = over_list l l'.
Proof. by destruct l'. Qed.
Lemma set_to_twice r t c : set_to r t (set_to r t c) = set_to r t c.
Proof.
  unfold set_to. set (b := s_isreq t). set (q := Schema.s_required t). clearbody b q. destruct c as [? ? ? ? ? ? ? ? ? ? ? ? ? rq f ?]. cbn. rewrite ?over_twice.
  by destruct f, b.
Qed.

Section second.
  Variable iter : nat -> gmap string nat -> list (string * nat).
  Hypothesis iter_perm : forall m g, iter m g ≡ₚ map_to_list g.
  Variables (v2 : bool) (w : world) (d : spec).
  Variable h1 : heap.
  Hypothesis plain : forall x, s_anyof (cell h1 x) = [] /\ s_oneof (cell h1 x) = [] /\ s_allof (cell h1 x) = [].
  Hypothesis two : v2 = true -> forall x, version2 (cell h1 x).
  Hypothesis direct : forall x r, s_ref (cell h1 x) <> ""%string -> resolve_in v2 w d h1 (s_ref (cell h1 x)) = Ok r -> s_ref (cell h1 r) = ""%string.

  Definition fin (x : nat) (c : sch) : Prop :=
    s_ref (cell h1 x) <> ""%string /\ exists r, resolve_in v2 w d h1 (s_ref (cell h1 x)) = Ok r /\ c = set_to r (cell h1 r) (cell h1 x).
  Record inv (h : heap) : Prop := {
    i_maps : maps h = maps h1;
    i_next : next h = next h1;
    i_cells x : cell h x = cell h1 x \/ fin x (cell h x);
  }.
  Definition settled (h : heap) (x : nat) : Prop := (s_ref (cell h1 x) = ""%string /\ cell h x = cell h1 x) \/ fin x (cell h x).
  (** From [h] to [h'] exactly the schemas in [K] were visited. *)
  Definition step (K : nat -> Prop) (h h' : heap) : Prop := inv h -> inv h' /\
    (forall x, settled h x -> settled h' x) /\ (forall x, K x -> settled h' x) /\ (forall x, ~ K x -> cell h' x = cell h x).

  Lemma step_refl h : step (fun _ => False) h h.
  Proof. intros I. split; [done|]. split; [auto|]. split; [done|auto]. Qed.
  Lemma step_trans K K' h h' h'' : step K h h' -> step K' h' h'' -> step (fun x => K x \/ K' x) h h''.
  Proof.
    intros A B I. destruct (A I) as (I' & A1 & A2 & A3). destruct (B I') as (I'' & B1 & B2 & B3).
    split; [done|]. split; [auto|]. split; [intros x [?|?]; auto|]. intros x N. rewrite B3, A3; tauto.
  Qed.
  Lemma step_iff K K' h h' : (forall x, K x <-> K' x) -> step K h h' -> step K' h h'.
  Proof. intros E A I. destruct (A I) as (I' & A1 & A2 & A3). split; [done|]. split; [done|]. split; [intros x Hx; by apply A2, E|]. intros x Hx. apply A3. by rewrite E. Qed.
  Lemma inv_shape h x : inv h -> shape (cell h x) = shape (cell h1 x).
  Proof. intros I. destruct (i_cells h I x) as [->|(_ & r & _ & ->)]; [done|]. by destruct (cell h1 x). Qed.
  Lemma inv_enlarges h : inv h -> enlarges h h1.
  Proof. intros I l k v. destruct (shape_fields _ _ (inv_shape h l I)) as (_ & E & _). unfold props, map_at. by rewrite E, (i_maps h I). Qed.

  Lemma each_step f l : (forall y h h', y ∈ l -> f y h = Done h' -> step (below h1 y) h h') ->
    forall h h', Schema.each f l h = Done h' -> step (fun x => exists y, y ∈ l /\ below h1 y x) h h'.
  Proof.
    induction l as [|y l IH]; intros Hf h h' H; cbn in H.
    { injection H as <-. eapply step_iff; [|apply step_refl]. intros x. split; [done|]. intros (y & Hy & _). by apply elem_of_nil in Hy. }
    apply bind_done in H as (h2 & H2 & H). eapply step_iff; [|eapply step_trans; [eapply Hf; [left|exact H2]|eapply IH; [|exact H]]].
    2: { intros z a b Hz. apply Hf. by right. }
    intros x. split.
    - intros [B|(z & Hz & B)]; [exists y; split; [left|done]|exists z; split; [by right|done]].
    - intros (z & [->|Hz]%elem_of_cons & B); [by left|right; by exists z].
  Qed.

  Lemma reference_step s h h' : set_reference (resolve_in v2 w d) v2 s h = Done h' -> step (fun x => x = s) h h'.
  Proof.
    intros H I. destruct (shape_fields _ _ (inv_shape h s I)) as (E1 & _). unfold set_reference in H. destruct (String.eqb_spec (s_ref (cell h s)) ""%string) as [E|N].
    { injection H as <-. assert (S : settled h s).
      { left. split; [congruence|]. destruct (i_cells h I s) as [?|(? & _)]; [done|congruence]. }
      split; [done|]. split; [auto|]. split; [by intros x ->|auto]. }
    destruct (resolve_in v2 w d h (s_ref (cell h s))) as [| |r] eqn:R; try done.
    apply (resolve_in_mono v2 w d h h1) in R; [|by apply inv_enlarges]. rewrite E1 in R. rewrite E1 in N.
    pose proof (direct s r N R) as Dr. assert (Er : cell h r = cell h1 r) by (destruct (i_cells h I r) as [?|(? & _)]; [done|congruence]).
    set (f := fun c : sch => _) in H. injection H as <-.
    assert (Ef : f (cell h s) = set_to r (cell h1 r) (cell h1 s)).
    { assert (Q : f (cell h s) = set_to r (cell h1 r) (cell h s)).
      { unfold f. rewrite Er. destruct (Bool.bool_dec v2 true) as [Ev|Ev%not_true_is_false]; rewrite Ev; [|reflexivity]. destruct (plain r) as (-> & -> & ->). cbn [over_nats]. unfold set_to. by destruct (cell h s). }
      rewrite Q. destruct (i_cells h I s) as [->|(_ & r' & R' & ->)]; [done|]. assert (r' = r) as -> by congruence. apply set_to_twice. }
    assert (Fs : fin s (cell (upd s f h) s)) by (rewrite cell_upd_same, Ef; split; [done|]; by exists r).
    split; [split; [exact (i_maps h I)|exact (i_next h I)|]|].
    - intros x. destruct (decide (s = x)) as [<-|Nx]; [by right|]. rewrite cell_upd_other by done. apply (i_cells h I).
    - split; [|split].
      + intros x S. destruct (decide (s = x)) as [<-|Nx]; [by right|]. unfold settled in *. by rewrite cell_upd_other.
      + intros x ->. by right.
      + intros x Nx. by rewrite cell_upd_other.
  Qed.

  (** To continue, the invariant is known. *)
  Lemma step_more K K' h h' h'' : step K h h' -> (inv h' -> step K' h' h'') -> step (fun x => K x \/ K' x) h h''.
  Proof. intros A B I. destruct (A I) as (I' & _). exact (step_trans K K' h h' h'' A (B I') I). Qed.

  Definition in_list (l : list nat) (x : nat) : Prop := exists y, y ∈ l /\ below h1 y x.
  Lemma step_list K (go : nat -> heap -> run) (l : heap -> list nat) h a b : (forall y g g', go y g = Done g' -> step (below h1 y) g g') ->
    step K h a -> (forall g, inv g -> l g = l h1) -> Schema.each go (l a) a = Done b -> step (fun x => K x \/ in_list (l h1) x) h b.
  Proof. intros G S E H. apply (step_more _ _ _ a); [done|]. intros I. rewrite (E a I) in H. eapply each_step; [|exact H]. intros y g g' _. apply G. Qed.
  Lemma step_cond K (go : nat -> heap -> run) (l : heap -> list nat) h a b : (forall y g g', go y g = Done g' -> step (below h1 y) g g') ->
    step K h a -> (forall g, inv g -> l g = l h1) -> (if v2 then Done a else Schema.each go (l a) a) = Done b -> step (fun x => K x \/ (v2 = false /\ in_list (l h1) x)) h b.
  Proof.
    intros G S E H. destruct (Bool.bool_dec v2 true) as [Ev|Ev%not_true_is_false]; rewrite Ev in H.
    - injection H as <-. eapply step_iff; [|exact S]. intros x. rewrite Ev. split; [auto|]. intros [?|[? _]]; done.
    - eapply step_iff; [|eapply step_list; done]. intros x. cbn. tauto.
  Qed.
  Lemma step_none K (go : nat -> heap -> run) (l : heap -> list nat) h a b : step K h a -> (forall g, inv g -> l g = []) -> Schema.each go (l a) a = Done b -> step K h b.
  Proof. intros S E H I. destruct (S I) as (Ia & _). rewrite (E a Ia) in H. injection H as <-. by apply S. Qed.

  Lemma dependencies_step fuel : forall s h h', set_dependencies iter (resolve_in v2 w d) v2 fuel s h = Done h' -> step (below h1 s) h h'.
  Proof.
    induction fuel as [|fuel IH]; intros s h h' H; [done|]. cbn [set_dependencies] in H.
    pose proof (fun g (I : inv g) => shape_fields _ _ (inv_shape g s I)) as SF.
    set (pl g := match s_props (cell g s) with Some p => map snd (iter p (map_at g (Some p))) | None => [] end).
    apply bind_done in H as (ha & S & H). apply reference_step in S.
    apply bind_done in H as (hb & Hb & H). apply (step_list _ _ pl _ _ _ IH S) in Hb as S'; [|intros g I; destruct (SF g I) as (_ & E & _); unfold pl, map_at; by rewrite E, (i_maps g I)]. clear S Hb.
    apply bind_done in H as (hc & Hc & H). apply (step_cond _ _ (fun g => s_pattern (cell g s)) _ _ _ IH S') in Hc as S; [|intros g I; destruct (SF g I) as (_ & _ & E & _); exact E]. clear S' Hc.
    apply bind_done in H as (hd & Hd & H). apply (step_cond _ _ (fun g => opt_list (s_addprops (cell g s))) _ _ _ IH S) in Hd as S'; [|intros g I; destruct (SF g I) as (_ & _ & _ & E & _); by rewrite E]. clear S Hd.
    apply bind_done in H as (he & He & H). apply (step_cond _ _ (fun g => s_additems (cell g s)) _ _ _ IH S') in He as S; [|intros g I; destruct (SF g I) as (_ & _ & _ & _ & E & _); exact E]. clear S' He.
    apply bind_done in H as (hf & Hf & H). apply (step_list _ _ (fun g => opt_list (s_items (cell g s))) _ _ _ IH S) in Hf as S'; [|intros g I; destruct (SF g I) as (_ & _ & _ & _ & _ & E & _); by rewrite E]. clear S Hf.
    apply bind_done in H as (hg & Hg & H). apply (step_cond _ _ (fun g => s_contains (cell g s)) _ _ _ IH S') in Hg as S; [|intros g I; destruct (SF g I) as (_ & _ & _ & _ & _ & _ & E & _); exact E]. clear S' Hg.
    destruct (plain s) as (P1 & P2 & P3).
    apply bind_done in H as (hh & Hh & H). apply (step_none _ _ (fun g => s_anyof (cell g s)) _ _ _ S) in Hh as S'; [|intros g I; destruct (SF g I) as (_ & _ & _ & _ & _ & _ & _ & E & _); congruence]. clear S Hh.
    apply bind_done in H as (hi & Hi & H). apply (step_none _ _ (fun g => s_oneof (cell g s)) _ _ _ S') in Hi as S; [|intros g I; destruct (SF g I) as (_ & _ & _ & _ & _ & _ & _ & _ & E & _); congruence]. clear S' Hi.
    apply bind_done in H as (hj & Hj & H). apply (step_none _ _ (fun g => s_allof (cell g s)) _ _ _ S) in Hj as S'; [|intros g I; destruct (SF g I) as (_ & _ & _ & _ & _ & _ & _ & _ & _ & E & _); congruence]. clear S Hj.
    assert (S : step (fun x => ((((((x = s \/ in_list (pl h1) x) \/ (v2 = false /\ in_list (s_pattern (cell h1 s)) x)) \/ (v2 = false /\ in_list (opt_list (s_addprops (cell h1 s))) x)) \/
        (v2 = false /\ in_list (s_additems (cell h1 s)) x)) \/ in_list (opt_list (s_items (cell h1 s))) x) \/ (v2 = false /\ in_list (s_contains (cell h1 s)) x)) \/
        in_list (if v2 then opt_list (s_addprops (cell h1 s)) else opt_list (s_not (cell h1 s))) x) h h').
    { eapply (step_list _ _ (fun g => if v2 then opt_list (s_addprops (cell g s)) else opt_list (s_not (cell g s)))); [exact IH|exact S'| |].
      2: { destruct (Bool.bool_dec v2 true) as [Ev|Ev%not_true_is_false]; rewrite Ev in H |- *; exact H. }
      intros g I. destruct (SF g I) as (_ & _ & _ & E & _ & _ & _ & _ & _ & _ & E'). by rewrite E, E'. }
    clear S'. eapply step_iff; [|exact S]. intros x.
    assert (O : forall (o : option nat) y, y ∈ opt_list o <-> o = Some y) by (intros [o|] y; cbn; [rewrite elem_of_list_singleton; split; congruence|rewrite elem_of_nil; done]).
    split.
    - intros [[[[[[[->|(y & Hy & B)]|(_ & y & Hy & B)]|(_ & y & Hy & B)]|(_ & y & Hy & B)]|(y & Hy & B)]|(_ & y & Hy & B)]|(y & Hy & B)].
      + constructor.
      + unfold pl in Hy. destruct (s_props (cell h1 s)) as [p|] eqn:Ep; [|by apply elem_of_nil in Hy].
        apply elem_of_list_In, in_map_iff in Hy as ([k y'] & <- & Hy). apply elem_of_list_In in Hy. rewrite iter_perm in Hy. apply elem_of_map_to_list in Hy.
        eapply below_part; [|exact B]. apply (part_property h1 s k). unfold props. by rewrite Ep.
      + eapply below_part; [|exact B]. apply part_elsewhere. auto 20.
      + eapply below_part; [|exact B]. apply part_elsewhere. rewrite O in Hy. auto 20.
      + eapply below_part; [|exact B]. apply part_elsewhere. auto 20.
      + eapply below_part; [|exact B]. apply part_elsewhere. rewrite O in Hy. auto 20.
      + eapply below_part; [|exact B]. apply part_elsewhere. auto 20.
      + eapply below_part; [|exact B]. apply part_elsewhere. destruct (Bool.bool_dec v2 true) as [Ev|Ev%not_true_is_false]; rewrite Ev, O in Hy; auto 20.
    - intros B. inversion B as [|a at_ y z P B']; subst; [tauto|]. destruct P as [k y P|y P].
      + do 6 left. right. exists y. split; [|done]. unfold pl. unfold props in P. destruct (s_props (cell h1 s)) as [p|]; [|unfold map_at in P; by rewrite lookup_empty in P]. by eapply iter_in.
      + rewrite P1, P2, P3, !elem_of_nil in P. destruct (Bool.bool_dec v2 true) as [Ev|Ev%not_true_is_false]; rewrite Ev.
        * destruct (two Ev s) as (V1 & V2 & V3 & V4 & _). rewrite V1, V2, V3, V4, !elem_of_nil in P.
          destruct P as [P|[P|[P|[P|[P|[P|[P|[P|P]]]]]]]]; try done; [right; exists y; by rewrite O|left; left; right; exists y; by rewrite O].
        * destruct P as [P|[P|[P|[P|[P|[P|[P|[P|P]]]]]]]]; try done.
          -- do 5 left. right. split; [done|]. by exists y.
          -- do 4 left. right. split; [done|]. exists y. by rewrite O.
          -- do 3 left. right. split; [done|]. by exists y.
          -- do 2 left. right. exists y. by rewrite O.
          -- left. right. split; [done|]. by exists y.
          -- right. exists y. by rewrite O.
  Qed.
  Lemma all_step fuel l h' : Schema.each (set_dependencies iter (resolve_in v2 w d) v2 fuel) l h1 = Done h' ->
    inv h' /\ (forall c x, c ∈ l -> below h1 c x -> settled h' x) /\ (forall x, (forall c, c ∈ l -> ~ below h1 c x) -> cell h' x = cell h1 x).
  Proof.
    intros H. destruct (each_step _ l (fun y a b _ => dependencies_step fuel y a b) _ _ H) as (I & _ & A & B); [split; auto|].
    split; [done|]. split; [intros c x Hc Hx; apply A; by exists c|]. intros x N. apply B. intros (y & Hy & Hx). by apply (N y).
  Qed.
End second.

Lemma not_not_below h (l : list nat) x : ~ ~ ((exists c, c ∈ l /\ below h c x) \/ (forall c, c ∈ l -> ~ below h c x)).
Proof. intros N. apply N. right. intros c Hc Hx. apply N. left. by exists c. Qed.

(** What the processing of [h] to [e] did, by way of [h1]. *)
Record processed (v2 : bool) (w : world) (d : spec) (order : list nat) (h h1 e : heap) : Prop := {
  p_flags : flags h h1;
  p_right c x : c ∈ order -> below h c x -> right h h1 x;
  p_first x : (forall c, c ∈ order -> ~ below h c x) -> cell h1 x = cell h x;
  p_inv : inv v2 w d h1 e;
  p_settled c x : c ∈ order -> below h c x -> settled v2 w d h1 e x;
  p_second x : (forall c, c ∈ order -> ~ below h c x) -> cell e x = cell h1 x;
}.
Lemma flags_sym h h1 : flags h h1 -> flags h1 h.
Proof. intros (F1 & F2 & F3 & F4). split; [done|]. split; [done|]. split; [intros x; by rewrite F3|done]. Qed.
Lemma process_plain iter v2 w d fuel order h e :
  (forall m g, iter m g ≡ₚ map_to_list g) ->
  closed h -> (forall c, c ∈ order -> valid h c) -> (v2 = true -> forall l, version2 (cell h l)) -> written_once h order ->
  (forall x, s_anyof (cell h x) = [] /\ s_oneof (cell h x) = [] /\ s_allof (cell h x) = []) ->
  (forall x r, s_ref (cell h x) <> ""%string -> resolve_in v2 w d h (s_ref (cell h x)) = Ok r -> s_ref (cell h r) = ""%string) ->
  process iter (resolve_in v2 w d) v2 fuel order h = Done e -> exists h1, processed v2 w d order h h1 e.
Proof.
  intros P C K T O L D H. unfold process in H. apply bind_done in H as (h1 & H1 & H).
  destruct (all_flags iter P h order C O K fuel h1 H1) as [F R]. exists h1.
  assert (U1 : forall x, (forall c, c ∈ order -> ~ below h c x) -> cell h1 x = cell h x).
  { intros x N. assert (Q : flags h h1 /\ cell h1 x = cell h x); [|by apply Q]. revert H1. apply (each_outside _ (flags h)); [|apply flags_refl].
    intros y g g' Hy Fg E. split; [eapply metadata_only; [done|done|by apply K|done|done]|]. eapply (metadata_outside iter P h C); [by apply K|done|by apply N|done]. }
  pose proof (fun x => flags_fields _ _ (proj2 (proj2 (proj2 F)) x)) as FF. pose proof (flags_sym _ _ F) as Fr.
  assert (B : forall c x, below h c x <-> below h1 c x) by (intros c x; split; by apply flags_below).
  destruct (all_step iter P v2 w d h1) with (fuel := fuel) (l := order) (h' := e) as (I & S & U); [| | |done|].
  - intros x. destruct (FF x) as (_ & _ & _ & _ & _ & _ & _ & _ & -> & -> & -> & _). apply L.
  - intros E x. specialize (T E x). destruct (FF x) as (E1 & _ & _ & E4 & _ & E6 & _ & E8 & E9 & E10 & E11 & E12 & _). unfold version2. by rewrite E1, E4, E6, E8, E9, E10, E11, E12.
  - intros x r. destruct (FF x) as (-> & _). destruct (FF r) as (-> & _). intros N R'. apply (D x); [done|]. eapply resolve_in_mono; [|exact R'].
    intros l k v. destruct (FF l) as (_ & E & _). unfold props, map_at. by rewrite E, (proj1 F).
  - split; [done|done|done|done| |].
    + intros c x Hc Hx. eapply S; [done|by apply B].
    + intros x N. apply U. intros c Hc Hx. apply (N c Hc). by apply B.
Qed.

(** The schemas of [h], of which no reference leads to a reference, and none is composed. *)
Lemma order_irrelevant iter iter' v2 w d fuel fuel' order order' h a b :
  (forall m g, iter m g ≡ₚ map_to_list g) -> (forall m g, iter' m g ≡ₚ map_to_list g) -> order ≡ₚ order' ->
  closed h -> (forall c, c ∈ order -> valid h c) -> (v2 = true -> forall l, version2 (cell h l)) -> written_once h order ->
  (forall x, s_anyof (cell h x) = [] /\ s_oneof (cell h x) = [] /\ s_allof (cell h x) = []) ->
  (forall x r, s_ref (cell h x) <> ""%string -> resolve_in v2 w d h (s_ref (cell h x)) = Ok r -> s_ref (cell h r) = ""%string) ->
  process iter (resolve_in v2 w d) v2 fuel order h = Done a -> process iter' (resolve_in v2 w d) v2 fuel' order' h = Done b ->
  maps a = maps b /\ next a = next b /\ forall x, cell a x = cell b x.
Proof.
  intros P P' Ho C K T O L D Ha Hb.
  assert (K' : forall c, c ∈ order' -> valid h c) by (intros c; rewrite <- Ho; apply K).
  assert (O' : written_once h order') by (destruct O as [O1 O2]; split; [done|]; intros; rewrite <- Ho; by eapply O2).
  destruct (process_plain _ _ _ _ _ _ _ _ P C K T O L D Ha) as (h1 & [F1 R1 U1 I1 S1 V1]).
  destruct (process_plain _ _ _ _ _ _ _ _ P' C K' T O' L D Hb) as (h2 & [F2 R2 U2 I2 S2 V2]).
  assert (E : forall x, cell h1 x = cell h2 x).
  { intros x. apply dec_stable. intros N. apply (not_not_below h order x). intros [(c & Hc & Hx)|Hx]; apply N.
    - pose proof (R1 c x Hc Hx) as Q1. rewrite Ho in Hc. pose proof (R2 c x Hc Hx) as Q2. unfold right in Q1, Q2.
      assert (Q : s_isreq (cell h1 x) = s_isreq (cell h2 x)) by (destruct (s_isreq (cell h1 x)), (s_isreq (cell h2 x)); intuition congruence).
      pose proof (proj2 (proj2 (proj2 F1)) x) as W1. rewrite <- (proj2 (proj2 (proj2 F2)) x) in W1. clear - Q W1. destruct (cell h1 x), (cell h2 x). unfold with_isreq in W1. cbn in Q. cbn in W1. injection W1. intros. subst. reflexivity.
    - rewrite U1, U2; [done| |done]. intros c. rewrite <- Ho. apply Hx. }
  assert (EN : enlarges h1 h2) by (intros l k v; unfold props, map_at; rewrite E, (proj1 F1), (proj1 F2); done).
  split; [rewrite (i_maps _ _ _ _ _ I1), (i_maps _ _ _ _ _ I2), (proj1 F1), (proj1 F2); done|].
  split; [rewrite (i_next _ _ _ _ _ I1), (i_next _ _ _ _ _ I2), (proj1 (proj2 F1)), (proj1 (proj2 F2)); done|].
  intros x. apply dec_stable. intros N. apply (not_not_below h order x). intros [(c & Hc & Hx)|Hx]; apply N.
  - pose proof (S1 c x Hc Hx) as Q1. rewrite Ho in Hc. pose proof (S2 c x Hc Hx) as Q2. unfold settled, fin in Q1, Q2. rewrite E in Q1.
    destruct Q1 as [[Z1 ->]|(Z1 & r & Rr & ->)], Q2 as [[Z2 ->]|(Z2 & r' & Rr' & ->)]; try done.
    apply (resolve_in_mono v2 w d h1 h2) in Rr; [|done]. assert (r' = r) as -> by congruence. by rewrite E.
  - rewrite V1, V2; [done| |done]. intros c. rewrite <- Ho. apply Hx.
Qed.
