(** Processing a document that was processed already. *)
From stdpp Require Import gmap list strings.
From Coq Require Import Ascii String Lia.
From Verif.Model Require Import Reference Slices Schema.
From Verif.Spec Require Import SlicesSpec SchemaSpec ReferenceSpec ProcessSpec.
From Verif.Proof Require Import SlicesProof ReferenceProof SchemaProof ProcessProof OrderProof.
From Verif.Proof Require LaterProof.
#[local] Existing Instance sch_eq_dec.

Lemma shape_part h h' a p x : maps h' = maps h -> (forall x, shape (cell h' x) = shape (cell h x)) -> part h a p x -> part h' a p x.
Proof.
  intros M S H. destruct (shape_fields _ _ (S a)) as (_ & E2 & E3 & E4 & E5 & E6 & E7 & E8 & E9 & E10 & E11).
  destruct H as [k x H|x H]; constructor.
  - unfold props, map_at in *. by rewrite E2, M.
  - by rewrite E3, E4, E5, E6, E7, E8, E9, E10, E11.
Qed.
Lemma shape_below h h' a x : maps h' = maps h -> (forall x, shape (cell h' x) = shape (cell h x)) -> below h a x -> below h' a x.
Proof. intros M S. induction 1 as [|a p y x H _ IH]; [constructor|]. eapply below_part; [by eapply shape_part|done]. Qed.
Lemma flags_shape h h1 x : flags h h1 -> shape (cell h1 x) = shape (cell h x).
Proof.
  intros (_ & _ & _ & F). specialize (F x). unfold shape. by rewrite F.
Qed.
Lemma set_to_again r t c c' : with_isreq false c' = with_isreq false (set_to r t c) -> s_isreq c' = s_isreq c -> set_to r t c' = set_to r t c.
Proof.
  intros E F. unfold set_to in *. set (b := s_isreq t) in *. set (q := Schema.s_required t) in *. clearbody b q.
  destruct c' as [? ? ? ? ? ? ? ? ? ? ? ? ? rq' f' ?], c as [? ? ? ? ? ? ? ? ? ? ? ? ? rq f ?]. cbn in F. subst f'.
  unfold with_isreq, with_required, with_refto in *. cbn in *. injection E. intros. subst. by rewrite over_twice.
Qed.
Lemma flags_eq h h1 x y : with_isreq false (cell h1 x) = with_isreq false (cell h y) -> s_isreq (cell h1 x) = s_isreq (cell h y) -> cell h1 x = cell h y.
Proof. generalize (cell h1 x) (cell h y). intros c c' E F. destruct c, c'. unfold with_isreq in E. cbn in F. cbn in E. injection E. intros. subst. reflexivity. Qed.

(** The processing keeps the heap closed. *)
Lemma process_closed iter v2 w d fuel order h a :
  (forall m g, iter m g ≡ₚ map_to_list g) -> closed h -> (forall c, c ∈ order -> valid h c) -> written_once h order ->
  (forall x, LaterProof.mentioned w d x -> valid h x) ->
  process iter (resolve_in v2 w d) v2 fuel order h = Done a -> closed a /\ LaterProof.more h a.
Proof.
  intros P C K O B H. unfold process in H. apply bind_done in H as (h1 & H1 & H).
  destruct (all_flags iter P h order C O K fuel h1 H1) as [F _]. destruct (LaterProof.flags_closed h h1 C F) as [C1 M1].
  assert (O1 : LaterProof.ok_heap (LaterProof.mentioned w d) h1) by (split; [done|]; intros x Hx; apply (LaterProof.mo_valid _ _ M1); by apply B).
  assert (S : LaterProof.step (LaterProof.mentioned w d) h1 a).
  { revert H. generalize O1. generalize h1. clear - P. induction order as [|y l IH]; intros g Og H; cbn in H.
    - injection H as <-. by apply LaterProof.step_refl.
    - apply bind_done in H as (g1 & H1 & H). eapply LaterProof.dependencies_step in H1; [|exact P|intros *; apply resolve_in_mono|intros *; apply LaterProof.resolve_in_valid|exact Og].
      eapply LaterProof.step_trans; [exact H1|]. apply IH; [apply H1|exact H]. }
  split; [apply S|]. eapply LaterProof.more_trans; [exact M1|apply S].
Qed.

(** Processing the result again. *)
Lemma process_again iter iter' v2 w d fuel fuel' order order' h a b :
  (forall m g, iter m g ≡ₚ map_to_list g) -> (forall m g, iter' m g ≡ₚ map_to_list g) -> order ≡ₚ order' ->
  closed h -> (forall c, c ∈ order -> valid h c) -> (v2 = true -> forall l, version2 (cell h l)) -> written_once h order ->
  (forall x, LaterProof.mentioned w d x -> valid h x) ->
  (forall x, s_anyof (cell h x) = [] /\ s_oneof (cell h x) = [] /\ s_allof (cell h x) = []) ->
  (forall x r, s_ref (cell h x) <> ""%string -> resolve_in v2 w d h (s_ref (cell h x)) = Ok r -> s_ref (cell h r) = ""%string) ->
  (forall x, s_ref (cell h x) <> ""%string -> props h (cell h x) = ∅) ->
  process iter (resolve_in v2 w d) v2 fuel order h = Done a -> process iter' (resolve_in v2 w d) v2 fuel' order' a = Done b ->
  maps b = maps a /\ next b = next a /\ forall x, cell b x = cell a x.
Proof.
  intros P P' Ho C K T O B L D Al Ha Hb.
  destruct (process_closed _ _ _ _ _ _ _ _ P C K O B Ha) as [Ca Mo].
  destruct (process_plain _ _ _ _ _ _ _ _ P C K T O L D Ha) as (h1 & [F1 R1 U1 I1 S1 V1]).
  assert (Sh1 : forall x, shape (cell h1 x) = shape (cell h x)) by (intros x; by apply flags_shape).
  assert (Sh : forall x, shape (cell a x) = shape (cell h x)) by (intros x; rewrite <- Sh1; by eapply inv_shape).
  assert (Sh' : forall x, shape (cell h x) = shape (cell a x)) by (intros x; by rewrite Sh).
  assert (Ma : maps a = maps h) by (rewrite (i_maps _ _ _ _ _ I1); apply F1).
  pose proof (fun x => shape_fields _ _ (Sh x)) as SF.
  pose proof (fun x => flags_fields _ _ (proj2 (proj2 (proj2 F1)) x)) as FF.
  assert (Pa : forall z p x, part a z p x <-> part h z p x) by (intros z p x; split; apply shape_part; [by rewrite Ma|exact Sh'|exact Ma|exact Sh]).
  assert (Ba : forall z x, below a z x <-> below h z x) by (intros z x; split; apply shape_below; [by rewrite Ma|exact Sh'|exact Ma|exact Sh]).
  assert (En : enlarges a h) by (intros l k v; destruct (SF l) as (_ & E & _); unfold props, map_at; by rewrite E, Ma).
  assert (En1 : enlarges h1 h) by (intros l k v; destruct (FF l) as (_ & E & _); unfold props, map_at; by rewrite E, (proj1 F1)).
  assert (Same : forall x, s_ref (cell h x) = ""%string -> cell a x = cell h1 x).
  { intros x E. destruct (i_cells _ _ _ _ _ I1 x) as [?|(N & _)]; [done|]. destruct (FF x) as (E1 & _). congruence. }
  assert (Ka : forall c, c ∈ order' -> valid a c) by (intros c Hc; rewrite <- Ho in Hc; apply (LaterProof.mo_valid _ _ Mo); by apply K).
  assert (Ta : v2 = true -> forall l, version2 (cell a l)).
  { intros E x. specialize (T E x). destruct (SF x) as (E1 & _ & E3 & _ & E5 & _ & E7 & E8 & E9 & E10 & E11). unfold version2. by rewrite E1, E3, E5, E7, E8, E9, E10, E11. }
  assert (Oa : written_once a order').
  { destruct O as [O1 O2]. split; [intros z y p q x; rewrite !Pa; apply O1|]. intros z p x. rewrite Pa, <- Ho. apply O2. }
  assert (La : forall x, s_anyof (cell a x) = [] /\ s_oneof (cell a x) = [] /\ s_allof (cell a x) = []).
  { intros x. destruct (SF x) as (_ & _ & _ & _ & _ & _ & _ & -> & -> & -> & _). apply L. }
  assert (Da : forall x r, s_ref (cell a x) <> ""%string -> resolve_in v2 w d a (s_ref (cell a x)) = Ok r -> s_ref (cell a r) = ""%string).
  { intros x r. destruct (SF x) as (-> & _). destruct (SF r) as (-> & _). intros N R. apply (D x); [done|]. eapply resolve_in_mono; [exact En|exact R]. }
  destruct (process_plain _ _ _ _ _ _ _ _ P' Ca Ka Ta Oa La Da Hb) as (h2 & [F2 R2 U2 I2 S2 V2]).
  pose proof (fun x => flags_fields _ _ (proj2 (proj2 (proj2 F2)) x)) as FG.
  assert (Asked : forall x, asked_for a x <-> asked_for h x).
  { intros x. unfold asked_for. split; intros (z & k & Hp & Hk); exists z, k.
    - apply Pa in Hp. split; [done|]. inversion Hp as [? ? Hq|]; subst. destruct (decide (s_ref (cell h z) = ""%string)) as [E|E]; [|by rewrite (Al z E) in Hq].
      rewrite Same in Hk by done. destruct (FF z) as (_ & _ & E3 & _). by rewrite <- E3.
    - split; [by apply Pa|]. inversion Hp as [? ? Hq|]; subst. destruct (decide (s_ref (cell h z) = ""%string)) as [E|E]; [|by rewrite (Al z E) in Hq].
      rewrite Same by done. destruct (FF z) as (_ & _ & E3 & _). by rewrite E3. }
  assert (Fl : forall c x, c ∈ order -> below h c x -> s_isreq (cell h2 x) = s_isreq (cell h1 x)).
  { intros c x Hc Hx. pose proof (R1 c x Hc Hx) as Q1. rewrite Ho in Hc. apply Ba in Hx. pose proof (R2 c x Hc Hx) as Q2. unfold right in Q1, Q2. rewrite Asked in Q2.
    destruct (s_isreq (cell h1 x)), (s_isreq (cell h2 x)); intuition congruence. }
  assert (Out : forall x, (forall c, c ∈ order -> ~ below h c x) -> cell h2 x = cell h1 x).
  { intros x N. rewrite U2; [by apply V1|]. intros c Hc. rewrite Ba. rewrite <- Ho in Hc. by apply N. }
  assert (Eq : forall x, s_ref (cell h x) = ""%string -> cell h2 x = cell h1 x).
  { intros x E. apply dec_stable. intros N. apply (not_not_below h order x). intros [(c & Hc & Hx)|Hx]; apply N; [|by apply Out].
    apply flags_eq; [|by eapply Fl]. rewrite (proj2 (proj2 (proj2 F2)) x). by rewrite Same. }
  split; [rewrite (i_maps _ _ _ _ _ I2); apply F2|]. split; [rewrite (i_next _ _ _ _ _ I2); apply F2|].
  intros x. apply dec_stable. intros N. apply (not_not_below h order x). intros [(c & Hc & Hx)|Hx]; apply N.
  - pose proof (S1 c x Hc Hx) as Q1. pose proof (Fl c x Hc Hx) as Q. rewrite Ho in Hc. pose proof Hx as Hx'. apply Ba in Hx'. pose proof (S2 c x Hc Hx') as Q2. unfold settled, fin in Q1, Q2.
    assert (R12 : s_ref (cell h2 x) = s_ref (cell h x)) by (destruct (FG x) as (-> & _); by destruct (SF x) as (-> & _)).
    assert (R11 : s_ref (cell h1 x) = s_ref (cell h x)) by (by destruct (FF x) as (-> & _)).
    rewrite R11 in Q1. rewrite R12 in Q2.
    destruct Q1 as [[Z1 Y1]|(Z1 & r & Rr & Y1)], Q2 as [[Z2 Y2]|(Z2 & r' & Rr' & Y2)]; try done; [rewrite Y1, Y2; by apply Eq|].
    assert (Dr : s_ref (cell h r) = ""%string) by (apply (D x); [done|]; eapply resolve_in_mono; [exact En1|exact Rr]).
    assert (r' = r) as ->.
    { apply (resolve_in_mono v2 w d h1 h) in Rr; [|done]. apply (resolve_in_mono v2 w d h2 h) in Rr'; [congruence|].
      intros l k v. destruct (FG l) as (_ & E & _). destruct (SF l) as (_ & E' & _). unfold props, map_at. by rewrite E, E', (proj1 F2), Ma. }
    rewrite Y1, Y2, (Eq r Dr). apply set_to_again; [|done]. rewrite (proj2 (proj2 (proj2 F2)) x). by rewrite Y1.
  - rewrite V2; [by rewrite Out, V1|]. intros c Hc. rewrite Ba. rewrite <- Ho in Hc. by apply Hx.
Qed.
