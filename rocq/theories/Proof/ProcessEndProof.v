From stdpp Require Import gmap list strings.
From Coq Require Import Ascii String Lia.
From Verif.Model Require Import Reference Slices Schema.
From Verif.Spec Require Import SlicesSpec SchemaSpec ReferenceSpec PipelineSpec ProcessSpec.
From Verif.Proof Require Import SlicesProof ReferenceProof SchemaProof PipelineProof ProcessProof.

(** * How the processing ends, without compositions *)
Section ending.
  Variable iter : nat -> gmap string nat -> list (string * nat).
  Hypothesis iter_perm : forall m g, iter m g ≡ₚ map_to_list g.
  Variables (w : world) (d : spec) (v2 : bool).
  Variable h0 : heap.
  Hypothesis U : uncomposed h0.
  Variable height : nat -> nat.
  Hypothesis N : nested h0 height.

  Local Notation resolve := (resolve_in v2 w d).
  Local Notation same := (same (fun _ => True)).

  Lemma core_all c e : core c = core e -> s_pattern c = s_pattern e /\ s_additems c = s_additems e /\ s_contains c = s_contains e /\ s_not c = s_not e.
  Proof. destruct c, e. unfold core. cbn. intros E. injection E. intros. subst. auto. Qed.
  Lemma same_part h a p x : same h0 h -> part h a p x -> part h0 a p x.
  Proof.
    intros (M & C & _) H. destruct (core_fields _ _ (C a)) as (_ & E2 & E3 & E4 & E5 & E6 & E7 & _). destruct (core_all _ _ (C a)) as (E9 & E10 & E11 & E12).
    destruct H as [k x H|x H]; constructor.
    - unfold props, map_at in *. now rewrite E2, M in H.
    - now rewrite E3, E4, E5, E6, E7, E9, E10, E11, E12 in H.
  Qed.
  Lemma same_props h l : same h0 h -> props h (cell h l) = props h0 (cell h0 l).
  Proof. intros (M & C & _). destruct (core_fields _ _ (C l)) as (_ & E2 & _). unfold props, map_at. now rewrite E2, M. Qed.
  Lemma same_resolve h ref r : same h0 h -> resolve h ref = Ok r -> resolve h0 ref = Ok r.
  Proof. intros S. apply resolve_in_mono. intros l k v. now rewrite (same_props h l S). Qed.
  Lemma resolve_same h ref r : same h0 h -> resolve h0 ref = Ok r -> resolve h ref = Ok r.
  Proof. intros S. apply resolve_in_mono. intros l k v. now rewrite (same_props h l S). Qed.

  (** A schema whose reference designates nothing. *)
  Definition dangles (x : nat) : Prop := s_ref (cell h0 x) <> ""%string /\ forall r, resolve h0 (s_ref (cell h0 x)) <> Ok r.
  Definition ends (l : list nat) (r : run) : Prop :=
    (exists h', r = Done h' /\ same h0 h') \/ (r = Failed /\ exists y x, y ∈ l /\ below h0 y x /\ dangles x).

  Lemma ends_bind l r k : ends l r -> (forall h, same h0 h -> ends l (k h)) -> ends l (bind r k).
  Proof. intros [(h & -> & S)|(-> & E)] H; [apply (H h S)|right; split; [reflexivity|exact E]]. Qed.
  Lemma ends_sub l l' r : l ⊆ l' -> ends l r -> ends l' r.
  Proof. intros S [H|(-> & y & x & Hy & H)]; [now left|]. right. split; [reflexivity|]. exists y, x. split; [now apply S|exact H]. Qed.
  Lemma ends_each (f : nat -> heap -> run) l : (forall y h, y ∈ l -> same h0 h -> ends [y] (f y h)) -> forall h, same h0 h -> ends l (Schema.each f l h).
  Proof.
    induction l as [|y l IH]; intros Hf h S; cbn; [left; exists h; auto|].
    apply ends_bind.
    - apply (ends_sub [y]); [intros z Hz; apply elem_of_list_singleton in Hz as ->; left|]. apply Hf; [left|exact S].
    - intros h1 S1. apply (ends_sub l); [intros z Hz; now right|]. apply IH; [|exact S1]. intros z a Hz. apply Hf. now right.
  Qed.

  Lemma dependencies_end fuel : forall s h, height s < fuel -> same h0 h -> ends [s] (set_dependencies iter resolve v2 fuel s h).
  Proof.
    induction fuel as [|fuel IH]; intros s h L S; [lia|]. cbn [set_dependencies]. set (go := set_dependencies iter resolve v2 fuel) in *.
    assert (Hs : s_ref (cell h s) = s_ref (cell h0 s)).
    { destruct S as (_ & C & _). now destruct (core_fields _ _ (C s)) as (_ & _ & _ & _ & _ & _ & _ & ->). }
    (* the parts *)
    assert (P : forall (l : heap -> list nat) a, same h0 a -> (forall y, y ∈ l a -> exists p, part a s p y) -> ends [s] (Schema.each go (l a) a)).
    { intros l a Sa Hl.
      assert (E : ends (l a) (Schema.each go (l a) a)).
      { apply ends_each; [|exact Sa]. intros y b Hy Sb. destruct (Hl y Hy) as [p Hp]. apply (same_part a s p y Sa) in Hp. apply IH; [|exact Sb]. specialize (N _ _ _ Hp). lia. }
      destruct E as [E|(E & y & x & Hy & Hx & D)]; [now left|]. right. split; [exact E|]. exists s, x. split; [left|]. split; [|exact D].
      destruct (Hl y Hy) as [p Hp]. apply (same_part a s p y Sa) in Hp. now apply (below_part _ s p y). }
    assert (E : forall a, same h0 a -> s_anyof (cell a s) = [] /\ s_oneof (cell a s) = [] /\ s_allof (cell a s) = []).
    { intros a Sa. exact (same_uncomposed _ _ _ Sa U s). }
    assert (O : forall (o : option nat) y, y ∈ opt_list o -> o = Some y).
    { intros [o|] y Ho; [apply elem_of_list_singleton in Ho as ->; reflexivity|now apply elem_of_nil in Ho]. }
    apply ends_bind.
    { unfold set_reference. destruct (String.eqb_spec (s_ref (cell h s)) ""%string) as [Er|Er]; [left; exists h; auto|].
      destruct (resolve h (s_ref (cell h s))) as [| |r] eqn:R.
      - right. split; [reflexivity|]. exists s, s. split; [left|]. split; [constructor|]. split; [congruence|]. intros r Hr.
        apply (resolve_same h) in Hr; [|exact S]. congruence.
      - right. split; [reflexivity|]. exists s, s. split; [left|]. split; [constructor|]. split; [congruence|]. intros r Hr.
        apply (resolve_same h) in Hr; [|exact S]. congruence.
      - left. eexists. split; [reflexivity|]. eapply same_trans; [exact S|]. destruct (same_uncomposed _ _ _ S U r) as (W1 & W2 & W3). apply same_upd; [|now right].
        rewrite W1, W2, W3. now destruct (cell h s), v2. }
    intros h1 S1. apply ends_bind.
    { apply (P (fun h => match s_props (cell h s) with Some p => map snd (iter p (map_at h (Some p))) | None => [] end)); [exact S1|].
      intros y Hy. destruct (s_props (cell h1 s)) as [p|] eqn:Ep; [|now apply elem_of_nil in Hy].
      apply elem_of_list_fmap in Hy as ([k z] & -> & Hy). rewrite iter_perm in Hy. apply elem_of_map_to_list in Hy. exists (Property k). constructor. unfold props. now rewrite Ep. }
    assert (T : forall (l : heap -> list nat) a, same h0 a -> (forall y, y ∈ l a -> part a s Elsewhere y) -> ends [s] (if v2 then Done a else Schema.each go (l a) a)).
    { intros l a Sa Hl. destruct v2; [left; exists a; auto|]. apply (P l); [exact Sa|]. intros y Hy. exists Elsewhere. now apply Hl. }
    intros h2 S2. apply ends_bind; [apply (T (fun h => s_pattern (cell h s))); [exact S2|]; intros y Hy; constructor; auto 12|].
    intros h3 S3. apply ends_bind; [apply (T (fun h => opt_list (s_addprops (cell h s)))); [exact S3|]; intros y Hy; constructor; auto 12|].
    intros h4 S4. apply ends_bind; [apply (T (fun h => s_additems (cell h s))); [exact S4|]; intros y Hy; constructor; auto 12|].
    intros h5 S5. apply ends_bind; [apply (P (fun h => opt_list (s_items (cell h s)))); [exact S5|]; intros y Hy; exists Elsewhere; constructor; auto 12|].
    intros h6 S6. apply ends_bind; [apply (T (fun h => s_contains (cell h s))); [exact S6|]; intros y Hy; constructor; auto 12|].
    intros h7 S7. destruct (E h7 S7) as (-> & E2 & E3). cbn [Schema.each bind]. rewrite E2. cbn [Schema.each bind]. rewrite E3. cbn [Schema.each bind].
    destruct v2.
    - apply (P (fun h => opt_list (s_addprops (cell h s)))); [exact S7|]. intros y Hy. exists Elsewhere. constructor. auto 12.
    - apply (P (fun h => opt_list (s_not (cell h s)))); [exact S7|]. intros y Hy. exists Elsewhere. constructor. auto 14.
  Qed.

  Lemma flags_same h : flags h0 h -> same h0 h.
  Proof.
    intros (M & _ & _ & C). split; [exact M|]. split; [|auto]. intros l. specialize (C l). unfold core.
    destruct (cell h l), (cell h0 l). cbn in *. injection C. intros. now subst.
  Qed.
  Lemma metadata_end fuel : closed h0 -> forall b s h, height s < fuel -> valid h0 s -> flags h0 h -> exists h', generate_metadata iter fuel b s h = Done h' /\ flags h0 h'.
  Proof.
    intros C0. induction fuel as [|fuel IH]; intros b s h L V F; [lia|].
    assert (X : exists h', generate_metadata iter (S fuel) b s h = Done h').
    2: { destruct X as [h' X]. exists h'. split; [exact X|]. now apply (metadata_only iter iter_perm h0 (S fuel) C0 b s h h' V F). }
    cbn [generate_metadata].
    assert (G : forall A (f : A -> heap -> run) l, (forall y a, y ∈ l -> flags h0 a -> exists b, f y a = Done b /\ flags h0 b) ->
      forall a, flags h0 a -> exists b, Schema.each f l a = Done b /\ flags h0 b).
    { intros A f l. induction l as [|y l IHl]; intros Hf a Fa; cbn; [exists a; auto|]. destruct (Hf y a) as (c & -> & Fc); [left|exact Fa|]. cbn.
      apply IHl; [|exact Fc]. intros z e Hz. apply Hf. now right. }
    match goal with |- context [Schema.each ?f ?l h] => destruct (G _ f l) with (a := h) as (h1 & -> & F1); [|exact F|] end.
    { intros [k y] a Hy Fa. apply IH; [| |exact Fa].
      all: assert (Pt : part h0 s (Property k) y); [|cbn].
      all: try (destruct (s_props (cell h s)) as [p|] eqn:Ep; [|now apply elem_of_nil in Hy]; rewrite iter_perm in Hy; apply elem_of_map_to_list in Hy;
        apply (same_part h s); [now apply flags_same|]; constructor; unfold props; now rewrite Ep).
      - specialize (N _ _ _ Pt). lia.
      - now apply (closed_part h0 s (Property k)). }
    cbn [bind].
    match goal with |- context [Schema.each ?f ?l h1] => destruct (G _ f l) with (a := h1) as (h2 & -> & F2); [|exact F1|] end.
    { intros y a Hy Fa.
      assert (Pt : part h0 s Elsewhere y).
      { apply (same_part h s); [now apply flags_same|]. constructor. rewrite !elem_of_app in Hy.
        assert (O : forall o : option nat, y ∈ opt_list o -> o = Some y) by (intros [o|] Ho; [apply elem_of_list_singleton in Ho as ->; reflexivity|now apply elem_of_nil in Ho]).
        intuition auto. }
      apply IH; [specialize (N _ _ _ Pt); lia|now apply (closed_part h0 s Elsewhere)|exact Fa]. }
    eexists. reflexivity.
  Qed.

  Lemma process_end fuel components : closed h0 -> (forall c, c ∈ components -> valid h0 c /\ height c < fuel) ->
    ends components (process iter resolve v2 fuel components h0).
  Proof.
    intros C K. unfold process.
    assert (M : exists h1, Schema.each (generate_metadata iter fuel false) components h0 = Done h1 /\ flags h0 h1).
    { assert (G : forall l, l ⊆ components -> forall a, flags h0 a -> exists h1, Schema.each (generate_metadata iter fuel false) l a = Done h1 /\ flags h0 h1).
      { induction l as [|y l IHl]; intros Sl a Fa; cbn; [exists a; auto|].
        destruct (K y) as [Vy Ly]; [apply Sl; left|]. destruct (metadata_end fuel C false y a Ly Vy Fa) as (b & -> & Fb). cbn. apply IHl; [|exact Fb]. intros z Hz. apply Sl. now right. }
      apply G; [reflexivity|apply flags_refl]. }
    destruct M as (h1 & -> & F1). cbn [bind]. apply ends_each; [|now apply flags_same].
    intros y h Hy S. apply dependencies_end; [now apply K|exact S].
  Qed.

  Lemma process_ends fuel components : closed h0 -> (forall c, c ∈ components -> valid h0 c /\ height c < fuel) -> (v2 = true -> forall l, version2 (cell h0 l)) ->
    (exists h', process iter resolve v2 fuel components h0 = Done h' /\ ~ (exists c x, c ∈ components /\ below h0 c x /\ dangles x)) \/
    (process iter resolve v2 fuel components h0 = Failed /\ exists c x, c ∈ components /\ below h0 c x /\ dangles x).
  Proof.
    intros C K V2. destruct (process_end fuel components C K) as [(h' & E & S)|E]; [left|now right]. exists h'. split; [exact E|].
    intros (c & x & Hc & Hx & D1 & D2).
    destruct (process_spec iter iter_perm v2 w d fuel components h0 h' C (fun c Hc => proj1 (K c Hc)) V2 E) as (_ & _ & _ & _ & R).
    assert (Er : s_ref (cell h' x) = s_ref (cell h0 x)).
    { destruct S as (_ & Ce & _). now destruct (core_fields _ _ (Ce x)) as (_ & _ & _ & _ & _ & _ & _ & ->). }
    destruct (R c x Hc Hx) as [H|(r & _ & H)]; [congruence|]. apply resolve_in_spec in H. rewrite Er in H. apply (same_resolve h') in H; [|exact S].
    now apply (D2 r).
  Qed.
End ending.
