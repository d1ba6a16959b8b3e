From stdpp Require Import gmap list strings.
From Coq Require Import Ascii String Lia.
From Verif.Model Require Import GoStrings Reference Slices Schema Location Message.
From Verif.Spec Require Import SlicesSpec SchemaSpec LocationSpec MessageSpec MergeSpec CopySpec.
From Verif.Proof Require Import GoStringsProof SlicesProof SchemaProof LocationProof MergeProof CopyProof.
Local Open Scope string_scope.

(** *** Chains *)
Lemma chain_unique refs n m x : chain refs n m x -> forall n' x', chain refs n' m x' -> n = n' /\ x = x'.
Proof.
  induction 1 as [x E|n m r x E H IH]; intros n' x' H'; inversion H' as [? E'|? ? ? ? E' H'']; subst; try congruence.
  - auto.
  - rewrite E in E'. injection E' as <-. destruct (IH _ _ H'') as [-> ->]. auto.
Qed.

Definition message_refs (d : doc) (m : nat) : option nat := m_refto (message d m).
Definition schema_refs (h : heap) (s : nat) : option nat := s_refto (cell h s).

Lemma follow2_chain d fuel m x : follow_message2 fuel d m = Some x <-> exists n, n < fuel /\ chain (message_refs d) n m x.
Proof.
  revert m. induction fuel as [|fuel IH]; intros m; cbn [follow_message2]; [split; [discriminate|intros (n & H & _); lia]|].
  destruct (m_refto (message d m)) as [r|] eqn:E.
  - rewrite IH. split.
    + intros (n & L & C). exists (S n). split; [lia|]. econstructor; [exact E|exact C].
    + intros (n & L & C). inversion C as [? E'|n' ? r' ? E' C']; subst; unfold message_refs in E'; [congruence|].
      rewrite E in E'. injection E' as <-. exists n'. split; [lia|exact C'].
  - split.
    + intros [= <-]. exists 0. split; [lia|]. now constructor.
    + intros (n & L & C). inversion C as [? E'|n' ? r' ? E' C']; subst; [reflexivity|]. unfold message_refs in E'. congruence.
Qed.

Lemma one_step_chain refs m x : (match refs m with Some r => r | None => m end) = x /\ refs x = None <->
  exists n, n <= 1 /\ chain refs n m x.
Proof.
  split.
  - intros [E N]. destruct (refs m) as [r|] eqn:Em.
    + subst r. exists 1. split; [lia|]. econstructor; [exact Em|now constructor].
    + subst x. exists 0. split; [lia|now constructor].
  - intros (n & L & C). inversion C as [? E|n' ? r ? E C']; subst.
    + now rewrite E.
    + assert (n' = 0) by lia. subst n'. inversion C'; subst. rewrite E. auto.
Qed.

(** *** Fields of traits *)
Lemma keep_string_first own l y : first_set "" l y -> forall v, v = keep_string own y -> first_set "" (own :: l) v.
Proof.
  intros H v ->. unfold keep_string. destruct (String.eqb_spec own "") as [->|N]; [now constructor|now constructor].
Qed.
Lemma first_set_unique {A} (u : A) l x y : first_set u l x -> first_set u l y -> x = y.
Proof. induction 1; intros H'; inversion H'; subst; try congruence; auto. Qed.

Lemma fold_keep_string own (l : list string) : first_set "" (own :: l) (fold_left keep_string l own).
Proof.
  revert own. induction l as [|t l IH]; intros own; cbn [fold_left].
  - destruct (String.eqb_spec own "") as [->|N]; [constructor; constructor|now constructor].
  - destruct (decide (own = "")) as [->|N].
    + constructor. exact (IH t).
    + assert (E : keep_string own t = own).
      { unfold keep_string. destruct (String.eqb_spec own ""); [contradiction|reflexivity]. }
      rewrite E. specialize (IH own).
      assert (H : fold_left keep_string l own = own) by (inversion IH; congruence). rewrite H. now constructor.
Qed.
Lemma fold_keep_option {A} (own : option A) (l : list (option A)) : first_set None (own :: l) (fold_left keep_option l own).
Proof.
  revert own. induction l as [|t l IH]; intros own; cbn [fold_left].
  - destruct own; [constructor; discriminate|constructor; constructor].
  - destruct own as [x|]; cbn [keep_option].
    + specialize (IH (Some x)).
      assert (H : fold_left keep_option l (Some x) = Some x) by (inversion IH; congruence). rewrite H. now constructor.
    + constructor. exact (IH t).
Qed.

Lemma first_app_dedup {A K} `{EqDecision K} (key : A -> K) (a b : list A) :
  dedup_by key (dedup_by key a ++ b) = dedup_by key (a ++ b).
Proof.
  induction b as [|x b IH] using rev_ind.
  - rewrite !app_nil_r. pose proof (dedup_first key (dedup_by key a)) as F1.
    enough (G : forall l, NoDup (key <$> l) -> dedup_by key l = l) by (apply G; exact (first_nodup key a _ (dedup_first key a))).
    clear. induction l as [|x l IH] using rev_ind; [reflexivity|]. rewrite fmap_app, NoDup_app. intros (N & D & _).
    unfold dedup_by in *. rewrite dedup_from_app, IH by exact N. rewrite bool_decide_false; [reflexivity|].
    intros [H|H]; [now apply elem_of_nil in H|]. apply (D _ H). cbn. left.
  - rewrite !app_assoc. unfold dedup_by in *. rewrite !dedup_from_app, IH. f_equal.
    erewrite bool_decide_ext; [reflexivity|]. rewrite !fmap_app, !elem_of_app.
    pose proof (first_keys key a _ (dedup_first key a) (key x)) as Kx. unfold dedup_by in Kx. rewrite Kx. reflexivity.
Qed.

Lemma fold_dedup_from {A K} `{EqDecision K} (key : A -> K) (own : list A) (l : list (list A)) :
  fold_left (fun a t => dedup_by key (a ++ t)) l (dedup_by key own) = dedup_by key (own ++ List.concat l).
Proof.
  revert own. induction l as [|t l IH]; intros own; cbn [fold_left List.concat]; [now rewrite app_nil_r|].
  rewrite first_app_dedup, IH, app_assoc. reflexivity.
Qed.
Lemma fold_dedup {A K} `{EqDecision K} (key : A -> K) (own : list A) (l : list (list A)) :
  l <> [] -> fold_left (fun a t => dedup_by key (a ++ t)) l own = dedup_by key (own ++ List.concat l).
Proof.
  intros N. destruct l as [|t l]; [congruence|]. cbn [fold_left List.concat].
  rewrite fold_dedup_from, app_assoc. reflexivity.
Qed.

(** *** Messages of a document *)
Lemma message_heap h d m : message (set_heap h d) m = message d m. Proof. reflexivity. Qed.
Lemma message_upd_same f d m : message (upd_message m f d) m = f (message d m).
Proof. unfold message at 1, upd_message, set_message. cbn. now rewrite lookup_insert. Qed.
Lemma message_upd_other f d m x : x <> m -> message (upd_message m f d) x = message d x.
Proof. intros N. unfold message at 1, upd_message, set_message. cbn. now rewrite lookup_insert_ne by congruence. Qed.
Lemma message_alloc_same c d : message (snd (alloc_message c d)) (d_next d) = c.
Proof. unfold message, alloc_message. cbn. now rewrite lookup_insert. Qed.
Lemma message_alloc_other c d x : x <> d_next d -> message (snd (alloc_message c d)) x = message d x.
Proof. intros N. unfold message, alloc_message. cbn. now rewrite lookup_insert_ne by congruence. Qed.

Lemma obind_done {A B} (r : out A) (k : A -> out B) y : obind r k = ODone y -> exists x, r = ODone x /\ k x = ODone y.
Proof. destruct r; cbn; intros H; try discriminate. eauto. Qed.
Lemma lift_done r d d' : lift r d = ODone d' -> exists h', r = Done h' /\ d' = set_heap h' d.
Proof. destruct r; cbn; intros H; try discriminate. injection H as <-. eauto. Qed.

(** Nothing but the schemas of message [m] changes in the messages. *)
Definition only_parts (m : nat) (d d' : doc) : Prop :=
  (forall x, x <> m -> message d' x = message d x) /\
  (exists p, message d' m = with_parts p (message d m)) /\
  d_traits d' = d_traits d /\ d_next d' = d_next d.
Lemma with_parts_same m : with_parts (m_parts m) m = m. Proof. now destruct m. Qed.
Lemma only_parts_refl m d : only_parts m d d.
Proof. split; [auto|]. split; [|auto]. exists (m_parts (message d m)). now rewrite with_parts_same. Qed.
Lemma only_parts_trans m d1 d2 d3 : only_parts m d1 d2 -> only_parts m d2 d3 -> only_parts m d1 d3.
Proof.
  intros (A1 & (p1 & B1) & C1 & D1) (A2 & (p2 & B2) & C2 & D2). split; [intros x N; rewrite A2, A1 by exact N; reflexivity|].
  split; [|split; congruence]. exists p2. rewrite B2, B1. reflexivity.
Qed.
Lemma only_parts_heap m h d : only_parts m d (set_heap h d).
Proof. split; [auto|]. split; [|auto]. exists (m_parts (message d m)). now rewrite with_parts_same. Qed.
Lemma only_parts_upd m f d : only_parts m d (upd_message m (fun c => with_parts (f c) c) d).
Proof.
  split; [intros x N; now apply message_upd_other|]. split; [|auto]. exists (f (message d m)). exact (message_upd_same _ d m).
Qed.

Section message_proofs.
  Variable iter : nat -> gmap string nat -> list (string * nat).
  Hypothesis iter_perm : forall m g, iter m g ≡ₚ map_to_list g.
  Variable resolve : heap -> string -> res nat.
  Variable resolve_message : string -> res nat.
  Variable resolve_trait : string -> res nat.

  Lemma merge_part_only fuel get put into m new d d' :
    merge_part iter resolve fuel get put into m new d = ODone d' -> only_parts m d d'.
  Proof.
    unfold merge_part. destruct new as [p|]; [|intros [= <-]; apply only_parts_refl].
    destruct (get (m_parts (message d m))).
    - destruct (into (m_parts (message d m))); intros [= <-]; [apply only_parts_heap|apply only_parts_refl].
    - cbn [alloc]. intros H. apply obind_done in H as (d1 & H1 & H).
      apply lift_done in H1 as (h1 & _ & ->). apply lift_done in H as (h2 & _ & ->).
      eapply only_parts_trans; [|apply only_parts_heap]. eapply only_parts_trans; [|apply only_parts_heap].
      eapply only_parts_trans; [apply only_parts_heap|apply only_parts_upd].
  Qed.

  (** The fields without schemas. *)
  Lemma apply_trait_about fuel m t d d' : apply_trait iter resolve fuel m t d = ODone d' ->
    m_about (message d' m) = apply_about (m_about (message d m)) (t_about t) /\
    (forall x, x <> m -> message d' x = message d x).
  Proof.
    unfold apply_trait. intros H. apply obind_done in H as (d1 & H1 & H). apply obind_done in H as (d2 & H2 & [= <-]).
    apply merge_part_only in H1 as (A1 & (p1 & B1) & _). apply merge_part_only in H2 as (A2 & (p2 & B2) & _).
    split.
    - rewrite message_upd_same, B2, B1. reflexivity.
    - intros x N. rewrite message_upd_other by exact N. rewrite A2, A1 by exact N. reflexivity.
  Qed.
  Lemma apply_traits_about fuel m ts d d' : oeach (apply_trait iter resolve fuel m) ts d = ODone d' ->
    m_about (message d' m) = fold_left apply_about (t_about <$> ts) (m_about (message d m)).
  Proof.
    revert d. induction ts as [|t ts IH]; intros d H; cbn [oeach] in H; [now injection H as <-|].
    apply obind_done in H as (d1 & H1 & H). apply apply_trait_about in H1 as [E _]. apply IH in H.
    rewrite H, E. reflexivity.
  Qed.

  Lemma fold_about_field {F} (get : about -> F) (keep : F -> F -> F) l a :
    (forall a t, get (apply_about a t) = keep (get a) (get t)) ->
    get (fold_left apply_about l a) = fold_left keep (get <$> l) (get a).
  Proof. intros H. revert a. induction l as [|t l IH]; intros a; [reflexivity|]. cbn [fold_left fmap list_fmap]. now rewrite IH, H. Qed.

  (** Messages are merged into one message only, besides new local ones. *)
  Lemma merge_message_part_only fuel get put m new d d' :
    merge_message_part iter fuel get put m new d = ODone d' -> only_parts m d d'.
  Proof.
    unfold merge_message_part. destruct new as [p|]; [|intros [= <-]; apply only_parts_refl].
    destruct (get (m_parts (message d m))); [intros [= <-]; apply only_parts_heap|].
    destruct (deep_copy iter fuel p (d_heap d)) as [[n h]|]; [|discriminate]. intros [= <-].
    eapply only_parts_trans; [apply only_parts_heap|apply only_parts_upd].
  Qed.

  Lemma merge_message_frame fuel m m2 d d' : merge_message iter resolve_message fuel m m2 d = ODone d' -> m < d_next d ->
    d_next d <= d_next d' /\ forall x, x < d_next d -> x <> m -> message d' x = message d x.
  Proof.
    revert m m2 d d'. induction fuel as [|fuel IH]; intros m m2 d d' H L; [discriminate|]. cbn [merge_message] in H.
    apply obind_done in H as (d1 & H1 & H). apply obind_done in H as (d2 & H2 & H). apply obind_done in H as (d3 & H3 & H4).
    assert (S1 : d_next d <= d_next d1 /\ forall x, x < d_next d -> x <> m -> message d1 x = message d x).
    { destruct (String.eqb (m_ref (message d m)) ""); [injection H1 as <-; auto|].
      destruct (resolve_message (m_ref (message d m))) as [| |r]; [discriminate..|].
      apply IH in H1 as [N F]; [|exact L]. split; [exact N|]. intros x Lx Nx. rewrite F by (cbn; auto).
      now apply message_upd_other. }
    assert (S2 : d_next d1 <= d_next d2 /\ forall x, x < d_next d1 -> message d2 x = message d1 x).
    { destruct (String.eqb (m_ref m2) ""); [injection H2 as <-; auto|].
      destruct (resolve_message (m_ref m2)) as [| |r]; [discriminate..|]. cbn [alloc_message] in H2.
      apply IH in H2 as [N F]; [|cbn; lia]. cbn [d_next] in N, F. split; [lia|]. intros x Lx.
      rewrite F by lia. exact (message_alloc_other m2 d1 x ltac:(lia)). }
    apply merge_message_part_only in H3 as (A3 & _ & _ & N3). apply merge_message_part_only in H4 as (A4 & _ & _ & N4).
    destruct S1 as [N1 F1], S2 as [N2 F2]. split; [lia|]. intros x Lx Nx.
    rewrite A4, A3 by exact Nx. rewrite F2 by lia. now apply F1.
  Qed.

  (** An alternative without schemas of its own contributes nothing. *)
  Lemma merge_message_nothing fuel m m2 d d' : m_ref (message d m) = "" -> m < d_next d ->
    p_payload (m_parts m2) = None -> p_headers (m_parts m2) = None ->
    merge_message iter resolve_message fuel m m2 d = ODone d' -> message d' m = message d m.
  Proof.
    intros R L Ep Eh H. destruct fuel as [|fuel]; [discriminate|]. cbn [merge_message] in H. rewrite R in H.
    cbn [String.eqb obind] in H. apply obind_done in H as (d2 & H2 & H). rewrite Ep, Eh in H. cbn in H. injection H as <-.
    destruct (String.eqb (m_ref m2) ""); [now injection H2 as <-|].
    destruct (resolve_message (m_ref m2)) as [| |r]; [discriminate..|]. cbn [alloc_message] in H2.
    apply merge_message_frame in H2 as [_ F]; [|cbn; lia]. cbn [d_next] in F. rewrite F by lia.
    exact (message_alloc_other m2 d m ltac:(lia)).
  Qed.

  (** A message that refers to itself: the merge never ends. *)
  Lemma merge_message_cycle ref b c fuel : ref <> "" -> resolve_message ref = Ok b -> m_ref c = ref ->
    forall m d, b < d_next d -> message d b = c -> m <> b -> m_ref (message d m) = "" \/ m_ref (message d m) = ref ->
    merge_message iter resolve_message fuel m c d = OFuel.
  Proof.
    intros Nr Res Rc. induction fuel as [|fuel IH]; intros m d L Eb Nm Rm; [reflexivity|]. cbn [merge_message].
    assert (Z : String.eqb ref "" = false) by (now apply String.eqb_neq).
    destruct Rm as [Rm|Rm]; rewrite Rm.
    - cbn [String.eqb obind]. rewrite Rc, Z, Res. cbn [alloc_message].
      set (d' := mkDoc (d_heap d) (<[d_next d := c]> (d_msgs d)) (d_traits d) (S (d_next d))).
      assert (Eb' : message d' b = c) by (rewrite <- Eb; exact (message_alloc_other c d b ltac:(lia))).
      rewrite Eb'. rewrite IH; [reflexivity|cbn; lia|exact Eb'|lia|].
      right. rewrite <- Rc. f_equal. exact (message_alloc_same c d).
    - rewrite Z, Res. set (d' := upd_message m (with_ref "") d).
      assert (Eb' : message d' b = c) by (unfold d'; rewrite message_upd_other by congruence; exact Eb).
      rewrite Eb'. rewrite IH; [reflexivity|exact L|exact Eb'|exact Nm|]. left. unfold d'. rewrite message_upd_same. reflexivity.
  Qed.

  (** Headers and traits: when the message has headers, those of the traits are merged into them. *)
  Lemma apply_traits_headers fuel m s ts (l : list nat) d : p_headers (m_parts (message d m)) = Some s ->
    Forall2 (fun t v => p_headers (t_parts t) = Some v /\ p_payload (t_parts t) = None) ts l ->
    exists d', oeach (apply_trait iter resolve fuel m) ts d = ODone d' /\
      d_heap d' = merge_all iter s l (d_heap d) /\ m_parts (message d' m) = m_parts (message d m).
  Proof.
    intros E F. revert d E. induction F as [|t v ts l [Hh Hp] F IH]; intros d E.
    { exists d. auto. }
    cbn [oeach]. unfold apply_trait at 1. rewrite Hh, Hp. unfold merge_part at 1. rewrite E. cbn [obind].
    unfold merge_part at 1. cbn [obind].
    set (d1 := upd_message m _ _).
    assert (P1 : m_parts (message d1 m) = m_parts (message d m)) by (unfold d1; rewrite message_upd_same; reflexivity).
    destruct (IH d1) as (d' & E' & H' & P'); [now rewrite P1|]. exists d'. split; [exact E'|].
    split; [|congruence]. rewrite H'. reflexivity.
  Qed.

  (** The check of the headers. *)
  Lemma metadata_keeps fuel b s h h' : generate_metadata iter fuel b s h = Done h' ->
    (forall x, s_type (cell h' x) = s_type (cell h x) /\ s_refto (cell h' x) = s_refto (cell h x)).
  Proof.
    revert b s h h'. induction fuel as [|fuel IH]; intros b s h h' H; [discriminate|]. cbn [generate_metadata] in H.
    assert (Ev : forall A (f : A -> heap -> run) l h h',
      (forall a h h', f a h = Done h' -> forall x, s_type (cell h' x) = s_type (cell h x) /\ s_refto (cell h' x) = s_refto (cell h x)) ->
      each f l h = Done h' -> forall x, s_type (cell h' x) = s_type (cell h x) /\ s_refto (cell h' x) = s_refto (cell h x)).
    { intros A f l. induction l as [|a l IHl]; intros h0 h1 Hf He x; cbn [each] in He; [injection He as <-; auto|].
      destruct (f a h0) as [| |h2] eqn:Ea; cbn [bind] in He; [discriminate..|].
      destruct (IHl h2 h1 Hf He x) as [-> ->]. now apply (Hf a). }
    destruct (each _ _ h) as [| |h1] eqn:E1 in H; cbn [bind] in H; [discriminate..|].
    destruct (each _ _ h1) as [| |h2] eqn:E2 in H; cbn [bind] in H; [discriminate..|]. injection H as <-.
    assert (K1 := Ev _ _ _ _ _ (fun a h h' H => IH _ _ _ _ H) E1).
    assert (K2 := Ev _ _ _ _ _ (fun a h h' H => IH _ _ _ _ H) E2).
    intros x. destruct (decide (x = s)) as [->|N].
    - rewrite cell_upd_same. destruct (K1 s), (K2 s). cbn. split; congruence.
    - rewrite cell_upd_other by congruence. destruct (K1 x), (K2 x). split; congruence.
  Qed.

  Lemma headers_reference_rejected fuel m s d b d' : p_headers (m_parts (message d m)) = Some s ->
    s_refto (cell (d_heap d) s) = None -> s_type (cell (d_heap d) s) <> "object" ->
    message_metadata iter false fuel m d <> ODone (b, d').
  Proof.
    intros E R T H. destruct fuel as [|fuel]; [discriminate|]. cbn [message_metadata] in H.
    apply obind_done in H as (d1 & H1 & H). apply obind_done in H as (d2 & H2 & H). apply obind_done in H as (d3 & H3 & _).
    assert (Sm : forall p da db, schema_metadata iter fuel p da = ODone db ->
      (forall x, message db x = message da x) /\
      (forall x, s_type (cell (d_heap db) x) = s_type (cell (d_heap da) x) /\ s_refto (cell (d_heap db) x) = s_refto (cell (d_heap da) x))).
    { intros [p|] da db He; cbn [schema_metadata] in He; [|injection He as <-; auto].
      apply lift_done in He as (h' & He & ->). split; [reflexivity|]. cbn [d_heap set_heap]. now apply (metadata_keeps fuel false p). }
    apply Sm in H1 as [A1 B1]. apply Sm in H2 as [A2 B2].
    unfold headers_object in H3. rewrite A2, A1, E in H3.
    assert (Fo : follow (d_heap d2) s = s).
    { unfold follow. destruct (B2 s) as [_ ->], (B1 s) as [_ ->]. now rewrite R. }
    rewrite Fo in H3. destruct (B2 s) as [Z _]. destruct (B1 s) as [Z' _]. rewrite Z, Z' in H3.
    destruct (String.eqb_spec (s_type (cell (d_heap d) s)) "object"); [contradiction|discriminate].
  Qed.
End message_proofs.

(** *** Alternatives written in place *)
Section alternatives.
  Variable iter : nat -> gmap string nat -> list (string * nat).
  Hypothesis iter_perm : forall m g, iter m g ≡ₚ map_to_list g.
  Variable resolve : heap -> string -> res nat.
  Variable resolve_message : string -> res nat.
  Variable resolve_trait : string -> res nat.

  Lemma set_heap_same d : set_heap (d_heap d) d = d. Proof. now destruct d. Qed.

  Lemma flat_kept h h' p : closed h -> kept h h' -> valid h p -> flat h p -> flat h' p.
  Proof.
    intros C K V [B R T L]. pose proof (kept_cell h h' p K V) as E. constructor; [now rewrite E..|].
    intros k q. rewrite (kept_props h h') by assumption. intros G. rewrite (kept_cell h h'); [now apply (L k)|exact K|].
    eapply props_in; eassumption.
  Qed.

  Lemma dep_flat_any v2 fuel s h h' : flat h s -> set_dependencies iter resolve v2 fuel s h = Done h' -> h' = h.
  Proof.
    intros F. destruct fuel as [|[|fuel]]; [discriminate| |].
    - (* not enough fuel for properties, but enough without *)
      destruct (s_props (cell h s)) as [p|] eqn:E.
      + cbn [set_dependencies]. destruct F as [[B1 B2 B3 B4 B5 B6 B7 B8 B9] R _ _]. unfold set_reference. rewrite R. cbn [String.eqb bind].
        rewrite E. destruct (map snd (iter p (map_at h (Some p)))) as [|x l]; [|discriminate]. cbn [each bind].
        destruct v2; cbn [bind]; rewrite ?B1; cbn [each bind]; rewrite ?B2; cbn [opt_list each bind];
        rewrite ?B3; cbn [each bind]; rewrite B4; cbn [opt_list each bind]; rewrite ?B5; cbn [each bind]; rewrite B6; cbn [each bind];
        rewrite B7; cbn [each bind]; rewrite B8; cbn [each bind]; rewrite ?B2, ?B9; cbn [opt_list each]; intros [= <-]; reflexivity.
      + destruct F as [B R _ _]. rewrite dep_bare by assumption. now intros [= <-].
    - rewrite (dep_flat iter iter_perm) by exact F. now intros [= <-].
  Qed.

  Lemma plain_dependencies v2 fuel v p d d' : plain_message (message d v) p -> flat (d_heap d) p ->
    message_dependencies iter resolve resolve_message resolve_trait v2 fuel v d = ODone d' -> d' = d.
  Proof.
    intros [Mp Mh Mo Mt Mr] F H. destruct fuel as [|fuel]; [discriminate|]. cbn [message_dependencies] in H.
    unfold message_reference in H. rewrite Mr in H. cbn [String.eqb obind] in H. rewrite Mp in H.
    apply obind_done in H as (d1 & H1 & H). cbn [schema_dependencies] in H1. apply lift_done in H1 as (h' & H1 & ->).
    apply dep_flat_any in H1; [|exact F]. subst h'. rewrite set_heap_same in H.
    rewrite Mh in H. cbn [schema_dependencies obind] in H.
    unfold headers_object in H. rewrite Mh in H.
    destruct v2; cbn [obind] in H; rewrite Mo in H; cbn [oeach obind] in H; [now injection H as <-|].
    rewrite Mt in H. cbn [oeach] in H. now injection H as <-.
  Qed.

  Definition alternative v2 fuel m := fun v d =>
    obind (message_dependencies iter resolve resolve_message resolve_trait v2 fuel v d)
      (fun d => merge_message iter resolve_message fuel m (message d v) d).

  (** A plain alternative merged into a message. *)
  Lemma alternative_merge v2 fuel m v p d d' : plain_message (message d v) p -> flat (d_heap d) p ->
    m_ref (message d m) = "" -> v <> m -> alternative v2 fuel m v d = ODone d' ->
    exists fuel', merge_message_part iter fuel' p_payload put_payload m (Some p) d = ODone d'.
  Proof.
    intros Pl F R N H. unfold alternative in H. apply obind_done in H as (d1 & H1 & H).
    apply (plain_dependencies v2 fuel v p) in H1; [|assumption..]. subst d1.
    destruct fuel as [|fuel]; [discriminate|]. cbn [merge_message] in H. destruct Pl as [Mp Mh Mo Mt Mr].
    rewrite R, Mr in H. cbn [String.eqb obind] in H. rewrite Mp, Mh in H.
    apply obind_done in H as (d2 & H2 & H). cbn [merge_message_part] in H. injection H as <-. eauto.
  Qed.

  Lemma alternatives_rest v2 fuel m h n (l : list (nat * nat)) d d' :
    closed h -> kept h (d_heap d) -> closed (d_heap d) -> valid (d_heap d) n -> next h <= n ->
    (forall mm, s_props (cell (d_heap d) n) = Some mm -> next h <= mm) ->
    p_payload (m_parts (message d m)) = Some n -> m_ref (message d m) = "" ->
    (forall v p, (v, p) ∈ l -> v <> m /\ plain_message (message d v) p /\ valid h p /\ flat h p) ->
    oeach (alternative v2 fuel m) (fst <$> l) d = ODone d' ->
    d_heap d' = merge_all iter n (snd <$> l) (d_heap d) /\ kept h (d_heap d') /\ closed (d_heap d') /\ valid (d_heap d') n /\
    (forall x, message d' x = message d x).
  Proof.
    intros C. revert d. induction l as [|[v p] l IH]; intros d K Cd Vn Ln Lm Ep R Hl H.
    { cbn in H. injection H as <-. auto. }
    cbn [fmap list_fmap fst oeach] in H. apply obind_done in H as (d1 & H1 & H).
    destruct (Hl v p) as (N & Pl & Vp & Fp); [left|].
    apply (alternative_merge v2 fuel m v p) in H1 as (fuel' & H1); [|exact Pl|now apply (flat_kept h)|exact R|exact N].
    unfold merge_message_part in H1. rewrite Ep in H1. injection H1 as <-.
    set (h1 := merge_with iter n (cell (d_heap d) p) (d_heap d)) in *.
    pose proof (merge_with_spec iter iter_perm n (cell (d_heap d) p) (d_heap d) Cd Vn) as P. cbn zeta in P. fold h1 in P.
    destruct P as (C1 & X1 & T1 & I1 & Rf1 & M1 & P1 & _ & R1 & Vm1 & W1 & _).
    { apply cell_ok; [exact Cd|]. now apply (kept_valid h). }
    assert (Nn : forall x, valid h x -> x <> n).
    { intros x Hx ->. apply (cl_cells h C) in Hx. lia. }
    assert (K1 : kept h h1).
    { constructor.
      - pose proof (ke_next _ _ K). pose proof (ex_next _ _ _ X1). lia.
      - intros x Hx. rewrite (ex_other _ _ _ X1); [now apply (ke_cells _ _ K)|now apply (kept_valid h)|now apply Nn].
      - intros mm Hm. rewrite M1; [now apply (ke_maps _ _ K)|now apply (kept_valid_map h)|].
        intros E. symmetry in E. apply Lm in E. apply (cl_maps h C) in Hm. lia. }
    destruct (IH (set_heap h1 d)) as (E' & K' & C' & V' & M').
    - exact K1.
    - exact C1.
    - now apply (ex_valid _ _ _ X1).
    - exact Ln.
    - cbn [d_heap set_heap]. intros mm E. destruct (W1 mm E) as [H1|H1]; [now apply Lm|]. pose proof (ke_next _ _ K). lia.
    - exact Ep.
    - exact R.
    - intros v' p' Hv. apply Hl. now right.
    - exact H.
    - split; [exact E'|]. split; [exact K'|]. split; [exact C'|]. split; [exact V'|exact M'].
  Qed.

  Lemma alternatives_union v2 fuel m (l : list (nat * nat)) d d' :
    closed (d_heap d) -> l <> [] ->
    m_ref (message d m) = "" -> m_parts (message d m) = mkParts None None -> m_traits (message d m) = [] ->
    m_oneof (message d m) = fst <$> l ->
    (forall v p, (v, p) ∈ l -> v <> m /\ plain_message (message d v) p /\ valid (d_heap d) p /\ flat (d_heap d) p) ->
    message_dependencies iter resolve resolve_message resolve_trait v2 fuel m d = ODone d' ->
    kept (d_heap d) (d_heap d') /\ (forall x, x <> m -> message d' x = message d x) /\
    exists n, p_payload (m_parts (message d' m)) = Some n /\ ~ valid (d_heap d) n /\
    forall k x, first_set None ((fun e => props (d_heap d) (cell (d_heap d) (snd e)) !! k) <$> l) x ->
      match x with
      | Some q => exists p, props (d_heap d') (cell (d_heap d') n) !! k = Some p /\
                    (stands_for (d_heap d') p q \/ same_face (cell (d_heap d) q) (cell (d_heap d') p))
      | None => props (d_heap d') (cell (d_heap d') n) !! k = None
      end.
  Proof.
    intros C Nl R Pa Tr On Hl H. destruct fuel as [|fuel]; [discriminate|]. cbn [message_dependencies] in H.
    unfold message_reference in H. rewrite R in H. cbn [String.eqb obind] in H. rewrite Pa in H.
    cbn [p_payload p_headers schema_dependencies obind] in H. rewrite Pa in H.
    cbn [p_payload p_headers schema_dependencies obind] in H.
    assert (Z : (if v2 then headers_object m d else ODone d) = ODone d).
    { destruct v2; [|reflexivity]. unfold headers_object. now rewrite Pa. }
    rewrite Z in H. cbn [obind] in H. rewrite On in H.
    apply obind_done in H as (d2 & H2 & H).
    change (oeach (alternative v2 fuel m) (fst <$> l) d = ODone d2) in H2.
    set (h := d_heap d) in *.
    assert (Nv : forall x, valid h x -> x < next h) by apply (cl_cells h C).
    (* the first alternative is copied *)
    destruct l as [|[v p] l]; [congruence|]. cbn [fmap list_fmap fst oeach] in H2. apply obind_done in H2 as (d1 & H1 & H2).
    destruct (Hl v p) as (N & Pl & Vp & Fp); [left|].
    apply (alternative_merge v2 fuel m v p) in H1 as (fuel' & H1); [|exact Pl|exact Fp|exact R|exact N].
    unfold merge_message_part in H1. rewrite Pa in H1. cbn [p_payload] in H1.
    destruct (deep_copy iter fuel' p (d_heap d)) as [[n h1]|] eqn:E1; [|discriminate]. injection H1 as <-.
    destruct (deep_copies iter iter_perm fuel' p h n h1 C Vp E1) as (C1 & K1 & D1).
    set (d1 := upd_message m _ _) in *.
    assert (M1 : message d1 m = with_parts (mkParts None (Some n)) (message d m)).
    { unfold d1. rewrite message_upd_same, message_heap, Pa. reflexivity. }
    assert (M1' : forall x, x <> m -> message d1 x = message d x).
    { intros x Nx. unfold d1. rewrite message_upd_other by exact Nx. apply message_heap. }
    change (d_heap d1) with h1 in *.
    destruct (alternatives_rest v2 fuel m h n l d1 d2 C K1 C1 (cp_valid _ _ _ _ D1) (cp_new _ _ _ _ D1) (cp_map _ _ _ _ D1))
      as (E2 & K2 & C2 & V2 & M2).
    { rewrite M1. reflexivity. }
    { rewrite M1. exact R. }
    { intros v' p' Hv. destruct (Hl v' p') as (N' & Pl' & Vp' & Fp'); [now right|]. rewrite M1' by exact N'. auto. }
    { exact H2. }
    assert (Ed : d' = d2).
    { destruct v2; [now injection H as <-|]. rewrite M2, M1 in H. cbn in H. rewrite Tr in H. cbn in H. now injection H as <-. }
    subst d'. clear H. split; [exact K2|]. split; [intros x Nx; rewrite M2; now apply M1'|].
    exists n. split; [rewrite M2, M1; reflexivity|].
    assert (Nn : ~ valid h n) by (intros Hn; apply Nv in Hn; pose proof (cp_new _ _ _ _ D1); lia).
    split; [exact Nn|]. change (d_heap d1) with h1 in E2.
    assert (Frp : forall w, valid h w -> props h1 (cell h1 w) = props h (cell h w)) by (intros w Hw; now apply (kept_props h h1)).
    destruct (merge_all_spec iter iter_perm n (snd <$> l) h1 C1 (cp_valid _ _ _ _ D1)) as (_ & X2 & _ & _ & _ & _ & _ & Kp & P2 & _).
    { rewrite Forall_forall. intros w Hw. apply elem_of_list_fmap in Hw as ((v' & w') & -> & Hw). cbn [snd].
      destruct (Hl v' w') as (N' & Pl' & Vp' & Fp'); [now right|]. split; [now apply (kept_valid h)|].
      assert (Ew : cell h1 w' = cell h w') by now apply (kept_cell h h1). constructor.
      - intros ->. contradiction.
      - rewrite Ew, (fl_refto _ _ Fp'). discriminate.
      - intros mm [Hm|(r & Hr & _)]; [|rewrite Ew, (fl_refto _ _ Fp') in Hr; discriminate].
        intros Em. apply (cp_map _ _ _ _ D1) in Em. rewrite Ew in Hm.
        apply (ok_props _ _ (cell_ok h w' C Vp')) in Hm. apply (cl_maps h C) in Hm. lia. }
    rewrite <- E2 in X2, Kp, P2.
    assert (Def : forall k, ((fun w => defines h1 w k) <$> (snd <$> l)) = ((fun e => props h (cell h (snd e)) !! k) <$> l)).
    { intros k. rewrite <- list_fmap_compose. apply list_fmap_ext. intros i [v' w'] Hi. apply elem_of_list_lookup_2 in Hi.
      destruct (Hl v' w') as (N' & Pl' & Vp' & Fp'); [now right|]. cbn [compose snd]. unfold compose. cbn [snd].
      unfold defines. rewrite (Frp w' Vp').
      destruct (props h (cell h w') !! k); [reflexivity|]. unfold ref_props.
      rewrite (kept_cell h h1 w' K1 Vp'), (fl_refto _ _ Fp'). apply lookup_empty. }
    intros k x F. cbn [fmap list_fmap snd] in F.
    assert (Own : match props h (cell h p) !! k with
                  | Some q => exists w, props h1 (cell h1 n) !! k = Some w /\ w <> n /\ same_face (cell h q) (cell h1 w)
                  | None => props h1 (cell h1 n) !! k = None
                  end).
    { destruct (props h (cell h p) !! k) as [q|] eqn:Eq.
      - destruct (cp_there _ _ _ _ D1 [k] q) as (w & Rw & Sf & _); [econstructor; [exact Eq|constructor]|].
        inversion Rw as [|? ? w' ? ? Ew Rw']; subst. inversion Rw'; subst. exists w. split; [exact Ew|]. split; [|exact Sf].
        intros ->. destruct (cp_back _ _ _ _ D1 [k; k] n) as (z & Rz & _ & _).
        { econstructor; [exact Ew|]. econstructor; [exact Ew|constructor]. }
        inversion Rz as [|? ? q' ? ? Eq' Rz']; subst. rewrite Eq in Eq'. injection Eq' as <-.
        inversion Rz' as [|? ? q'' ? ? Eq'' _]; subst. destruct (fl_props _ _ Fp k q Eq) as (_ & Lp & _).
        unfold props in Eq''. rewrite Lp in Eq''. cbn [map_at] in Eq''. now rewrite lookup_empty in Eq''.
      - destruct (props h1 (cell h1 n) !! k) as [w|] eqn:Ew; [|reflexivity].
        destruct (cp_back _ _ _ _ D1 [k] w) as (z & Rz & _ & _); [econstructor; [exact Ew|constructor]|].
        inversion Rz as [|? ? q' ? ? Eq' _]; subst. congruence. }
    destruct (props h (cell h p) !! k) as [q|] eqn:Eq.
    - assert (x = Some q) as -> by (inversion F; congruence). destruct Own as (w & Ew & Nw & Sf).
      exists w. split; [now apply Kp|]. right. rewrite (extends_cell n h1 _ w X2); [exact Sf| |exact Nw].
      eapply props_in; eassumption.
    - assert (F' : first_set None ((fun e => props h (cell h (snd e)) !! k) <$> l) x).
      { inversion F as [|? ? Ne|? ? F']; subst; [congruence|exact F']. }
      specialize (P2 k x). rewrite Own, Def in P2. specialize (P2 ltac:(now constructor)).
      destruct x as [q|]; [|exact P2]. destruct P2 as (p' & Hp & St). exists p'. auto.
  Qed.
End alternatives.

Lemma v2_headers_reference iter resolve resolve_message resolve_trait fuel m s t d :
  m_ref (message d m) = "" -> m_parts (message d m) = mkParts (Some s) None -> m_oneof (message d m) = [] ->
  bare (cell (d_heap d) s) -> s_props (cell (d_heap d) s) = None -> s_ref (cell (d_heap d) s) <> "" -> t <> s ->
  resolve (d_heap d) (s_ref (cell (d_heap d) s)) = Ok t ->
  s_type (cell (d_heap d) t) = "object" ->
  s_anyof (cell (d_heap d) t) = [] -> s_oneof (cell (d_heap d) t) = [] -> s_allof (cell (d_heap d) t) = [] ->
  exists d', message_dependencies iter resolve resolve_message resolve_trait true (S (S fuel)) m d = ODone d' /\
    follow (d_heap d') s = t.
Proof.
  intros R Pa On [B1 B2 B3 B4 B5 B6 B7 B8 B9] Pn Rs Ns Res Ty T6 T7 T8.
  remember (S fuel) as n eqn:En. cbn [message_dependencies]. unfold message_reference. rewrite R. cbn [String.eqb obind].
  rewrite Pa. cbn [p_payload schema_dependencies obind]. rewrite Pa. cbn [p_headers schema_dependencies].
  subst n. cbn [set_dependencies]. unfold set_reference.
  destruct (String.eqb_spec (s_ref (cell (d_heap d) s)) "") as [Z|_]; [contradiction|]. rewrite Res. cbn [bind].
  match goal with |- context [upd s ?f (d_heap d)] => set (g := f); set (h1 := upd s g (d_heap d)) end.
  assert (Ec : cell h1 s = g (cell (d_heap d) s)) by apply cell_upd_same.
  assert (Et : cell h1 t = cell (d_heap d) t) by (apply cell_upd_other; congruence).
  assert (G0 : s_props (cell h1 s) = None) by (rewrite Ec; exact Pn).
  assert (G4 : s_items (cell h1 s) = None) by (rewrite Ec; exact B4).
  assert (G6 : s_anyof (cell h1 s) = []) by (rewrite Ec; unfold g; cbn; now rewrite T6).
  assert (G7 : s_oneof (cell h1 s) = []) by (rewrite Ec; unfold g; cbn; now rewrite T7).
  assert (G8 : s_allof (cell h1 s) = []) by (rewrite Ec; unfold g; cbn; now rewrite T8).
  assert (G2 : s_addprops (cell h1 s) = None) by (rewrite Ec; exact B2).
  assert (Gr : s_refto (cell h1 s) = Some t) by (rewrite Ec; reflexivity).
  rewrite G0. cbn [each bind]. rewrite G4. cbn [opt_list each bind]. rewrite G6. cbn [each bind]. rewrite G7. cbn [each bind].
  rewrite G8. cbn [each bind]. rewrite G2. cbn [opt_list each lift obind].
  unfold headers_object. rewrite message_heap, Pa. cbn [p_headers d_heap set_heap].
  assert (Fo : follow h1 s = t) by (unfold follow; now rewrite Gr). rewrite Fo, Et, Ty. cbn [String.eqb Ascii.eqb Bool.eqb obind].
  rewrite message_heap, On. cbn [oeach obind]. exists (set_heap h1 d). split; [reflexivity|exact Fo].
Qed.

(** Operations. *)
Lemma fold_operation_field {F} (get : operation_info -> F) (keep : F -> F -> F) l a :
  (forall a t, get (apply_operation_trait a t) = keep (get a) (get t)) ->
  get (fold_left apply_operation_trait l a) = fold_left keep (get <$> l) (get a).
Proof. intros H. revert a. induction l as [|t l IH]; intros a; [reflexivity|]. cbn [fold_left fmap list_fmap]. now rewrite IH, H. Qed.
Lemma fold_app_concat {A} (l : list (list A)) a : fold_left (fun x y => x ++ y)%list l a = (a ++ List.concat l)%list.
Proof. revert a. induction l as [|x l IH]; intros a; cbn; [now rewrite app_nil_r|]. now rewrite IH, app_assoc. Qed.
