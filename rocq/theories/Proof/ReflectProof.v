(** The search visits the fields breadth first. *)
From stdpp Require Import list strings sorting numbers list_numbers.
From Coq Require Import String Lia.
From Verif.Model Require Import Reflect.
From Verif.Spec Require Import ReflectSpec.

(** An element of the queue with the path leading to it. *)
Record node := mkNode { n_path : list nat; n_hid : bool; n_val : gval }.
Definition item_of (x : node) : bool * gval := (n_hid x, n_val x).
Definition gfields (v : gval) : list gfield := match deref v with GStruct fs => fs | _ => [] end.
Definition found_of (st : bool) (f : gfield) : found := mkFound f.1.1 f.2 (negb (readonly st f.1.2)).
Definition kids_from (k : nat) (x : node) (fs : list gfield) : list (found * node) :=
  imap (fun i f => (found_of (n_hid x) f, mkNode (n_path x ++ [k + i]) (sticky (n_hid x) f.1.2) f.2)) fs.
Definition kids (x : node) : list (found * node) := kids_from 0 x (gfields (n_val x)).

Fixpoint visit (fuel : nat) (q : list node) : option (list (list nat * found)) :=
  match fuel with
  | 0 => None
  | S fuel =>
      match q with
      | [] => Some []
      | x :: q =>
          match visit fuel (q ++ (kids x).*2) with
          | Some l => Some (map (fun k => (n_path k.2, k.1)) (kids x) ++ l)
          | None => None
          end
      end
  end.

Lemma gfields_has v fs : has_fields v fs -> gfields v = fs.
Proof. unfold gfields. induction 1; cbn; [reflexivity|assumption]. Qed.
Lemma gfields_spec v fs i f : gfields v = fs -> fs !! i = Some f -> has_fields v fs.
Proof.
  unfold gfields. revert fs. assert (H : forall v, exists w, deref v = w /\ (forall fs, w = GStruct fs -> has_fields v fs)).
  { fix IH 1. intros [fs|[w|]|n]; cbn.
    - eexists; split; [reflexivity|]. intros ? [= ->]. constructor.
    - destruct (IH w) as (u & E & H). exists u. split; [exact E|]. intros fs F. constructor. auto.
    - eexists; split; [reflexivity|discriminate].
    - eexists; split; [reflexivity|discriminate]. }
  intros fs E L. destruct (H v) as (w & D & F). rewrite D in E. destruct w; subst; try discriminate L. auto.
Qed.

Section Search.
  Context (probe : gval -> option bool) (name : string).

  Definition stopsb (f : found) : bool :=
    String.eqb (f_name f) name && (negb (f_readable f) || match probe (f_value f) with Some _ => true | None => false end).
  Lemma stopsb_spec f : stopsb f = true <-> stops probe name f.
  Proof.
    unfold stopsb, stops. rewrite Bool.andb_true_iff, String.eqb_eq, Bool.orb_true_iff, Bool.negb_true_iff.
    destruct (probe (f_value f)); [|intuition congruence]. split; intros [? ?]; split; auto; right; congruence.
  Qed.
  Definition answer_of (f : found) : answer :=
    if f_readable f then match probe (f_value f) with Some b => Says b | None => Says false end else Panics.
  Fixpoint first_of {A} (l : list (A * found)) : option found :=
    match l with [] => None | (_, f) :: r => if stopsb f then Some f else first_of r end.
  Lemma first_app {A} (l1 l2 : list (A * found)) :
    first_of (l1 ++ l2) = match first_of l1 with Some f => Some f | None => first_of l2 end.
  Proof. induction l1 as [|[a f] l1 IH]; cbn; [reflexivity|]. destruct (stopsb f); auto. Qed.

  Lemma scan_spec x k fs queue :
    scan probe name (n_hid x) fs queue =
    match first_of (map (fun k => (n_path k.2, k.1)) (kids_from k x fs)) with
    | Some f => inl (answer_of f)
    | None => inr (queue ++ map item_of (kids_from k x fs).*2)
    end.
  Proof.
    revert k queue. induction fs as [|[[n vis] w] fs IH]; intros k queue; [cbn; now rewrite app_nil_r|].
    unfold kids_from. cbn [imap]. rewrite Nat.add_0_r.
    assert (E : imap ((fun i (f : gfield) => (found_of (n_hid x) f, mkNode (n_path x ++ [k + i]) (sticky (n_hid x) f.1.2) f.2)) ∘ S) fs
      = kids_from (S k) x fs) by (apply imap_ext; intros i f _; cbn; now rewrite Nat.add_succ_r).
    rewrite E. cbn [scan]. rewrite (IH (S k)). generalize (kids_from (S k) x fs) as K. intros K. clear E IH.
    cbn [map first_of fmap list_fmap fst snd]. rewrite <- app_assoc. cbn [app].
    unfold stopsb at 1. unfold answer_of, found_of. cbn [f_name f_value f_readable fst snd].
    rewrite Bool.negb_involutive.
    destruct (String.eqb n name); cbn [andb]; [|reflexivity].
    destruct (readonly (n_hid x) vis); cbn [orb negb]; [reflexivity|].
    destruct (probe w) eqn:P; cbn [f_readable f_value]; [rewrite P|]; reflexivity.
  Qed.

  Lemma loop_spec fuel q l : visit fuel q = Some l ->
    loop probe name fuel (map item_of q) = match first_of l with Some f => answer_of f | None => Says false end.
  Proof.
    revert q l. induction fuel as [|fuel IH]; intros q l; [discriminate|]. cbn [visit loop].
    destruct q as [|x q]; [intros [= <-]; reflexivity|]. cbn [map item_of].
    destruct (visit fuel (q ++ (kids x).*2)) as [l'|] eqn:V; [|discriminate]. intros [= <-].
    specialize (IH _ _ V). rewrite map_app in IH. rewrite first_app.
    unfold item_of at 1. unfold kids, gfields in *. destruct (deref (n_val x)) as [fs|p|n]; cbn [kids_from imap map first_of fmap list_fmap] in *.
    - rewrite (scan_spec x 0). destruct (first_of (map _ (kids_from 0 x fs))); [reflexivity|exact IH].
    - now rewrite app_nil_r in IH.
    - now rewrite app_nil_r in IH.
  Qed.
End Search.

(** *** Termination *)
Definition qsize (q : list node) : nat := sum_list_with (fun x => gsize (n_val x)) q.
Lemma gsize_pos v : 0 < gsize v.
Proof. destruct v as [|[]|]; cbn; lia. Qed.
Lemma deref_size v : gsize (deref v) <= gsize v.
Proof.
  revert v. fix IH 1. intros [fs|[w|]|n]; try (cbn [deref]; lia). cbn [deref gsize]. specialize (IH w). lia.
Qed.
Lemma kids_size_from k x fs : qsize (kids_from k x fs).*2 = fold_right (fun f n => gsize f.2 + n) 0 fs.
Proof.
  unfold kids_from, qsize. revert k. induction fs as [|f fs IH]; intros k; [reflexivity|]. cbn [imap fmap list_fmap sum_list_with fold_right].
  rewrite <- (IH (S k)). f_equal. f_equal. f_equal. apply imap_ext. intros i f' _. cbn. now rewrite Nat.add_succ_r.
Qed.
Lemma kids_size x : qsize (kids x).*2 < gsize (n_val x).
Proof.
  pose proof (deref_size (n_val x)) as H. pose proof (gsize_pos (n_val x)). unfold kids, gfields.
  destruct (deref (n_val x)) as [fs|p|n]; rewrite kids_size_from; cbn [fold_right gsize] in *; lia.
Qed.
Lemma qsize_app q1 q2 : qsize (q1 ++ q2) = qsize q1 + qsize q2.
Proof. apply sum_list_with_app. Qed.
Lemma visit_ends fuel q : qsize q < fuel -> exists l, visit fuel q = Some l.
Proof.
  revert q. induction fuel as [|fuel IH]; intros q H; [lia|]. cbn [visit]. destruct q as [|x q]; [eauto|].
  destruct (IH (q ++ (kids x).*2)) as [l E].
  - rewrite qsize_app. pose proof (kids_size x). unfold qsize in *. cbn in H. lia.
  - rewrite E. eauto.
Qed.

(** *** What is visited *)
Lemma kids_elem x f y : (f, y) ∈ kids x <->
  exists i g, gfields (n_val x) !! i = Some g /\ f = found_of (n_hid x) g /\
    y = mkNode (n_path x ++ [i]) (sticky (n_hid x) g.1.2) g.2.
Proof.
  unfold kids, kids_from. rewrite elem_of_lookup_imap. split.
  - intros (i & g & E & L). injection E as -> ->. now exists i, g.
  - intros (i & g & L & -> & ->). exists i, g. auto.
Qed.
Lemma at_path_inv hid v p f : at_path hid v p f <->
  exists i g p', p = i :: p' /\ gfields v !! i = Some g /\
    ((p' = [] /\ f = found_of hid g) \/ at_path (sticky hid g.1.2) g.2 p' f).
Proof.
  split.
  - intros H. inversion H as [? ? fs i n vis w F L|? ? fs i n vis w p' f' F L A]; subst;
      rewrite (gfields_has _ _ F).
    + exists i, (n, vis, w), []. split; [reflexivity|]. split; [exact L|]. left. split; [reflexivity|].
      unfold found_of; cbn. f_equal. destruct hid, vis; reflexivity.
    + exists i, (n, vis, w), p'. split; [reflexivity|]. split; [exact L|]. right. cbn. exact A.
  - intros (i & [[n vis] w] & p' & -> & L & H). pose proof (gfields_spec _ _ _ _ eq_refl L) as F.
    destruct H as [[-> ->]|H].
    + assert (E : found_of hid (n, vis, w) = mkFound n w (match hid, vis with false, Exported => true | _, _ => false end)).
      { unfold found_of; cbn. f_equal. destruct hid, vis; reflexivity. }
      rewrite E. eapply at_last; eauto.
    + eapply at_more; eauto.
Qed.

Definition below (q : list node) (pf : list nat * found) : Prop :=
  exists x p, x ∈ q /\ pf.1 = n_path x ++ p /\ at_path (n_hid x) (n_val x) p pf.2.
Lemma visit_elem fuel q l : visit fuel q = Some l -> forall pf, pf ∈ l <-> below q pf.
Proof.
  revert q l. induction fuel as [|fuel IH]; intros q l; [discriminate|]. cbn [visit].
  destruct q as [|x q].
  { intros [= <-] pf. split; [intros H; inversion H|]. intros (y & p & M & _). inversion M. }
  destruct (visit fuel (q ++ (kids x).*2)) as [l'|] eqn:V; [|discriminate]. intros [= <-] [p f].
  rewrite elem_of_app, (IH _ _ V). rewrite elem_of_list_fmap. unfold below; cbn [fst snd]. split.
  - intros [([f' y] & E & M)|(y & p' & M & -> & A)].
    + injection E as -> ->. apply kids_elem in M as (i & g & L & -> & ->). exists x, [i]. split; [left|]. split; [reflexivity|].
      apply at_path_inv. exists i, g, []. auto.
    + apply elem_of_app in M as [M|M].
      * exists y, p'. split; [now right|auto].
      * apply elem_of_list_fmap in M as ([f' y'] & -> & M). apply kids_elem in M as (i & g & L & -> & ->). cbn in *.
        exists x, (i :: p'). split; [left|]. split; [now rewrite <- app_assoc|]. apply at_path_inv. exists i, g, p'. auto.
  - intros (y & p' & M & -> & A). apply elem_of_cons in M as [->|M].
    + apply at_path_inv in A as (i & g & p'' & -> & L & [[-> ->]|A]).
      * left. exists (found_of (n_hid x) g, mkNode (n_path x ++ [i]) (sticky (n_hid x) g.1.2) g.2).
        split; [reflexivity|]. apply kids_elem. eauto.
      * right. exists (mkNode (n_path x ++ [i]) (sticky (n_hid x) g.1.2) g.2), p''. split.
        -- apply elem_of_app. right. apply elem_of_list_fmap. exists (found_of (n_hid x) g, mkNode (n_path x ++ [i]) (sticky (n_hid x) g.1.2) g.2).
           split; [reflexivity|]. apply kids_elem. eauto.
        -- split; [cbn; now rewrite <- app_assoc|exact A].
    + right. exists y, p'. split; [apply elem_of_app; now left|auto].
Qed.

(** *** The order *)
Lemma lefter_app_same p i j s t : i < j -> lefter (p ++ i :: s) (p ++ j :: t).
Proof. intros H. induction p; cbn; [now constructor|now apply lefter_same]. Qed.
Lemma lefter_app p q s t : lefter p q -> lefter (p ++ s) (q ++ t).
Proof. induction 1; cbn; [now constructor|now apply lefter_same]. Qed.

Definition ordered (q : list node) : Prop :=
  exists cur next d, q = cur ++ next /\
    (forall x, x ∈ cur -> List.length (n_path x) = d) /\
    (forall x, x ∈ next -> List.length (n_path x) = S d) /\
    StronglySorted (fun x y => lefter (n_path x) (n_path y)) cur /\
    StronglySorted (fun x y => lefter (n_path x) (n_path y)) next /\
    (forall y x i, y ∈ next -> x ∈ cur -> lefter (n_path y) (n_path x ++ [i])).

Lemma sorted_app {A} (R : A -> A -> Prop) l1 l2 :
  StronglySorted R l1 -> StronglySorted R l2 -> (forall x y, x ∈ l1 -> y ∈ l2 -> R x y) -> StronglySorted R (l1 ++ l2).
Proof.
  induction 1 as [|x l1 S1 IH F]; intros S2 H; [exact S2|]. cbn. constructor.
  - apply IH; [exact S2|]. intros a b M. apply H. now right.
  - apply Forall_app. split; [exact F|]. apply Forall_forall. intros y M. apply H; [left|exact M].
Qed.
Lemma kids_sorted x : StronglySorted (fun x y => lefter (n_path x) (n_path y)) (kids x).*2.
Proof.
  unfold kids. generalize 0 as k. induction (gfields (n_val x)) as [|f fs IH]; intros k; [constructor|].
  unfold kids_from. cbn [imap fmap list_fmap].
  assert (E : imap ((fun i (f : gfield) => (found_of (n_hid x) f, mkNode (n_path x ++ [k + i]) (sticky (n_hid x) f.1.2) f.2)) ∘ S) fs
      = kids_from (S k) x fs) by (apply imap_ext; intros i g _; cbn; now rewrite Nat.add_succ_r).
  rewrite E. constructor; [apply IH|]. apply Forall_forall. intros y M. apply elem_of_list_fmap in M as ([g z] & -> & M).
  unfold kids_from in M. apply elem_of_lookup_imap in M as (i & h & [= -> ->] & L). cbn. apply lefter_app_same. lia.
Qed.

Lemma ordered_next x q : ordered (x :: q) -> ordered (q ++ (kids x).*2).
Proof.
  assert (K : forall z, z ∈ (kids x).*2 -> exists i, n_path z = n_path x ++ [i]).
  { intros z M. apply elem_of_list_fmap in M as ([g y] & -> & M). apply kids_elem in M as (i & h & _ & _ & ->). now exists i. }
  intros (cur & next & d & E & C & N & S1 & S2 & X). destruct cur as [|x' cur]; cbn in E.
  - subst next. assert (Dx : List.length (n_path x) = S d) by (apply N; left).
    apply StronglySorted_inv in S2 as [S2 F]. rewrite Forall_forall in F.
    exists q, (kids x).*2, (S d). split; [reflexivity|]. split; [intros z M; apply N; now right|]. split.
    { intros z M. destruct (K z M) as [i ->]. rewrite app_length. cbn. lia. }
    split; [exact S2|]. split; [apply kids_sorted|]. intros y z i My Mz. destruct (K y My) as [j ->]. apply lefter_app. now apply F.
  - injection E as <- ->. assert (Dx : List.length (n_path x) = d) by (apply C; left).
    apply StronglySorted_inv in S1 as [S1 F]. rewrite Forall_forall in F.
    exists cur, (next ++ (kids x).*2), d. split; [now rewrite app_assoc|]. split; [intros z M; apply C; now right|]. split.
    { intros z M. apply elem_of_app in M as [M|M]; [now apply N|]. destruct (K z M) as [i ->]. rewrite app_length. cbn. lia. }
    split; [exact S1|]. split.
    { apply sorted_app; [exact S2|apply kids_sorted|]. intros y z My Mz. destruct (K z Mz) as [i ->]. apply X; [exact My|left]. }
    intros y z i My Mz. apply elem_of_app in My as [My|My].
    + apply X; [exact My|now right].
    + destruct (K y My) as [j ->]. apply lefter_app. now apply F.
Qed.

Lemma ordered_head x q y : ordered (x :: q) -> y ∈ q ->
  List.length (n_path x) < List.length (n_path y) \/ (List.length (n_path x) = List.length (n_path y) /\ lefter (n_path x) (n_path y)).
Proof.
  intros (cur & next & d & E & C & N & S1 & S2 & X) M. destruct cur as [|x' cur]; cbn in E.
  - subst next. apply StronglySorted_inv in S2 as [S2 F]. rewrite Forall_forall in F. right. split; [|now apply F].
    rewrite !N; [reflexivity|now right|left].
  - injection E as <- ->. apply StronglySorted_inv in S1 as [S1 F]. rewrite Forall_forall in F.
    apply elem_of_app in M as [M|M].
    + right. split; [|now apply F]. rewrite !C; [reflexivity|now right|left].
    + left. rewrite C, (N y M) by left. lia.
Qed.

Lemma at_path_nonnil hid v p f : at_path hid v p f -> 0 < List.length p.
Proof. intros H. inversion H; cbn; lia. Qed.

Lemma visit_sorted fuel q l : ordered q -> visit fuel q = Some l -> StronglySorted (fun a b => before a.1 b.1) l.
Proof.
  revert q l. induction fuel as [|fuel IH]; intros q l O; [discriminate|]. cbn [visit].
  destruct q as [|x q]; [intros [= <-]; constructor|].
  destruct (visit fuel (q ++ (kids x).*2)) as [l'|] eqn:V; [|discriminate]. intros [= <-].
  apply sorted_app.
  - assert (H : StronglySorted (fun x y => lefter (n_path x) (n_path y)) (kids x).*2) by apply kids_sorted.
    assert (K : Forall (fun k => List.length (n_path k.2) = S (List.length (n_path x))) (kids x)).
    { apply Forall_forall. intros [f y] M. apply kids_elem in M as (i & g & _ & _ & ->). cbn. rewrite app_length. cbn. lia. }
    clear V. induction (kids x) as [|[f y] ks IHk]; [constructor|]. cbn in *. apply StronglySorted_inv in H as [H F].
    apply Forall_cons in K as [K1 K2]. constructor; [now apply IHk|]. pose proof (proj1 (Forall_forall _ _) F) as F'. pose proof (proj1 (Forall_forall _ _) K2) as K2'.
    apply Forall_forall. intros [p f'] M. apply elem_of_list_fmap in M as ([f2 y2] & [= -> ->] & M). cbn. right. split.
    + specialize (K2' _ M). cbn in *. congruence.
    + apply F'. apply elem_of_list_fmap. now exists (f2, y2).
  - exact (IH _ _ (ordered_next _ _ O) V).
  - intros [p f] [p' f'] M M'. apply elem_of_list_fmap in M as ([f2 y] & [= -> ->] & M).
    apply kids_elem in M as (i & g & L & -> & ->). cbn.
    apply (visit_elem _ _ _ V) in M' as (z & s & Mz & E & A). cbn in E, A. subst p'.
    pose proof (at_path_nonnil _ _ _ _ A) as Ns. unfold before. rewrite !app_length. cbn.
    apply elem_of_app in Mz as [Mz|Mz].
    + destruct (ordered_head _ _ _ O Mz) as [H|[H H']]; [left; lia|].
      destruct (decide (List.length s = 1)); [|left; lia]. right. split; [lia|]. now apply lefter_app.
    + apply elem_of_list_fmap in Mz as ([f3 z'] & -> & Mz). apply kids_elem in Mz as (j & h & _ & _ & ->). cbn.
      left. rewrite app_length. cbn. lia.
Qed.

(** *** The result *)
Lemma first_of_spec {A} (R : A -> A -> Prop) probe name (l : list (A * found)) f : StronglySorted (fun a b => R a.1 b.1) l ->
  first_of probe name l = Some f ->
  exists p, (p, f) ∈ l /\ stops probe name f /\ forall p' f', (p', f') ∈ l -> stops probe name f' -> p' = p \/ R p p'.
Proof.
  induction l as [|[a g] l IH]; [discriminate|]. intros S. apply StronglySorted_inv in S as [S F]. rewrite Forall_forall in F. cbn.
  destruct (stopsb probe name g) eqn:B.
  - intros [= ->]. exists a. split; [left|]. split; [now apply stopsb_spec|]. intros p' f' M _.
    apply elem_of_cons in M as [[= -> ->]|M]; [now left|]. right. apply (F _ M).
  - intros E. destruct (IH S E) as (p & M & T & H). exists p. split; [now right|]. split; [exact T|].
    intros p' f' M' T'. apply elem_of_cons in M' as [[= -> ->]|M']; [|now apply (H _ f')].
    apply stopsb_spec in T'. congruence.
Qed.
Lemma first_of_none {A} probe name (l : list (A * found)) : first_of probe name l = None -> forall p f, (p, f) ∈ l -> ~ stops probe name f.
Proof.
  induction l as [|[a g] l IH]; intros E p f M; [inversion M|]. cbn in E. destruct (stopsb probe name g) eqn:B; [discriminate|].
  apply elem_of_cons in M as [[= -> ->]|M]; [|now apply (IH E p)]. rewrite <- stopsb_spec. congruence.
Qed.

Lemma search_spec probe name fuel v : gsize v < fuel ->
  (exists f, first_stop probe name v f /\ field_value_exists probe name fuel v = answer_of probe f) \/
  ((forall p f, at_path false v p f -> ~ stops probe name f) /\ field_value_exists probe name fuel v = Says false).
Proof.
  intros H. destruct (visit_ends fuel [mkNode [] false v]) as [l V]; [unfold qsize; cbn; lia|].
  pose proof (loop_spec probe name _ _ _ V) as L. unfold field_value_exists. cbn in L. unfold item_of in L. cbn in L. rewrite L.
  assert (O : ordered [mkNode [] false v]).
  { exists [mkNode [] false v], [], 0. split; [reflexivity|]. split; [intros x ->%elem_of_list_singleton; reflexivity|].
    split; [intros x M; inversion M|]. split; [repeat constructor|]. split; [constructor|]. intros y x i M. inversion M. }
  pose proof (visit_sorted _ _ _ O V) as S. pose proof (visit_elem _ _ _ V) as M.
  assert (M' : forall p f, (p, f) ∈ l <-> at_path false v p f).
  { intros p f. rewrite M. unfold below. cbn. split.
    - intros (x & p' & ->%elem_of_list_singleton & -> & A). exact A.
    - intros A. exists (mkNode [] false v), p. split; [now apply elem_of_list_singleton|auto]. }
  destruct (first_of probe name l) as [f|] eqn:F.
  - left. exists f. split; [|reflexivity]. destruct (first_of_spec before _ _ _ _ S F) as (p & Mp & T & H').
    exists p. split; [now apply M'|]. split; [exact T|]. intros p' f' A. apply H'. now apply M'.
  - right. split; [|reflexivity]. intros p f A. apply (first_of_none _ _ _ F p). now apply M'.
Qed.

(** The first field is unique. *)
Lemma lefter_irrefl p : ~ lefter p p.
Proof. induction p as [|i p IH]; intros H; inversion H; subst; [lia|auto]. Qed.
Lemma lefter_asym p q : lefter p q -> ~ lefter q p.
Proof. induction 1; intros H'; inversion H'; subst; try lia; auto. Qed.
Lemma at_path_functional hid v p f f' : at_path hid v p f -> at_path hid v p f' -> f = f'.
Proof.
  revert hid v. induction p as [|i p IH]; intros hid v A B; [inversion A|].
  apply at_path_inv in A as (i1 & g1 & p1 & [= <- <-] & L1 & A). apply at_path_inv in B as (i2 & g2 & p2 & [= <- <-] & L2 & B).
  rewrite L1 in L2. injection L2 as <-. destruct A as [[-> ->]|A], B as [[E ->]|B]; try congruence.
  - inversion B. - subst. inversion A. - now apply (IH _ _ A B).
Qed.
Lemma first_stop_unique probe name v f f' : first_stop probe name v f -> first_stop probe name v f' -> f = f'.
Proof.
  intros (p & A & T & H) (p' & A' & T' & H'). destruct (H _ _ A' T') as [->|B].
  - now apply (at_path_functional _ _ _ _ _ A A').
  - destruct (H' _ _ A T) as [->|B']; [now apply (at_path_functional _ _ _ _ _ A A')|].
    destruct B as [B|[B1 B2]], B' as [B'|[B1' B2']]; try lia. now apply lefter_asym in B2.
Qed.
