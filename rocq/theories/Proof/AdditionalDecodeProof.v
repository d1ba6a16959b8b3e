From stdpp Require Import gmap list strings.
From Coq Require Import String Lia.
From Verif.Model Require Import AdditionalDecode.

Section Decode.
  Context {J T V : Type}.
  Context (as_extra : J -> option T) (as_field : nat -> J -> option V) (names : list string) (fold : string -> string).
  Context (enc_field : nat -> V -> J) (enc_extra : T -> J).
  Notation fms := (field_members enc_field).

  Definition map_step (acc : option (gmap string T)) (kv : string * J) : option (gmap string T) :=
    match acc, as_extra kv.2 with Some m, Some t => Some (<[kv.1 := t]> m) | _, _ => None end.
  Lemma map_none ms : fold_left map_step ms None = None.
  Proof. induction ms; cbn; auto. Qed.
  Lemma decode_map_fails k v ms : (k, v) ∈ ms -> as_extra v = None -> decode_map as_extra ms = None.
  Proof.
    intros M E. unfold decode_map. change (fold_left map_step ms (Some ∅) = None). generalize (Some (∅ : gmap string T)) as acc.
    intros acc. apply elem_of_list_split in M as (l1 & l2 & ->). rewrite fold_left_app. cbn [fold_left].
    assert (map_step (fold_left map_step l1 acc) (k, v) = None) as ->; [|apply map_none].
    unfold map_step at 1. cbn [snd]. rewrite E. now destruct (fold_left _ _ _).
  Qed.

  (** The map holds exactly the members, when names are not repeated. *)
  Lemma map_steps ms m : Forall (fun kv => is_Some (as_extra kv.2)) ms ->
    exists m', fold_left map_step ms (Some m) = Some m' /\
      (forall k, k ∉ ms.*1 -> m' !! k = m !! k) /\ (NoDup ms.*1 -> forall k v, (k, v) ∈ ms -> m' !! k = as_extra v).
  Proof.
    intros F. revert m. induction F as [|[k v] ms [t E] F IH]; intros m; cbn [fold_left].
    { exists m. split; [reflexivity|]. split; [auto|]. intros _ k v M. inversion M. }
    unfold map_step at 2. cbn in E |- *. rewrite E. destruct (IH (<[k := t]> m)) as (m' & H1 & H2 & H3). exists m'. split; [exact H1|]. split.
    - intros k' N. rewrite not_elem_of_cons in N. destruct N as [N1 N2]. rewrite H2 by exact N2. now rewrite lookup_insert_ne by congruence.
    - intros D k' v' M. apply NoDup_cons in D as [D1 D2]. apply elem_of_cons in M as [[= -> ->]|M]; [|now apply H3].
      rewrite H2 by exact D1. rewrite lookup_insert. now rewrite E.
  Qed.

  Definition field_step (acc : option (list (option V))) (kv : string * J) : option (list (option V)) :=
    match acc with
    | None => None
    | Some a => match field_of names fold kv.1 with
                | None => Some a
                | Some i => match as_field i kv.2 with Some v => Some (<[i := Some v]> a) | None => None end
                end
    end.

  Lemma index_from_spec i p l : index_from i p l = None <-> forall x, x ∈ l -> p x = false.
  Proof.
    revert i. induction l as [|x l IH]; intros i; cbn; [split; [intros _ x M; inversion M|auto]|].
    destruct (p x) eqn:P.
    - split; [discriminate|]. intros H. rewrite H in P by left. discriminate.
    - rewrite IH. split; [intros H y M; apply elem_of_cons in M as [->|M]; auto|intros H y M; apply H; now right].
  Qed.
  Lemma index_exact i l k n : NoDup l -> l !! n = Some k -> index_from i (String.eqb k) l = Some (i + n).
  Proof.
    revert i n. induction l as [|x l IH]; intros i n D L; [discriminate|]. apply NoDup_cons in D as [D1 D2]. cbn.
    destruct n as [|n].
    - injection L as ->. rewrite String.eqb_refl. now rewrite Nat.add_0_r.
    - cbn in L. destruct (String.eqb_spec k x) as [->|N]; [now apply elem_of_list_lookup_2 in L|]. rewrite (IH (S i) n D2 L). f_equal. lia.
  Qed.
  Lemma field_of_name n k : NoDup names -> names !! n = Some k -> field_of names fold k = Some n.
  Proof. intros D L. unfold field_of. now rewrite (index_exact 0 _ _ _ D L). Qed.
  Lemma field_of_other k : (forall n, n ∈ names -> fold k <> fold n) -> field_of names fold k = None.
  Proof.
    intros H. unfold field_of. rewrite (proj2 (index_from_spec 0 (String.eqb k) names)).
    - apply index_from_spec. intros x M. apply String.eqb_neq. auto.
    - intros x M. apply String.eqb_neq. intros ->. now apply (H x).
  Qed.

  Lemma field_steps_extras ms a : Forall (fun kv => field_of names fold kv.1 = None) ms -> fold_left field_step ms (Some a) = Some a.
  Proof. induction 1 as [|kv ms H F IH]; [reflexivity|]. cbn [fold_left]. cbn. now rewrite H. Qed.

  Lemma fields_back ns fs i done : NoDup names -> names = (done ++ ns)%list -> List.length done = i -> List.length fs = List.length ns ->
    (forall j v, as_field j (enc_field j v) = Some v) ->
    forall pre, List.length pre = i ->
    fold_left field_step (fms i ns fs) (Some (pre ++ replicate (List.length ns) None)) = Some (pre ++ fs)%list.
  Proof.
    intros D. revert fs i done. induction ns as [|n ns IH]; intros fs i done E Li Lf R pre Lp.
    { destruct fs; [|discriminate]. cbn. reflexivity. }
    destruct fs as [|f fs]; [discriminate|]. cbn in Lf. injection Lf as Lf.
    assert (E' : names = ((done ++ [n]) ++ ns)%list) by (rewrite E, <- app_assoc; reflexivity).
    assert (Li' : List.length (done ++ [n]) = S i) by (rewrite app_length; cbn; lia).
    destruct f as [v|]; cbn [field_members].
    - cbn [fold_left]. unfold field_step at 2. cbn [fst snd].
      assert (L : names !! i = Some n) by (rewrite E, lookup_app_r by lia; replace (i - List.length done) with 0 by lia; reflexivity).
      rewrite (field_of_name _ _ D L), R. cbn [replicate List.length].
      replace (<[i := Some v]> (pre ++ None :: replicate (List.length ns) None)) with ((pre ++ [Some v]) ++ replicate (List.length ns) None)%list.
      2:{ rewrite insert_app_r_alt by lia. replace (i - List.length pre) with 0 by lia. cbn. now rewrite <- app_assoc. }
      rewrite (IH fs (S i) (done ++ [n])%list E' Li' Lf R); [|rewrite app_length; cbn; lia]. now rewrite <- app_assoc.
    - cbn [replicate List.length]. specialize (IH fs (S i) (done ++ [n])%list E' Li' Lf R (pre ++ [None])%list).
      rewrite <- !app_assoc in IH. cbn [app] in IH. apply IH. rewrite app_length; cbn; lia.
  Qed.

  Lemma fms_keys ns fs i k v : (k, v) ∈ fms i ns fs -> k ∈ ns.
  Proof.
    revert fs i. induction ns as [|n ns IH]; intros fs i M; [inversion M|]. destruct fs as [|[w|] fs]; cbn in M; [inversion M| |].
    - apply elem_of_cons in M as [[= -> ->]|M]; [left|right; eauto].
    - right; eauto.
  Qed.
  Lemma fms_nodup ns fs i : NoDup ns -> NoDup (fms i ns fs).*1.
  Proof.
    revert fs i. induction ns as [|n ns IH]; intros fs i D; [constructor|]. apply NoDup_cons in D as [D1 D2].
    destruct fs as [|[w|] fs]; cbn; [constructor| |auto]. apply NoDup_cons. split; [|auto].
    intros M. apply elem_of_list_fmap in M as ([k v] & -> & M). now apply fms_keys in M.
  Qed.
  Lemma fms_elem ns fs i n k v : List.length fs = List.length ns -> ns !! n = Some k -> fs !! n = Some (Some v) -> (k, enc_field (i + n) v) ∈ fms i ns fs.
  Proof.
    revert fs i n. induction ns as [|x ns IH]; intros fs i n L N F; [discriminate|]. destruct fs as [|f fs]; [discriminate|].
    destruct n as [|n].
    - injection N as ->. injection F as ->. cbn. rewrite Nat.add_0_r. left.
    - cbn in N, F, L. assert (K : (k, enc_field (i + S n) v) ∈ fms (S i) ns fs).
      { replace (i + S n) with (S i + n) by lia. apply IH; auto. }
      destruct f; cbn; [right|]; exact K.
  Qed.
  Lemma fms_inv ns fs i k v : (k, v) ∈ fms i ns fs -> exists n w, ns !! n = Some k /\ fs !! n = Some (Some w) /\ v = enc_field (i + n) w.
  Proof.
    revert fs i. induction ns as [|x ns IH]; intros fs i M; [inversion M|]. destruct fs as [|[w|] fs]; cbn in M; [inversion M| |].
    - apply elem_of_cons in M as [[= -> ->]|M]; [exists 0, w; rewrite Nat.add_0_r; auto|].
      destruct (IH _ _ M) as (n & w' & A & B & ->). exists (S n), w'. split; [exact A|]. split; [exact B|]. f_equal. lia.
    - destruct (IH _ _ M) as (n & w' & A & B & ->). exists (S n), w'. split; [exact A|]. split; [exact B|]. f_equal. lia.
  Qed.

  Lemma roundtrip (fs : list (option V)) (m : gmap string T) (l : list (string * T)) :
    l ≡ₚ map_to_list m -> NoDup names -> List.length fs = List.length names ->
    (forall j v, as_field j (enc_field j v) = Some v) -> (forall t, as_extra (enc_extra t) = Some t) ->
    (forall n v, fs !! n = Some (Some v) -> is_Some (as_extra (enc_field n v))) ->
    (forall k n, k ∈ dom m -> n ∈ names -> fold k <> fold n) ->
    unmarshal as_extra as_field names fold (members names enc_field enc_extra fs l) = Some (fs, m).
  Proof.
    intros P D L RF RE FX DJ.
    assert (Lm : forall k t, (k, t) ∈ l <-> m !! k = Some t) by (intros k t; rewrite P; apply elem_of_map_to_list).
    assert (Ld : forall k t, (k, t) ∈ l -> k ∉ names).
    { intros k t M N. apply (DJ k k); auto. apply elem_of_dom. exists t. now apply Lm. }
    unfold unmarshal, decode_map, decode_fields.
    change (fold_left _ (members names enc_field enc_extra fs l) (Some ∅)) with (fold_left map_step (members names enc_field enc_extra fs l) (Some ∅)).
    destruct (map_steps (members names enc_field enc_extra fs l) ∅) as (m' & -> & Hout & Hin).
    { apply Forall_forall. intros [k v] M. unfold members in M. apply elem_of_app in M as [M|M]; cbn.
      - apply fms_inv in M as (n & w & _ & F & ->). cbn. now apply FX.
      - apply elem_of_list_fmap in M as ([k' t] & [= -> ->] & M). cbn. rewrite RE. eauto. }
    change (fold_left _ (members names enc_field enc_extra fs l) (Some (replicate (List.length names) None)))
      with (fold_left field_step (members names enc_field enc_extra fs l) (Some (replicate (List.length names) None))).
    assert (fold_left field_step (members names enc_field enc_extra fs l) (Some (replicate (List.length names) None)) = Some fs) as ->.
    { unfold members. rewrite fold_left_app.
      pose proof (fields_back names fs 0 [] D eq_refl eq_refl L RF [] eq_refl) as H. cbn [app] in H. rewrite H.
      apply field_steps_extras. apply Forall_forall. intros [k v] M. apply elem_of_list_fmap in M as ([k' t] & [= -> ->] & M). cbn.
      apply field_of_other. intros n Mn. apply DJ; [|exact Mn]. apply elem_of_dom. exists t. now apply Lm. }
    f_equal. f_equal. apply map_eq. intros k. specialize (Hin).
    assert (ND : NoDup (members names enc_field enc_extra fs l).*1).
    { unfold members. rewrite fmap_app. apply NoDup_app. split; [now apply fms_nodup|]. split.
      - intros k' M M'. apply elem_of_list_fmap in M as ([k1 v1] & -> & M). apply fms_keys in M. cbn in *.
        apply elem_of_list_fmap in M' as ([k2 v2] & E & M'). apply elem_of_list_fmap in M' as ([k3 t] & [= -> ->] & M'). cbn in E. subst.
        now apply Ld in M'.
      - rewrite <- list_fmap_compose.
        assert (E : (fst ∘ (fun kt : string * T => (kt.1, enc_extra kt.2))) <$> l = l.*1) by (apply list_fmap_ext; reflexivity).
        rewrite E. rewrite P. apply NoDup_fst_map_to_list. }
    specialize (Hin ND). destruct (m !! k) as [t|] eqn:K.
    - apply map_filter_lookup_Some. split.
      + rewrite <- RE. apply Hin. unfold members. apply elem_of_app. right. apply elem_of_list_fmap. exists (k, t). split; [reflexivity|]. now apply Lm.
      + cbn. apply (Ld k t). now apply Lm.
    - apply map_filter_lookup_None. destruct (m' !! k) as [t|] eqn:K'; [right|now left]. intros t' [= <-] N. cbn in N.
      assert (H : k ∈ (members names enc_field enc_extra fs l).*1).
      { destruct (decide (k ∈ (members names enc_field enc_extra fs l).*1)) as [H|H]; [exact H|]. rewrite (Hout _ H) in K'. rewrite lookup_empty in K'. discriminate. }
      apply elem_of_list_fmap in H as ([k1 v1] & -> & M). unfold members in M. apply elem_of_app in M as [M|M].
      + apply fms_keys in M. now apply N.
      + apply elem_of_list_fmap in M as ([k3 t3] & [= -> ->] & M). apply Lm in M. cbn in K. congruence.
  Qed.

  Lemma unmarshal_fails fs l n v : List.length fs = List.length names -> fs !! n = Some (Some v) -> as_extra (enc_field n v) = None ->
    unmarshal as_extra as_field names fold (members names enc_field enc_extra fs l) = None.
  Proof.
    intros L F E. unfold unmarshal. assert (exists k, names !! n = Some k) as [k K].
    { destruct (names !! n) eqn:X; [eauto|]. apply lookup_ge_None in X. apply lookup_lt_Some in F. lia. }
    rewrite (decode_map_fails k (enc_field n v)); [reflexivity| |exact E].
    unfold members. apply elem_of_app. left. apply (fms_elem names fs 0 n k v L K F).
  Qed.
End Decode.
