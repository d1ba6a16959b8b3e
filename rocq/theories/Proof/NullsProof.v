(** Proofs about documents with empty entries. *)
From stdpp Require Import gmap list strings.
From Coq Require Import ZArith Ascii String.
From Verif.Model Require Import GoStrings Reference Parser Decoding Nulls.
From Verif.Spec Require Import DecodingSpec NullsSpec.
From Verif.Proof Require Import DecodingProof.
Local Open Scope string_scope.

Global Instance how_dec : EqDecision how.
Proof. solve_decision. Defined.

(** * Lists of pairs *)
Lemma assoc_put_eq {A} k (a : A) l : assoc k (put k a l) = Some a.
Proof.
  induction l as [|[k' a'] r IH]; cbn; [by rewrite String.eqb_refl|].
  destruct (String.eqb k' k) eqn:E; cbn; [by rewrite String.eqb_refl|]. by rewrite E.
Qed.
Lemma assoc_put_ne {A} k k' (a : A) l : k <> k' -> assoc k (put k' a l) = assoc k l.
Proof.
  intros N. induction l as [|[q b] r IH]; cbn.
  - destruct (String.eqb k' k) eqn:E; [|done]. apply String.eqb_eq in E. congruence.
  - destruct (String.eqb q k') eqn:E; cbn.
    + apply String.eqb_eq in E as ->. destruct (String.eqb k' k) eqn:E'; [|done].
      apply String.eqb_eq in E'. congruence.
    + destruct (String.eqb q k); [done|exact IH].
Qed.
Lemma put_names {A} k (a : A) l x : x ∈ map fst (put k a l) <-> x = k \/ x ∈ map fst l.
Proof.
  induction l as [|[q b] r IH]; cbn.
  - rewrite elem_of_cons. done.
  - destruct (String.eqb q k) eqn:E; cbn.
    + apply String.eqb_eq in E as ->. rewrite elem_of_cons. tauto.
    + rewrite !elem_of_cons, IH. tauto.
Qed.
Lemma put_nodup {A} k (a : A) l : NoDup (map fst l) -> NoDup (map fst (put k a l)).
Proof.
  induction l as [|[q b] r IH]; cbn; intros H.
  - constructor; [apply not_elem_of_nil|constructor].
  - inversion H as [|? ? Hq Hr]; subst. destruct (String.eqb q k) eqn:E; cbn.
    + apply String.eqb_eq in E as ->. by constructor.
    + constructor; [|by apply IH]. rewrite put_names. intros [->|H1]; [|done].
      by rewrite String.eqb_refl in E.
Qed.
Lemma assoc_in {A} k (a : A) l : NoDup (map fst l) -> assoc k l = Some a <-> (k, a) ∈ l.
Proof.
  intros Hnd. split; [apply assoc_elem|].
  induction l as [|[q b] r IH]; intros H; [by apply elem_of_nil in H|].
  cbn in Hnd. inversion Hnd as [|? ? Hq Hr]; subst. cbn.
  apply elem_of_cons in H as [[= <- <-]|H]; [by rewrite String.eqb_refl|].
  destruct (String.eqb q k) eqn:E; [|by apply IH].
  apply String.eqb_eq in E as ->. exfalso. apply Hq. apply elem_of_list_fmap. by exists (k, a).
Qed.

(** * What is stored *)
Section stored.
  Context (F : string -> list (string * ty)).

  (** A structure has a value for each key that has a field. *)
  Lemma keys_exact n kvs : forall fs fs',
    NoDup (map (fun kj : string * json => fold kj.1) kvs) -> NoDup (map fst fs) ->
    (forall k j, (k, j) ∈ kvs -> forall f t, find_field (F n) k = Some (f, t) -> get f fs = VZero) ->
    keys F n kvs fs = Some fs' ->
    NoDup (map fst fs') /\
    forall f x, (f, x) ∈ fs' <->
      (exists k j t, (k, j) ∈ kvs /\ find_field (F n) k = Some (f, t) /\ decode F j t VZero = Some x) \/
      ((f, x) ∈ fs /\ forall k j t, (k, j) ∈ kvs -> find_field (F n) k <> Some (f, t)).
  Proof.
    induction kvs as [|[k j] r IH]; intros fs fs' Hnd Hfs Hz H; cbn in H.
    - injection H as <-. split; [done|]. intros f x. split.
      + intros Hx. right. split; [done|]. intros k j t Hk. by apply elem_of_nil in Hk.
      + intros [(k & j & t & Hk & _)|[Hx _]]; [by apply elem_of_nil in Hk|done].
    - cbn in Hnd. inversion Hnd as [|? ? Hk Hr]; subst.
      assert (Hother : forall k' j' f t t', (k', j') ∈ r -> find_field (F n) k = Some (f, t) ->
                         find_field (F n) k' <> Some (f, t')).
      { intros k' j' f t t' Hin Hf Hf'. apply find_field_spec in Hf as [Hf _].
        apply find_field_spec in Hf' as [Hf' _]. apply Hk. apply elem_of_list_fmap.
        exists (k', j'). cbn. split; [congruence|done]. }
      destruct (find_field (F n) k) as [[f t]|] eqn:Ef.
      + assert (Hg : get f fs = VZero) by (eapply (Hz k j); [left|exact Ef]).
        rewrite Hg in H. destruct (decode F j t VZero) as [v|] eqn:Ev; [|done].
        destruct (IH (put f v fs) fs' Hr) as [Hn' Hx]; [by apply put_nodup| |exact H|].
        { intros k' j' Hin f' t' Hf'. unfold get. rewrite assoc_put_ne.
          - apply (Hz k' j' (elem_of_list_further _ _ _ Hin) f' t' Hf').
          - intros ->. by apply (Hother k' j' f t t' Hin eq_refl). }
        split; [done|]. intros f' x. rewrite Hx. split.
        * intros [(k' & j' & t' & Hin & Hf' & Hd)|[Hin Hno]].
          { left. exists k', j', t'. split; [by right|done]. }
          { apply (assoc_in f' x (put f v fs)) in Hin; [|by apply put_nodup].
            destruct (decide (f' = f)) as [->|Hne].
            - rewrite assoc_put_eq in Hin. injection Hin as <-. left. exists k, j, t. split; [left|done].
            - rewrite assoc_put_ne in Hin by done. right. split; [by apply assoc_in in Hin|].
              intros k' j' t' [[= -> ->]|Hin']%elem_of_cons; [congruence|by eapply Hno]. }
        * intros [(k' & j' & t' & [[= -> ->]|Hin]%elem_of_cons & Hf' & Hd)|[Hin Hno]].
          { right. rewrite Ef in Hf'. injection Hf' as <- <-. rewrite Ev in Hd. injection Hd as <-.
            split; [apply assoc_in; [by apply put_nodup|apply assoc_put_eq]|].
            intros k' j' t' Hin. by eapply Hother. }
          { left. by exists k', j', t'. }
          { right. split.
            - apply assoc_in; [by apply put_nodup|]. rewrite assoc_put_ne; [by apply assoc_in|].
              intros ->. by apply (Hno k j t (elem_of_list_here _ _)).
            - intros k' j' t' Hin'. by eapply Hno, elem_of_list_further. }
      + destruct (IH fs fs' Hr Hfs) as [Hn' Hx]; [|exact H|].
        { intros k' j' Hin. apply (Hz k' j'). by right. }
        split; [done|]. intros f' x. rewrite Hx. split.
        * intros [(k' & j' & t' & Hin & Hf' & Hd)|[Hin Hno]].
          { left. exists k', j', t'. split; [by right|done]. }
          { right. split; [done|]. intros k' j' t' [[= -> ->]|Hin']%elem_of_cons; [congruence|by eapply Hno]. }
        * intros [(k' & j' & t' & [[= -> ->]|Hin]%elem_of_cons & Hf' & Hd)|[Hin Hno]].
          { congruence. }
          { left. by exists k', j', t'. }
          { right. split; [done|]. intros k' j' t' Hin'. by eapply Hno, elem_of_list_further. }
  Qed.

  Lemma struct_exact n kvs v :
    NoDup (map (fun kj : string * json => fold kj.1) kvs) ->
    decode F (JObj kvs) (TStruct n) VZero = Some v ->
    exists fs, v = VStruct fs /\ NoDup (map fst fs) /\
      forall f x, (f, x) ∈ fs <->
        exists k j t, (k, j) ∈ kvs /\ find_field (F n) k = Some (f, t) /\ decode F j t VZero = Some x.
  Proof.
    intros Hnd. rewrite decode_struct. cbn [fields_of].
    destruct (keys F n kvs []) as [fs|] eqn:E; [|done]. intros [= <-]. exists fs. split; [done|].
    apply keys_exact in E; [|done|constructor|done].
    destruct E as [Hn E]. split; [done|]. intros f x. rewrite E. split; [|by left].
    intros [H|[H _]]; [done|by apply elem_of_nil in H].
  Qed.

  Lemma entries_exact t kvs : forall m m',
    NoDup (map fst kvs) -> NoDup (map fst m) -> (forall k, k ∈ map fst kvs -> assoc k m = None) ->
    entries F t kvs m = Some m' ->
    NoDup (map fst m') /\
    forall k x, (k, x) ∈ m' <-> (exists j, (k, j) ∈ kvs /\ decode F j t VZero = Some x) \/ (k, x) ∈ m.
  Proof.
    induction kvs as [|[k j] r IH]; intros m m' Hnd Hm Hz H; cbn in H.
    - injection H as <-. split; [done|]. intros k x. split; [by right|].
      intros [(j & Hj & _)|H]; [by apply elem_of_nil in Hj|done].
    - cbn in Hnd. inversion Hnd as [|? ? Hk Hr]; subst.
      destruct (decode F j t VZero) as [v|] eqn:Ev; [|done].
      destruct (IH (put k v m) m' Hr) as [Hn' Hx]; [by apply put_nodup| |exact H|].
      { intros k' Hk'. rewrite assoc_put_ne; [apply Hz; by right|]. by intros ->. }
      split; [done|]. intros k' x. rewrite Hx. split.
      + intros [(j' & Hj & Hd)|Hin].
        { left. exists j'. split; [by right|done]. }
        { apply (assoc_in k' x (put k v m)) in Hin; [|by apply put_nodup].
          destruct (decide (k' = k)) as [->|Hne].
          - rewrite assoc_put_eq in Hin. injection Hin as <-. left. exists j. split; [left|done].
          - rewrite assoc_put_ne in Hin by done. right. by apply assoc_in in Hin. }
      + intros [(j' & [[= -> ->]|Hj]%elem_of_cons & Hd)|Hin].
        { right. rewrite Ev in Hd. injection Hd as <-. apply assoc_in; [by apply put_nodup|apply assoc_put_eq]. }
        { left. by exists j'. }
        { right. apply assoc_in; [by apply put_nodup|]. rewrite assoc_put_ne; [by apply assoc_in|].
          intros ->. apply assoc_in in Hin; [|done]. rewrite Hz in Hin; [done|left]. }
  Qed.

  Lemma map_exact t kvs v old :
    members_of old = [] -> NoDup (map fst kvs) -> decode F (JObj kvs) (TMap t) old = Some v ->
    exists m, v = VMap m /\ NoDup (map fst m) /\
      forall k x, (k, x) ∈ m <-> exists j, (k, j) ∈ kvs /\ decode F j t VZero = Some x.
  Proof.
    intros Ho Hnd. rewrite decode_map, Ho. destruct (entries F t kvs []) as [m|] eqn:E; [|done].
    intros [= <-]. exists m. split; [done|].
    apply entries_exact in E; [|done|constructor|done].
    destruct E as [Hn E]. split; [done|]. intros k x. rewrite E. split; [|by left].
    intros [H|H]; [done|by apply elem_of_nil in H].
  Qed.

  Lemma slice_exact t l v old :
    decode F (JArr l) (TSlice t) old = Some v ->
    exists vs, v = VSlice vs /\ forall x, x ∈ vs <-> exists j, j ∈ l /\ decode F j t VZero = Some x.
  Proof.
    rewrite decode_slice. destruct (elements F t l) as [vs|] eqn:E; [|done]. intros [= <-].
    exists vs. split; [done|]. revert vs E. induction l as [|j r IH]; intros vs E; cbn in E.
    - injection E as <-. intros x. split; [by intros H%elem_of_nil|]. intros (j & Hj & _).
      by apply elem_of_nil in Hj.
    - destruct (decode F j t VZero) as [v|] eqn:Ev; [|done].
      destruct (elements F t r) as [ws|]; [|done]. injection E as <-. intros x.
      rewrite elem_of_cons, (IH ws eq_refl). split.
      + intros [->|(j' & Hj & Hd)]; [exists j; split; [left|done]|exists j'; split; [by right|done]].
      + intros (j' & [->|Hj]%elem_of_cons & Hd); [left; congruence|right; by exists j'].
  Qed.

  (** * Walking over what was read *)
  Context (w : walk) (local : string -> list (string * value) -> bool).
  Context (P : places) (localj : string -> json -> Prop).

  Definition rows : list (string * string * how) :=
    List.concat (map (fun nr => map (fun fh => (nr.1, fh.1, fh.2)) nr.2) w).
  Definition agrees1 (r : string * string * how) : bool :=
    match r.2 with
    | Part m => bool_decide ((r.1, m) ∈ one P)
    | Entries m => bool_decide ((r.1, m) ∈ several P)
    | EntriesUsed m => bool_decide ((r.1, m) ∈ needed P)
    end.
  Definition agrees2 (h : string -> how) (p : string * string * string) : bool :=
    bool_decide (visit w p.1.1 p.1.2 = Some (h p.2)).
  Definition typed (r : string * string * how) : bool :=
    match r.2, assoc r.1.2 (F r.1.1) with
    | Part m, Some (TStruct m' | TPtr (TStruct m')) => String.eqb m' m
    | (Entries m | EntriesUsed m), Some (TMap (TPtr (TStruct m')) | TSlice (TPtr (TStruct m'))) => String.eqb m' m
    | _, _ => false
    end.
  Definition apart (r : string * string * how) : bool :=
    forallb (fun gt => negb (String.eqb (fold gt.1) (fold r.1.2)) || String.eqb gt.1 r.1.2) (F r.1.1).

  Hypothesis Hagree1 : forallb agrees1 rows = true.
  Hypothesis Hagree2 : forallb (agrees2 Part) (one P) = true.
  Hypothesis Hagree3 : forallb (agrees2 Entries) (several P) = true.
  Hypothesis Hagree4 : forallb (agrees2 EntriesUsed) (needed P) = true.
  Hypothesis Htyped : forallb typed rows = true.
  Hypothesis Hapart : forallb apart rows = true.

  Lemma visit_row n f h : visit w n f = Some h -> (n, f, h) ∈ rows.
  Proof.
    unfold visit, rows. intros H.
    destruct (assoc n w) as [rs|] eqn:E; [|done]. cbn in H.
    apply assoc_elem in E. apply assoc_elem in H.
    apply elem_of_list_In, in_concat. exists (map (fun fh => (n, fh.1, fh.2)) rs). split.
    - apply in_map_iff. exists (n, rs). split; [done|by apply elem_of_list_In].
    - apply in_map_iff. exists (f, h). split; [done|by apply elem_of_list_In].
  Qed.
  Lemma visit_part n f m : visit w n f = Some (Part m) <-> (n, f, m) ∈ one P.
  Proof.
    split.
    - intros H%visit_row. pose proof (proj1 (forallb_forall _ _) Hagree1 _ (proj1 (elem_of_list_In _ _) H)) as E.
      by apply bool_decide_eq_true in E.
    - intros H. pose proof (proj1 (forallb_forall _ _) Hagree2 _ (proj1 (elem_of_list_In _ _) H)) as E.
      by apply bool_decide_eq_true in E.
  Qed.
  Lemma visit_entries n f m : visit w n f = Some (Entries m) <-> (n, f, m) ∈ several P.
  Proof.
    split.
    - intros H%visit_row. pose proof (proj1 (forallb_forall _ _) Hagree1 _ (proj1 (elem_of_list_In _ _) H)) as E.
      by apply bool_decide_eq_true in E.
    - intros H. pose proof (proj1 (forallb_forall _ _) Hagree3 _ (proj1 (elem_of_list_In _ _) H)) as E.
      by apply bool_decide_eq_true in E.
  Qed.
  Lemma visit_used n f m : visit w n f = Some (EntriesUsed m) <-> (n, f, m) ∈ needed P.
  Proof.
    split.
    - intros H%visit_row. pose proof (proj1 (forallb_forall _ _) Hagree1 _ (proj1 (elem_of_list_In _ _) H)) as E.
      by apply bool_decide_eq_true in E.
    - intros H. pose proof (proj1 (forallb_forall _ _) Hagree4 _ (proj1 (elem_of_list_In _ _) H)) as E.
      by apply bool_decide_eq_true in E.
  Qed.

  (** The keys of a field. *)
  Lemma find_fold_apart (fs : list (string * ty)) f t k :
    assoc f fs = Some t -> (forall g u, (g, u) ∈ fs -> fold g = fold f -> g = f) -> fold k = fold f ->
    find_fold k fs = Some (f, t).
  Proof.
    intros Ha Hg Hk. induction fs as [|[g u] r IH]; [done|]. cbn in Ha |- *.
    destruct (String.eqb g f) eqn:E.
    - apply String.eqb_eq in E as ->. injection Ha as ->. by rewrite Hk, String.eqb_refl.
    - destruct (String.eqb (fold g) (fold k)) eqn:E'.
      + apply String.eqb_eq in E'. rewrite (Hg g u (elem_of_list_here _ _)) in E by congruence.
        by rewrite String.eqb_refl in E.
      + apply IH; [done|]. intros g' u' Hin. apply (Hg g' u'). by right.
  Qed.
  Lemma find_apart (fs : list (string * ty)) f t k :
    assoc f fs = Some t -> (forall g u, (g, u) ∈ fs -> fold g = fold f -> g = f) -> fold k = fold f ->
    find_field fs k = Some (f, t).
  Proof.
    intros Ha Hg Hk. unfold find_field. destruct (assoc k fs) as [u|] eqn:E.
    - pose proof (assoc_elem _ _ _ E) as Hin. rewrite (Hg k u Hin Hk) in E |- *. congruence.
    - by apply find_fold_apart.
  Qed.

  Lemma row_field n f h :
    visit w n f = Some h -> exists t, assoc f (F n) = Some t /\ typed (n, f, h) = true /\
      forall k g u, find_field (F n) k = Some (g, u) -> fold k = fold f <-> (g = f /\ u = t).
  Proof.
    intros H%visit_row.
    pose proof (proj1 (forallb_forall _ _) Htyped _ (proj1 (elem_of_list_In _ _) H)) as Ht.
    pose proof (proj1 (forallb_forall _ _) Hapart _ (proj1 (elem_of_list_In _ _) H)) as Ha.
    unfold apart in Ha. cbn in Ha. rewrite forallb_forall in Ha.
    assert (Hg : forall g u, (g, u) ∈ F n -> fold g = fold f -> g = f).
    { intros g u Hin E. specialize (Ha (g, u) (proj1 (elem_of_list_In _ _) Hin)). cbn in Ha.
      rewrite E, String.eqb_refl in Ha. by apply String.eqb_eq in Ha. }
    destruct (assoc f (F n)) as [t|] eqn:E.
    - exists t. split; [done|]. split; [exact Ht|]. intros k g u Hf. split.
      + intros Hk. rewrite (find_apart _ _ _ _ E Hg Hk) in Hf. by injection Hf as <- <-.
      + intros [-> ->]. by apply find_field_spec in Hf as [-> _].
    - unfold typed in Ht. cbn in Ht. rewrite E in Ht. destruct h; done.
  Qed.
  Lemma row_found n f h k :
    visit w n f = Some h -> fold k = fold f -> exists t, assoc f (F n) = Some t /\ find_field (F n) k = Some (f, t).
  Proof.
    intros H Hk. pose proof H as H'. apply visit_row in H'.
    pose proof (proj1 (forallb_forall _ _) Hapart _ (proj1 (elem_of_list_In _ _) H')) as Ha.
    unfold apart in Ha. cbn in Ha. rewrite forallb_forall in Ha.
    destruct (row_field n f h H) as (t & Ht & _). exists t. split; [done|].
    apply find_apart; [done| |done]. intros g u Hin E.
    specialize (Ha (g, u) (proj1 (elem_of_list_In _ _) Hin)). cbn in Ha.
    rewrite E, String.eqb_refl in Ha. by apply String.eqb_eq in Ha.
  Qed.

  (** One field. *)
  Definition entry_panics (used : bool) (m : string) (e : value) : bool :=
    match e with VPtr y => panics w local y m | _ => used end.
  Definition field_panics (h : how) (x : value) : bool :=
    match h with
    | Part m => match x with VPtr y => panics w local y m | VStruct _ => panics w local x m | _ => false end
    | Entries m =>
        match x with
        | VMap es => existsb (fun ke => entry_panics false m ke.2) es
        | VSlice es => existsb (entry_panics false m) es
        | _ => false
        end
    | EntriesUsed m =>
        match x with
        | VMap es => existsb (fun ke => entry_panics true m ke.2) es
        | VSlice es => existsb (entry_panics true m) es
        | _ => false
        end
    end.
  Lemma panics_struct fs n :
    panics w local (VStruct fs) n =
    local n fs || existsb (fun fx => match visit w n fx.1 with None => false | Some h => field_panics h fx.2 end) fs.
  Proof.
    cbn [panics fields_of]. f_equal. induction fs as [|[f x] r IH]; [reflexivity|]. rewrite IH. cbn [existsb fst snd].
    f_equal. destruct (visit w n f) as [[m|m|m]|]; try reflexivity.
    - cbn [field_panics]. destruct x as [| | | | | |l|es|]; try reflexivity.
      clear. induction es as [|[k e] r IH]; [reflexivity|]. rewrite IH. reflexivity.
    - cbn [field_panics]. destruct x as [| | | | | |l|es|]; try reflexivity.
      clear. induction es as [|[k e] r IH]; [reflexivity|]. rewrite IH. reflexivity.
  Qed.

  Hypothesis Hzero : forall n, local n [] = false.
  Hypothesis Hnull : forall n, ~ localj n JNull.
  Hypothesis Hlocal : forall n kvs fs,
    tidy F (TStruct n) (JObj kvs) -> decode F (JObj kvs) (TStruct n) VZero = Some (VStruct fs) ->
    (local n fs = true <-> localj n (JObj kvs)).

  (** What makes the walk panic, below [j]. *)
  Definition bad (n : string) (j : json) : Prop :=
    exists o y, stands P n j o y /\
      (localj o y \/ exists kvs k o' x, y = JObj kvs /\ (o, k, o') ∈ needed P /\ has k kvs x /\ entry x JNull).

  Lemma bad_null n : ~ bad n JNull.
  Proof.
    intros (o & y & Hs & H). inversion Hs; subst.
    destruct H as [H|(kvs & k & o' & x & ? & _)]; [by apply Hnull in H|done].
  Qed.
  Lemma bad_obj n kvs :
    bad n (JObj kvs) <->
    localj n (JObj kvs) \/
    exists k x f h, (k, x) ∈ kvs /\ fold k = fold f /\ visit w n f = Some h /\
      match h with
      | Part m => bad m x
      | Entries m => exists e, entry x e /\ bad m e
      | EntriesUsed m => exists e, entry x e /\ (e = JNull \/ bad m e)
      end.
  Proof.
    split.
    - intros (o & y & Hs & H). inversion Hs as [|? ? f o1 x ? ? H1 (k & Hk & Hf) Hs'|? ? f o1 x e ? ? H1 (k & Hk & Hf) He Hs']; subst.
      + destruct H as [H|(kvs' & f & o' & x & [= <-] & H1 & (k & Hk & Hf) & He)]; [by left|]. right.
        exists k, x, f, (EntriesUsed o'). split; [done|]. split; [done|]. split; [by apply visit_used|].
        exists JNull. split; [done|]. by left.
      + right. exists k, x, f, (Part o1). split; [done|]. split; [done|]. split; [by apply visit_part|].
        by exists o, y.
      + right. destruct H1 as [H1|H1].
        * exists k, x, f, (Entries o1). split; [done|]. split; [done|]. split; [by apply visit_entries|].
          exists e. split; [done|]. by exists o, y.
        * exists k, x, f, (EntriesUsed o1). split; [done|]. split; [done|]. split; [by apply visit_used|].
          exists e. split; [done|]. right. by exists o, y.
    - intros [H|(k & x & f & h & Hk & Hf & Hv & H)].
      + exists n, (JObj kvs). split; [constructor|by left].
      + assert (Hh : has f kvs x) by (by exists k).
        destruct h as [m|m|m].
        * apply visit_part in Hv. destruct H as (o & y & Hs & H). exists o, y. split; [|done].
          eapply stands_one; eauto.
        * apply visit_entries in Hv. destruct H as (e & He & o & y & Hs & H). exists o, y. split; [|done].
          eapply stands_several; eauto.
        * apply visit_used in Hv. destruct H as (e & He & [->|(o & y & Hs & H)]).
          { exists n, (JObj kvs). split; [constructor|]. right. eauto 10. }
          { exists o, y. split; [|done]. eapply stands_several; eauto. }
  Qed.

  Lemma tidy_ptr_inv t j : tidy F (TPtr t) j -> tidy F t j.
  Proof. inversion 1; subst; try done; constructor. Qed.
  Lemma decode_pointer j m v :
    decode F j (TPtr (TStruct m)) VZero = Some v ->
    (j = JNull /\ v = VZero) \/ (j <> JNull /\ exists y, v = VPtr y /\ decode F j (TStruct m) VZero = Some y).
  Proof.
    assert (j = JNull \/ j <> JNull) as [->|Hj]
      by (destruct j; (left; reflexivity) || (right; discriminate)).
    - cbn. intros [= <-]. by left.
    - rewrite decode_ptr by done. cbn [pointee]. destruct (decode F j (TStruct m) VZero); [|done].
      intros [= <-]. right. eauto.
  Qed.

  Lemma decode_structure j m v :
    decode F j (TStruct m) VZero = Some v -> v = VZero \/ exists fs, v = VStruct fs.
  Proof.
    destruct j as [| | | | |kvs]; try done.
    - cbn. intros [= <-]. by left.
    - rewrite decode_struct. destruct (keys _ _ _ _); [|done]. intros [= <-]. right. eauto.
  Qed.
  Definition walked (j : json) : Prop :=
    forall n v, tidy F (TStruct n) j -> decode F j (TStruct n) VZero = Some v ->
      (panics w local v n = true <-> bad n j).

  (** Entries. *)
  Lemma entries_bad x t v m used :
    (t = TMap (TPtr (TStruct m)) \/ t = TSlice (TPtr (TStruct m))) ->
    tidy F t x -> decode F x t VZero = Some v -> (forall e, entry x e -> walked e) ->
    (match v with
     | VMap es => existsb (fun ke => entry_panics used m ke.2) es
     | VSlice es => existsb (entry_panics used m) es
     | _ => false
     end = true <-> exists e, entry x e /\ ((used = true /\ e = JNull) \/ bad m e)).
  Proof.
    intros Htt Hx Hd IHe.
    assert (Hone : forall e ve, entry x e -> tidy F (TPtr (TStruct m)) e ->
      decode F e (TPtr (TStruct m)) VZero = Some ve ->
      (entry_panics used m ve = true <-> ((used = true /\ e = JNull) \/ bad m e))).
    { intros e ve He Hte Hde. apply decode_pointer in Hde as [[-> ->]|(Hne & y & -> & Hy)]; cbn.
      - split; [by left; intros|]. intros [[? _]|?%bad_null]; done.
      - rewrite (IHe e He m y (tidy_ptr_inv _ _ Hte) Hy). split; [by right|]. intros [[_ ?]|?]; done. }
    destruct Htt as [-> | ->].
    - inversion Hx as [| |? es Hn Hes| |tt| | | |]; subst; try done.
      + assert (Hacc : acc F (JObj es) (TMap (TPtr (TStruct m)))) by (eexists; exact Hd).
        rewrite acc_map in Hacc.
        apply map_exact in Hd as (mm & -> & _ & Hm); [|done|done]. rewrite existsb_exists. split.
        * intros ([k' e] & Hin & He). apply elem_of_list_In in Hin. apply Hm in Hin as (j & Hj & Hdj).
          exists j. split; [by exists k'|]. apply (Hone j e); [by exists k'|by eapply Hes|done|done].
        * intros (j & (k' & Hj) & H). destruct (Hacc k' j Hj) as [e Ee].
          exists (k', e). split; [apply elem_of_list_In, Hm; by exists j|]. cbn.
          apply (Hone j e); [by exists k'|by eapply Hes|done|done].
      + cbn in Hd. injection Hd as <-. split; [done|]. by intros (e & [] & _).
    - inversion Hx as [|? es Hes| | |tt| | | |]; subst; try done.
      + assert (Hacc : acc F (JArr es) (TSlice (TPtr (TStruct m)))) by (eexists; exact Hd).
        rewrite acc_slice in Hacc.
        apply slice_exact in Hd as (mm & -> & Hm). rewrite existsb_exists. split.
        * intros (e & Hin & He). apply elem_of_list_In in Hin. apply Hm in Hin as (j & Hj & Hdj).
          exists j. split; [done|]. apply (Hone j e); [done|by eapply Hes|done|done].
        * intros (j & Hj & H). destruct (Hacc j Hj) as [e Ee].
          exists e. split; [apply elem_of_list_In, Hm; by exists j|].
          apply (Hone j e); [done|by eapply Hes|done|done].
      + cbn in Hd. injection Hd as <-. split; [done|]. by intros (e & [] & _).
  Qed.

  Lemma field_bad n f h x t v :
    visit w n f = Some h -> assoc f (F n) = Some t -> tidy F t x -> decode F x t VZero = Some v ->
    walked x -> (forall e, entry x e -> walked e) ->
    (field_panics h v = true <->
     match h with
     | Part m => bad m x
     | Entries m => exists e, entry x e /\ bad m e
     | EntriesUsed m => exists e, entry x e /\ (e = JNull \/ bad m e)
     end).
  Proof.
    intros Hv Ha Hx Hd IHx IHe. destruct (row_field n f h Hv) as (t' & Ha' & Hty & _).
    rewrite Ha in Ha'. injection Ha' as <-. unfold typed in Hty. cbn in Hty. rewrite Ha in Hty.
    destruct h as [m|m|m]; cbn [field_panics].
    - destruct t as [| | | | |t|t|t|m']; try done.
      + destruct t as [| | | | |t|t|t|m']; try done. apply String.eqb_eq in Hty as ->.
        apply decode_pointer in Hd as [[-> ->]|(Hne & y & -> & Hy)].
        * split; [done|]. by intros ?%bad_null.
        * apply IHx; [by apply tidy_ptr_inv|done].
      + apply String.eqb_eq in Hty as ->. pose proof (IHx m v Hx Hd) as G.
        destruct (decode_structure x m v Hd) as [-> | [fs ->]]; [|exact G].
        rewrite <- G. cbn. rewrite Hzero. done.
    - rewrite (entries_bad x t v m false); [|destruct t as [| | | | |t|t|t|m']; try done;
        destruct t as [| | | | |t|t|t|m']; try done; destruct t; try done; apply String.eqb_eq in Hty as ->; auto
        |done|done|done].
      split; intros (e & He & H); exists e; (split; [done|]); [by destruct H as [[? _]|H]|by right].
    - rewrite (entries_bad x t v m true); [|destruct t as [| | | | |t|t|t|m']; try done;
        destruct t as [| | | | |t|t|t|m']; try done; destruct t; try done; apply String.eqb_eq in Hty as ->; auto
        |done|done|done].
      split; intros (e & He & H); exists e; (split; [done|]);
        [destruct H as [[_ H]|H]; [by left|by right]|destruct H as [H|H]; [by left|by right]].
  Qed.

  Lemma panics_bad_all j : walked j /\ forall e, entry j e -> walked e.
  Proof.
    induction j as [|b|nn|s|l IH|kvs IH] using json_induction; (split; [|try done]); try (intros n v Ht Hd; done).
    - intros n v Ht Hd. cbn in Hd. injection Hd as <-. cbn. rewrite Hzero. split; [done|by intros ?%bad_null].
    - rewrite Forall_forall in IH. intros e He. by apply IH.
    - rewrite Forall_forall in IH. intros n v Ht Hd.
      inversion Ht as [| | |? ? Hnd Hsub| | | | |]; subst.
      assert (Hacc : acc F (JObj kvs) (TStruct n)) by (eexists; exact Hd).
      rewrite acc_struct in Hacc.
      destruct (struct_exact n kvs v Hnd Hd) as (fs & -> & Hfs & Hex).
      rewrite panics_struct, orb_true_iff, (Hlocal n kvs fs Ht Hd), bad_obj.
      apply or_iff_compat_l. rewrite existsb_exists. split.
      + intros ([f x] & Hin%elem_of_list_In & H). cbn in H. destruct (visit w n f) as [h|] eqn:Hv; [|done].
        apply Hex in Hin as (k & j & t & Hk & Hf & Hdj).
        destruct (row_field n f h Hv) as (t' & Ha & _ & Hrow).
        assert (fold k = fold f) as Hkf by (by apply find_field_spec in Hf as [-> _]).
        destruct (proj1 (Hrow k f t Hf) Hkf) as [_ ->].
        exists k, j, f, h. split; [done|]. split; [done|]. split; [done|].
        apply (field_bad n f h j t' x); try done; [by eapply Hsub|exact (proj1 (IH (k, j) Hk))|exact (proj2 (IH (k, j) Hk))].
      + intros (k & j & f & h & Hk & Hkf & Hv & H).
        destruct (row_found n f h k Hv Hkf) as (t & Ha & Hf).
        destruct (Hacc k j f t Hk Hf) as [x Hx].
        exists (f, x). split; [apply elem_of_list_In, Hex; by exists k, j, t|]. cbn. rewrite Hv.
        apply (field_bad n f h j t x); try done; [by eapply Hsub|exact (proj1 (IH (k, j) Hk))|exact (proj2 (IH (k, j) Hk))].
    - rewrite Forall_forall in IH. intros e (k & He). exact (proj1 (IH (k, e) He)).
  Qed.
  Lemma panics_bad j n v :
    tidy F (TStruct n) j -> decode F j (TStruct n) VZero = Some v -> (panics w local v n = true <-> bad n j).
  Proof. exact (proj1 (panics_bad_all j) n v). Qed.
End stored.

(** * The fields of a structure that was read *)
Lemma has_dec f kvs : (exists x, has f kvs x) \/ (forall x, ~ has f kvs x).
Proof.
  induction kvs as [|[k x] r IH].
  - right. intros x (k & Hk & _). by apply elem_of_nil in Hk.
  - destruct (String.eqb (fold k) (fold f)) eqn:E.
    + left. exists x, k. split; [left|by apply String.eqb_eq].
    + destruct IH as [(y & k' & Hk & Hf)|Hno]; [left; exists y, k'; split; [by right|done]|].
      right. intros y (k' & [[= -> ->]|Hk]%elem_of_cons & Hf); [by rewrite Hf, String.eqb_refl in E|].
      by apply (Hno y); exists k'.
Qed.
Lemma has_unique f kvs x y :
  NoDup (map (fun kj : string * json => fold kj.1) kvs) -> has f kvs x -> has f kvs y -> x = y.
Proof.
  intros Hnd (k & Hk & Hf) (k' & Hk' & Hf'). induction kvs as [|[q z] r IH]; [by apply elem_of_nil in Hk|].
  cbn in Hnd. inversion Hnd as [|? ? Hq Hr]; subst.
  assert (Hno : forall k j, (k, j) ∈ r -> fold k = fold q -> False).
  { intros k0 j Hin E. apply Hq. apply elem_of_list_fmap. exists (k0, j). by split. }
  apply elem_of_cons in Hk as [[= -> ->]|Hk]; apply elem_of_cons in Hk' as [[= -> ->]|Hk'].
  - done.
  - exfalso. eapply Hno; [exact Hk'|congruence].
  - exfalso. eapply Hno; [exact Hk|congruence].
  - by apply IH.
Qed.

Section read.
  Context (F : string -> list (string * ty)).
  (** No other field has the name up to case. *)
  Definition lone (n f : string) : bool :=
    forallb (fun gt => negb (String.eqb (fold gt.1) (fold f)) || String.eqb gt.1 f) (F n).

  Definition was_read (n : string) (kvs : list (string * json)) (fs : list (string * value)) : Prop :=
    tidy F (TStruct n) (JObj kvs) /\ decode F (JObj kvs) (TStruct n) VZero = Some (VStruct fs).

  Lemma get_has n kvs fs f t x :
    was_read n kvs fs -> lone n f = true -> assoc f (F n) = Some t -> has f kvs x ->
    decode F x t VZero = Some (get f fs) /\ tidy F t x.
  Proof.
    intros [Ht Hd] Hl Ha (k & Hk & Hf). inversion Ht as [| | |? ? Hnd Hsub| | | | |]; subst.
    assert (Hfi : find_field (F n) k = Some (f, t)).
    { apply find_apart; [done| |done]. unfold lone in Hl. rewrite forallb_forall in Hl. intros g u Hin E.
      specialize (Hl (g, u) (proj1 (elem_of_list_In _ _) Hin)). cbn in Hl.
      rewrite E, String.eqb_refl in Hl. by apply String.eqb_eq in Hl. }
    split; [|by eapply Hsub].
    assert (Hacc : acc F (JObj kvs) (TStruct n)) by (eexists; exact Hd).
    rewrite acc_struct in Hacc. destruct (Hacc k x f t Hk Hfi) as [y Hy].
    destruct (struct_exact F n kvs _ Hnd Hd) as (fs' & [= <-] & Hfs & Hex).
    unfold get. rewrite (proj2 (assoc_in f y fs Hfs)); [done|]. apply Hex. by exists k, x, t.
  Qed.
  Lemma get_lacks n kvs fs f :
    was_read n kvs fs -> (forall x, ~ has f kvs x) -> get f fs = VZero.
  Proof.
    intros [Ht Hd] Hno. inversion Ht as [| | |? ? Hnd Hsub| | | | |]; subst.
    destruct (struct_exact F n kvs _ Hnd Hd) as (fs' & [= <-] & Hfs & Hex).
    unfold get. destruct (assoc f fs) as [y|] eqn:E; [|done]. exfalso.
    apply assoc_elem in E. apply Hex in E as (k & j & t & Hk & Hf & _). apply (Hno j). exists k. split; [done|].
    by apply find_field_spec in Hf as [-> _].
  Qed.
  Lemma read_unique n kvs fs f x y : was_read n kvs fs -> has f kvs x -> has f kvs y -> x = y.
  Proof. intros [Ht _]. inversion Ht; subst. by apply has_unique. Qed.

  Lemma string_field n kvs fs f r :
    was_read n kvs fs -> lone n f = true -> assoc f (F n) = Some TStr -> r <> "" ->
    (str_of (get f fs) = r <-> has f kvs (JStr r)).
  Proof.
    intros Hr Hl Ha Hne. split.
    - intros E. destruct (has_dec f kvs) as [[x Hx]|Hno].
      + destruct (get_has n kvs fs f TStr x Hr Hl Ha Hx) as [Hd _].
        destruct x as [| | |s| |]; cbn in Hd; try done.
        * injection Hd as Hd. rewrite <- Hd in E. by cbn in E.
        * injection Hd as Hd. rewrite <- Hd in E. cbn in E. by subst.
      + rewrite (get_lacks n kvs fs f Hr Hno) in E. by cbn in E.
    - intros Hx. destruct (get_has n kvs fs f TStr _ Hr Hl Ha Hx) as [Hd _]. cbn in Hd. injection Hd as <-. done.
  Qed.

  Definition part_of (t : ty) (v : value) : value := match t with TPtr _ => pointee v | _ => v end.
  Lemma part_field n kvs fs f t m :
    was_read n kvs fs -> lone n f = true -> assoc f (F n) = Some t -> t = TStruct m \/ t = TPtr (TStruct m) ->
    (exists ms fs', has f kvs (JObj ms) /\ was_read m ms fs' /\ part_of t (get f fs) = VStruct fs') \/
    ((forall ms, ~ has f kvs (JObj ms)) /\ part_of t (get f fs) = VZero).
  Proof.
    intros Hr Hl Ha Ht. destruct (has_dec f kvs) as [[x Hx]|Hno].
    - destruct (get_has n kvs fs f t x Hr Hl Ha Hx) as [Hd Htx].
      assert (G : tidy F (TStruct m) x /\ ((x = JNull /\ part_of t (get f fs) = VZero) \/
                  decode F x (TStruct m) VZero = Some (part_of t (get f fs)))).
      { destruct Ht as [-> | ->]; (split; [first [done|by apply tidy_ptr_inv]|]); [by right|].
        apply decode_pointer in Hd as [[-> ->]|(Hne & y & -> & Hy)]; [by left|by right]. }
      destruct G as [Htm [[-> G]|G]].
      + right. split; [|done]. intros ms Hm. by pose proof (read_unique n kvs fs f _ _ Hr Hx Hm).
      + destruct x as [| | | | |ms]; try done.
        * right. split; [|cbn in G; by injection G as <-].
          intros ms Hm. by pose proof (read_unique n kvs fs f _ _ Hr Hx Hm).
        * left. destruct (decode_structure F _ _ _ G) as [E|[fs' E]].
          { rewrite decode_struct in G. destruct (keys _ _ _ _); [|done]. rewrite E in G. done. }
          { exists ms, fs'. split; [done|]. split; [|done]. split; [done|]. by rewrite G, E. }
    - right. split; [intros ms; apply Hno|]. rewrite (get_lacks n kvs fs f Hr Hno). by destruct t.
  Qed.
End read.

(** * Splitting *)
Lemma split_slashes s : List.length (split "/" s) = S (slashes s).
Proof.
  induction s as [|c s IH]; [done|]. unfold slashes. cbn [split list_ascii_of_string List.filter].
  rewrite (Ascii.eqb_sym "/" c). destruct (Ascii.eqb c "/"); cbn [List.length]; [by rewrite IH|].
  destruct (split "/" s) as [|x xs]; [done|]. exact IH.
Qed.
Lemma no_slash s : tl (split "/" s) = [] <-> slashes s = O.
Proof.
  pose proof (split_slashes s) as E. destruct (split "/" s) as [|x [|y r]]; cbn in *; split; intros H; try done; lia.
Qed.
Lemma has_prefix_spec p s : has_prefix p s = true <-> exists r, s = p ++ r.
Proof.
  unfold has_prefix. revert s. induction p as [|a p IH]; intros s.
  - cbn. split; [by exists s|done].
  - destruct s as [|b s]; cbn [strip_prefix].
    + split; [done|]. by intros [r ?].
    + destruct (Ascii.eqb a b) eqn:E.
      * apply Ascii.eqb_eq in E as ->. rewrite IH. split; intros [r Hr]; exists r.
        { by rewrite Hr. }
        { by injection Hr. }
      * split; [done|]. intros [r Hr]. injection Hr as -> _. by rewrite Ascii.eqb_refl in E.
Qed.
Lemma prefixes_apart r r' : "$message.header#" ++ r <> "$message.payload#" ++ r'.
Proof. intros H. discriminate H. Qed.
Lemma located_in_spec l part :
  located_in l = Some part <->
  (part = "headers" /\ exists r, l = "$message.header#" ++ r) \/
  (part = "payload" /\ exists r, l = "$message.payload#" ++ r).
Proof.
  unfold located_in.
  destruct (has_prefix "$message.header#" l) eqn:E1.
  - apply has_prefix_spec in E1 as [r ->]. split.
    + intros [= <-]. left. eauto.
    + intros [[-> _]|[_ [r' H]]]; [done|]. by apply prefixes_apart in H.
  - destruct (has_prefix "$message.payload#" l) eqn:E2.
    + apply has_prefix_spec in E2 as [r ->]. split.
      * intros [= <-]. right. eauto.
      * intros [[_ [r' H]]|[-> _]]; [|done]. symmetry in H. by apply prefixes_apart in H.
    + split; [done|]. intros [[_ H]|[_ H]]; apply has_prefix_spec in H; congruence.
Qed.

(** * Messages and operations *)
Lemma read_location m kvs fs l :
  was_read (fields m) "Message" kvs fs -> l <> "" -> (location_of fs = l <-> location (JObj kvs) l).
Proof.
  intros Hr Hl. unfold location_of.
  assert (Hlone : forall m, lone (fields m) "Message" "correlationID" = true /\
    assoc "correlationID" (fields m "Message") = Some (TPtr (TStruct "CorrelationID")) /\
    lone (fields m) "CorrelationID" "location" = true /\ assoc "location" (fields m "CorrelationID") = Some TStr)
    by (intros []; repeat (split; [vm_compute; reflexivity|]); vm_compute; reflexivity).
  destruct (Hlone m) as (H1 & H2 & H3 & H4). clear Hlone.
  assert (Hkey : forall x, has "correlationID" kvs x <-> has "correlationId" kvs x)
    by (intros x; split; intros (k & Hk & Hf); exists k; (split; [done|]); rewrite Hf; reflexivity).
  destruct (part_field (fields m) "Message" kvs fs _ _ _ Hr H1 H2 (or_intror eq_refl))
    as [(cs & fs' & Hc & Hr' & E)|[Hno E]]; cbn [part_of] in E; rewrite E.
  - cbn [fields_of]. rewrite (string_field (fields m) _ cs fs' "location" l Hr' H3 H4 Hl). split.
    + intros H. exists kvs, cs. split; [done|]. split; [by apply Hkey|done].
    + intros (kvs' & cs' & [= <-] & Hc' & H). apply Hkey in Hc'.
      pose proof (read_unique _ _ _ _ _ _ _ Hr Hc Hc') as [= <-]. done.
  - cbn. split; [intros <-; done|]. intros (kvs' & cs' & [= <-] & Hc' & H). apply Hkey in Hc'. by apply Hno in Hc'.
Qed.

Lemma read_no_path m kvs fs :
  was_read (fields m) "Message" kvs fs ->
  ((exists part, located_in (location_of fs) = Some part) /\ tl (split "/" (location_of fs)) = []
   <-> no_path (JObj kvs)).
Proof.
  intros Hr. rewrite no_slash. split.
  - intros [[part Hp] Hs]. apply located_in_spec in Hp.
    destruct Hp as [[-> [r Hl]]|[-> [r Hl]]]; exists (location_of fs), r;
      (split; [apply (read_location m kvs fs); [done| |reflexivity]; by rewrite Hl|]); (split; [auto|done]).
  - intros (l & r & Hl & Hp & Hs).
    assert (l <> "") as Hne by (intros ->; destruct Hp; done).
    apply (read_location m kvs fs l Hr Hne) in Hl. rewrite Hl. split; [|done].
    destruct Hp as [-> | ->]; [exists "headers"|exists "payload"]; apply located_in_spec; [left|right]; eauto.
Qed.

(** ** Version 2 *)
Definition local2 (n : string) (j : json) : Prop :=
  (n = "Operation" /\ short_reference j) \/ (n = "Message" /\ no_path j).
Lemma local2_spec n kvs fs :
  tidy (fields V2) (TStruct n) (JObj kvs) -> decode (fields V2) (JObj kvs) (TStruct n) VZero = Some (VStruct fs) ->
  (metadata2_local n fs = true <-> local2 n (JObj kvs)).
Proof.
  intros Ht Hd. assert (Hr : was_read (fields V2) n kvs fs) by (by split). clear Ht Hd.
  unfold metadata2_local, local2.
  destruct (String.eqb_spec n "Operation") as [-> | N1].
  { transitivity (short_reference (JObj kvs)); [|split; [by left|]; by intros [[_ ?]|[? _]]].
    destruct (part_field (fields V2) "Operation" kvs fs "message" (TStruct "Message") "Message" Hr)
      as [(ms & fs' & Hm & Hr' & E)|[Hno E]];
      [vm_compute; reflexivity|vm_compute; reflexivity|by left| |]; cbn [part_of] in E; rewrite E.
    - cbn [fields_of]. rewrite andb_true_iff, negb_true_iff, String.eqb_neq, Nat.leb_le, split_slashes.
      assert (G : forall r, r <> "" -> str_of (get "$ref" fs') = r <-> has "$ref" ms (JStr r)).
      { intros r. apply (string_field (fields V2) "Message" ms fs'); [done|vm_compute; reflexivity|vm_compute; reflexivity]. }
      split.
      + intros [H1 H2]. exists kvs, ms, (str_of (get "$ref" fs')). split; [done|]. split; [done|].
        split; [by apply G|]. split; [done|]. lia.
      + intros (kvs' & ms' & r & [= <-] & Hm' & H1 & H2 & H3).
        pose proof (read_unique _ _ _ _ _ _ _ Hr Hm Hm') as [= <-]. apply (G r H2) in H1. rewrite H1.
        split; [done|lia].
    - cbn. split; [done|]. intros (kvs' & ms' & r & [= <-] & Hm' & _). by apply Hno in Hm'. }
  destruct (String.eqb_spec n "Message") as [-> | N2].
  { transitivity (no_path (JObj kvs)); [|split; [by right|]; by intros [[? _]|[_ ?]]].
    rewrite <- (read_no_path V2 kvs fs Hr). destruct (located_in (location_of fs)) as [part|].
    - destruct (tl (split "/" (location_of fs))); split; try done; [by intros _; split; [exists part|]|by intros [_ ?]].
    - split; [done|]. by intros [[? ?] _]. }
  split; [done|]. intros [[? _]|[? _]]; done.
Qed.

(** ** Version 3 *)
Lemma down_spec path : forall x v,
  tidy (fields V3) (TStruct "Schema") x -> decode (fields V3) x (TStruct "Schema") VZero = Some v ->
  (down path v = true <-> null_on_the_way path x).
Proof.
  induction path as [|p [|q r] IH]; intros x v Ht Hd.
  - split; [done|]. by inversion 1.
  - split; [done|]. by inversion 1.
  - cbn [down]. destruct (decode_structure _ _ _ _ Hd) as [-> | [fs ->]].
    { cbn. split; [done|]. inversion 1; subst; rewrite decode_struct in Hd; destruct (keys _ _ _ _); done. }
    destruct x as [| | | | |kvs]; try done.
    assert (Hr : was_read (fields V3) "Schema" kvs fs) by (by split). cbn [fields_of].
    assert (Hl : lone (fields V3) "Schema" "properties" = true) by (vm_compute; reflexivity).
    assert (Ha : assoc "properties" (fields V3 "Schema") = Some (TMap (TPtr (TStruct "Schema"))))
      by (vm_compute; reflexivity).
    destruct (has_dec "properties" kvs) as [[y Hy]|Hno].
    + destruct (get_has _ _ _ _ _ _ _ Hr Hl Ha Hy) as [Hdy Hty].
      destruct y as [| | | | |ps]; try done.
      { cbn in Hdy. injection Hdy as <-. cbn. split; [done|].
        inversion 1 as [? ? ? ? ps Hp|? ? ? ? ps ? Hp]; subst;
          by pose proof (read_unique _ _ _ _ _ _ _ Hr Hy Hp). }
      inversion Hty as [| |? ? Hn Hps| | | | | |]; subst.
      assert (Hacc : acc (fields V3) (JObj ps) (TMap (TPtr (TStruct "Schema")))) by (eexists; exact Hdy).
      rewrite acc_map in Hacc.
      apply map_exact in Hdy as (mm & -> & Hnm & Hm); [|done|done]. cbn [members_of].
      assert (Hnw : null_on_the_way (p :: q :: r) (JObj kvs) <->
                    exists x, (p, x) ∈ ps /\ (x = JNull \/ null_on_the_way (q :: r) x)).
      { split.
        - inversion 1 as [? ? ? ? ps' Hp Hin|? ? ? ? ps' z Hp Hin Hz]; subst;
            pose proof (read_unique _ _ _ _ _ _ _ Hr Hy Hp) as [= <-]; eauto.
        - intros (z & Hz & [-> |H]); [by eapply null_here|by eapply null_below]. }
      rewrite Hnw. destruct (assoc p mm) as [c|] eqn:Ec.
      * apply assoc_elem, Hm in Ec as (j & Hj & Hdj).
        assert (Hu : forall z, (p, z) ∈ ps -> z = j).
        { intros z Hz. apply (assoc_in p z ps Hn) in Hz. apply (assoc_in p j ps Hn) in Hj. congruence. }
        apply decode_pointer in Hdj as [[-> ->]|(Hne & y & -> & Hdy)].
        { split; [|done]. intros _. exists JNull. by split; [|left]. }
        rewrite (IH j y); [|apply tidy_ptr_inv; by eapply Hps|done]. split.
        { intros H. exists j. by split; [|right]. }
        { intros (z & Hz & H). rewrite (Hu z Hz) in H. by destruct H. }
      * split; [done|]. intros (z & Hz & _). destruct (Hacc p z Hz) as [c Hc].
        assert ((p, c) ∈ mm) as Hin by (apply Hm; by exists z).
        apply (assoc_in p c mm Hnm) in Hin. congruence.
    + rewrite (get_lacks _ _ _ _ _ Hr Hno). cbn. split; [done|].
      inversion 1 as [? ? ? ? ps Hp|? ? ? ? ps ? Hp]; subst; by apply Hno in Hp.
Qed.

Definition local3 (n : string) (j : json) : Prop := n = "Message" /\ (no_path j \/ lost_location j).
Lemma local3_spec n kvs fs :
  tidy (fields V3) (TStruct n) (JObj kvs) -> decode (fields V3) (JObj kvs) (TStruct n) VZero = Some (VStruct fs) ->
  (metadata3_local n fs = true <-> local3 n (JObj kvs)).
Proof.
  intros Ht Hd. assert (Hr : was_read (fields V3) n kvs fs) by (by split). clear Ht Hd.
  unfold metadata3_local, local3.
  destruct (String.eqb_spec n "Message") as [-> | N]; [|split; [done|]; by intros [? _]].
  transitivity (no_path (JObj kvs) \/ lost_location (JObj kvs)); [|split; [by split|]; by intros [_ ?]].
  rewrite <- (read_no_path V3 kvs fs Hr).
  assert (Hloc : forall l, l <> "" -> location (JObj kvs) l <-> location_of fs = l)
    by (intros l Hl; symmetry; by apply (read_location V3)).
  assert (Hll : forall part path, leads (location_of fs) part path <->
                  located_in (location_of fs) = Some part /\ path = tl (split "/" (location_of fs))).
  { intros part path. rewrite located_in_spec. unfold leads. split.
    - intros (root & [[-> ->]|[-> ->]] & r & Hl & Hp); (split; [|done]); [left|right]; eauto.
    - intros [[[-> [r Hl]]|[-> [r Hl]]] Hp]; eexists; (split; [|exists r; by split]); auto. }
  destruct (located_in (location_of fs)) as [part|] eqn:Ep.
  - assert (Hne : location_of fs <> "").
    { intros E. rewrite E in Ep. done. }
    destruct (tl (split "/" (location_of fs))) as [|p path] eqn:Epath.
    { split; [|done]. intros _. left. split; [by exists part|done]. }
    assert (Hpart : part = "headers" \/ part = "payload").
    { apply located_in_spec in Ep as [[-> _]|[-> _]]; auto. }
    assert (H1 : lone (fields V3) "Message" part = true) by (destruct Hpart as [-> | ->]; vm_compute; reflexivity).
    assert (H2 : assoc part (fields V3 "Message") = Some (TPtr (TStruct "Schema")))
      by (destruct Hpart as [-> | ->]; vm_compute; reflexivity).
    transitivity (lost_location (JObj kvs)); [|split; [by right|]; by intros [[_ ?]|?]].
    assert (Hlost : lost_location (JObj kvs) <-> exists x, has part kvs x /\ null_on_the_way (p :: path) x).
    { split.
      - intros (kvs' & l & k & p' & path' & x & [= <-] & Hl & Hle & Hx & Hn).
        assert (l <> "") as Hl' by (intros ->; destruct Hle as (? & [[_ ->]|[_ ->]] & ? & ? & _); done).
        apply (Hloc l Hl') in Hl as <-. apply Hll in Hle as [[= <-] Hp]. injection Hp as -> ->. eauto.
      - intros (x & Hx & Hn). exists kvs, (location_of fs), part, p, path, x. split; [done|].
        split; [by apply Hloc|]. split; [by apply Hll|]. done. }
    rewrite Hlost.
    destruct (has_dec part kvs) as [[x Hx]|Hno].
    + destruct (get_has _ _ _ _ _ _ _ Hr H1 H2 Hx) as [Hd Ht]. apply tidy_ptr_inv in Ht.
      transitivity (null_on_the_way (p :: path) x).
      * apply decode_pointer in Hd as [[-> ->]|(Hne' & y & -> & Hy)].
        { cbn [pointee]. apply (down_spec (p :: path) JNull VZero); [constructor|done]. }
        { cbn [pointee]. by apply down_spec. }
      * split; [eauto|]. intros (z & Hz & Hn). by rewrite (read_unique _ _ _ _ _ _ _ Hr Hx Hz).
    + rewrite (get_lacks _ _ _ _ _ Hr Hno). cbn [pointee]. split.
      * destruct path; done.
      * intros (x & Hx & _). by apply Hno in Hx.
  - split; [done|]. intros [[[? ?] _]|(kvs' & l & k & p' & path' & x & [= <-] & Hl & Hle & _)]; [done|].
    assert (l <> "") as Hl' by (intros ->; destruct Hle as (? & [[_ ->]|[_ ->]] & ? & ? & _); done).
    apply (Hloc l Hl') in Hl as <-. by apply Hll in Hle as [? _].
Qed.

(** * The walks *)
Lemma no_local_null2 n : ~ local2 n JNull.
Proof. intros [[_ (kvs & ms & r & ? & _)]|[_ (l & r & (kvs & cs & ? & _) & _)]]; done. Qed.
Lemma no_local_null3 n : ~ local3 n JNull.
Proof.
  intros [_ [(l & r & (kvs & cs & ? & _) & _)|(kvs & l & k & p & path & x & ? & _)]]; done.
Qed.
Lemma zero2 n : metadata2_local n [] = false.
Proof. unfold metadata2_local. destruct (String.eqb n "Operation"); [reflexivity|]. by destruct (String.eqb n "Message"). Qed.
Lemma zero3 n : metadata3_local n [] = false.
Proof. unfold metadata3_local. by destruct (String.eqb n "Message"). Qed.

Lemma metadata2_agrees :
  forallb (agrees1 places2) (rows metadata2_walk) = true /\ forallb (agrees2 metadata2_walk Part) (one places2) = true /\
  forallb (agrees2 metadata2_walk Entries) (several places2) = true /\ forallb (agrees2 metadata2_walk EntriesUsed) (needed places2) = true /\
  forallb (typed (fields V2)) (rows metadata2_walk) = true /\ forallb (apart (fields V2)) (rows metadata2_walk) = true.
Proof. repeat (split; [vm_compute; reflexivity|]). vm_compute. reflexivity. Qed.
Lemma metadata2_bad j v :
  tidy (fields V2) (TStruct "Specification") j -> unmarshal V2 j = Some v ->
  (metadata2 v = true <-> bad places2 local2 "Specification" j).
Proof.
  destruct metadata2_agrees as (H1 & H2 & H3 & H4 & H5 & H6). unfold unmarshal, metadata2.
  exact (panics_bad (fields V2) metadata2_walk metadata2_local places2 local2 H1 H2 H3 H4 H5 H6 zero2 no_local_null2 local2_spec j "Specification" v).
Qed.
Lemma metadata3_agrees :
  forallb (agrees1 messages3) (rows metadata3_walk) = true /\ forallb (agrees2 metadata3_walk Part) (one messages3) = true /\
  forallb (agrees2 metadata3_walk Entries) (several messages3) = true /\ forallb (agrees2 metadata3_walk EntriesUsed) (needed messages3) = true /\
  forallb (typed (fields V3)) (rows metadata3_walk) = true /\ forallb (apart (fields V3)) (rows metadata3_walk) = true.
Proof. repeat (split; [vm_compute; reflexivity|]). vm_compute. reflexivity. Qed.
Lemma metadata3_bad j v :
  tidy (fields V3) (TStruct "Specification") j -> unmarshal V3 j = Some v ->
  (metadata3 v = true <-> bad messages3 local3 "Specification" j).
Proof.
  destruct metadata3_agrees as (H1 & H2 & H3 & H4 & H5 & H6). unfold unmarshal, metadata3.
  exact (panics_bad (fields V3) metadata3_walk metadata3_local messages3 local3 H1 H2 H3 H4 H5 H6 zero3 no_local_null3 local3_spec j "Specification" v).
Qed.
Definition no_local (n : string) (j : json) : Prop := False.
Lemma nowhere_zero n : nowhere n [] = false.
Proof. reflexivity. Qed.
Lemma no_local_null n : ~ no_local n JNull.
Proof. intros []. Qed.
Lemma nowhere_spec m n kvs fs :
  tidy (fields m) (TStruct n) (JObj kvs) -> decode (fields m) (JObj kvs) (TStruct n) VZero = Some (VStruct fs) ->
  (nowhere n fs = true <-> no_local n (JObj kvs)).
Proof. intros _ _. split; [discriminate|intros []]. Qed.
Lemma bad_no_local P j : bad P no_local "Specification" j <-> null_entry P j.
Proof.
  split.
  - intros (o & y & Hs & [[]|(kvs & k & o' & x & -> & H)]). by exists o, kvs, k, o', x.
  - intros (o & kvs & k & o' & x & Hs & H). exists o, (JObj kvs). split; [done|]. right. by exists kvs, k, o', x.
Qed.
Lemma dependencies3_agrees :
  forallb (agrees1 composed3) (rows dependencies3_walk) = true /\ forallb (agrees2 dependencies3_walk Part) (one composed3) = true /\
  forallb (agrees2 dependencies3_walk Entries) (several composed3) = true /\ forallb (agrees2 dependencies3_walk EntriesUsed) (needed composed3) = true /\
  forallb (typed (fields V3)) (rows dependencies3_walk) = true /\ forallb (apart (fields V3)) (rows dependencies3_walk) = true.
Proof. repeat (split; [vm_compute; reflexivity|]). vm_compute. reflexivity. Qed.
Lemma dependencies3_bad j v :
  tidy (fields V3) (TStruct "Specification") j -> unmarshal V3 j = Some v ->
  (dependencies3 v = true <-> null_entry composed3 j).
Proof.
  intros Ht Hd. rewrite <- bad_no_local. revert Ht Hd.
  destruct dependencies3_agrees as (H1 & H2 & H3 & H4 & H5 & H6). unfold unmarshal, dependencies3.
  exact (panics_bad (fields V3) dependencies3_walk nowhere composed3 no_local H1 H2 H3 H4 H5 H6 nowhere_zero no_local_null (nowhere_spec V3) j "Specification" v).
Qed.
Lemma imports3_agrees :
  forallb (agrees1 components3) (rows imports3_walk) = true /\ forallb (agrees2 imports3_walk Part) (one components3) = true /\
  forallb (agrees2 imports3_walk Entries) (several components3) = true /\ forallb (agrees2 imports3_walk EntriesUsed) (needed components3) = true /\
  forallb (typed (fields V3)) (rows imports3_walk) = true /\ forallb (apart (fields V3)) (rows imports3_walk) = true.
Proof. repeat (split; [vm_compute; reflexivity|]). vm_compute. reflexivity. Qed.
Lemma imports3_bad j v :
  tidy (fields V3) (TStruct "Specification") j -> unmarshal V3 j = Some v ->
  (imports3 v = true <-> null_entry components3 j).
Proof.
  intros Ht Hd. rewrite <- bad_no_local. revert Ht Hd.
  destruct imports3_agrees as (H1 & H2 & H3 & H4 & H5 & H6). unfold unmarshal, imports3.
  exact (panics_bad (fields V3) imports3_walk nowhere components3 no_local H1 H2 H3 H4 H5 H6 nowhere_zero no_local_null (nowhere_spec V3) j "Specification" v).
Qed.
Lemma operations3_agrees :
  forallb (agrees1 operations_of3) (rows operations3_walk) = true /\ forallb (agrees2 operations3_walk Part) (one operations_of3) = true /\
  forallb (agrees2 operations3_walk Entries) (several operations_of3) = true /\ forallb (agrees2 operations3_walk EntriesUsed) (needed operations_of3) = true /\
  forallb (typed (fields V3)) (rows operations3_walk) = true /\ forallb (apart (fields V3)) (rows operations3_walk) = true.
Proof. repeat (split; [vm_compute; reflexivity|]). vm_compute. reflexivity. Qed.
Lemma operations3_bad j v :
  tidy (fields V3) (TStruct "Specification") j -> unmarshal V3 j = Some v ->
  (operations3 v = true <-> null_entry operations_of3 j).
Proof.
  intros Ht Hd. rewrite <- bad_no_local. revert Ht Hd.
  destruct operations3_agrees as (H1 & H2 & H3 & H4 & H5 & H6). unfold unmarshal, operations3.
  exact (panics_bad (fields V3) operations3_walk nowhere operations_of3 no_local H1 H2 H3 H4 H5 H6 nowhere_zero no_local_null (nowhere_spec V3) j "Specification" v).
Qed.

(** * Documents without empty entries *)
Section full.
  Context (F : string -> list (string * ty)) (P : places).
  Definition place_typed (several : bool) (p : string * string * string) : bool :=
    lone F p.1.1 p.1.2 &&
    match several, assoc p.1.2 (F p.1.1) with
    | false, Some (TStruct m | TPtr (TStruct m)) => String.eqb m p.2
    | true, Some (TMap (TPtr (TStruct m)) | TSlice (TPtr (TStruct m))) => String.eqb m p.2
    | _, _ => false
    end.
  Hypothesis Hone : forallb (place_typed false) (one P) = true.
  Hypothesis Hseveral : forallb (place_typed true) (several P) = true.
  Hypothesis Hneeded : forallb (place_typed true) (needed P) = true.

  Lemma full_ptr_inv t j : full F (TPtr t) j -> full F t j.
  Proof. inversion 1; subst; try done; constructor. Qed.
  Lemma place_field b o k o1 l :
    forallb (place_typed b) l = true -> (o, k, o1) ∈ l ->
    exists t, assoc k (F o) = Some t /\
      (if b then t = TMap (TPtr (TStruct o1)) \/ t = TSlice (TPtr (TStruct o1))
       else t = TStruct o1 \/ t = TPtr (TStruct o1)) /\
      forall k', fold k' = fold k -> find_field (F o) k' = Some (k, t).
  Proof.
    intros Hl Hin. rewrite forallb_forall in Hl. specialize (Hl _ (proj1 (elem_of_list_In _ _) Hin)).
    unfold place_typed in Hl. cbn in Hl. apply andb_prop in Hl as [Hlo Hl].
    destruct (assoc k (F o)) as [t|] eqn:E; [|by destruct b]. exists t. split; [done|]. split.
    - destruct b, t as [| | | | |t|t|t|m]; try done;
        try (destruct t as [| | | | |t|t|t|m]; try done; [destruct t; try done; apply String.eqb_eq in Hl as ->; auto]);
        try (apply String.eqb_eq in Hl as ->; auto).
      + destruct t as [| | | | |t|t|t|m]; try done. apply String.eqb_eq in Hl as ->. auto.
    - intros k' Hk. apply find_apart; [done| |done]. unfold lone in Hlo. rewrite forallb_forall in Hlo.
      intros g u Hg Ef. specialize (Hlo (g, u) (proj1 (elem_of_list_In _ _) Hg)). cbn in Hlo.
      rewrite Ef, String.eqb_refl in Hlo. by apply String.eqb_eq in Hlo.
  Qed.
  Lemma full_entry o k o1 l kvs x e :
    forallb (place_typed true) l = true -> (o, k, o1) ∈ l -> full F (TStruct o) (JObj kvs) -> has k kvs x ->
    entry x e -> e <> JNull /\ full F (TStruct o1) e.
  Proof.
    intros Hl Hin Hf (k' & Hk & Hkf) He. destruct (place_field true o k o1 l Hl Hin) as (t & Ht & Hty & Hfi).
    inversion Hf as [| | |? ? Hsub| | | | |]; subst. specialize (Hsub k' x k t Hk (Hfi k' Hkf)).
    destruct Hty as [-> | ->].
    - inversion Hsub as [| |? kvs' Hm| | | | | |]; subst; try done. destruct He as [q He].
      destruct (Hm q e He) as [Hne H]. split; [done|by apply full_ptr_inv].
    - inversion Hsub as [|? l' Hm| | | | | | |]; subst; try done.
      destruct (Hm e He) as [Hne H]. split; [done|by apply full_ptr_inv].
  Qed.
  Lemma full_stands o j o' y : full F (TStruct o) j -> stands P o j o' y -> full F (TStruct o') y.
  Proof.
    intros Hf Hs. induction Hs as [o j|o kvs k o1 x o' y H1 Hx Hs IH|o kvs k o1 x e o' y H1 Hx He Hs IH]; [done| |].
    - apply IH. destruct Hx as (k' & Hk & Hkf). destruct (place_field false o k o1 _ Hone H1) as (t & Ht & Hty & Hfi).
      inversion Hf as [| | |? ? Hsub| | | | |]; subst. specialize (Hsub k' x k t Hk (Hfi k' Hkf)).
      destruct Hty as [-> | ->]; [done|by apply full_ptr_inv].
    - apply IH. destruct H1 as [H1|H1]; [exact (proj2 (full_entry _ _ _ _ _ _ _ Hseveral H1 Hf Hx He))|
                                         exact (proj2 (full_entry _ _ _ _ _ _ _ Hneeded H1 Hf Hx He))].
  Qed.
  Lemma full_no_null j : full F (TStruct "Specification") j -> ~ null_entry P j.
  Proof.
    intros Hf (o & kvs & k & o' & x & Hs & Hn & Hx & He). apply (full_stands _ _ _ _ Hf) in Hs.
    by destruct (full_entry _ _ _ _ _ _ _ Hneeded Hn Hs Hx He) as [? _].
  Qed.
End full.
Lemma lone_found F n f t k :
  lone F n f = true -> assoc f (F n) = Some t -> fold k = fold f -> find_field (F n) k = Some (f, t).
Proof.
  intros Hl Ha Hk. apply find_apart; [done| |done]. unfold lone in Hl. rewrite forallb_forall in Hl. intros g u Hg E.
  specialize (Hl (g, u) (proj1 (elem_of_list_In _ _) Hg)). cbn [fst] in Hl.
  rewrite E, String.eqb_refl in Hl. by apply String.eqb_eq in Hl.
Qed.
Lemma full_field n f t kvs x :
  lone (fields V3) n f = true -> assoc f (fields V3 n) = Some t -> full (fields V3) (TStruct n) (JObj kvs) ->
  has f kvs x -> full (fields V3) t x.
Proof.
  intros Hl Ha Hf (k & Hk & Hkf). inversion Hf as [| | |? ? Hsub| | | | |]; subst.
  exact (Hsub _ _ _ _ Hk (lone_found _ _ _ _ _ Hl Ha Hkf)).
Qed.
Lemma full_not_on_the_way path j : full (fields V3) (TStruct "Schema") j -> ~ null_on_the_way path j.
Proof.
  intros Hf Hn. revert Hf.
  induction Hn as [p q r kvs ps Hp Hin|p q r kvs ps x Hp Hin Hn IH]; intros Hf;
    (assert (G : full (fields V3) (TMap (TPtr (TStruct "Schema"))) (JObj ps))
       by (refine (full_field "Schema" "properties" _ kvs _ _ _ Hf Hp); vm_compute; reflexivity));
    inversion G as [| |? ? Hm| | | | | |]; subst.
  - by destruct (Hm _ _ Hin) as [? _].
  - apply IH, full_ptr_inv. by destruct (Hm _ _ Hin) as [_ ?].
Qed.
Lemma full_not_lost j : full (fields V3) (TStruct "Message") j -> ~ lost_location j.
Proof.
  intros Hf (kvs & l & k & p & path & x & -> & _ & Hle & Hx & Hn).
  apply (full_not_on_the_way (p :: path) x); [|exact Hn]. apply full_ptr_inv.
  destruct Hle as (root & [[-> _]|[-> _]] & _);
    [refine (full_field "Message" "headers" _ kvs _ _ _ Hf Hx)|refine (full_field "Message" "payload" _ kvs _ _ _ Hf Hx)];
    vm_compute; reflexivity.
Qed.

(** * Deciding, for examples *)
Fixpoint neat (j : json) : bool :=
  match j with
  | JArr l => forallb neat l
  | JObj kvs => bool_decide (NoDup (map (fun kj : string * json => fold kj.1) kvs)) && forallb (fun kv => neat kv.2) kvs
  | _ => true
  end.
Lemma nodup_fold (kvs : list (string * json)) :
  NoDup (map (fun kj : string * json => fold kj.1) kvs) -> NoDup (map fst kvs).
Proof.
  induction kvs as [|[k j] r IH]; cbn; intros H; [constructor|].
  inversion H as [|? ? Hk Hr]; subst. constructor; [|by apply IH].
  intros (y & -> & Hy)%elem_of_list_fmap. apply Hk. apply elem_of_list_fmap. by exists y.
Qed.
Lemma neat_tidy F j : forall t, neat j = true -> acc F j t -> tidy F t j.
Proof.
  induction j as [|b|n|s|l IH|kvs IH] using json_induction; intros t Hn; induction t as [| | | | |t IHt|t IHt|t IHt|m];
    intros Ha; try (by constructor); try (by destruct Ha as [? Ha]);
    try (apply tidy_ptr, IHt; exact (proj1 (acc_ptr _ _ _) Ha)).
  - rewrite Forall_forall in IH. cbn in Hn. rewrite forallb_forall in Hn. apply tidy_slice. intros j Hj.
    rewrite acc_slice in Ha. apply IH; [done| |by apply Ha]. by apply Hn, elem_of_list_In.
  - rewrite Forall_forall in IH. cbn in Hn. apply andb_prop in Hn as [H1 H2]. apply bool_decide_eq_true in H1.
    rewrite forallb_forall in H2. apply tidy_map; [by apply nodup_fold|]. intros k j Hj. rewrite acc_map in Ha.
    apply (IH (k, j) Hj); [by apply (H2 (k, j)), elem_of_list_In|by eapply Ha].
  - rewrite Forall_forall in IH. cbn in Hn. apply andb_prop in Hn as [H1 H2]. apply bool_decide_eq_true in H1.
    rewrite forallb_forall in H2. apply tidy_struct; [done|]. intros k j f t Hj Hf. rewrite acc_struct in Ha.
    apply (IH (k, j) Hj); [by apply (H2 (k, j)), elem_of_list_In|by eapply Ha].
Qed.
Fixpoint solid (j : json) : bool :=
  match j with
  | JNull => false
  | JArr l => forallb solid l
  | JObj kvs => forallb (fun kv => solid kv.2) kvs
  | _ => true
  end.
Lemma solid_full F j : forall t, solid j = true -> acc F j t -> full F t j.
Proof.
  induction j as [|b|n|s|l IH|kvs IH] using json_induction; intros t Hn; induction t as [| | | | |t IHt|t IHt|t IHt|m];
    intros Ha; try (by constructor); try (by destruct Ha as [? Ha]);
    try (apply full_ptr, IHt; exact (proj1 (acc_ptr _ _ _) Ha)).
  - rewrite Forall_forall in IH. cbn in Hn. rewrite forallb_forall in Hn. apply full_slice. intros j Hj.
    rewrite acc_slice in Ha. assert (G : solid j = true) by (by apply Hn, elem_of_list_In).
    split; [by intros ->|]. apply IH; [done|done|by apply Ha].
  - rewrite Forall_forall in IH. cbn in Hn.
    rewrite forallb_forall in Hn. apply full_map. intros k j Hj. rewrite acc_map in Ha.
    assert (G : solid j = true) by (by apply (Hn (k, j)), elem_of_list_In).
    split; [by intros ->|]. apply (IH (k, j) Hj); [done|by eapply Ha].
  - rewrite Forall_forall in IH. cbn in Hn.
    rewrite forallb_forall in Hn. apply full_struct. intros k j f t Hj Hf. rewrite acc_struct in Ha.
    apply (IH (k, j) Hj); [by apply (Hn (k, j)), elem_of_list_In|by eapply Ha].
Qed.
