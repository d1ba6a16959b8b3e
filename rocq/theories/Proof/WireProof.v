(** Lemmas on the JSON of the generated types. *)
From stdpp Require Import gmap list strings.
From Coq Require Import ZArith Lia Ascii String.
From Verif.Spec Require Import TypesSpec.
From Verif.Model Require Import Decoding Types Wire.
From Verif.Spec Require Import WireSpec.
Local Open Scope string_scope.
Local Open Scope list_scope.

(** ** Induction *)
Section gv_ind.
  Variable P : gv -> Prop.
  Hypothesis (Hnil : P VNil) (Hbool : forall b, P (VBool b)) (Hstr : forall s, P (VStr s)) (Hint : forall z, P (VInt z)) (Hnum : forall n, P (VNum n))
    (Hatom : forall s, P (VAtom s)) (Hany : forall j, P (VAny j)) (Hptr : forall v, P v -> P (VPtr v))
    (Hslice : forall l, Forall P l -> P (VSlice l))
    (Hstruct : forall vs m, Forall P vs -> Forall (fun kv => P kv.2) m -> P (VStruct vs m)).
  Fixpoint gv_induction (v : gv) : P v :=
    match v with
    | VNil => Hnil | VBool b => Hbool b | VStr s => Hstr s | VInt z => Hint z | VNum n => Hnum n | VAtom s => Hatom s | VAny j => Hany j
    | VPtr v => Hptr v (gv_induction v)
    | VSlice l => Hslice l ((fix go l : Forall P l := match l with [] => @List.Forall_nil _ _ | x :: r => @List.Forall_cons _ _ x r (gv_induction x) (go r) end) l)
    | VStruct vs m =>
        Hstruct vs m
          ((fix go l : Forall P l := match l with [] => @List.Forall_nil _ _ | x :: r => @List.Forall_cons _ _ x r (gv_induction x) (go r) end) vs)
          ((fix go (l : list (string * gv)) : Forall (fun kv => P kv.2) l :=
              match l with [] => @List.Forall_nil _ _ | x :: r => @List.Forall_cons _ (fun kv => P kv.2) x r (gv_induction x.2) (go r) end) m)
    end.
End gv_ind.
Section json_ind.
  Variable P : json -> Prop.
  Hypothesis (Hnull : P JNull) (Hbool : forall b, P (JBool b)) (Hnum : forall n, P (JNum n)) (Hstr : forall s, P (JStr s))
    (Harr : forall l, Forall P l -> P (JArr l)) (Hobj : forall kvs, Forall (fun kx => P kx.2) kvs -> P (JObj kvs)).
  Fixpoint json_induction (j : json) : P j :=
    match j with
    | JNull => Hnull | JBool b => Hbool b | JNum n => Hnum n | JStr s => Hstr s
    | JArr l => Harr l ((fix go l : Forall P l := match l with [] => @List.Forall_nil _ _ | x :: r => @List.Forall_cons _ _ x r (json_induction x) (go r) end) l)
    | JObj kvs =>
        Hobj kvs ((fix go (l : list (string * json)) : Forall (fun kv => P kv.2) l :=
              match l with [] => @List.Forall_nil _ _ | x :: r => @List.Forall_cons _ (fun kv => P kv.2) x r (json_induction x.2) (go r) end) kvs)
    end.
End json_ind.

(** ** Names *)
Definition tag_names (fs : list wfield) : list (option string) := map (fun f => Some (w_key f)) fs.
Lemma json_name_good f : valid_tag (w_key f) = true -> w_key f <> "-" -> json_name f = Some (w_key f).
Proof.
  intros V N. unfold json_name. destruct (String.eqb_spec (w_key f) "-") as [E|_]; [done|]. cbn. by rewrite V.
Qed.
Lemma dominates_good f g : json_name f = Some (w_key f) -> json_name g = Some (w_key g) -> w_key f <> w_key g -> dominates f g = true.
Proof. intros Ef Eg N. unfold dominates. rewrite Ef, Eg. destruct (String.eqb_spec (w_key f) (w_key g)); [done|reflexivity]. Qed.
Lemma visible_good before fs :
  NoDup (keys (before ++ fs)) -> Forall (fun f => json_name f = Some (w_key f)) (before ++ fs) -> visible_from before fs = tag_names fs.
Proof.
  revert before. induction fs as [|f fs IH]; intros before ND F; [reflexivity|]. cbn [visible_from tag_names map].
  assert (Ef : json_name f = Some (w_key f)). { rewrite Forall_forall in F. apply F. rewrite elem_of_app. right. left. }
  assert (D : forallb (dominates f) (before ++ fs) = true).
  { apply List.forallb_forall. intros g Hg. apply elem_of_list_In in Hg. apply dominates_good; [exact Ef| |].
    - rewrite Forall_forall in F. apply F. rewrite elem_of_app in *. destruct Hg; [by left|]. right. by right.
    - unfold keys in ND. rewrite map_app in ND. cbn in ND. apply NoDup_app in ND as (_ & Hd & ND2). apply NoDup_cons in ND2 as [ND2 _].
      rewrite elem_of_app in Hg. intros E. destruct Hg as [Hg|Hg].
      + apply (Hd (w_key g)); [by apply (elem_of_list_fmap_1 w_key)|]. rewrite <- E. left.
      + apply ND2. rewrite E. by apply (elem_of_list_fmap_1 w_key). }
  rewrite D, Ef. f_equal. apply IH; rewrite <- app_assoc; assumption.
Qed.
Lemma names_good fs : good_keys fs -> names fs = tag_names fs.
Proof.
  intros [ND F]. apply visible_good; [exact ND|]. cbn. apply Forall_forall. intros f Hf. rewrite Forall_forall in F. destruct (F f Hf). by apply json_name_good.
Qed.

Lemma index_some p fs i : index p (tag_names fs) = Some i ->
  exists l1 f l2, fs = l1 ++ f :: l2 /\ List.length l1 = i /\ p (w_key f) = true /\ Forall (fun g => p (w_key g) = false) l1.
Proof.
  revert i. induction fs as [|f fs IH]; intros i H; [discriminate H|]. cbn in H. fold (tag_names fs) in H. destruct (p (w_key f)) eqn:E.
  - injection H as <-. exists [], f, fs. repeat split; [exact E|constructor].
  - destruct (index p (tag_names fs)) as [j|] eqn:Ei; [|discriminate H]. injection H as <-.
    destruct (IH j eq_refl) as (l1 & g & l2 & -> & L & Eg & F). exists (f :: l1), g, l2. split; [reflexivity|]. split; [cbn; by rewrite L|].
    split; [exact Eg|]. by constructor.
Qed.
Lemma index_none p fs : index p (tag_names fs) = None -> Forall (fun g => p (w_key g) = false) fs.
Proof.
  induction fs as [|f fs IH]; intros H; [constructor|]. cbn in H. fold (tag_names fs) in H. destruct (p (w_key f)) eqn:E; [discriminate|].
  destruct (index p (tag_names fs)) eqn:Ei; [discriminate H|]. constructor; [exact E|by apply IH].
Qed.
Lemma not_key fs k : Forall (fun g => String.eqb k (w_key g) = false) fs <-> k ∉ keys fs.
Proof.
  unfold keys. rewrite Forall_forall. split.
  - intros F H. apply elem_of_list_fmap in H as (f & -> & Hf). specialize (F f Hf). by rewrite String.eqb_refl in F.
  - intros N f Hf. apply String.eqb_neq. intros ->. apply N. by apply (elem_of_list_fmap_1 w_key).
Qed.
Lemma select_some fs k i : select (tag_names fs) k = Some i -> exists f, fs !! i = Some f /\ taken_by fs k f.
Proof.
  unfold select. destruct (index (String.eqb k) (tag_names fs)) as [j|] eqn:E.
  - intros [= ->]. destruct (index_some _ _ _ E) as (l1 & f & l2 & -> & L & Ek & _). exists f. split; [by apply list_lookup_middle|].
    apply String.eqb_eq in Ek. apply taken_exactly; [|done]. rewrite elem_of_app. right. left.
  - intros H. destruct (index_some _ _ _ H) as (l1 & f & l2 & -> & L & Ek & F). exists f. split; [by apply list_lookup_middle|].
    apply String.eqb_eq in Ek. eapply taken_folded; [by apply not_key, index_none|reflexivity|exact Ek|].
    eapply Forall_impl; [exact F|]. intros g Hg. cbn in Hg. by apply String.eqb_neq in Hg.
Qed.
Lemma select_none fs k f : select (tag_names fs) k = None -> ~ taken_by fs k f.
Proof.
  unfold select. destruct (index (String.eqb k) (tag_names fs)) as [j|] eqn:E; [discriminate|]. intros H T. apply index_none in E. apply index_none in H.
  destruct T as [f Hf <-|l1 f l2 _ -> Ek _].
  - rewrite Forall_forall in E. specialize (E f Hf). by rewrite String.eqb_refl in E.
  - rewrite Forall_forall in H. specialize (H f). cbn in H. apply String.eqb_neq in H; [done|]. rewrite elem_of_app. right. left.
Qed.
Lemma taken_unique fs k f g : NoDup (keys fs) -> taken_by fs k f -> taken_by fs k g -> f = g.
Proof.
  intros ND Tf Tg.
  assert (Ex : forall f, f ∈ fs -> w_key f = k -> k ∈ keys fs) by (intros x Hx <-; by apply (elem_of_list_fmap_1 w_key)).
  destruct Tf as [f Hf Ef|l1 f l2 Nk E Ek F]; destruct Tg as [g Hg Eg|l1' g l2' Nk' E' Ek' F'].
  - clear Ex. induction fs as [|x fs IH]; [by apply elem_of_nil in Hf|]. cbn in ND. apply NoDup_cons in ND as [Nx ND].
    apply elem_of_cons in Hf as [->|Hf]; apply elem_of_cons in Hg as [->|Hg]; [done| | |by apply IH].
    + destruct Nx. rewrite Ef, <- Eg. by apply (elem_of_list_fmap_1 w_key).
    + destruct Nx. rewrite Eg, <- Ef. by apply (elem_of_list_fmap_1 w_key).
  - destruct Nk'. by apply (Ex f).
  - destruct Nk. by apply (Ex g).
  - rewrite E in E'. clear - E' Ek Ek' F F'. revert l1' E' F'. induction l1 as [|x l1 IH]; intros [|x' l1'] E' F'; cbn in E'; injection E' as E1 E2.
    + done.
    + subst. by inversion F'.
    + subst. by inversion F.
    + inversion F; inversion F'; subst. by apply (IH H2 l1').
Qed.
Lemma select_key fs i f : NoDup (keys fs) -> fs !! i = Some f -> select (tag_names fs) (w_key f) = Some i.
Proof.
  intros ND Hi. unfold select.
  assert (E : index (String.eqb (w_key f)) (tag_names fs) = Some i); [|by rewrite E].
  revert i Hi ND. induction fs as [|g fs IH]; intros [|i] Hi ND; try discriminate; cbn in *; fold (tag_names fs); apply NoDup_cons in ND as [Ng ND].
  - injection Hi as ->. by rewrite String.eqb_refl.
  - destruct (String.eqb_spec (w_key f) (w_key g)) as [E|_]; [|by rewrite (IH i Hi ND)].
    destruct Ng. rewrite <- E. apply elem_of_list_fmap. exists f. split; [done|]. by eapply elem_of_list_lookup_2.
Qed.
Lemma select_apart fs k : apart_from (keys fs) k -> select (tag_names fs) k = None.
Proof.
  intros A. destruct (select (tag_names fs) k) as [i|] eqn:E; [|done]. apply select_some in E as (f & Hi & T). unfold apart_from in A. rewrite Forall_forall in A.
  assert (Hf : f ∈ fs) by (by eapply elem_of_list_lookup_2). exfalso.
  apply (A (w_key f)); [by apply (elem_of_list_fmap_1 w_key)|]. by destruct T as [? ? ->| ].
Qed.
Lemma apart_not_key ks k : apart_from ks k -> k ∉ ks.
Proof. intros A H. unfold apart_from in A. rewrite Forall_forall in A. by apply (A k H). Qed.

Lemma elem_of_sublist' {A} (l k : list A) x : sublist l k -> x ∈ l -> x ∈ k.
Proof.
  induction 1 as [|y l k S IH|y l k S IH]; intros H; [done| |right; by apply IH]. apply elem_of_cons in H as [->|H]; [left|right; by apply IH].
Qed.
Lemma sublist_NoDup' {A} (l k : list A) : sublist l k -> NoDup k -> NoDup l.
Proof.
  induction 1 as [|x l k S IH|x l k S IH]; intros ND; [done| |]; apply NoDup_cons in ND as [N ND]; [|by apply IH].
  apply NoDup_cons. split; [|by apply IH]. intros Hx. apply N. by eapply elem_of_sublist'.
Qed.
Lemma NoDup_fst_unique {A} (l : list (string * A)) k x y : NoDup (map fst l) -> (k, x) ∈ l -> (k, y) ∈ l -> x = y.
Proof.
  induction l as [|[k' z] l IH]; intros ND Hx Hy; [by apply elem_of_nil in Hx|]. cbn in ND. apply NoDup_cons in ND as [N ND].
  apply elem_of_cons in Hx as [Hx|Hx]; apply elem_of_cons in Hy as [Hy|Hy]; [congruence| | |by apply IH].
  - injection Hx as -> ->. destruct N. by apply (elem_of_list_fmap_1 fst) in Hy.
  - injection Hy as -> ->. destruct N. by apply (elem_of_list_fmap_1 fst) in Hx.
Qed.
Lemma basic_cases t : t ∈ [TBool; TString; TDate; TTime; TInt32; TInt64; TFloat32; TFloat64; TInterface] ->
  match t with TNamed _ | TSlice _ | TCustom _ | TBroken => False | _ => True end.
Proof. intros H. repeat (apply elem_of_cons in H as [->|H]; [exact I|]). by apply elem_of_nil in H. Qed.

(** ** Definitions *)
Section wire.
  Variable env : string -> option wdef.
  Variable fuel : nat.
  Variables float32 float64 : num -> option num.
  Variables date time : string -> option string.
  Variable any : json -> json.
  Variables date0 time0 : string.
  Hypothesis (G : good_env env) (R : ranked env fuel).
  Notation resolve := (resolve env).
  Notation zero := (zero env date0 time0).
  Notation zero_field := (zero_field env fuel date0 time0).
  Notation decode := (decode env fuel float32 float64 date time any date0 time0).
  Notation encode := (encode env fuel).

  Definition depth (rank : string -> nat) (t : gotype) : nat := match t with TNamed n => S (rank n) | _ => O end.
  Lemma resolve_stable rank : (forall n b m, env n = Some (WType (TNamed b) m) -> (rank b < rank n)%nat) ->
    forall k k' t, (depth rank t <= k)%nat -> (depth rank t <= k')%nat -> resolve k t = resolve k' t.
  Proof.
    intros Ra. induction k as [|k IH]; intros k' t Hk Hk'; [destruct t; cbn in Hk; try lia; by destruct k'|].
    destruct t as [n| | | | | | | | | | | |]; try (by destruct k'). cbn in Hk, Hk'. destruct k' as [|k']; [lia|]. cbn.
    destruct (env n) as [[fs a|t' [] ]|] eqn:E; try reflexivity. f_equal. apply IH.
    - destruct t' as [b| | | | | | | | | | | |]; cbn; try lia. specialize (Ra _ _ _ E). lia.
    - destruct t' as [b| | | | | | | | | | | |]; cbn; try lia. specialize (Ra _ _ _ E). lia.
  Qed.
  Lemma resolve_struct n fs a : env n = Some (WStruct fs a) -> resolve fuel (TNamed n) = Some (ShStruct fs a (match a with Some _ => true | None => false end)).
  Proof. intros E. destruct R as (rank & Rf & _). specialize (Rf n). destruct fuel as [|k]; [lia|]. cbn. by rewrite E. Qed.
  Lemma resolve_defined n t b : env n = Some (WType t b) -> resolve fuel (TNamed n) = if b then Some (ShPlain TTime) else bare <$> resolve fuel t.
  Proof.
    intros E. destruct R as (rank & Rf & Ra & _). destruct fuel as [|k] eqn:Ek; [specialize (Rf n); lia|].
    assert (H : resolve k t = resolve (S k) t).
    { apply (resolve_stable rank Ra); destruct t as [m| | | | | | | | | | | |]; cbn; try lia.
      - specialize (Ra _ _ _ E). specialize (Rf n). lia.
      - specialize (Rf m). lia. }
    rewrite <- H. cbn. rewrite E. by destruct b.
  Qed.
  Lemma resolve_basic t : (forall n, t <> TNamed n) -> resolve fuel t = Some (ShPlain t).
  Proof. intros H. destruct t as [n| | | | | | | | | | | |]; try (by destruct fuel). by destruct (H n). Qed.
  (** With definitions that keep their functions, the shape of a defined type is that of what it is defined by. *)
  Lemma resolve_same n t b : env n = Some (WType t b) -> resolve fuel (TNamed n) = resolve fuel t.
  Proof.
    intros E. rewrite (resolve_defined _ _ _ E). pose proof (good_functions _ G _ _ _ E) as H.
    destruct t as [m| | | | | | | | | | | |]; cbn in H; try (subst b; rewrite !resolve_basic by discriminate; reflexivity); [|done].
    destruct H as [-> No]. clear E.
    assert (Hm : forall m, ~ own_functions (env m) -> bare <$> resolve fuel (TNamed m) = resolve fuel (TNamed m)); [|by apply Hm].
    intros x Nx.
    destruct (env x) as [[fs a|t [] ]|] eqn:Ex.
    - destruct a as [a|]; [by destruct Nx|]. by rewrite (resolve_struct _ _ _ Ex).
    - by destruct Nx.
    - rewrite (resolve_defined _ _ _ Ex). destruct (resolve fuel t) as [s|] eqn:Es; [|done]. cbn. f_equal.
      destruct s as [| [] |]; reflexivity.
    - assert (N : resolve fuel (TNamed x) = None) by (destruct fuel; [done|]; cbn; by rewrite Ex). by rewrite N.
  Qed.

  Lemma zero_stable rank : (forall n b m, env n = Some (WType (TNamed b) m) -> (rank b < rank n)%nat) ->
    (forall n fs a f b, env n = Some (WStruct fs a) -> f ∈ fs -> w_pointer f = false -> w_type f = TNamed b -> (rank b < rank n)%nat) ->
    forall k k' t, (depth rank t <= k)%nat -> (depth rank t <= k')%nat -> zero k t = zero k' t.
  Proof.
    intros Ra Rs. induction k as [|k IH]; intros k' t Hk Hk'; [destruct t; cbn in Hk; try lia; by destruct k'|].
    destruct t as [n| | | | | | | | | | | |]; try (by destruct k'). cbn in Hk, Hk'. destruct k' as [|k']; [lia|]. cbn.
    destruct (env n) as [[fs a|t' b]|] eqn:E; try reflexivity.
    - f_equal. apply List.map_ext_in. intros f Hf. apply elem_of_list_In in Hf. destruct (w_pointer f) eqn:P; [done|]. apply IH.
      + destruct (w_type f) as [x| | | | | | | | | | | |] eqn:T; cbn; try lia. specialize (Rs _ _ _ _ _ E Hf P T). lia.
      + destruct (w_type f) as [x| | | | | | | | | | | |] eqn:T; cbn; try lia. specialize (Rs _ _ _ _ _ E Hf P T). lia.
    - apply IH.
      + destruct t' as [x| | | | | | | | | | | |]; cbn; try lia. specialize (Ra _ _ _ E). lia.
      + destruct t' as [x| | | | | | | | | | | |]; cbn; try lia. specialize (Ra _ _ _ E). lia.
  Qed.
  Lemma zero_struct n fs a : env n = Some (WStruct fs a) -> zero fuel (TNamed n) = VStruct (map zero_field fs) [].
  Proof.
    intros E. destruct R as (rank & Rf & Ra & Rs). destruct fuel as [|k] eqn:Ek; [specialize (Rf n); lia|]. cbn. rewrite E. f_equal.
    apply List.map_ext_in. intros f Hf. apply elem_of_list_In in Hf. unfold Wire.zero_field. destruct (w_pointer f) eqn:P; [done|].
    apply (zero_stable rank Ra Rs); destruct (w_type f) as [x| | | | | | | | | | | |] eqn:T; cbn; try lia.
    - specialize (Rs _ _ _ _ _ E Hf P T). specialize (Rf n). lia.
    - specialize (Rf x). lia.
  Qed.
  Lemma zero_defined n t b : env n = Some (WType t b) -> zero fuel (TNamed n) = zero fuel t.
  Proof.
    intros E. destruct R as (rank & Rf & Ra & Rs). destruct fuel as [|k] eqn:Ek; [specialize (Rf n); lia|].
    assert (H : zero k t = zero (S k) t); [|rewrite <- H; cbn; by rewrite E].
    apply (zero_stable rank Ra Rs); destruct t as [m| | | | | | | | | | | |]; cbn; try lia.
    - specialize (Ra _ _ _ E). specialize (Rf n). lia.
    - specialize (Rf m). lia.
  Qed.

  (** ** Reading, unfolded *)
  Definition read_field (f : wfield) (x : json) : option gv :=
    if w_pointer f then match x with JNull => Some VNil | _ => VPtr <$> decode x (w_type f) end else decode x (w_type f).
  Definition read_members (fs : list wfield) :=
    fix members (kvs : list (string * json)) (vs : list gv) : option (list gv) :=
      match kvs with
      | [] => Some vs
      | (k, x) :: r =>
          match select (names fs) k with
          | None => members r vs
          | Some i =>
              match fs !! i with
              | None => None
              | Some f => match read_field f x with Some v => members r (<[i := v]> vs) | None => None end
              end
          end
      end.
  Definition read_extras (fs : list wfield) (ta : gotype) :=
    fix extras (kvs : list (string * json)) (m : list (string * gv)) : option (list (string * gv)) :=
      match kvs with
      | [] => Some m
      | (k, x) :: r =>
          match decode x ta with
          | Some v => extras r (if existsb (fun f => String.eqb (w_key f) k) fs then m else put k v m)
          | None => None
          end
      end.
  Definition read_list (e : gotype) :=
    fix elements (l : list json) : option (list gv) :=
      match l with
      | [] => Some []
      | x :: r => match decode x e, elements r with Some v, Some vs => Some (v :: vs) | _, _ => None end
      end.
  Lemma decode_struct t fs a own kvs : resolve fuel t = Some (ShStruct fs a own) ->
    decode (JObj kvs) t =
    match read_members fs kvs (map zero_field fs), (match own, a with true, Some ta => read_extras fs ta kvs [] | _, _ => Some [] end) with
    | Some vs, Some m => Some (VStruct vs m)
    | _, _ => None
    end.
  Proof. intros E. cbn [Wire.decode]. rewrite E. reflexivity. Qed.
  Lemma decode_plain t p j : resolve fuel t = Some (ShPlain p) ->
    decode j t =
    match p, j with
    | TSlice _, JNull | TInterface, JNull => Some VNil
    | (TBool | TString | TInt32 | TInt64 | TFloat32 | TFloat64 | TDate | TTime), JNull => Some (zero fuel t)
    | TBool, JBool b => Some (VBool b)
    | TString, JStr s => Some (VStr s)
    | TInt32, JNum (Int z) => if in_range 32 z then Some (VInt z) else None
    | TInt64, JNum (Int z) => if in_range 64 z then Some (VInt z) else None
    | TFloat32, JNum n => VNum <$> float32 n
    | TFloat64, JNum n => VNum <$> float64 n
    | TDate, JStr s => VAtom <$> date s
    | TTime, JStr s => VAtom <$> time s
    | TInterface, _ => Some (VAny (any j))
    | TSlice e, JArr l => match read_list e l with Some vs => Some (VSlice vs) | None => None end
    | _, _ => None
    end.
  Proof. intros E. destruct j; cbn [Wire.decode]; rewrite E; reflexivity. Qed.
  Lemma decode_struct_other t fs a own j : resolve fuel t = Some (ShStruct fs a own) -> (forall kvs, j <> JObj kvs) ->
    decode j t = match j with JNull => Some (zero fuel t) | _ => None end.
  Proof. intros E N. destruct j as [| | | | |kvs]; cbn [Wire.decode]; rewrite E; try reflexivity. by destruct (N kvs). Qed.
  Lemma decode_none t j : resolve fuel t = None -> decode j t = None.
  Proof. intros E. destruct j; cbn [Wire.decode]; rewrite E; reflexivity. Qed.
  Lemma decode_defined n t b j : env n = Some (WType t b) -> decode j (TNamed n) = decode j t.
  Proof.
    intros E. pose proof (resolve_same _ _ _ E) as S. pose proof (zero_defined _ _ _ E) as Z. destruct (resolve fuel t) as [[fs a own|p|]|] eqn:Er.
    - destruct j as [| | | | |kvs].
      6: { rewrite (decode_struct _ _ _ _ _ S), (decode_struct _ _ _ _ _ Er). reflexivity. }
      all: rewrite (decode_struct_other _ _ _ _ _ S) by discriminate; rewrite (decode_struct_other _ _ _ _ _ Er) by discriminate; try reflexivity; by rewrite Z.
    - rewrite (decode_plain _ _ _ S), (decode_plain _ _ _ Er). by rewrite Z.
    - destruct j; cbn [Wire.decode]; rewrite S, Er; try reflexivity; by rewrite Z.
    - by rewrite (decode_none _ _ S), (decode_none _ _ Er).
  Qed.

  (** ** Writing, unfolded *)
  Definition write_field (f : wfield) (v : gv) : option json :=
    if w_pointer f then match v with VNil => Some JNull | VPtr v' => encode v' (w_type f) | _ => None end else encode v (w_type f).
  Definition write_members :=
    fix members (ns : list (option string)) (fs : list wfield) (vs : list gv) {struct vs} : option (list (string * json)) :=
      match vs, ns, fs with
      | [], [], [] => Some []
      | v :: vs, n :: ns, f :: fs =>
          match members ns fs vs with
          | None => None
          | Some r =>
              match n with
              | None => Some r
              | Some k =>
                  if (w_omit f && empty v)%bool then Some r
                  else match write_field f v with Some x => Some ((k, x) :: r) | None => None end
              end
          end
      | _, _, _ => None
      end.
  Definition write_extras (ta : gotype) :=
    fix extras (m : list (string * gv)) : option (list (string * json)) :=
      match m with
      | [] => Some []
      | (k, v) :: r => match encode v ta, extras r with Some x, Some xs => Some ((k, x) :: xs) | _, _ => None end
      end.
  Definition write_list (e : gotype) :=
    fix elements (l : list gv) : option (list json) :=
      match l with
      | [] => Some []
      | x :: r => match encode x e, elements r with Some j, Some js => Some (j :: js) | _, _ => None end
      end.
  Lemma encode_struct t fs a own vs m : resolve fuel t = Some (ShStruct fs a own) ->
    encode (VStruct vs m) t =
    match write_members (names fs) fs vs, (match own, a with true, Some ta => write_extras ta m | _, _ => Some [] end) with
    | Some ms, Some xs => Some (JObj (ms ++ xs))
    | _, _ => None
    end.
  Proof. intros E. cbn [Wire.encode]. rewrite E. reflexivity. Qed.
  Lemma encode_plain t p v : resolve fuel t = Some (ShPlain p) ->
    encode v t =
    match p, v with
    | TBool, VBool b => Some (JBool b)
    | TString, VStr s => Some (JStr s)
    | (TInt32 | TInt64), VInt z => Some (JNum (Int z))
    | (TFloat32 | TFloat64), VNum n => Some (JNum n)
    | (TDate | TTime), VAtom s => Some (JStr s)
    | TInterface, VNil => Some JNull
    | TInterface, VAny j => Some j
    | TSlice _, VNil => Some JNull
    | TSlice e, VSlice l => match write_list e l with Some js => Some (JArr js) | None => None end
    | _, _ => None
    end.
  Proof. intros E. destruct v; cbn [Wire.encode]; rewrite E; reflexivity. Qed.
  Lemma encode_same t t' v : resolve fuel t = resolve fuel t' -> encode v t = encode v t'.
  Proof. intros E. destruct v; cbn [Wire.encode]; rewrite E; reflexivity. Qed.
  Lemma encode_defined n t b v : env n = Some (WType t b) -> encode v (TNamed n) = encode v t.
  Proof. intros E. apply encode_same. by apply resolve_same with b. Qed.

  (** ** What a defined type stands for *)
  Inductive chain : gotype -> gotype -> Prop :=
  | chain_here t : chain t t
  | chain_step n t b t0 : env n = Some (WType t b) -> chain t t0 -> chain (TNamed n) t0.
  Definition base (t : gotype) : Prop := (forall n, t <> TNamed n) \/ (exists n fs a, t = TNamed n /\ env n = Some (WStruct fs a)).
  Lemma chain_resolve t t0 : chain t t0 -> resolve fuel t = resolve fuel t0.
  Proof. induction 1 as [|n t b t0 E _ IH]; [done|]. by rewrite (resolve_same _ _ _ E). Qed.
  Lemma chain_decode t t0 j : chain t t0 -> decode j t = decode j t0.
  Proof. induction 1 as [|n t b t0 E _ IH]; [done|]. by rewrite (decode_defined _ _ _ _ E). Qed.
  Lemma chain_encode t t0 v : chain t t0 -> encode v t = encode v t0.
  Proof. intros C. apply encode_same. by apply chain_resolve. Qed.
  Lemma chain_base t : all_known env -> known env t -> exists t0, chain t t0 /\ base t0 /\ known env t0.
  Proof.
    intros K. destruct R as (rank & Rf & Ra & Rs).
    assert (H : forall k t, (depth rank t <= k)%nat -> known env t -> exists t0, chain t t0 /\ base t0 /\ known env t0); [|intros; by apply (H (depth rank t))].
    clear t. induction k as [|k IH]; intros t Hk Kt.
    - exists t. split; [constructor|]. split; [|done]. left. intros n ->. cbn in Hk. lia.
    - destruct t as [n| | | | | | | | | | | |]; try (eexists; split; [constructor|]; split; [left; discriminate|done]).
      inversion Kt as [? H| |? [d E]]; subst; [by apply basic_cases in H|].
      destruct d as [fs a|t b].
      + exists (TNamed n). split; [constructor|]. split; [right; by exists n, fs, a|done].
      + destruct (IH t) as (t0 & C & B & K0).
        * destruct t as [m| | | | | | | | | | | |]; cbn in *; try lia. specialize (Ra _ _ _ E). lia.
        * exact (K n _ E).
        * exists t0. split; [by eapply chain_step|done].
  Qed.

  (** ** What is read *)
  Notation fits := (fits env float32 float64 date time).
  Lemma in_range_32 z : in_range 32 z = true <-> (- 2 ^ 31 <= z < 2 ^ 31)%Z.
  Proof. unfold in_range. rewrite andb_true_iff, Z.leb_le, Z.ltb_lt. reflexivity. Qed.
  Lemma in_range_64 z : in_range 64 z = true <-> (- 2 ^ 63 <= z < 2 ^ 63)%Z.
  Proof. unfold in_range. rewrite andb_true_iff, Z.leb_le, Z.ltb_lt. reflexivity. Qed.
  Lemma decode_null t : all_known env -> known env t -> is_Some (decode JNull t).
  Proof.
    intros K Kt. destruct (chain_base t K Kt) as (t0 & C & B & K0). rewrite (chain_decode _ _ _ C).
    destruct B as [B|(n & fs & a & -> & E)].
    - rewrite (decode_plain _ t0 _ (resolve_basic t0 B)). destruct t0; try (eexists; reflexivity); try by destruct (B n).
      all: inversion K0 as [? H| |]; subst; by apply basic_cases in H.
    - rewrite (decode_struct_other _ _ _ _ _ (resolve_struct _ _ _ E)) by discriminate. by eexists.
  Qed.
  Lemma read_members_cons fs k x r vs : read_members fs ((k, x) :: r) vs =
    match select (names fs) k with
    | None => read_members fs r vs
    | Some i =>
        match fs !! i with
        | None => None
        | Some f => match read_field f x with Some v => read_members fs r (<[i := v]> vs) | None => None end
        end
    end.
  Proof. reflexivity. Qed.
  Lemma read_extras_cons fs ta k x r m : read_extras fs ta ((k, x) :: r) m =
    match decode x ta with
    | Some v => read_extras fs ta r (if existsb (fun f => String.eqb (w_key f) k) fs then m else put k v m)
    | None => None
    end.
  Proof. reflexivity. Qed.
  Lemma read_list_cons e x r : read_list e (x :: r) = match decode x e, read_list e r with Some v, Some vs => Some (v :: vs) | _, _ => None end.
  Proof. reflexivity. Qed.
  Lemma read_members_some fs kvs vs : good_keys fs ->
    is_Some (read_members fs kvs vs) <-> (forall k x f, (k, x) ∈ kvs -> taken_by fs k f -> is_Some (read_field f x)).
  Proof.
    intros Gk. revert vs. induction kvs as [|[k x] kvs IH]; intros vs.
    - split; [|by eexists]. intros _ k x f H. by apply elem_of_nil in H.
    - rewrite read_members_cons. destruct (select (names fs) k) as [i|] eqn:E; rewrite (names_good _ Gk) in E.
      + destruct (select_some _ _ _ E) as (f & Hi & T). rewrite Hi. split.
        * destruct (read_field f x) as [v|] eqn:Ef; [|by intros [? ?]]. intros H k' x' f' Hin T'.
          apply elem_of_cons in Hin as [[= -> ->]|Hin].
          { destruct Gk as [ND _]. by rewrite (taken_unique _ _ _ _ ND T' T), Ef. }
          by apply (proj1 (IH (<[i:=v]> vs)) H k' x' f').
        * intros H. destruct (H k x f) as [v Ef]; [left|exact T|]. rewrite Ef. apply IH. intros k' x' f' Hin. apply (H k' x' f'). by right.
      + rewrite IH. split; intros H k' x' f' Hin T'.
        * apply elem_of_cons in Hin as [[= -> ->]|Hin]; [by apply (select_none _ _ _ E) in T'|by apply (H k' x' f')].
        * apply (H k' x' f'); [by right|exact T'].
  Qed.
  Lemma read_extras_some fs ta kvs m : is_Some (read_extras fs ta kvs m) <-> (forall k x, (k, x) ∈ kvs -> is_Some (decode x ta)).
  Proof.
    revert m. induction kvs as [|[k x] kvs IH]; intros m.
    - split; [|by eexists]. intros _ k x H. by apply elem_of_nil in H.
    - rewrite read_extras_cons. destruct (decode x ta) as [v|] eqn:E.
      + rewrite IH. split; intros H k' x' Hin.
        * apply elem_of_cons in Hin as [[= -> ->]|Hin]; [by rewrite E|by apply (H k')].
        * apply (H k'). by right.
      + split; [by intros [? ?]|]. intros H. destruct (H k x) as [v Ev]; [left|]. by rewrite E in Ev.
  Qed.
  Lemma read_list_some e l : is_Some (read_list e l) <-> (forall x, x ∈ l -> is_Some (decode x e)).
  Proof.
    induction l as [|x l IH].
    - split; [|by eexists]. intros _ x H. by apply elem_of_nil in H.
    - rewrite read_list_cons. split.
      + destruct (decode x e) as [v|] eqn:E; [|by intros [? ?]]. destruct (read_list e l) as [vs|]; [|by intros [? ?]]. intros _ y Hy.
        apply elem_of_cons in Hy as [->|Hy]; [by rewrite E|]. by apply IH; [eexists|].
      + intros H. destruct (H x) as [v ->]; [left|]. destruct (proj2 IH) as [vs ->]; [|by eexists]. intros y Hy. apply H. by right.
  Qed.
  Lemma read_field_some f x : all_known env -> known env (w_type f) -> is_Some (read_field f x) <-> is_Some (decode x (w_type f)).
  Proof.
    intros K Kf. unfold read_field. destruct (w_pointer f); [|done]. destruct x; try (rewrite fmap_is_Some; done).
    split; intros _; [by apply decode_null|by eexists].
  Qed.
  Lemma fits_known ok t j : all_known env -> fits ok t j -> known env t.
  Proof.
    intros K. induction 1; try (apply known_basic; repeat (left || right); fail); try done.
    - apply known_slice. done.
    - apply known_name. by eexists.
    - apply known_name. by eexists.
  Qed.
  Lemma fits_decode ok t j : all_known env -> fits ok t j -> is_Some (decode j t).
  Proof.
    intros K. induction 1 as [t Kt|b|s|z Hz|z Hz|n Hn|n Hn|s Hs|s Hs|j|e l Ke Hl IH|n fs a kvs E H1 IH1 H2 IH2 Ho|n t b j E H IH].
    - by apply decode_null.
    - rewrite (decode_plain _ _ _ (resolve_basic TBool ltac:(discriminate))). by eexists.
    - rewrite (decode_plain _ _ _ (resolve_basic TString ltac:(discriminate))). by eexists.
    - rewrite (decode_plain _ _ _ (resolve_basic TInt32 ltac:(discriminate))). apply in_range_32 in Hz. rewrite Hz. by eexists.
    - rewrite (decode_plain _ _ _ (resolve_basic TInt64 ltac:(discriminate))). apply in_range_64 in Hz. rewrite Hz. by eexists.
    - rewrite (decode_plain _ _ _ (resolve_basic TFloat32 ltac:(discriminate))). by rewrite fmap_is_Some.
    - rewrite (decode_plain _ _ _ (resolve_basic TFloat64 ltac:(discriminate))). by rewrite fmap_is_Some.
    - rewrite (decode_plain _ _ _ (resolve_basic TDate ltac:(discriminate))). by rewrite fmap_is_Some.
    - rewrite (decode_plain _ _ _ (resolve_basic TTime ltac:(discriminate))). by rewrite fmap_is_Some.
    - rewrite (decode_plain _ _ _ (resolve_basic TInterface ltac:(discriminate))). destruct j; by eexists.
    - rewrite (decode_plain _ _ _ (resolve_basic (TSlice e) ltac:(discriminate))). destruct (proj2 (read_list_some e l) IH) as [vs ->]. by eexists.
    - rewrite (decode_struct _ _ _ _ _ (resolve_struct _ _ _ E)). pose proof (good_tags _ G _ _ _ E) as Gk. destruct (K _ _ E) as [Kf _]. rewrite Forall_forall in Kf.
      destruct (proj2 (read_members_some fs kvs (map zero_field fs) Gk)) as [vs ->].
      { intros k x f Hin T. apply read_field_some; [done| |by apply (IH1 k)]. apply Kf. destruct T as [f Hf _|l1 f l2 _ -> _ _]; [done|].
        rewrite elem_of_app. right. left. }
      destruct a as [ta|]; [|by eexists]. destruct (proj2 (read_extras_some fs ta kvs [])) as [m ->]; [|by eexists]. intros k x Hin. by apply (IH2 k x ta).
    - by rewrite (decode_defined _ _ _ _ E).
  Qed.
  Lemma chain_fits ok t t0 j : chain t t0 -> fits ok t0 j -> fits ok t j.
  Proof. induction 1 as [|n t b t0 E _ IH]; [done|]. intros H. eapply fits_defined; [exact E|by apply IH]. Qed.
  Lemma decode_fits t j : all_known env -> known env t -> is_Some (decode j t) -> fits (fun _ _ => True) t j.
  Proof.
    intros K. revert t. induction j as [|b|n|s|l IH|kvs IH] using json_induction; intros t Kt D; [by constructor|..].
    all: destruct (chain_base t K Kt) as (t0 & C & B & K0); rewrite (chain_decode _ _ _ C) in D; apply (chain_fits _ _ _ _ C); clear C Kt.
    all: destruct B as [B|(x & fs & a & -> & E)];
      [rewrite (decode_plain _ t0 _ (resolve_basic t0 B)) in D; destruct t0 as [y| | | | | | | | |e| | |]; try (by destruct (B y)); try (by destruct D); try (by constructor)|].
    all: try (rewrite (decode_struct_other _ _ _ _ _ (resolve_struct _ _ _ E)) in D by discriminate; by destruct D).
    - destruct n as [z|]; [|by destruct D]. apply fits_int32. destruct (in_range 32 z) eqn:Ez; [by apply in_range_32|by destruct D].
    - destruct n as [z|]; [|by destruct D]. apply fits_int64. destruct (in_range 64 z) eqn:Ez; [by apply in_range_64|by destruct D].
    - apply fits_float32. by rewrite fmap_is_Some in D.
    - apply fits_float64. by rewrite fmap_is_Some in D.
    - apply fits_date. by rewrite fmap_is_Some in D.
    - apply fits_time. by rewrite fmap_is_Some in D.
    - assert (Ke : known env e) by (inversion K0 as [? H| |]; [by apply basic_cases in H|done]).
      apply fits_slice; [done|]. intros x Hx. rewrite Forall_forall in IH. apply (IH x Hx); [done|]. revert x Hx. apply read_list_some.
      destruct (read_list e l); [by eexists|by destruct D].
    - rewrite (decode_struct _ _ _ _ _ (resolve_struct _ _ _ E)) in D. pose proof (good_tags _ G _ _ _ E) as Gk. destruct (K _ _ E) as [Kf Ka].
      rewrite Forall_forall in Kf. rewrite Forall_forall in IH.
      destruct (read_members fs kvs (map zero_field fs)) as [vs|] eqn:Em; [|by destruct D].
      eapply fits_struct; [exact E| | |done].
      + intros k x' f Hin T. apply (IH (k, x') Hin).
        * apply Kf. destruct T as [f Hf _|l1 f l2 _ -> _ _]; [done|]. rewrite elem_of_app. right. left.
        * apply read_field_some; [done| |].
          -- apply Kf. destruct T as [f Hf _|l1 f l2 _ -> _ _]; [done|]. rewrite elem_of_app. right. left.
          -- apply (proj1 (read_members_some fs kvs (map zero_field fs) Gk)) with k; [by eexists|done|done].
      + intros k x' ta Hin ->. apply (IH (k, x') Hin); [by apply Ka|]. revert k x' Hin. apply (read_extras_some fs ta kvs []).
        destruct (read_extras fs ta kvs []); [by eexists|by destruct D].
  Qed.

  (** ** What is written comes back *)
  Section typed.
    Variable ok_field : wfield -> gv -> Prop.
    Variable ok_item : gv -> Prop.
    Variable ok_extra : list wfield -> string -> Prop.
    Notation has_type := (has_type env float32 float64 date time any ok_field ok_item ok_extra).
    Notation field_type := (field_type env float32 float64 date time any ok_field ok_item ok_extra).
    Lemma typed_base t v : has_type t v -> exists t0, chain t t0 /\ base t0 /\ has_type t0 v.
    Proof.
      induction 1 as [| | | | | | | | | | | |n fs a vs m E F Hn Hm ND|n t b v E H (t0 & C & B & H0)].
      all: try (eexists; split; [constructor|]; split; [left; discriminate|econstructor; eassumption]).
      - exists (TNamed n). split; [constructor|]. split; [right; by exists n, fs, a|]. by eapply ht_struct.
      - exists t0. split; [by eapply chain_step|done].
    Qed.
    Lemma empty_zero t v : has_type t v -> empty v = true -> v <> VSlice [] -> v = zero fuel t.
    Proof.
      induction 1 as [[]|s|z Hz|z Hz|[z|]|[z|]|s|s| |j Hj|e|e l Hl|n fs a vs m E F Hn Hm ND|n t b v E H IH]; intros Em N; try discriminate Em.
      all: try (by destruct fuel).
      - cbn in Em. apply String.eqb_eq in Em as ->. by destruct fuel.
      - cbn in Em. apply Z.eqb_eq in Em as ->. by destruct fuel.
      - cbn in Em. apply Z.eqb_eq in Em as ->. by destruct fuel.
      - cbn in Em. apply Z.eqb_eq in Em as ->. by destruct fuel.
      - cbn in Em. apply Z.eqb_eq in Em as ->. by destruct fuel.
      - destruct l; [done|discriminate Em].
      - rewrite (zero_defined _ _ _ E). by apply IH.
    Qed.
  End typed.
  Lemma write_members_cons n ns f fs v vs : write_members (n :: ns) (f :: fs) (v :: vs) =
    match write_members ns fs vs with
    | None => None
    | Some r =>
        match n with
        | None => Some r
        | Some k => if (w_omit f && empty v)%bool then Some r else match write_field f v with Some x => Some ((k, x) :: r) | None => None end
        end
    end.
  Proof. reflexivity. Qed.
  Lemma write_list_cons e x r : write_list e (x :: r) = match encode x e, write_list e r with Some j, Some js => Some (j :: js) | _, _ => None end.
  Proof. reflexivity. Qed.
  Lemma write_extras_cons ta k v r : write_extras ta ((k, v) :: r) = match encode v ta, write_extras ta r with Some x, Some xs => Some ((k, x) :: xs) | _, _ => None end.
  Proof. reflexivity. Qed.

  Lemma read_members_apart fs kvs vs : good_keys fs -> (forall k x, (k, x) ∈ kvs -> apart_from (keys fs) k) -> read_members fs kvs vs = Some vs.
  Proof.
    intros Gk. revert vs. induction kvs as [|[k x] kvs IH]; intros vs H; [reflexivity|]. rewrite read_members_cons, (names_good _ Gk).
    rewrite (select_apart fs k); [|apply (H k x); left]. apply IH. intros k' x' Hin. apply (H k' x'). by right.
  Qed.
  (** Fields one after the other. *)
  Lemma read_written fs1 fs2 vs1 vs2 tail : good_keys (fs1 ++ fs2) -> List.length vs1 = List.length fs1 ->
    Forall2 (fun f v => (w_omit f = true -> empty v = true -> v = zero_field f) /\ (exists x, write_field f v = Some x /\ read_field f x = Some v)) fs2 vs2 ->
    exists ms, write_members (tag_names fs2) fs2 vs2 = Some ms /\
      (forall k x, (k, x) ∈ ms -> exists f v, f ∈ fs2 /\ w_key f = k /\ write_field f v = Some x /\ read_field f x = Some v) /\
      read_members (fs1 ++ fs2) (ms ++ tail) (vs1 ++ map zero_field fs2) = read_members (fs1 ++ fs2) tail (vs1 ++ vs2).
  Proof.
    intros Gk L F. revert fs1 vs1 Gk L. induction F as [|f v fs2 vs2 [Hz (x & Hw & Hr)] F IH]; intros fs1 vs1 Gk L.
    - exists []. split; [reflexivity|]. split; [|reflexivity]. intros k x H. by apply elem_of_nil in H.
    - destruct (IH (fs1 ++ [f]) (vs1 ++ [v])) as (ms & Ew & Hms & Er); [by rewrite <- app_assoc|by rewrite !app_length, L|].
      rewrite <- !app_assoc in Er. cbn [app] in Er.
      cbn [tag_names map]. rewrite write_members_cons. fold (tag_names fs2). rewrite Ew.
      destruct (w_omit f && empty v)%bool eqn:Eo.
      + apply andb_true_iff in Eo as [Eo Ee]. exists ms. split; [reflexivity|]. split.
        { intros k y Hin. destruct (Hms k y Hin) as (g & u & Hg & Rest). exists g, u. split; [by right|exact Rest]. }
        rewrite <- (Hz Eo Ee). exact Er.
      + rewrite Hw. exists ((w_key f, x) :: ms). split; [reflexivity|]. split.
        { intros k y Hin. apply elem_of_cons in Hin as [[= -> ->]|Hin].
          - exists f, v. split; [left|]. by split.
          - destruct (Hms k y Hin) as (g & u & Hg & Rest). exists g, u. split; [by right|exact Rest]. }
        cbn [app]. rewrite read_members_cons, (names_good _ Gk).
        assert (Hl : (fs1 ++ f :: fs2) !! List.length fs1 = Some f) by (by apply list_lookup_middle).
        rewrite (select_key _ (List.length fs1) f (proj1 Gk) Hl). rewrite Hl, Hr. rewrite <- L, insert_app_r_alt by lia. rewrite Nat.sub_diag. cbn. exact Er.
  Qed.
  Lemma put_new (k : string) (v : gv) m : k ∉ map fst m -> put k v m = m ++ [(k, v)].
  Proof.
    induction m as [|[k' v'] m IH]; intros N; [reflexivity|]. cbn. destruct (String.eqb_spec k' k) as [->|_]; [destruct N; left|].
    f_equal. apply IH. intros H. apply N. by right.
  Qed.
  Lemma declared_key fs k : existsb (fun f => String.eqb (w_key f) k) fs = true <-> k ∈ keys fs.
  Proof.
    rewrite existsb_exists. unfold keys. rewrite elem_of_list_fmap. split.
    - intros (f & Hf & E). apply String.eqb_eq in E. exists f. split; [done|]. by apply elem_of_list_In.
    - intros (f & -> & Hf). exists f. split; [by apply elem_of_list_In|apply String.eqb_refl].
  Qed.
  Lemma read_extras_declared fs ta ms tail m : (forall k x, (k, x) ∈ ms -> k ∈ keys fs /\ is_Some (decode x ta)) ->
    read_extras fs ta (ms ++ tail) m = read_extras fs ta tail m.
  Proof.
    induction ms as [|[k x] ms IH]; intros H; [reflexivity|]. cbn [app]. rewrite read_extras_cons. destruct (H k x) as [Hk [v ->]]; [left|].
    apply declared_key in Hk. rewrite Hk. apply IH. intros k' x' Hin. apply (H k' x'). by right.
  Qed.
  Lemma read_extras_written fs ta m1 m : NoDup (map fst (m1 ++ m)) -> (forall k v, (k, v) ∈ m -> k ∉ keys fs) ->
    Forall (fun kv => exists x, encode kv.2 ta = Some x /\ decode x ta = Some kv.2) m ->
    exists xs, write_extras ta m = Some xs /\ map fst xs = map fst m /\ read_extras fs ta xs m1 = Some (m1 ++ m).
  Proof.
    intros ND N F. revert m1 ND. induction F as [|[k v] m (x & Ex & Dx) F IH]; intros m1 ND.
    - exists []. rewrite app_nil_r. by repeat split.
    - destruct (IH (fun k' v' H => N k' v' (elem_of_list_further _ _ _ H)) (m1 ++ [(k, v)])) as (xs & Ew & Ek & Er).
      { by rewrite <- app_assoc. }
      exists ((k, x) :: xs). rewrite write_extras_cons. cbn in Ex, Dx. rewrite Ex, Ew. split; [reflexivity|]. split; [cbn; by rewrite Ek|].
      rewrite read_extras_cons, Dx. destruct (existsb _ fs) eqn:Ed.
      { apply declared_key in Ed. destruct (N k v); [left|done]. }
      rewrite put_new. { by rewrite Er, <- app_assoc. }
      rewrite map_app in ND. apply NoDup_app in ND as (_ & Hd & _). intros H. apply (Hd k H). left.
  Qed.
  Lemma write_list_back e l : Forall (fun v => exists x, encode v e = Some x /\ decode x e = Some v) l ->
    exists js, write_list e l = Some js /\ read_list e js = Some l.
  Proof.
    induction 1 as [|v l (x & Ex & Dx) F (js & Ew & Er)]; [by exists []|]. exists (x :: js). by rewrite write_list_cons, read_list_cons, Ex, Ew, Dx, Er.
  Qed.

  Notation survivor := (has_type env float32 float64 date time any kept_field (fun _ => True) kept_extra).
  Notation survivor_field := (field_type env float32 float64 date time any kept_field (fun _ => True) kept_extra).
  Definition back (v : gv) : Prop := forall t, survivor t v -> exists j, encode v t = Some j /\ decode j t = Some v /\ (j = JNull -> v = VNil).
  Lemma field_back f v : back v -> (forall v', v = VPtr v' -> back v') -> survivor_field f v -> kept_field f v ->
    (w_omit f = true -> empty v = true -> v = zero_field f) /\ (exists x, write_field f v = Some x /\ read_field f x = Some v).
  Proof.
    intros Hb Hp T [Kp Ks]. split.
    - intros Eo Ee. unfold Wire.zero_field. inversion T as [? P|? v' P T'|? ? P T']; subst; rewrite P; [done|discriminate Ee|].
      eapply empty_zero; [exact T'|exact Ee|by apply Ks].
    - unfold write_field, read_field. inversion T as [? P|? v' P T'|? ? P T']; subst; rewrite P.
      + by exists JNull.
      + destruct (Hp v' eq_refl _ T') as (j & Ej & Dj & Nj). exists j. split; [done|]. destruct j; try (by rewrite Dj). destruct Kp. by rewrite Nj.
      + destruct (Hb _ T') as (j & Ej & Dj & _). by exists j.
  Qed.
  Lemma comes_back_strong v : all_known env -> back v /\ (forall v', v = VPtr v' -> back v').
  Proof.
    intros K. induction v as [|b|s|z|n|s|j|v [IH _]|l IH|vs m IHv IHm] using gv_induction.
    all: split; [|intros v' Ev; first [discriminate Ev|injection Ev as <-; exact IH]].
    all: intros t H; destruct (typed_base _ _ _ _ _ H) as (t0 & C & B & H0); rewrite (chain_encode _ _ _ C).
    all: setoid_rewrite (chain_decode _ _ _ C); clear C H; rename H0 into H.
    all: destruct B as [B|(x & fs & a & -> & E)];
      [rewrite (encode_plain _ t0 _ (resolve_basic t0 B)); setoid_rewrite (decode_plain _ t0 _ (resolve_basic t0 B));
       inversion H; subst; try (by destruct (B n)); try (by destruct (B n0)); try (eexists; split; [reflexivity|]; split; [reflexivity|by intros])
      |try (exfalso; inversion H; subst; congruence)].
    - exists (JNum (Int z)). split; [reflexivity|]. split; [|discriminate]. by rewrite (proj2 (in_range_32 z)).
    - exists (JNum (Int z)). split; [reflexivity|]. split; [|discriminate]. by rewrite (proj2 (in_range_64 z)).
    - exists (JNum n). split; [reflexivity|]. split; [|discriminate]. match goal with Hx : float32 _ = _ |- _ => by rewrite Hx end.
    - exists (JNum n). split; [reflexivity|]. split; [|discriminate]. match goal with Hx : float64 _ = _ |- _ => by rewrite Hx end.
    - exists (JStr s). split; [reflexivity|]. split; [|discriminate]. match goal with Hx : date _ = _ |- _ => by rewrite Hx end.
    - exists (JStr s). split; [reflexivity|]. split; [|discriminate]. match goal with Hx : time _ = _ |- _ => by rewrite Hx end.
    - exists j. split; [reflexivity|]. split; [|done]. match goal with Hx : any _ = _ |- _ => rewrite Hx end. by destruct j.
    - match goal with Hx : Forall _ l |- _ => rename Hx into Hl end. destruct (write_list_back e l) as (js & Ew & Er).
      { apply Forall_forall. intros v Hv. rewrite Forall_forall in IH. rewrite Forall_forall in Hl.
        destruct (proj1 (IH v Hv) e) as (j & Ej & Dj & _); [by apply Hl|by exists j]. }
      exists (JArr js). rewrite Ew, Er. split; [reflexivity|]. split; [reflexivity|discriminate].
    - inversion H as [| | | | | | | | | | | |n' fs' a' vs' m' E' F Hn Hm ND|n' t' b v' E']; subst; [|congruence].
      rewrite E in E'. injection E' as <- <-. pose proof (good_tags _ G _ _ _ E) as Gk. destruct (K _ _ E) as [Kf Ka]. rewrite Forall_forall in Kf.
      pose proof (resolve_struct _ _ _ E) as Rs. rewrite (encode_struct _ _ _ _ _ _ Rs).
      assert (F' : Forall2 (fun f v => (w_omit f = true -> empty v = true -> v = zero_field f) /\ (exists x, write_field f v = Some x /\ read_field f x = Some v)) fs vs).
      { clear - F IHv R G. induction F as [|f v fs vs [T Kp] F IH]; [constructor|]. inversion IHv as [|? ? [Hb Hp] IHv']; subst.
        constructor; [by apply field_back|by apply IH]. }
      assert (Hx : exists xs, (if match a with Some _ => true | None => false end then match a with Some ta => write_extras ta m | None => Some [] end else Some []) = Some xs /\
                (forall k x, (k, x) ∈ xs -> apart_from (keys fs) k) /\
                (forall ta, a = Some ta -> read_extras fs ta xs [] = Some m)).
      { destruct a as [ta|]; [|exists []; split; [done|]; split; [intros k y Hin; by apply elem_of_nil in Hin|discriminate]].
        specialize (Hm ta eq_refl). rewrite Forall_forall in Hm. rewrite Forall_forall in IHm.
        destruct (read_extras_written fs ta [] m) as (xs & Ew & Ek & Er).
        - exact ND.
        - intros k v Hin. apply apart_not_key. exact (proj2 (proj2 (Hm _ Hin))).
        - apply Forall_forall. intros kv Hin. destruct (proj1 (IHm kv Hin) ta) as (y & Ey & Dy & _); [exact (proj1 (Hm kv Hin))|]. by exists y.
        - exists xs. split; [exact Ew|]. split; [|by intros ? [= <-]]. intros k y Hin.
          assert (Hk : k ∈ map fst xs) by (by apply (elem_of_list_fmap_1 fst) in Hin). rewrite Ek in Hk.
          apply elem_of_list_fmap in Hk as ([k' v'] & -> & Hin'). exact (proj2 (proj2 (Hm _ Hin'))). }
      destruct Hx as (xs & Ex & Ax & Rx).
      destruct (read_written [] fs [] vs xs Gk eq_refl F') as (ms & Ew & Hms & Er). cbn [app] in Er.
      rewrite (names_good _ Gk), Ew, Ex. exists (JObj (ms ++ xs)). split; [reflexivity|]. split; [|discriminate].
      rewrite (decode_struct _ _ _ _ _ Rs), Er, (read_members_apart _ _ _ Gk Ax).
      destruct a as [ta|]; [|by rewrite (Hn eq_refl)].
      rewrite read_extras_declared, (Rx ta eq_refl); [done|].
      intros k y Hin. destruct (Hms k y Hin) as (f & v & Hf & <- & _ & Rf). split; [by apply (elem_of_list_fmap_1 w_key)|].
      destruct (good_uniform _ G _ _ _ E) as [->|U].
      + rewrite (decode_plain _ _ _ (resolve_basic TInterface ltac:(discriminate))). destruct y; by eexists.
      + rewrite Forall_forall in U. rewrite <- (U f Hf). apply read_field_some; [done|by apply Kf|]. by eexists.
  Qed.
  Lemma comes_back t v : all_known env -> survivor t v -> exists j, encode v t = Some j /\ decode j t = Some v.
  Proof. intros K H. destruct (proj1 (comes_back_strong v K) t H) as (j & E & D & _). by exists j. Qed.

  (** ** What arrives *)
  Notation is_zero := (is_zero env date0 time0).
  Notation arrives := (arrives env float32 float64 date time any date0 time0).
  Notation arrives_field := (arrives_field env float32 float64 date time any date0 time0).
  Lemma zero_is_zero t : all_known env -> known env t -> is_zero t (zero fuel t).
  Proof.
    intros K. destruct R as (rank & Rf & Ra & Rs).
    assert (H : forall k t, (depth rank t <= k)%nat -> known env t -> is_zero t (zero fuel t)); [|by apply (H (depth rank t))].
    clear t. induction k as [|k IH]; intros t Hk Kt.
    - destruct Kt as [t Ht|t Kt|n Kn]; [|replace (zero fuel (TSlice t)) with VNil by (by destruct fuel); apply zero_nil; right; by eexists|cbn in Hk; lia].
      repeat (apply elem_of_cons in Ht as [->|Ht]; [destruct fuel; constructor; by (done || (left; done) || set_solver)|]). by apply elem_of_nil in Ht.
    - destruct Kt as [t Ht|t Kt|n [d E]].
      + repeat (apply elem_of_cons in Ht as [->|Ht]; [destruct fuel; constructor; by (done || (left; done) || set_solver)|]). by apply elem_of_nil in Ht.
      + replace (zero fuel (TSlice t)) with VNil by (by destruct fuel). apply zero_nil. right. by eexists.
      + destruct d as [fs a|t b].
        * rewrite (zero_struct _ _ _ E). eapply WireSpec.zero_struct; [exact E|]. apply Forall2_fmap_r, Forall_Forall2_diag, Forall_forall. intros f Hf.
          unfold compose; cbn beta; unfold Wire.zero_field. destruct (w_pointer f) eqn:P; [left; done|right]. split; [done|]. apply IH.
          -- destruct (w_type f) as [b| | | | | | | | | | | |] eqn:T; cbn in *; try lia. specialize (Rs _ _ _ _ _ E Hf P T). lia.
          -- destruct (K _ _ E) as [Kf _]. rewrite Forall_forall in Kf. by apply Kf.
        * rewrite (zero_defined _ _ _ E). eapply WireSpec.zero_defined; [exact E|]. apply IH; [|exact (K _ _ E)].
          destruct t as [m| | | | | | | | | | | |]; cbn in *; try lia. specialize (Ra _ _ _ E). lia.
  Qed.
  Lemma read_members_arrive fs kvs vs0 vs : good_keys fs -> clear_keys fs (map fst kvs) -> List.length vs0 = List.length fs -> read_members fs kvs vs0 = Some vs ->
    List.length vs = List.length fs /\
    forall i f, fs !! i = Some f ->
      (exists x v, (w_key f, x) ∈ kvs /\ read_field f x = Some v /\ vs !! i = Some v) \/ (w_key f ∉ map fst kvs /\ vs !! i = vs0 !! i).
  Proof.
    intros Gk. revert vs0. induction kvs as [|[k x] kvs IH]; intros vs0 [ND Cl] L H.
    - injection H as <-. split; [done|]. intros i f Hi. right. split; [apply not_elem_of_nil|done].
    - cbn in ND. apply NoDup_cons in ND as [Nk ND]. assert (Cl' : clear_keys fs (map fst kvs)) by (split; [done|]; intros k' Hk'; apply Cl; by right).
      rewrite read_members_cons, (names_good _ Gk) in H. destruct (Cl k) as [Hk|Hk]; [left| |].
      + unfold keys in Hk. apply elem_of_list_fmap in Hk as (f & -> & Hf). apply elem_of_list_lookup in Hf as (i & Hi).
        rewrite (select_key _ _ _ (proj1 Gk) Hi), Hi in H. destruct (read_field f x) as [v|] eqn:Ef; [|discriminate].
        destruct (IH (<[i:=v]> vs0) Cl') as [Lv Hv]; [by rewrite insert_length|done|]. split; [done|]. intros i' f' Hi'.
        destruct (Hv i' f' Hi') as [(x' & v' & Hin & Rest)|[Nin Ev]].
        * left. exists x', v'. split; [by right|done].
        * destruct (decide (i' = i)) as [->|Ni].
          -- rewrite Hi in Hi'. injection Hi' as <-. left. exists x, v. split; [left|]. split; [done|]. rewrite Ev. apply list_lookup_insert. rewrite L. by eapply lookup_lt_Some.
          -- right. rewrite list_lookup_insert_ne in Ev by done. split; [|done]. cbn. apply not_elem_of_cons. split; [|done]. intros Ek. apply Ni.
             assert (Ei : Some i' = Some i); [|by injection Ei]. by rewrite <- (select_key _ _ _ (proj1 Gk) Hi), <- (select_key _ _ _ (proj1 Gk) Hi'), Ek.
      + rewrite (select_apart _ _ Hk) in H. destruct (IH vs0 Cl' L H) as [Lv Hv]. split; [done|]. intros i f Hi.
        destruct (Hv i f Hi) as [(x' & v' & Hin & Rest)|[Nin Ev]]; [left; exists x', v'; split; [by right|done]|].
        right. split; [|done]. cbn. apply not_elem_of_cons. split; [|done]. intros Ek. apply (apart_not_key _ _ Hk). rewrite <- Ek.
        apply (elem_of_list_fmap_1 w_key). by eapply elem_of_list_lookup_2.
  Qed.
  Lemma read_extras_arrive fs ta kvs m0 m : NoDup (map fst m0 ++ map fst (filter (fun kx : string * json => kx.1 ∉ keys fs) kvs)) ->
    read_extras fs ta kvs m0 = Some m ->
    exists m', m = m0 ++ m' /\ Forall2 (fun kx kv => kx.1 = kv.1 /\ decode kx.2 ta = Some kv.2) (filter (fun kx : string * json => kx.1 ∉ keys fs) kvs) m'.
  Proof.
    revert m0. induction kvs as [|[k x] kvs IH]; intros m0 ND H.
    - injection H as <-. exists []. rewrite app_nil_r. split; [done|constructor].
    - rewrite read_extras_cons in H. destruct (decode x ta) as [v|] eqn:Ed; [|discriminate]. rewrite filter_cons in ND |- *. cbn in ND |- *.
      destruct (existsb _ fs) eqn:Ee.
      + apply declared_key in Ee. rewrite decide_False in ND by (intros F; by apply F). rewrite decide_False by (intros F; by apply F). by apply IH.
      + assert (Nk : k ∉ keys fs) by (intros F; apply declared_key in F; congruence). rewrite decide_True in ND by done. rewrite decide_True by done.
        cbn in ND. rewrite put_new in H. 2: { apply NoDup_app in ND as (_ & Hd & _). intros Hk. apply (Hd k Hk). left. }
        destruct (IH (m0 ++ [(k, v)])) as (m' & -> & F); [|done|].
        { rewrite map_app, <- app_assoc. exact ND. }
        exists ((k, v) :: m'). split; [by rewrite <- app_assoc|]. by constructor.
  Qed.
  Lemma filter_keys_NoDup (P : string * json -> Prop) `{!forall kx, Decision (P kx)} kvs : NoDup (map fst kvs) -> NoDup (map fst (filter P kvs)).
  Proof.
    induction kvs as [|kx kvs IH]; [done|]. change (map fst (kx :: kvs)) with (kx.1 :: map fst kvs). intros [N ND]%NoDup_cons. rewrite filter_cons. case_decide; [|by apply IH]. cbn. apply NoDup_cons. split; [|by apply IH].
    intros ([k x] & Ek & Hin)%elem_of_list_fmap. apply elem_of_list_filter in Hin as [_ Hin]. apply N. rewrite Ek. by apply (elem_of_list_fmap_1 fst).
  Qed.
  Lemma read_list_arrive e l vs : read_list e l = Some vs -> Forall2 (fun x v => decode x e = Some v) l vs.
  Proof.
    revert vs. induction l as [|x l IH]; intros vs H; [injection H as <-; constructor|]. rewrite read_list_cons in H.
    destruct (decode x e) as [v|] eqn:Ed; [|discriminate]. destruct (read_list e l) as [vs'|]; [|discriminate]. injection H as <-. constructor; [done|by apply IH].
  Qed.
  Lemma read_field_arrives f x v : (forall u, decode x (w_type f) = Some u -> arrives (w_type f) x u) -> read_field f x = Some v -> arrives_field f x v.
  Proof.
    intros H. unfold read_field. destruct (w_pointer f) eqn:P; [|intros E; apply arrives_value; [done|by apply H]].
    destruct x; try (intros [= <-]; by apply arrives_nil).
    all: destruct (decode _ (w_type f)) as [u|] eqn:Ed; intros E; [injection E as <-|discriminate E]; apply arrives_pointer; [done|discriminate|by apply H].
  Qed.
  Lemma decode_arrives t j v : all_known env -> fits clear_keys t j -> decode j t = Some v -> arrives t j v.
  Proof.
    intros K H. revert v. induction H as [t Kt|b|s|z Hz|z Hz|n Hn|n Hn|s Hs|s Hs|j|e l Ke Hl IH|n fs a kvs E H1 IH1 H2 IH2 Ho|n t b j E H IH]; intros v D.
    - assert (Z : decode JNull t = Some (zero fuel t)).
      { destruct (chain_base t K Kt) as (t0 & C & B & K0). rewrite (chain_decode _ _ _ C).
        assert (Ez : zero fuel t = zero fuel t0). { clear - C R. induction C as [|? ? ? ? E _ IH]; [done|]. by rewrite (zero_defined _ _ _ E). }
        rewrite Ez. destruct B as [B|(n & fs & a & -> & E)].
        - rewrite (decode_plain _ t0 _ (resolve_basic t0 B)). destruct t0; try reflexivity; try (by destruct (B n)); try (by destruct fuel).
          all: inversion K0 as [? H| |]; subst; by apply basic_cases in H.
        - by rewrite (decode_struct_other _ _ _ _ _ (resolve_struct _ _ _ E)). }
      rewrite Z in D. injection D as <-. apply arrives_null. by apply zero_is_zero.
    - rewrite (decode_plain _ _ _ (resolve_basic TBool ltac:(discriminate))) in D. injection D as <-. constructor.
    - rewrite (decode_plain _ _ _ (resolve_basic TString ltac:(discriminate))) in D. injection D as <-. constructor.
    - rewrite (decode_plain _ _ _ (resolve_basic TInt32 ltac:(discriminate))) in D. destruct (in_range 32 z); [|discriminate]. injection D as <-. constructor. left.
    - rewrite (decode_plain _ _ _ (resolve_basic TInt64 ltac:(discriminate))) in D. destruct (in_range 64 z); [|discriminate]. injection D as <-. constructor. right. left.
    - rewrite (decode_plain _ _ _ (resolve_basic TFloat32 ltac:(discriminate))) in D. apply fmap_Some in D as (n' & En & ->). by constructor.
    - rewrite (decode_plain _ _ _ (resolve_basic TFloat64 ltac:(discriminate))) in D. apply fmap_Some in D as (n' & En & ->). by constructor.
    - rewrite (decode_plain _ _ _ (resolve_basic TDate ltac:(discriminate))) in D. apply fmap_Some in D as (n' & En & ->). by constructor.
    - rewrite (decode_plain _ _ _ (resolve_basic TTime ltac:(discriminate))) in D. apply fmap_Some in D as (n' & En & ->). by constructor.
    - rewrite (decode_plain _ _ _ (resolve_basic TInterface ltac:(discriminate))) in D. destruct j; injection D as <-; try (by constructor).
      apply arrives_null. constructor. by left.
    - rewrite (decode_plain _ _ _ (resolve_basic (TSlice e) ltac:(discriminate))) in D. destruct (read_list e l) as [vs|] eqn:Er; [|discriminate]. injection D as <-.
      constructor. apply read_list_arrive in Er. clear Hl. induction Er as [|x v l vs Ex _ IH']; constructor.
      + apply IH; [left|done].
      + apply IH'. intros y Hy. apply IH. by right.
    - rewrite (decode_struct _ _ _ _ _ (resolve_struct _ _ _ E)) in D. pose proof (good_tags _ G _ _ _ E) as Gk. destruct (K _ _ E) as [Kf Ka]. rewrite Forall_forall in Kf.
      destruct (read_members fs kvs (map zero_field fs)) as [vs|] eqn:Em; [|discriminate].
      destruct (read_members_arrive _ _ _ _ Gk Ho (map_length _ _) Em) as [Lv Hv].
      assert (F : Forall2 (fun f v => (exists x, (w_key f, x) ∈ kvs /\ arrives_field f x v) \/ (w_key f ∉ map fst kvs /\ arrives_field f JNull v)) fs vs).
      { apply Forall2_same_length_lookup_2; [done|]. intros i f u Hi Hu. assert (Hf : f ∈ fs) by (by eapply elem_of_list_lookup_2).
        destruct (Hv i f Hi) as [(x & u' & Hin & Er & Eu)|[Nin Eu]].
        - rewrite Eu in Hu. injection Hu as ->. left. exists x. split; [done|]. apply read_field_arrives; [|done]. intros u'. apply (IH1 (w_key f)); [done|]. by apply taken_exactly.
        - rewrite Eu in Hu. right. split; [done|]. rewrite list_lookup_fmap, Hi in Hu. injection Hu as <-. unfold Wire.zero_field.
          destruct (w_pointer f) eqn:P; [by apply arrives_nil|]. apply arrives_value; [done|]. apply arrives_null. apply zero_is_zero; [done|by apply Kf]. }
      destruct a as [ta|].
      + destruct (read_extras fs ta kvs []) as [m|] eqn:Ex; [|discriminate]. injection D as <-. eapply arrives_struct; [exact E|exact F|discriminate|].
        intros ? [= <-]. destruct Ho as [ND _]. destruct (read_extras_arrive fs ta kvs [] m) as (m' & -> & F'); [apply (filter_keys_NoDup (fun kx : string * json => kx.1 ∉ keys fs) kvs ND)|exact Ex|].
        cbn. assert (IH2' : forall kx u, kx ∈ filter (fun kx : string * json => kx.1 ∉ keys fs) kvs -> decode kx.2 ta = Some u -> arrives ta kx.2 u).
        { intros [k x] u Hin. apply elem_of_list_filter in Hin as [_ Hin]. by apply (IH2 k x ta). }
        clear - F' IH2'. induction F' as [|kx kv l m' [Ek Ed] _ IH]; constructor.
        * split; [done|]. apply IH2'; [left|done].
        * apply IH. intros kx' u Hin. apply IH2'. by right.
      + injection D as <-. eapply arrives_struct; [exact E|exact F|done|discriminate].
    - rewrite (decode_defined _ _ _ _ E) in D. eapply arrives_defined; [exact E|by apply IH].
  Qed.

  (** ** Schemas *)
  Section document.
    Variables convert namify : string -> string.
    Variable omitempty : gschema -> option bool.
    Variables dates force : bool.
    Variable nodes : gschema -> Prop.
    Variable defs : string -> option gschema.
    Hypothesis T : types_of convert namify omitempty dates force nodes defs env.
    Notation schema_name := (schema_name dates).
    Notation wire_field := (wire_field convert namify omitempty dates force).
    Notation wire_definition := (wire_definition convert namify omitempty dates force).
    Notation admits := (admits defs float32 float64 date time dates sized apart_from).
    Ltac type_cases Kt := repeat (apply elem_of_cons in Kt as [->|Kt]); [..|by apply elem_of_nil in Kt].
    Lemma node_cases n t f e ps it ad r : nodes (GSchema n t f e ps it ad r) ->
      e = "" /\ (t ∈ [""; "object"; "boolean"; "string"; "integer"; "number"] \/ (t = "array" /\ exists i, it = Some i /\ nodes i)).
    Proof.
      intros N. destruct (of_known _ _ _ _ _ _ _ _ T _ _ _ _ _ _ _ _ N) as [-> [Kt|[Kt|[-> [i ->]]]]]; [done|by split; [|left]|]. split; [done|right]. split; [done|].
      exists i. split; [done|]. eapply (of_children _ _ _ _ _ _ _ _ T); [exact N|constructor].
    Qed.
    Lemma node_type s : nodes s -> is_Some (schema_name s).
    Proof.
      assert (H : forall k s, (array_depth s <= k)%nat -> nodes s -> is_Some (schema_name s)); [|by apply (H (array_depth s))].
      clear s. induction k as [|k IH]; intros [n t f e ps it ad r] Hk N; destruct (node_cases _ _ _ _ _ _ _ _ N) as [-> [Kt|(-> & i & -> & Ni)]].
      - type_cases Kt; cbn; try (by eexists); [by destruct r; eexists|]. repeat case_match; by eexists.
      - cbn in Hk. lia.
      - type_cases Kt; cbn; try (by eexists); [by destruct r; eexists|]. repeat case_match; by eexists.
      - destruct (IH i) as (u & Eu); [cbn in Hk; lia|done|]. exists (TSlice u). cbn. by rewrite Eu.
    Qed.
    Lemma wire_fields ps : (forall k b p, (k, (b, p)) ∈ ps -> nodes p) -> exists fs, mapM wire_field ps = Some fs /\ Forall2 (fun kp f => wire_field kp = Some f) ps fs.
    Proof.
      intros H. assert (Hs : exists fs, mapM wire_field ps = Some fs).
      { apply mapM_is_Some_2. apply Forall_forall. intros [k [b p]] Hin. destruct (node_type p (H _ _ _ Hin)) as [t Et]. unfold Wire.wire_field. cbn. rewrite Et. by eexists. }
      destruct Hs as [fs E]. exists fs. split; [done|]. by apply mapM_Some_1.
    Qed.
    Lemma node_props n t f e ps it ad r k b p : nodes (GSchema n t f e ps it ad r) -> (k, (b, p)) ∈ ps -> nodes p.
    Proof. intros N Hin. eapply (of_children _ _ _ _ _ _ _ _ T); [exact N|by econstructor]. Qed.
    Lemma node_addl n t f e ps it a r : nodes (GSchema n t f e ps it (Some a) r) -> nodes a.
    Proof. intros N. eapply (of_children _ _ _ _ _ _ _ _ T); [exact N|constructor]. Qed.
    Lemma node_object n f e ps it ad r : nodes (GSchema n "object" f e ps it ad r) ->
      exists fs a, env n = Some (WStruct fs a) /\ Forall2 (fun kp f => wire_field kp = Some f) ps fs /\
        match ad with Some x => exists ta, a = Some ta /\ schema_name x = Some ta /\ nodes x | None => a = None end.
    Proof.
      intros N. pose proof (of_objects _ _ _ _ _ _ _ _ T _ N eq_refl) as E. cbn in E.
      destruct (wire_fields ps) as (fs & Ef & F); [intros k b p; by eapply node_props|]. rewrite Ef in E. cbn in E. exists fs. destruct ad as [x|].
      - pose proof (node_addl _ _ _ _ _ _ _ _ N) as Nx. destruct (node_type x Nx) as [ta Ea]. rewrite Ea in E. cbn in E. exists (Some ta). split; [done|]. split; [done|]. by exists ta.
      - by exists None.
    Qed.
    Lemma node_component m c : defs m = Some c -> nodes c /\ exists t, schema_name c = Some t /\ (t = TNamed m \/ exists b, env m = Some (WType t b)).
    Proof.
      intros E. destruct (of_components _ _ _ _ _ _ _ _ T _ _ E) as (N & En & Ee). split; [done|]. destruct (node_type c N) as [t Et]. exists t. split; [done|].
      destruct c as [n ty f e ps it ad r]. destruct (node_cases _ _ _ _ _ _ _ _ N) as [-> _]. cbn in En. subst n. unfold Wire.wire_definition in Ee.
      destruct (String.eqb_spec ty "object") as [->|No].
      - left. cbn in Et. congruence.
      - right. rewrite Et in Ee. cbn in Ee. by eexists.
    Qed.
    Lemma node_defined m : is_Some (defs m) -> is_Some (env m).
    Proof.
      intros [c E]. destruct (node_component _ _ E) as (N & t & Et & H). destruct (of_components _ _ _ _ _ _ _ _ T _ _ E) as (_ & En & Ee).
      destruct H as [->|[b ->]]; [|by eexists]. destruct c as [n ty f e ps it ad r]. cbn in En. subst n.
      destruct (node_cases _ _ _ _ _ _ _ _ N) as [-> Hc]. destruct (String.eqb_spec ty "object") as [->|No].
      - destruct (node_object _ _ _ _ _ _ _ N) as (fs & a & -> & _). by eexists.
      - unfold Wire.wire_definition in Ee. rewrite (proj2 (String.eqb_neq _ _) No), Et in Ee. cbn in Ee. by eexists.
    Qed.
    Lemma node_known s t : nodes s -> schema_name s = Some t -> known env t.
    Proof.
      assert (H : forall k s t, (array_depth s <= k)%nat -> nodes s -> schema_name s = Some t -> known env t); [|by apply (H (array_depth s))].
      clear s t. induction k as [|k IH]; intros [n t f e ps it ad r] u Hk N Eu; destruct (node_cases _ _ _ _ _ _ _ _ N) as [-> [Kt|(-> & i & -> & Ni)]].
      2: { cbn in Hk. lia. }
      3: { cbn in Eu. destruct (schema_name i) as [v|] eqn:Ei; [|discriminate]. injection Eu as <-. apply known_slice. apply (IH i); [cbn in Hk; lia|done|done]. }
      all: type_cases Kt; cbn in Eu.
      all: repeat case_match; try discriminate; injection Eu as <-; try (constructor; set_solver).
      all: apply known_name; first [apply node_defined; by apply (of_references _ _ _ _ _ _ _ _ T _ _ N)
                                   |destruct (node_object _ _ _ _ _ _ _ N) as (fs & a & -> & _); by eexists].
    Qed.
    Lemma types_known : all_known env.
    Proof.
      intros n d E. destruct (of_only _ _ _ _ _ _ _ _ T _ _ E) as ([xn ty f e ps it ad r] & N & Ew). unfold Wire.wire_definition in Ew.
      destruct (String.eqb_spec ty "object") as [->|No].
      - destruct (wire_fields ps) as (fs & Ef & F); [intros k b p; by eapply node_props|]. rewrite Ef in Ew. cbn in Ew.
        assert (Kf : Forall (fun f => known env (w_type f)) fs).
        { assert (Np : forall k b p, (k, (b, p)) ∈ ps -> nodes p) by (intros k b p; by eapply node_props). clear N Ew Ef E. induction F as [|[k [b p]] g ps fs Eg F IH]; constructor.
          - unfold Wire.wire_field in Eg. cbn in Eg. apply bind_Some in Eg as (t & Et & [= <-]). cbn. apply (node_known p); [|done]. apply (Np k b p). left.
          - apply IH. intros k' b' p' Hin. apply (Np k' b' p'). by right. }
        destruct ad as [a|].
        + apply bind_Some in Ew as (ta & Ea & [= <-]). split; [done|]. intros t [= <-]. apply (node_known a); [|done]. by eapply node_addl.
        + injection Ew as <-. by split.
      - apply bind_Some in Ew as (t & Et & [= <-]). by eapply node_known.
    Qed.
    Lemma wire_keys n f e ps it ad r fs : nodes (GSchema n "object" f e ps it ad r) -> Forall2 (fun kp f => wire_field kp = Some f) ps fs -> keys fs = map fst ps.
    Proof.
      intros N F. assert (H : forall k b p, (k, (b, p)) ∈ ps -> convert k = k) by (intros k b p; exact (of_keys _ _ _ _ _ _ _ _ T _ k b p N)). clear N.
      induction F as [|[k [b p]] g ps fs E _ IH]; [done|]. cbn. unfold Wire.wire_field in E. cbn in E. apply bind_Some in E as (t & _ & [= <-]). cbn.
      rewrite (H k b p) by left. f_equal. apply IH. intros k' b' p' Hin. apply (H k' b' p'). by right.
    Qed.
    Lemma wire_member ps fs g : Forall2 (fun kp f => wire_field kp = Some f) ps fs -> g ∈ fs -> exists k b p, (k, (b, p)) ∈ ps /\ wire_field (k, (b, p)) = Some g.
    Proof.
      induction 1 as [|[k [b p]] f ps fs E _ IH]; intros Hin; [by apply elem_of_nil in Hin|]. apply elem_of_cons in Hin as [->|Hin].
      - exists k, b, p. split; [left|done].
      - destruct (IH Hin) as (k' & b' & p' & Hp & Eg). exists k', b', p'. split; [by right|done].
    Qed.
    Lemma admitted_fits s j : admits s j -> forall t, nodes s -> schema_name s = Some t -> fits clear_keys t j.
    Proof.
      induction 1 as [x m c j Rx Ec H IH|n f ps it ad j|n f ps it ad r b|n f ps it ad r s Hd Ht|n f ps it ad r z Hz|n f ps it ad r x Hx|n f ps it ad r l H IH
        |n f ps it ad r kvs ND Hr Hp IHp Ha IHa Hb]; intros t N Et.
      - destruct (node_component _ _ Ec) as (Nc & u & Eu & Hu). specialize (IH u Nc Eu).
        destruct x as [xn xt xf xe xps xit xad xr]. destruct Rx as (-> & -> & ->). cbn in Et. injection Et as <-.
        destruct Hu as [->|[b Eb]]; [done|by eapply fits_defined].
      - cbn in Et. injection Et as <-. constructor.
      - cbn in Et. injection Et as <-. constructor.
      - cbn in Et. unfold is_date_generated in Et. destruct dates; cbn in Et.
        + destruct (String.eqb_spec f "date") as [->|Nd]; cbn in Et.
          { injection Et as <-. constructor. by apply Hd. }
          destruct (String.eqb_spec f "date-time") as [->|Nt]; cbn in Et; injection Et as <-; constructor. by apply Ht.
        + injection Et as <-. constructor.
      - cbn in Et. injection Et as <-. unfold sized in Hz. destruct (String.eqb f "int32"); by constructor.
      - cbn in Et. injection Et as <-. destruct (String.eqb f "float"); by constructor.
      - destruct (node_cases _ _ _ _ _ _ _ _ N) as [_ [Kt|(_ & i & [= <-] & Ni)]]; [repeat (apply elem_of_cons in Kt as [Kt|Kt]; [discriminate Kt|]); by apply elem_of_nil in Kt|].
        cbn in Et. destruct (schema_name it) as [u|] eqn:Eu; [|discriminate]. injection Et as <-. constructor; [by eapply node_known|]. intros x Hin. by apply IH.
      - cbn in Et. injection Et as <-. destruct (node_object _ _ _ _ _ _ _ N) as (fs & a & E & F & Ea). pose proof (wire_keys _ _ _ _ _ _ _ _ N F) as Ek.
        assert (Hd : forall k x f0, (k, x) ∈ kvs -> f0 ∈ fs -> w_key f0 = k -> fits clear_keys (w_type f0) x).
        { intros k x g Hin Hg <-. destruct (wire_member _ _ _ F Hg) as (k & b & p & Hp' & Eg). pose proof (of_keys _ _ _ _ _ _ _ _ T _ k b p N Hp') as Ec.
          unfold Wire.wire_field in Eg. cbn in Eg. apply bind_Some in Eg as (u & Eu & [= <-]). cbn in *. rewrite Ec in Hin.
          apply (IHp k b p x); [done|done|by eapply node_props|done]. }
        assert (Hc : forall k x, (k, x) ∈ kvs -> k ∈ keys fs \/ (k ∉ map fst ps /\ apart_from (keys fs) k)).
        { intros k x Hin. rewrite Ek. destruct (decide (k ∈ map fst ps)) as [Hk|Hk]; [by left|right]. split; [done|]. apply Hb; [|done].
          by apply (elem_of_list_fmap_1 fst) in Hin. }
        eapply fits_struct; [exact E| | |].
        + intros k x g Hin Tk. destruct Tk as [g Hg Eg|l1 g l2 Nk El Ef _]; [by eapply Hd|].
          destruct (Hc k x Hin) as [Hk|[_ Ap]]; [done|]. unfold apart_from in Ap. rewrite Forall_forall in Ap. destruct (Ap (w_key g)); [|done].
          rewrite El. unfold keys. rewrite map_app. apply elem_of_app. right. left.
        + intros k x ta Hin ->. destruct ad as [xa|]; [|done]. destruct Ea as (ta' & [= <-] & Eta & Na).
          destruct (Hc k x Hin) as [Hk|[Nk _]]; [|eapply IHa; by eauto].
          destruct (good_uniform _ G _ _ _ E) as [->|U]; [constructor|]. unfold keys in Hk. apply elem_of_list_fmap in Hk as (g & -> & Hg).
          rewrite Forall_forall in U. rewrite <- (U g Hg). by eapply Hd.
        + split; [done|]. intros k Hk. apply elem_of_list_fmap in Hk as ([k' x] & -> & Hin). destruct (Hc k' x Hin) as [H|[_ H]]; [by left|by right].
    Qed.
    (** What is written *)
    Notation filled := (has_type env float32 float64 date time any filled_field filled_item kept_extra).
    Notation filled_in := (field_type env float32 float64 date time any filled_field filled_item kept_extra).
    Lemma chain_schema t t0 : chain t t0 -> base t0 -> forall s, nodes s -> schema_name s = Some t ->
      exists s0, nodes s0 /\ schema_name s0 = Some t0 /\ (forall m, ~ reference_of s0 m) /\ (forall j, admits s0 j -> admits s j).
    Proof.
      intros C B. induction C as [t|n t b t0 E C IH]; intros s N Es; destruct s as [sn ty f e ps it ad r]; destruct (node_cases _ _ _ _ _ _ _ _ N) as [-> _].
      - destruct (decide (ty = "" /\ exists m, r = Some m)) as [[-> [m ->]]|Nr].
        + cbn in Es. injection Es as <-. destruct (of_references _ _ _ _ _ _ _ _ T _ m N) as [c Ec]; [done|].
          destruct B as [B|(n & fs & a & [= <-] & E)]; [by destruct (B m)|]. destruct (of_components _ _ _ _ _ _ _ _ T _ _ Ec) as (Nc & En & Ee).
          destruct (node_component _ _ Ec) as (_ & u & Eu & Hu). destruct c as [cn cty cf ce cps cit cad cr]. cbn in En. subst cn.
          destruct (String.eqb_spec cty "object") as [->|No].
          2: { exfalso. unfold Wire.wire_definition in Ee. rewrite (proj2 (String.eqb_neq _ _) No), Eu, E in Ee. discriminate Ee. }
          destruct Hu as [->|[b Eb]]; [|congruence].
          eexists. split; [exact Nc|]. split; [exact Eu|]. split; [by intros k [? _]|]. intros j Hj. by eapply admits_reference.
        + eexists. split; [exact N|]. split; [exact Es|]. split; [|done]. intros m (-> & _ & ->). apply Nr. split; [done|by eexists].
      - assert (Rn : reference_of (GSchema sn ty f "" ps it ad r) n).
        { cbn. destruct (String.eqb_spec ty "") as [->|Ny]; [cbn in Es; destruct r; [injection Es as ->; done|discriminate Es]|]. exfalso. cbn in Es.
          rewrite (proj2 (String.eqb_neq _ _) Ny) in Es. cbn in Es. destruct (String.eqb_spec ty "object") as [->|No].
          - injection Es as <-. destruct (node_object _ _ _ _ _ _ _ N) as (fs & a & E' & _). congruence.
          - repeat case_match; try discriminate. destruct (schema_name _); discriminate. }
        destruct (of_references _ _ _ _ _ _ _ _ T _ n N Rn) as [c Ec]. destruct (node_component _ _ Ec) as (Nc & u & Eu & Hu).
        assert (Eu' : u = t).
        { destruct Hu as [->|[b' Eb]]; [|congruence]. destruct (of_components _ _ _ _ _ _ _ _ T _ _ Ec) as (_ & En & Ee).
          destruct c as [cn cty cf ce cps cit cad cr]. cbn in En. subst cn. destruct (String.eqb_spec cty "object") as [->|No].
          - destruct (node_object _ _ _ _ _ _ _ Nc) as (fs & a & E' & _). congruence.
          - unfold Wire.wire_definition in Ee. rewrite (proj2 (String.eqb_neq _ _) No), Eu, E in Ee. cbn in Ee. congruence. }
        subst u. destruct (IH B c Nc Eu) as (s0 & N0 & E0 & R0 & H0). exists s0. split; [done|]. split; [done|]. split; [done|]. intros j Hj.
        eapply admits_reference; [exact Rn|exact Ec|by apply H0].
    Qed.
    Definition goes_out (v : gv) : Prop := forall s t, nodes s -> schema_name s = Some t -> filled t v -> v <> VNil -> exists j, encode v t = Some j /\ admits s j.
    Lemma field_out n f0 e ps it ad r k b p f v : nodes (GSchema n "object" f0 e ps it ad r) -> (k, (b, p)) ∈ ps -> wire_field (k, (b, p)) = Some f ->
      goes_out v -> (forall v', v = VPtr v' -> goes_out v') -> filled_in f v -> filled_field f v ->
      w_key f = k /\ ((w_omit f && empty v)%bool = true /\ b = false \/ (w_omit f && empty v)%bool = false /\ exists x, write_field f v = Some x /\ admits p x).
    Proof.
      intros N Hin Ef Ov Op Tf [Hp Hn]. pose proof (node_props _ _ _ _ _ _ _ _ _ _ _ N Hin) as Np. unfold Wire.wire_field in Ef. cbn in Ef.
      apply bind_Some in Ef as (t & Et & [= <-]). cbn in *. split; [exact (of_keys _ _ _ _ _ _ _ _ T _ k b p N Hin)|].
      destruct (omits omitempty b p && empty v)%bool eqn:Eo; [left|right]; (split; [done|]).
      - destruct b; [|done]. apply andb_true_iff in Eo as [Eo _]. unfold omits in Eo. pose proof (of_required _ _ _ _ _ _ _ _ T _ k p N Hin) as Nr.
        destruct (omitempty p) as [[]|]; by destruct Nr.
      - unfold write_field. cbn. assert (Nv : v <> VNil) by (intros ->; rewrite (Hn eq_refl) in Eo; discriminate Eo).
        inversion Tf as [? P|? v' P T'|? ? P T']; subst; cbn in P; rewrite P; [done| |].
        + apply (Op v' eq_refl p t Np Et); [exact T'|congruence].
        + by apply (Ov p t Np Et).
    Qed.
    Lemma members_out n f0 e it ad r ps0 ps fs vs : nodes (GSchema n "object" f0 e ps0 it ad r) -> (forall kp, kp ∈ ps -> kp ∈ ps0) ->
      Forall2 (fun kp f => wire_field kp = Some f) ps fs -> Forall2 (fun f v => filled_in f v /\ filled_field f v) fs vs ->
      Forall (fun v => goes_out v /\ (forall v', v = VPtr v' -> goes_out v')) vs ->
      exists ms, write_members (tag_names fs) fs vs = Some ms /\
        sublist (map fst ms) (map fst ps) /\
        (forall k p, (k, (true, p)) ∈ ps -> k ∈ map fst ms) /\
        (forall k x, (k, x) ∈ ms -> exists b p, (k, (b, p)) ∈ ps /\ admits p x).
    Proof.
      intros N Hs F. revert vs. induction F as [|[k [b p]] f ps fs Ef F IH]; intros vs Fv Ov.
      - inversion Fv; subst. exists []. split; [reflexivity|]. split; [done|]. split; [|by intros k x Hin%elem_of_nil]. intros k p Hin. by apply elem_of_nil in Hin.
      - inversion Fv as [|? v ? vs' [Tf Hf] Fv']; subst. inversion Ov as [|? ? [Hv Hp] Ov']; subst.
        destruct (IH (fun kp H => Hs kp (elem_of_list_further _ _ _ H)) vs' Fv' Ov') as (ms & Ew & Sub & Hr & Ha).
        cbn [tag_names map]. rewrite write_members_cons. fold (tag_names fs). rewrite Ew.
        destruct (field_out _ _ _ _ _ _ _ k b p f v N (Hs _ (elem_of_list_here _ _)) Ef Hv Hp Tf Hf) as (Ek & [[-> ->]|[-> (x & -> & Hx)]]).
        + exists ms. split; [reflexivity|]. split; [by constructor|]. split.
          * intros k' p' Hin. apply elem_of_cons in Hin as [[=]|Hin]. by eapply Hr.
          * intros k' x' Hin. destruct (Ha k' x' Hin) as (b' & p' & Hin' & Hx'). exists b', p'. split; [by right|done].
        + exists ((w_key f, x) :: ms). split; [reflexivity|]. rewrite Ek. split; [by constructor|]. split.
          * intros k' p' Hin. apply elem_of_cons in Hin as [[= -> _ _]|Hin]; [left|]. right. by eapply Hr.
          * intros k' x' Hin. apply elem_of_cons in Hin as [[= -> ->]|Hin].
            -- exists b, p. split; [left|done].
            -- destruct (Ha k' x' Hin) as (b' & p' & Hin' & Hx'). exists b', p'. split; [by right|done].
    Qed.
    Lemma extras_out ta xa m : nodes xa -> schema_name xa = Some ta -> Forall (fun kv => filled ta kv.2 /\ filled_item kv.2) m ->
      Forall (fun kv => goes_out kv.2) m ->
      exists xs, write_extras ta m = Some xs /\ map fst xs = map fst m /\ (forall k x, (k, x) ∈ xs -> admits xa x).
    Proof.
      intros Na Ea F O. induction F as [|[k v] m [Ht Hi] F IH]; [exists []; split; [done|]; split; [done|]; by intros k x Hin%elem_of_nil|].
      inversion O as [|? ? Hv O']; subst. destruct (IH O') as (xs & Ew & Ek & Hx). destruct (Hv xa ta Na Ea Ht Hi) as (x & Ex & Ax). cbn in Ex.
      exists ((k, x) :: xs). rewrite write_extras_cons, Ex, Ew. split; [reflexivity|]. split; [cbn; by rewrite Ek|]. intros k' x' Hin.
      apply elem_of_cons in Hin as [[= -> ->]|Hin]; [done|by eapply Hx].
    Qed.
    Lemma list_out e i l : nodes i -> schema_name i = Some e -> Forall (fun v => filled e v /\ filled_item v) l -> Forall goes_out l ->
      exists js, write_list e l = Some js /\ (forall x, x ∈ js -> admits i x).
    Proof.
      intros Ni Ei F O. induction F as [|v l [Ht Hi] F IH]; [exists []; split; [done|]; by intros x Hin%elem_of_nil|].
      inversion O as [|? ? Hv O']; subst. destruct (IH O') as (js & Ew & Hx). destruct (Hv i e Ni Ei Ht Hi) as (x & Ex & Ax).
      exists (x :: js). rewrite write_list_cons, Ex, Ew. split; [reflexivity|]. intros x' Hin. apply elem_of_cons in Hin as [->|Hin]; [done|by apply Hx].
    Qed.
    Lemma node_form s t : nodes s -> schema_name s = Some t -> (forall m, ~ reference_of s m) ->
      match t with
      | TBool => forall b, admits s (JBool b)
      | TString => forall x, admits s (JStr x)
      | TDate => forall x, is_Some (date x) -> admits s (JStr x)
      | TTime => forall x, is_Some (time x) -> admits s (JStr x)
      | TInt32 => forall z, (- 2 ^ 31 <= z < 2 ^ 31)%Z -> admits s (JNum (Int z))
      | TInt64 => forall z, (- 2 ^ 63 <= z < 2 ^ 63)%Z -> admits s (JNum (Int z))
      | TFloat32 => forall x, is_Some (float32 x) -> admits s (JNum x)
      | TFloat64 => forall x, is_Some (float64 x) -> admits s (JNum x)
      | TInterface => forall j, admits s j
      | TSlice e => exists i, nodes i /\ schema_name i = Some e /\ forall l, (forall x, x ∈ l -> admits i x) -> admits s (JArr l)
      | TNamed n => exists f ps it ad r, s = GSchema n "object" f "" ps it ad r
      | _ => False
      end.
    Proof.
      intros N Es Nr. destruct s as [n ty f e ps it ad r]. destruct (node_cases _ _ _ _ _ _ _ _ N) as [-> [Kt|(-> & i & -> & Ni)]].
      2: { cbn in Es. destruct (schema_name i) as [e|] eqn:Ei; [|discriminate]. injection Es as <-. exists i. split; [done|]. split; [done|]. intros l Hl. by constructor. }
      type_cases Kt; cbn in Es.
      - destruct r as [m|]; [by destruct (Nr m)|]. injection Es as <-. intros j. constructor.
      - injection Es as <-. by eexists _, _, _, _, _.
      - injection Es as <-. intros b. constructor.
      - unfold is_date_generated in Es. destruct (String.eqb_spec f "date") as [->|Nd].
        + destruct dates eqn:Ed; cbn in Es; injection Es as <-; intros x; [intros Hx|]; constructor; congruence.
        + destruct (String.eqb_spec f "date-time") as [->|Nt]; destruct dates eqn:Ed; cbn in Es; injection Es as <-; intros x; try intros Hx; constructor; congruence.
      - injection Es as <-. destruct (String.eqb f "int32") eqn:Ef; intros z Hz; constructor; unfold sized; by rewrite Ef.
      - injection Es as <-. destruct (String.eqb f "float") eqn:Ef; intros x Hx; constructor; by rewrite Ef.
    Qed.
    Lemma filled_written v : goes_out v /\ (forall v', v = VPtr v' -> goes_out v').
    Proof.
      induction v as [|b|s|z|n|s|j|v [IH _]|l IH|vs m IHv IHm] using gv_induction.
      all: split; [|intros v' Ev; first [discriminate Ev|injection Ev as <-; exact IH]].
      all: intros s0 t N Es H Nv; destruct (typed_base _ _ _ _ _ H) as (t0 & C & B & H0); rewrite (chain_encode _ _ _ C).
      all: destruct (chain_schema _ _ C B _ N Es) as (s1 & N1 & E1 & R1 & A1); clear C H N Es; rename H0 into H.
      all: pose proof (node_form _ _ N1 E1 R1) as Form.
      all: match goal with |- exists j, ?e = Some j /\ _ => enough (exists j, e = Some j /\ admits s1 j) as (jj & Ej & Aj) by (exists jj; split; [exact Ej|by apply A1]) end; clear A1 s0 t R1.
      all: destruct B as [B|(x & fs & a & -> & E)];
        [rewrite (encode_plain _ t0 _ (resolve_basic t0 B)); inversion H; subst; try (by destruct (B n)); try (by destruct (B n0));
         try (eexists; split; [reflexivity|]; by first [apply Form|apply Form; eexists; eassumption])
        |try (exfalso; inversion H; subst; congruence)].
      - done.
      - destruct Form as (i & Ni & Ei & Hi). match goal with Hx : Forall _ l |- _ => rename Hx into Hl end.
        destruct (list_out e i l Ni Ei Hl) as (js & -> & Hjs); [|exists (JArr js); split; [reflexivity|by apply Hi]].
        apply Forall_forall. intros v Hv. rewrite Forall_forall in IH. by apply IH.
      - destruct Form as (f & ps & it & ad & r & ->). inversion H as [| | | | | | | | | | | |n' fs' a' vs' m' E' F Hn Hm ND|n' t' b v' E']; subst; [|congruence].
        rewrite E in E'. injection E' as <- <-. pose proof (good_tags _ G _ _ _ E) as Gk. rewrite (encode_struct _ _ _ _ _ _ (resolve_struct _ _ _ E)), (names_good _ Gk).
        destruct (node_object _ _ _ _ _ _ _ N1) as (fs' & a' & E' & Fw & Ea). rewrite E in E'. injection E' as <- <-.
        pose proof (wire_keys _ _ _ _ _ _ _ _ N1 Fw) as Ek.
        destruct (members_out _ _ _ _ _ _ ps ps fs vs N1 (fun _ h => h) Fw F IHv) as (ms & -> & Sub & Hr & Ha).
        assert (Hx : exists xs, (if match a with Some _ => true | None => false end then match a with Some ta => write_extras ta m | None => Some [] end else Some []) = Some xs /\
                  NoDup (map fst xs) /\ (forall k x, (k, x) ∈ xs -> apart_from (keys fs) k) /\ (forall k x xa, (k, x) ∈ xs -> ad = Some xa -> admits xa x)).
        { destruct a as [ta|].
          2: { exists []. split; [done|]. split; [constructor|]. split; [intros k y Hin|intros k y xa Hin]; by apply elem_of_nil in Hin. }
          destruct ad as [xa|]; [|discriminate Ea]. destruct Ea as (ta' & [= <-] & Eta & Na). specialize (Hm ta eq_refl).
          destruct (extras_out ta xa m Na Eta) as (xs & Ew & Em & Hxs).
          - eapply Forall_impl; [exact Hm|]. intros kv (H1 & H2 & _). by split.
          - eapply Forall_impl; [exact IHm|]. intros kv [H1 _]. exact H1.
          - exists xs. split; [exact Ew|]. rewrite Em. split; [done|]. split; [|intros k y ? Hin [= <-]; by eapply Hxs]. intros k y Hin.
            assert (Hk : k ∈ map fst xs) by (by apply (elem_of_list_fmap_1 fst) in Hin). rewrite Em in Hk.
            apply elem_of_list_fmap in Hk as (kv & -> & Hin'). rewrite Forall_forall in Hm. exact (proj2 (proj2 (Hm _ Hin'))). }
        destruct Hx as (xs & -> & NDx & Ax & Adx). exists (JObj (ms ++ xs)). split; [reflexivity|].
        assert (NDp : NoDup (map fst ps)) by (rewrite <- Ek; exact (proj1 Gk)).
        assert (NDm : NoDup (map fst ms)) by (eapply sublist_NoDup'; [exact Sub|exact NDp]).
        assert (Mp : forall k y, (k, y) ∈ ms -> k ∈ map fst ps).
        { intros k y Hin. destruct (Ha k y Hin) as (b & p & Hin' & _). by apply (elem_of_list_fmap_1 fst) in Hin'. }
        assert (Xp : forall k y, (k, y) ∈ xs -> k ∉ map fst ps) by (intros k y Hin; rewrite <- Ek; apply apart_not_key; by eapply Ax).
        constructor.
        + rewrite map_app. apply NoDup_app. split; [done|]. split; [|done]. intros k Hk Hk'.
          apply elem_of_list_fmap in Hk as ([k1 y1] & -> & H1). apply elem_of_list_fmap in Hk' as ([k2 y2] & Ek2 & H2). cbn in Ek2. subst k2.
          by eapply Xp, Mp.
        + intros k p Hin. rewrite map_app. apply elem_of_app. left. by eapply Hr.
        + intros k b p y Hp Hin. apply elem_of_app in Hin as [Hin|Hin].
          * destruct (Ha k y Hin) as (b' & p' & Hp' & Hy). assert (Eq : (b, p) = (b', p')); [|by injection Eq as -> ->].
            by apply (NoDup_fst_unique ps k).
          * destruct (Xp k y Hin). by apply (elem_of_list_fmap_1 fst) in Hp.
        + intros k y xa Hin Nk Ead. apply elem_of_app in Hin as [Hin|Hin]; [by destruct Nk; eapply Mp|by eapply Adx].
        + intros k Hk Nk. rewrite map_app in Hk. apply elem_of_app in Hk as [Hk|Hk]; apply elem_of_list_fmap in Hk as ([k1 y1] & -> & H1); cbn in *.
          * by destruct Nk; eapply Mp.
          * rewrite <- Ek. by eapply Ax.
    Qed.
  End document.
End wire.
