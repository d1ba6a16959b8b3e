(** Proofs about reading documents. *)
From stdpp Require Import gmap list strings.
From Coq Require Import ZArith Ascii String.
From Verif.Model Require Import GoStrings Reference Parser Decoding.
From Verif.Spec Require Import DecodingSpec.
Local Open Scope string_scope.

(** * Induction on JSON values *)
Section json_induction.
  Variable P : json -> Prop.
  Hypothesis Hnull : P JNull.
  Hypothesis Hbool : forall b, P (JBool b).
  Hypothesis Hnum : forall n, P (JNum n).
  Hypothesis Hstr : forall s, P (JStr s).
  Hypothesis Harr : forall l, Forall P l -> P (JArr l).
  Hypothesis Hobj : forall kvs, Forall (fun kv => P kv.2) kvs -> P (JObj kvs).
  Fixpoint json_induction (j : json) : P j :=
    match j with
    | JNull => Hnull
    | JBool b => Hbool b
    | JNum n => Hnum n
    | JStr s => Hstr s
    | JArr l => Harr l ((fix go l := match l return Forall P l with
                                     | [] => Forall_nil_2 P
                                     | x :: r => Forall_cons_2 P x r (json_induction x) (go r)
                                     end) l)
    | JObj kvs => Hobj kvs ((fix go l := match l return Forall (fun kv => P kv.2) l with
                                         | [] => Forall_nil_2 _
                                         | x :: r => Forall_cons_2 _ x r (json_induction x.2) (go r)
                                         end) kvs)
    end.
End json_induction.

(** * The loops of [decode] *)
Section loops.
  Context (fields : string -> list (string * ty)).
  Local Notation decode := (decode fields).

  Fixpoint elements (t : ty) (l : list json) : option (list value) :=
    match l with
    | [] => Some []
    | x :: r => match decode x t VZero, elements t r with
                | Some v, Some vs => Some (v :: vs)
                | _, _ => None
                end
    end.
  Fixpoint entries (t : ty) (kvs : list (string * json)) (m : list (string * value))
    : option (list (string * value)) :=
    match kvs with
    | [] => Some m
    | (k, x) :: r => match decode x t VZero with Some v => entries t r (put k v m) | None => None end
    end.
  Fixpoint keys (n : string) (kvs : list (string * json)) (fs : list (string * value))
    : option (list (string * value)) :=
    match kvs with
    | [] => Some fs
    | (k, x) :: r =>
        match find_field (fields n) k with
        | None => keys n r fs
        | Some (f, t) => match decode x t (get f fs) with
                         | Some v => keys n r (put f v fs)
                         | None => None
                         end
        end
    end.

  Lemma decode_slice t l old :
    decode (JArr l) (TSlice t) old = option_map VSlice (elements t l).
  Proof.
    assert (E : forall l, (fix elements (l : list json) : option (list value) :=
                   match l with
                   | [] => Some []
                   | x :: r =>
                       match decode x t VZero, elements r with
                       | Some v, Some vs => Some (v :: vs)
                       | _, _ => None
                       end
                   end) l = elements t l).
    { clear. induction l as [|x r IH]; [reflexivity|]. cbn. rewrite IH. reflexivity. }
    cbn. rewrite E. destruct (elements t l); reflexivity.
  Qed.
  Lemma decode_map t kvs old :
    decode (JObj kvs) (TMap t) old = option_map VMap (entries t kvs (members_of old)).
  Proof.
    cbn. generalize (members_of old). induction kvs as [|[k x] r IH]; intros m; [reflexivity|].
    cbn. destruct (decode x t VZero); [apply IH|reflexivity].
  Qed.
  Lemma decode_struct n kvs old :
    decode (JObj kvs) (TStruct n) old = option_map VStruct (keys n kvs (fields_of old)).
  Proof.
    cbn. generalize (fields_of old). induction kvs as [|[k x] r IH]; intros fs; [reflexivity|].
    cbn. destruct (find_field (fields n) k) as [[f t]|]; [|apply IH].
    destruct (decode x t (get f fs)); [apply IH|reflexivity].
  Qed.
  Lemma decode_null t old : exists v, decode JNull t old = Some v.
  Proof. destruct t; cbn; eauto. Qed.
  Lemma decode_ptr j t old :
    j <> JNull -> decode j (TPtr t) old = option_map VPtr (decode j t (pointee old)).
  Proof. destruct j; try done; intros _; cbn; destruct t; reflexivity. Qed.

  (** * Acceptance does not depend on what is there *)
  Definition acc (j : json) (t : ty) : Prop := exists v, decode j t VZero = Some v.

  Lemma decode_any_old j : forall t old old', is_Some (decode j t old) -> is_Some (decode j t old').
  Proof.
    induction j as [|b|n|s|l IH|kvs IH] using json_induction; intros t.
    - intros old old' _. destruct (decode_null t old') as [v E]. rewrite E. eauto.
    - induction t as [| | | | |t IHt|t IHt|t IHt|n]; intros old old' H; try exact H; try done.
      rewrite decode_ptr in * by done. destruct H as [v Hv].
      destruct (decode (JBool b) t (pointee old)) eqn:E; [|done].
      destruct (IHt _ (pointee old') (mk_is_Some _ _ E)) as [w ->]. eauto.
    - induction t as [| | | | |t IHt|t IHt|t IHt|m]; intros old old' H; try exact H; try done.
      rewrite decode_ptr in * by done. destruct H as [v Hv].
      destruct (decode (JNum n) t (pointee old)) eqn:E; [|done].
      destruct (IHt _ (pointee old') (mk_is_Some _ _ E)) as [w ->]. eauto.
    - induction t as [| | | | |t IHt|t IHt|t IHt|m]; intros old old' H; try exact H; try done.
      rewrite decode_ptr in * by done. destruct H as [v Hv].
      destruct (decode (JStr s) t (pointee old)) eqn:E; [|done].
      destruct (IHt _ (pointee old') (mk_is_Some _ _ E)) as [w ->]. eauto.
    - induction t as [| | | | |t IHt|t IHt|t IHt|m]; intros old old' H; try exact H; try done.
      rewrite decode_ptr in * by done. destruct H as [v Hv].
      destruct (decode (JArr l) t (pointee old)) eqn:E; [|done].
      destruct (IHt _ (pointee old') (mk_is_Some _ _ E)) as [w ->]. eauto.
    - induction t as [| | | | |t IHt|t IHt|t IHt|m]; intros old old' H; try exact H; try done.
      + rewrite decode_ptr in * by done. destruct H as [v Hv].
        destruct (decode (JObj kvs) t (pointee old)) eqn:E; [|done].
        destruct (IHt _ (pointee old') (mk_is_Some _ _ E)) as [w ->]. eauto.
      + rewrite decode_map in *. clear IHt IH.
        assert (G : forall m m', is_Some (entries t kvs m) -> is_Some (entries t kvs m')).
        { clear H old old'. induction kvs as [|[k x] r IHr]; intros m m'; cbn; [eauto|].
          destruct (decode x t VZero); [apply IHr|done]. }
        destruct H as [v Hv]. destruct (entries t kvs (members_of old)) eqn:E; [|done].
        destruct (G _ (members_of old') (mk_is_Some _ _ E)) as [w ->]. eauto.
      + rewrite decode_struct in *.
        assert (G : forall fs fs', is_Some (keys m kvs fs) -> is_Some (keys m kvs fs')).
        { clear H old old'. induction IH as [|[k x] r Hx _ IHr]; intros fs fs'; cbn; [eauto|].
          destruct (find_field (fields m) k) as [[f t]|]; [|apply IHr].
          destruct (decode x t (get f fs)) eqn:E; [|intros [? ?]; done].
          destruct (Hx t _ (get f fs') (mk_is_Some _ _ E)) as [w Hw]. cbn in Hw. rewrite Hw.
          apply IHr. }
        destruct H as [v Hv]. destruct (keys m kvs (fields_of old)) eqn:E; [|done].
        destruct (G _ (fields_of old') (mk_is_Some _ _ E)) as [w ->]. eauto.
  Qed.

  Lemma acc_any_old j t old : acc j t <-> is_Some (decode j t old).
  Proof. split; intros [v E]; eapply decode_any_old; rewrite E; eauto. Qed.
  Lemma acc_null t : acc JNull t.
  Proof. apply decode_null. Qed.
  Lemma acc_ptr j t : acc j (TPtr t) <-> acc j t.
  Proof.
    assert (j = JNull \/ j <> JNull) as [->|Hj]
      by (destruct j; (left; reflexivity) || (right; discriminate)).
    { split; intros _; apply acc_null. }
    { unfold acc. rewrite decode_ptr by done. cbn [pointee]. destruct (decode j t VZero); cbn.
      - split; intros _; eauto.
      - split; intros [? ?]; done. }
  Qed.
  Lemma acc_slice l t : acc (JArr l) (TSlice t) <-> forall x, x ∈ l -> acc x t.
  Proof.
    unfold acc. rewrite decode_slice. split.
    - intros [v E]. destruct (elements t l) as [vs|] eqn:El; [|done]. clear v E.
      revert vs El. induction l as [|y r IH]; intros vs El x Hx; [by apply elem_of_nil in Hx|].
      cbn in El. destruct (decode y t VZero) as [w|] eqn:Ey; [|done].
      destruct (elements t r) as [ws|] eqn:Er; [|done].
      apply elem_of_cons in Hx as [->|Hx]; [eauto|eapply IH; eauto].
    - intros H. assert (exists vs, elements t l = Some vs) as [vs ->]; [|cbn; eauto].
      induction l as [|y r IH]; [cbn; eauto|]. cbn.
      destruct (H y) as [w ->]; [left|]. destruct IH as [ws ->]; [|eauto].
      intros x Hx. apply H. by right.
  Qed.
  Lemma acc_map kvs t : acc (JObj kvs) (TMap t) <-> forall k x, (k, x) ∈ kvs -> acc x t.
  Proof.
    unfold acc. rewrite decode_map. cbn [members_of].
    assert (G : forall m, (exists m', entries t kvs m = Some m') <->
                          forall k x, (k, x) ∈ kvs -> acc x t).
    { induction kvs as [|[k x] r IH]; intros m; cbn.
      - split; [intros _ k x H; by apply elem_of_nil in H|eauto].
      - destruct (decode x t VZero) as [w|] eqn:E.
        + rewrite IH. split.
          * intros H k' x' [[= -> ->]|Hx]%elem_of_cons; [exists w; exact E|eauto].
          * intros H k' x' Hx. eapply H. right. exact Hx.
        + split; [intros [? ?]; done|]. intros H. destruct (H k x) as [w Hw]; [left|]. congruence. }
    rewrite <- (G []). destruct (entries t kvs []); cbn; split; intros [v E]; try done; eauto.
  Qed.
  Lemma acc_struct kvs n :
    acc (JObj kvs) (TStruct n) <->
    forall k x f t, (k, x) ∈ kvs -> find_field (fields n) k = Some (f, t) -> acc x t.
  Proof.
    unfold acc. rewrite decode_struct. cbn [fields_of].
    assert (G : forall m, (exists m', keys n kvs m = Some m') <->
                          forall k x f t, (k, x) ∈ kvs -> find_field (fields n) k = Some (f, t) -> acc x t).
    { induction kvs as [|[k x] r IH]; intros m; cbn.
      - split; [intros _ k x f t H; by apply elem_of_nil in H|eauto].
      - destruct (find_field (fields n) k) as [[f t]|] eqn:Ef.
        + destruct (decode x t (get f m)) as [w|] eqn:E.
          * rewrite IH. split.
            { intros H k' x' f' t' [[= -> ->]|Hx]%elem_of_cons Hf; [|eauto].
              rewrite Ef in Hf. injection Hf as <- <-. apply (acc_any_old _ _ (get f m)). eauto. }
            { intros H k' x' f' t' Hx. eapply H. right. exact Hx. }
          * split; [intros [? ?]; done|]. intros H.
            destruct (proj1 (acc_any_old x t (get f m)) (H k x f t (elem_of_list_here _ _) Ef)) as [w Hw].
            congruence.
        + rewrite IH. split.
          * intros H k' x' f' t' [[= -> ->]|Hx]%elem_of_cons Hf; [congruence|eauto].
          * intros H k' x' f' t' Hx. eapply H. right. exact Hx. }
    rewrite <- (G []). destruct (keys n kvs []); cbn; split; intros [v E]; try done; eauto.
  Qed.
End loops.

(** * Shapes and types *)
(** The structure that an object of a kind is read into. *)
Definition struct_of (o : string) : string :=
  if String.eqb o "AsyncAPI" then "Specification"
  else if String.eqb o "GoTypeImport" then "GoTypeImportExtension"
  else if String.eqb o "MultiFormatSchema" then "Schema"
  else o.

Fixpoint base (t : ty) : ty := match t with TPtr t => base t | _ => t end.

Lemma acc_base fields j t : acc fields j (base t) <-> acc fields j t.
Proof. induction t; try done. cbn. rewrite IHt. symmetry. apply acc_ptr. Qed.
Lemma base_idem t : base (base t) = base t.
Proof. induction t; done. Qed.

Definition mk_or (a b : shape) : shape :=
  match a, b with AFalse, _ => b | _, AFalse => a | _, _ => AOr a b end.

(** No value of the shape can be stored in the type. *)
Definition clash (s : shape) (t : ty) : bool :=
  match s, t with
  | AStr, (TBool | TUint | TFloat | TSlice _ | TMap _ | TStruct _) => true
  | ABool, (TStr | TUint | TFloat | TSlice _ | TMap _ | TStruct _) => true
  | (ANum | ANat), (TStr | TBool | TSlice _ | TMap _ | TStruct _) => true
  | AList _, (TStr | TBool | TUint | TFloat | TMap _ | TStruct _) => true
  | (AMap _ | AObj _), (TStr | TBool | TUint | TFloat | TSlice _) => true
  | _, _ => false
  end.

(** The values of the shape that can be stored in the type (or anything, where this cannot be told). *)
Fixpoint narrowed (s : shape) (t : ty) : shape :=
  if clash s (base t) then AFalse
  else match s, base t with
       | AOr a b, _ => mk_or (narrowed a t) (narrowed b t)
       | AFalse, _ => AFalse
       | ANull, _ => ANull
       | AStr, TStr => AStr
       | ABool, TBool => ABool
       | ANum, TFloat => ANum
       | ANat, TFloat => ANat
       | ANat, TUint => ANat
       | AList s', TSlice t' => AList (narrowed s' t')
       | AMap s', TMap t' => AMap (narrowed s' t')
       | AObj o, TStruct n => if String.eqb n (struct_of o) then AObj o else AAny
       | AAny, TMap t' => match t' with TAny => AOr ANull (AMap AAny) | _ => AAny end
       | _, _ => AAny
       end.

(** Every value of the shape can be stored in the type. *)
Fixpoint fits (s : shape) (t : ty) : bool :=
  match s, base t with
  | AOr a b, _ => fits a t && fits b t
  | AFalse, _ => true
  | ANull, _ => true
  | AAny, TAny => true
  | AStr, TStr => true
  | ABool, TBool => true
  | ANum, TFloat => true
  | ANat, TFloat => true
  | ANat, TUint => true
  | AList s', TSlice t' => fits s' t'
  | AMap s', TMap t' => fits s' t'
  | AObj o, TStruct n => String.eqb n (struct_of o)
  | _, _ => false
  end.

Lemma valid_or g a b j : valid g a j \/ valid g b j -> valid g (mk_or a b) j.
Proof.
  intros [H|H].
  - destruct a; cbn; try (destruct b; first [exact H | by apply valid_left]); by inversion H.
  - destruct a; cbn; try exact H; destruct b; first [by apply valid_right | by inversion H].
Qed.

Fixpoint shape_eqb (a b : shape) : bool :=
  match a, b with
  | AAny, AAny | AStr, AStr | ABool, ABool | ANum, ANum | ANat, ANat | ANull, ANull
  | AFalse, AFalse => true
  | AList a, AList b => shape_eqb a b
  | AMap a, AMap b => shape_eqb a b
  | AObj a, AObj b => String.eqb a b
  | AOr a a', AOr b b' => shape_eqb a b && shape_eqb a' b'
  | _, _ => false
  end.
Lemma shape_eqb_eq a : forall b, shape_eqb a b = true -> a = b.
Proof.
  induction a as [| | | | | |a IH|a IH|o|a IHa a' IHa'|]; intros []; cbn; try done.
  - intros H. f_equal. by apply IH.
  - intros H. f_equal. by apply IH.
  - intros H. f_equal. by apply String.eqb_eq.
  - intros [H1 H2]%andb_prop. f_equal; auto.
Qed.

Lemma find_fold_spec k fs f t :
  find_fold k fs = Some (f, t) -> fold f = fold k /\ (f, t) ∈ fs.
Proof.
  induction fs as [|[f' t'] r IH]; cbn; [done|].
  destruct (String.eqb (fold f') (fold k)) eqn:E.
  - intros [= <- <-]. apply String.eqb_eq in E. split; [done|left].
  - intros H. destruct (IH H). split; [done|by right].
Qed.
Lemma assoc_elem {A} k (l : list (string * A)) a : assoc k l = Some a -> (k, a) ∈ l.
Proof.
  induction l as [|[k' a'] r IH]; cbn; [done|].
  destruct (String.eqb k' k) eqn:E.
  - intros [= <-]. apply String.eqb_eq in E as <-. left.
  - intros H. right. auto.
Qed.
Lemma find_field_spec k fs f t :
  find_field fs k = Some (f, t) -> fold f = fold k /\ (f, t) ∈ fs.
Proof.
  unfold find_field. destruct (assoc k fs) eqn:E.
  - intros [= <- <-]. split; [done|by apply assoc_elem].
  - apply find_fold_spec.
Qed.

Section grammars.
  Context (structs : list (string * list (string * ty))).
  Context (spec read : list (string * list (string * shape))).
  Definition look {A} (l : list (string * list A)) (n : string) : list A := default [] (assoc n l).
  Local Notation fields := (look structs).

  (** The tables agree: the second grammar is what can be stored of the first. *)
  Definition same_row (o : string) (rows rows' : list (string * shape)) : bool :=
    forallb (fun ks' =>
      existsb (fun ks =>
        String.eqb ks.1 ks'.1 &&
        shape_eqb ks'.2 (match find_field (fields (struct_of o)) ks.1 with
                         | Some (_, t) => narrowed ks.2 t
                         | None => AAny
                         end)) rows) rows'.
  Definition known_row (rows rows' : list (string * shape)) : bool :=
    forallb (fun ks => existsb (fun ks' => String.eqb ks'.1 ks.1) rows') rows.
  Definition fit_row (o : string) (rows : list (string * shape)) : bool :=
    forallb (fun ks => match find_field (fields (struct_of o)) ks.1 with
                       | Some (_, t) => fits ks.2 t
                       | None => true
                       end) rows.
  Definition extensions_ok : bool :=
    forallb (fun nfs => forallb (fun ft =>
      negb (has_prefix "x-" (fold ft.1)) || existsb (String.eqb (fold ft.1)) tool_extensions) nfs.2) structs.

  Hypothesis Hsame : forallb (fun ors => same_row ors.1 (look spec ors.1) ors.2) read = true.
  Hypothesis Hknown : forallb (fun ors => known_row ors.2 (look read ors.1)) spec = true.
  Hypothesis Hfit : forallb (fun ors => fit_row ors.1 ors.2) read = true.
  Hypothesis Hext : extensions_ok = true.

  Lemma check {A} (f : string * list A -> bool) l o x :
    forallb f l = true -> x ∈ look l o -> exists rows, f (o, rows) = true /\ x ∈ rows.
  Proof.
    intros Hf H. unfold look in H. destruct (assoc o l) as [rows|] eqn:E; cbn in H; [|by apply elem_of_nil in H].
    apply assoc_elem in E. rewrite forallb_forall in Hf.
    exists rows. split; [|done]. apply Hf. by apply elem_of_list_In.
  Qed.
  Lemma same o k s' :
    (k, s') ∈ look read o ->
    exists s, (k, s) ∈ look spec o /\
      s' = match find_field (fields (struct_of o)) k with Some (_, t) => narrowed s t | None => AAny end.
  Proof.
    intros H. destruct (check _ _ _ _ Hsame H) as (rows & Hr & Hin). cbn in Hr.
    unfold same_row in Hr. rewrite forallb_forall in Hr.
    specialize (Hr _ (proj1 (elem_of_list_In _ _) Hin)).
    apply existsb_exists in Hr as ([k' s] & Hin' & [Hk Hs]%andb_prop).
    cbn [fst snd] in *. apply String.eqb_eq in Hk as ->. apply shape_eqb_eq in Hs.
    exists s. split; [by apply elem_of_list_In|done].
  Qed.
  Lemma known o k s : (k, s) ∈ look spec o -> exists s', (k, s') ∈ look read o.
  Proof.
    intros H. destruct (check _ _ _ _ Hknown H) as (rows & Hr & Hin). cbn in Hr.
    unfold known_row in Hr. rewrite forallb_forall in Hr.
    specialize (Hr _ (proj1 (elem_of_list_In _ _) Hin)).
    apply existsb_exists in Hr as ([k' s'] & Hin' & Hk).
    cbn in *. apply String.eqb_eq in Hk as ->. exists s'. by apply elem_of_list_In.
  Qed.
  Lemma fit o k s f t :
    (k, s) ∈ look read o -> find_field (fields (struct_of o)) k = Some (f, t) -> fits s t = true.
  Proof.
    intros H Hf. destruct (check _ _ _ _ Hfit H) as (rows & Hr & Hin). cbn in Hr.
    unfold fit_row in Hr. rewrite forallb_forall in Hr.
    specialize (Hr _ (proj1 (elem_of_list_In _ _) Hin)). cbn [fst snd] in Hr. by rewrite Hf in Hr.
  Qed.
  Lemma extension_unread n k : extension k -> find_field (fields n) k = None.
  Proof.
    intros [[r ->] Hnot]. destruct (find_field (fields n) _) as [[f t]|] eqn:E; [|done]. exfalso.
    apply find_field_spec in E as [Hk Hin].
    destruct (check _ _ _ _ Hext Hin) as (rows & He & Hin'). cbn [snd] in He. rewrite forallb_forall in He.
    specialize (He _ (proj1 (elem_of_list_In _ _) Hin')). cbn [fst] in He. rewrite Hk in He.
    apply orb_prop in He as [He|He].
    - done.
    - apply existsb_exists in He as (x & Hx & Ex). apply String.eqb_eq in Ex as <-.
      apply Hnot. by apply elem_of_list_In.
  Qed.

  Lemma readable_of_accepted s j :
    valid (look spec) s j -> forall t, acc fields j t -> valid (look read) (narrowed s t) j.
  Proof.
    induction 1 as [j|s|b|n|z Hz| |s l Hl IH|s kvs Hl IH|o kvs Hk Hl IH|a b j Ha IH|a b j Hb IH];
      intros t Ht.
    - rewrite <- acc_base in Ht. cbn. destruct (base t) as [| | | | |t'|t'|t'|n] eqn:Eb; try apply valid_any.
      destruct t'; try apply valid_any.
      destruct Ht as [v Hv]. destruct j; try done; [apply valid_left; constructor|].
      apply valid_right. constructor. intros. constructor.
    - rewrite <- acc_base in Ht. cbn. destruct (base t); destruct Ht as [v Hv]; cbn in Hv; try done; constructor.
    - rewrite <- acc_base in Ht. cbn. destruct (base t); destruct Ht as [v Hv]; cbn in Hv; try done; constructor.
    - rewrite <- acc_base in Ht. cbn. destruct (base t); destruct Ht as [v Hv]; cbn in Hv; try done; constructor.
    - rewrite <- acc_base in Ht. cbn. destruct (base t); destruct Ht as [v Hv]; cbn in Hv; try done; by constructor.
    - cbn. destruct (base t); constructor.
    - rewrite <- acc_base in Ht. cbn.
      destruct (base t) as [| | | | |t'|t'|t'|n] eqn:Eb; try (destruct Ht as [v Hv]; cbn in Hv; done);
        cbn; try constructor.
      intros j Hj. apply IH; [done|]. by apply (proj1 (acc_slice _ _ _) Ht).
    - rewrite <- acc_base in Ht. cbn.
      destruct (base t) as [| | | | |t'|t'|t'|n] eqn:Eb; try (destruct Ht as [v Hv]; cbn in Hv; done);
        cbn; try constructor.
      intros k j Hj. apply (IH k j); [done|]. by apply (proj1 (acc_map _ _ _) Ht k).
    - rewrite <- acc_base in Ht. cbn.
      destruct (base t) as [| | | | |t'|t'|t'|n] eqn:Eb; try (destruct Ht as [v Hv]; cbn in Hv; done);
        cbn; try constructor.
      destruct (String.eqb n (struct_of o)) eqn:En; [|constructor].
      apply String.eqb_eq in En as ->. constructor.
      + intros k j Hj. destruct (Hk k j Hj) as [He|[s Hs]]; [by left|]. right. by eapply known.
      + intros k j s' Hj Hs'. destruct (same _ _ _ Hs') as (s & Hs & ->).
        destruct (find_field (fields (struct_of o)) k) as [[f t']|] eqn:Ef; [|constructor].
        apply (IH k j s Hj Hs). by apply (proj1 (acc_struct _ _ _) Ht k j f t').
    - assert (E : narrowed (AOr a b) t = mk_or (narrowed a t) (narrowed b t)) by (cbn; destruct (base t); done).
      rewrite E. apply valid_or. left. by apply IH.
    - assert (E : narrowed (AOr a b) t = mk_or (narrowed a t) (narrowed b t)) by (cbn; destruct (base t); done).
      rewrite E. apply valid_or. right. by apply IH.
  Qed.

  Lemma accepted_of_readable s j :
    valid (look read) s j -> forall t, fits s t = true -> acc fields j t.
  Proof.
    induction 1 as [j|s|b|n|z Hz| |s l Hl IH|s kvs Hl IH|o kvs Hk Hl IH|a b j Ha IH|a b j Hb IH];
      intros t Ht.
    - rewrite <- acc_base. cbn in Ht. destruct (base t); try done. destruct j; eexists; reflexivity.
    - rewrite <- acc_base. cbn in Ht. destruct (base t); try done; eexists; reflexivity.
    - rewrite <- acc_base. cbn in Ht. destruct (base t); try done; eexists; reflexivity.
    - rewrite <- acc_base. cbn in Ht. destruct (base t); try done; eexists; reflexivity.
    - rewrite <- acc_base. cbn in Ht. destruct (base t); try done; try (eexists; reflexivity).
      exists (VNum (Int z)). cbn [decode fits_uint].
      replace (0 <=? z)%Z with true by (symmetry; apply Z.leb_le; lia).
      replace (z <? 18446744073709551616)%Z with true; [reflexivity|].
      symmetry. apply Z.ltb_lt. change 18446744073709551616%Z with (2 ^ 64)%Z. lia.
    - apply acc_null.
    - rewrite <- acc_base. cbn in Ht.
      destruct (base t) as [| | | | |t'|t'|t'|n] eqn:Eb; try done.
      apply acc_slice. intros x Hx. by apply IH.
    - rewrite <- acc_base. cbn in Ht.
      destruct (base t) as [| | | | |t'|t'|t'|n] eqn:Eb; try done.
      apply acc_map. intros k x Hx. by apply (IH k x).
    - rewrite <- acc_base. cbn in Ht.
      destruct (base t) as [| | | | |t'|t'|t'|n] eqn:Eb; try done.
      apply String.eqb_eq in Ht as ->. apply acc_struct. intros k x f t' Hx Hf.
      destruct (Hk k x Hx) as [He|[s Hs]].
      + rewrite (extension_unread _ _ He) in Hf. done.
      + apply (IH k x s Hx Hs). by eapply fit.
    - apply IH. cbn in Ht. destruct (base t); by apply andb_prop in Ht as [??].
    - apply IH. cbn in Ht. destruct (base t); by apply andb_prop in Ht as [??].
  Qed.

  (** ** Places *)
  Lemma inside_accepted s j o kvs :
    inside (look read) s j o kvs -> forall t, fits s t = true -> acc fields j t ->
    acc fields (JObj kvs) (TStruct (struct_of o)).
  Proof.
    induction 1 as [o kvs|s l j o kvs Hj Hi IH|s l k j o kvs Hj Hi IH|o' l k s j o kvs Hj Hs Hi IH
                   |a b j o kvs Hi IH|a b j o kvs Hi IH]; intros t Hf Ht.
    - rewrite <- acc_base in Ht. cbn in Hf. destruct (base t); try done.
      apply String.eqb_eq in Hf as ->. done.
    - rewrite <- acc_base in Ht. cbn in Hf. destruct (base t) as [| | | | |t'|t'|t'|n]; try done.
      apply (IH t' Hf). by apply (proj1 (acc_slice _ _ _) Ht).
    - rewrite <- acc_base in Ht. cbn in Hf. destruct (base t) as [| | | | |t'|t'|t'|n]; try done.
      apply (IH t' Hf). by apply (proj1 (acc_map _ _ _) Ht k).
    - rewrite <- acc_base in Ht. cbn in Hf. destruct (base t) as [| | | | |t'|t'|t'|n]; try done.
      apply String.eqb_eq in Hf as ->.
      destruct (find_field (fields (struct_of o')) k) as [[f t']|] eqn:Ef.
      + apply (IH t'); [by eapply fit|]. by apply (proj1 (acc_struct _ _ _) Ht k j f t').
      + exfalso. destruct (same _ _ _ Hs) as (s0 & _ & ->). rewrite Ef in Hi. by inversion Hi.
    - apply (IH t); [|done]. cbn in Hf. destruct (base t); by apply andb_prop in Hf as [??].
    - apply (IH t); [|done]. cbn in Hf. destruct (base t); by apply andb_prop in Hf as [??].
  Qed.

  (** ** Fields that are not read *)
  Lemma keys_app n a b fs :
    keys fields n (a ++ b)%list fs =
    match keys fields n a fs with Some fs' => keys fields n b fs' | None => None end.
  Proof.
    revert fs. induction a as [|[k x] r IH]; intros fs; [done|]. cbn.
    destruct (find_field (fields n) k) as [[f t]|]; [|apply IH].
    destruct (decode fields x t (get f fs)); [apply IH|done].
  Qed.
  Lemma entries_app t a b m :
    entries fields t (a ++ b)%list m =
    match entries fields t a m with Some m' => entries fields t b m' | None => None end.
  Proof.
    revert m. induction a as [|[k x] r IH]; intros m; [done|]. cbn.
    destruct (decode fields x t VZero); [apply IH|done].
  Qed.
  Lemma elements_app t a b :
    elements fields t (a ++ b)%list =
    match elements fields t a, elements fields t b with Some u, Some w => Some (u ++ w)%list | _, _ => None end.
  Proof.
    induction a as [|x r IH]; cbn; [by destruct (elements fields t b)|].
    destruct (decode fields x t VZero); [|done]. rewrite IH.
    destruct (elements fields t r), (elements fields t b); done.
  Qed.
  Lemma decode_base j j' t :
    (j <> JNull) -> (j' <> JNull) ->
    (forall old, decode fields j (base t) old = decode fields j' (base t) old) ->
    forall old, decode fields j t old = decode fields j' t old.
  Proof.
    intros Hj Hj'. induction t as [| | | | |t IH|t IH|t IH|n]; try done.
    cbn [base]. intros H old. rewrite !decode_ptr by done. by rewrite IH.
  Qed.

  Context (unread : list (string * string)).
  Hypothesis Hunread :
    forallb (fun ok => if find_field (fields (struct_of ok.1)) ok.2 then false else true) unread = true.

  Lemma unread_none o k : (o, k) ∈ unread -> find_field (fields (struct_of o)) k = None.
  Proof.
    intros H. rewrite forallb_forall in Hunread.
    specialize (Hunread _ (proj1 (elem_of_list_In _ _) H)). cbn in Hunread.
    by destruct (find_field _ _).
  Qed.

  Lemma without_same s j j' :
    without (look read) unread s j j' -> forall t, fits s t = true ->
    forall old, decode fields j t old = decode fields j' t old.
  Proof.
    induction 1 as [o a k x b Hu|s a j j' b Hw IH|s a k j j' b Hw IH|o a k s j j' b Hs Hw IH
                   |a b j j' Hw IH|a b j j' Hw IH]; intros t Hf.
    - apply decode_base; [done|done|]. intros old. cbn in Hf. destruct (base t) as [| | | | |t'|t'|t'|n]; try done.
      apply String.eqb_eq in Hf as ->. rewrite !decode_struct, !keys_app.
      destruct (keys fields _ a _) as [fs|]; [|done]. cbn. by rewrite (unread_none _ _ Hu).
    - apply decode_base; [done|done|]. intros old. cbn in Hf. destruct (base t) as [| | | | |t'|t'|t'|n]; try done.
      rewrite !decode_slice, !elements_app. cbn. by rewrite (IH t' Hf).
    - apply decode_base; [done|done|]. intros old. cbn in Hf. destruct (base t) as [| | | | |t'|t'|t'|n]; try done.
      rewrite !decode_map, !entries_app. destruct (entries fields _ a _); [|done]. cbn. by rewrite (IH t' Hf).
    - apply decode_base; [done|done|]. intros old. cbn in Hf. destruct (base t) as [| | | | |t'|t'|t'|n]; try done.
      apply String.eqb_eq in Hf as ->. rewrite !decode_struct, !keys_app.
      destruct (keys fields _ a _) as [fs|]; [|done]. cbn.
      destruct (find_field (fields (struct_of o)) k) as [[f t']|] eqn:Ef; [|done].
      rewrite (IH t'); [done|by eapply fit].
    - apply IH. cbn in Hf. destruct (base t); by apply andb_prop in Hf as [??].
    - apply IH. cbn in Hf. destruct (base t); by apply andb_prop in Hf as [??].
  Qed.

  (** ** What is stored *)
  Lemma assoc_put {A} k k' (a : A) l :
    assoc k' (put k a l) = if String.eqb k k' then Some a else assoc k' l.
  Proof.
    induction l as [|[k1 a1] r IH]; cbn.
    - destruct (String.eqb k k'); done.
    - destruct (String.eqb k1 k) eqn:E; cbn.
      + apply String.eqb_eq in E as ->. destruct (String.eqb k k'); done.
      + rewrite IH. destruct (String.eqb k1 k') eqn:E1; [|done].
        destruct (String.eqb k k') eqn:E2; [|done].
        apply String.eqb_eq in E1 as ->, E2 as ->. by rewrite String.eqb_refl in E.
  Qed.
  Lemma assoc_none {A} k (l : list (string * A)) : k ∉ map fst l -> assoc k l = None.
  Proof.
    induction l as [|[k' a] r IH]; cbn; [done|]. intros H. apply not_elem_of_cons in H as [Hk Hr].
    destruct (String.eqb k' k) eqn:E; [apply String.eqb_eq in E; congruence|auto].
  Qed.
  Lemma put_new {A} k (a : A) l : k ∉ map fst l -> map fst (put k a l) = (map fst l ++ [k])%list.
  Proof.
    induction l as [|[k' a'] r IH]; cbn; [done|]. intros H. apply not_elem_of_cons in H as [Hk Hr].
    destruct (String.eqb k' k) eqn:E; [apply String.eqb_eq in E; congruence|]. cbn. by rewrite IH.
  Qed.
  Lemma entries_spec t kvs : forall m m',
    entries fields t kvs m = Some m' -> NoDup (map fst kvs) -> (forall k, k ∈ map fst kvs -> k ∉ map fst m) ->
    map fst m' = (map fst m ++ map fst kvs)%list /\
    (forall k, k ∉ map fst kvs -> assoc k m' = assoc k m) /\
    forall k x v, (k, x) ∈ kvs -> assoc k m' = Some v -> decode fields x t VZero = Some v.
  Proof.
    induction kvs as [|[k x] r IH]; cbn; intros m m' H Hnd Hm.
    - injection H as <-. rewrite app_nil_r. split; [done|]. split; [done|].
      intros k x v Hk. by apply elem_of_nil in Hk.
    - destruct (decode fields x t VZero) as [v0|] eqn:E; [|done].
      apply NoDup_cons in Hnd as [Hk Hnd].
      destruct (IH _ _ H Hnd) as (H1 & H2 & H3).
      { intros k' Hk'. rewrite put_new by (apply Hm; left). rewrite elem_of_app, elem_of_list_singleton.
        intros [Hx| ->]; [|done]. by apply (Hm k'); [right|]. }
      split; [|split].
      + rewrite H1, put_new by (apply Hm; left). by rewrite <- app_assoc.
      + intros k' [Hk1 Hk2]%not_elem_of_cons. rewrite H2 by done. rewrite assoc_put.
        destruct (String.eqb k k') eqn:E1; [|done]. apply String.eqb_eq in E1. congruence.
      + intros k' x' v [[= -> ->]|Hx]%elem_of_cons Hv; [|by eapply H3].
        rewrite H2, assoc_put, String.eqb_refl in Hv by done. congruence.
  Qed.
  Lemma keys_spec n kvs : forall fs fs',
    keys fields n kvs fs = Some fs' -> NoDup (map fst kvs) ->
    (forall k k' x x' f t t', (k, x) ∈ kvs -> (k', x') ∈ kvs -> find_field (fields n) k = Some (f, t) ->
       find_field (fields n) k' = Some (f, t') -> k = k') ->
    (forall k x f t, (k, x) ∈ kvs -> find_field (fields n) k = Some (f, t) -> assoc f fs = None) ->
    (forall f, (forall k x t, (k, x) ∈ kvs -> find_field (fields n) k <> Some (f, t)) ->
       assoc f fs' = assoc f fs) /\
    forall k x f t, (k, x) ∈ kvs -> find_field (fields n) k = Some (f, t) ->
      decode fields x t VZero = Some (get f fs').
  Proof.
    induction kvs as [|[k x] r IH]; cbn; intros fs fs' H Hnd Hdis Hfs.
    - injection H as <-. split; [done|]. intros k x f t Hk. by apply elem_of_nil in Hk.
    - apply NoDup_cons in Hnd as [Hk Hnd].
      assert (Hnew : forall k' x', (k', x') ∈ r -> k' <> k).
      { intros k' x' Hin ->. apply Hk. apply elem_of_list_fmap. by exists (k, x'). }
      destruct (find_field (fields n) k) as [[f t]|] eqn:Ef.
      + destruct (decode fields x t (get f fs)) as [v|] eqn:E; [|done].
        destruct (IH _ _ H Hnd) as [H1 H2].
        { intros k1 k2 x1 x2 f1 t1 t2 Hi1 Hi2. eapply Hdis; by right. }
        { intros k1 x1 f1 t1 Hi1 Hf1. rewrite assoc_put. destruct (String.eqb f f1) eqn:E1.
          - apply String.eqb_eq in E1 as <-. exfalso. apply (Hnew _ _ Hi1).
            eapply Hdis; [right; exact Hi1|left|exact Hf1|exact Ef].
          - eapply Hfs; [right; exact Hi1|exact Hf1]. }
        split.
        * intros f1 Hno. rewrite H1.
          { rewrite assoc_put. destruct (String.eqb f f1) eqn:E1; [|done].
            apply String.eqb_eq in E1 as <-. exfalso. by apply (Hno k x t); [left|]. }
          { intros k1 x1 t1 Hi1. apply (Hno k1 x1). by right. }
        * intros k1 x1 f1 t1 [[= -> ->]|Hi1]%elem_of_cons Hf1; [|by eapply H2].
          rewrite Ef in Hf1. injection Hf1 as <- <-.
          unfold get in E. rewrite (Hfs k x f t) in E; [|left|exact Ef]. cbn in E. rewrite E.
          unfold get. rewrite H1.
          { rewrite assoc_put, String.eqb_refl. done. }
          { intros k1 x1 t1 Hi1 Hf1. apply (Hnew _ _ Hi1).
            eapply Hdis; [right; exact Hi1|left|exact Hf1|exact Ef]. }
      + destruct (IH _ _ H Hnd) as [H1 H2].
        { intros k1 k2 x1 x2 f1 t1 t2 Hi1 Hi2. eapply Hdis; by right. }
        { intros k1 x1 f1 t1 Hi1. eapply Hfs. right. exact Hi1. }
        split.
        * intros f1 Hno. apply H1. intros k1 x1 t1 Hi1. apply (Hno k1 x1). by right.
        * intros k1 x1 f1 t1 [[= -> ->]|Hi1]%elem_of_cons Hf1; [congruence|by eapply H2].
  Qed.
  Lemma elements_spec t l : forall vs,
    elements fields t l = Some vs ->
    List.length l = List.length vs /\
    forall i j v, l !! i = Some j -> vs !! i = Some v -> decode fields j t VZero = Some v.
  Proof.
    induction l as [|x r IH]; cbn; intros vs H.
    - injection H as <-. split; [done|]. intros i j v Hj. by rewrite lookup_nil in Hj.
    - destruct (decode fields x t VZero) as [w|] eqn:E; [|done].
      destruct (elements fields t r) as [ws|] eqn:Er; [|done]. injection H as <-.
      destruct (IH _ eq_refl) as [H1 H2]. split; [cbn; by rewrite H1|].
      intros [|i] j v; cbn; [congruence|apply H2].
  Qed.

  (** Different fixed fields of a kind are stored in different fields of the structure, and every one
      that is not in the list is stored. *)
  Definition distinct_row (o : string) (rows : list (string * shape)) : bool :=
    forallb (fun ks => forallb (fun ks' =>
      String.eqb ks.1 ks'.1 || negb (String.eqb (fold ks.1) (fold ks'.1))) rows) rows.
  Definition stored_row (o : string) (rows : list (string * shape)) : bool :=
    forallb (fun ks => existsb (fun ok => String.eqb ok.1 o && String.eqb ok.2 ks.1) unread ||
      if find_field (fields (struct_of o)) ks.1 then true else false) rows.
  Hypothesis Hdistinct : forallb (fun ors => distinct_row ors.1 ors.2) read = true.
  Hypothesis Hstored : forallb (fun ors => stored_row ors.1 ors.2) read = true.

  Lemma distinct o k s k' s' :
    (k, s) ∈ look read o -> (k', s') ∈ look read o -> fold k = fold k' -> k = k'.
  Proof.
    unfold look. intros H1 H2 E.
    destruct (assoc o read) as [rows|] eqn:Ea; cbn in *; [|by apply elem_of_nil in H1].
    apply assoc_elem in Ea. pose proof Hdistinct as Hd. rewrite forallb_forall in Hd.
    specialize (Hd _ (proj1 (elem_of_list_In _ _) Ea)). cbn in Hd. unfold distinct_row in Hd.
    rewrite forallb_forall in Hd. specialize (Hd _ (proj1 (elem_of_list_In _ _) H1)).
    rewrite forallb_forall in Hd. specialize (Hd _ (proj1 (elem_of_list_In _ _) H2)). cbn [fst] in Hd.
    rewrite E, String.eqb_refl in Hd. cbn in Hd. rewrite orb_false_r in Hd. by apply String.eqb_eq.
  Qed.
  Lemma stored o k s :
    (k, s) ∈ look read o -> (o, k) ∉ unread ->
    exists f t, find_field (fields (struct_of o)) k = Some (f, t).
  Proof.
    intros H Hn. destruct (check _ _ _ _ Hstored H) as (rows & Hr & Hin). cbn in Hr.
    unfold stored_row in Hr. rewrite forallb_forall in Hr.
    specialize (Hr _ (proj1 (elem_of_list_In _ _) Hin)). cbn [fst] in Hr.
    apply orb_prop in Hr as [Hr|Hr].
    - exfalso. apply existsb_exists in Hr as ([o' k'] & Hx & [E1 E2]%andb_prop). cbn in *.
      apply String.eqb_eq in E1 as ->, E2 as ->. apply Hn. by apply elem_of_list_In.
    - destruct (find_field _ _) as [[f t]|]; [eauto|done].
  Qed.

  Lemma holds_base s j t v :
    j <> JNull ->
    (forall v, decode fields j (base t) VZero = Some v -> holds (look read) unread s j v) ->
    decode fields j t VZero = Some v -> holds (look read) unread s j v.
  Proof.
    intros Hj. revert v. induction t as [| | | | |t IH|t IH|t IH|n]; cbn [base]; intros v Hb Hd; auto.
    rewrite decode_ptr in Hd by done. cbn [pointee] in Hd.
    destruct (decode fields j t VZero) as [w|] eqn:E; [|done]. injection Hd as <-.
    apply holds_ptr. by apply IH.
  Qed.
  Lemma decode_null_zero t v : decode fields JNull t VZero = Some v -> v = VZero.
  Proof. destruct t; cbn; congruence. Qed.

  Lemma all_stored s j :
    valid (look read) s j -> forall t v, fits s t = true -> no_duplicates j ->
    decode fields j t VZero = Some v -> holds (look read) unread s j v.
  Proof.
    induction 1 as [j|s|b|n|z Hz| |s l Hl IH|s kvs Hl IH|o kvs Hk Hl IH|a b j Ha IH|a b j Hb IH];
      intros t v Hf Hnd.
    - assert (j = JNull \/ j <> JNull) as [->|Hj]
        by (destruct j; (left; reflexivity) || (right; discriminate)).
      { intros ->%decode_null_zero. constructor. }
      apply holds_base; [done|]. intros w. cbn in Hf. destruct (base t); try done.
      destruct j; try done; intros [= <-]; apply holds_any.
    - apply holds_base; [done|]. intros w. cbn in Hf. destruct (base t); try done. intros [= <-]. constructor.
    - apply holds_base; [done|]. intros w. cbn in Hf. destruct (base t); try done. intros [= <-]. constructor.
    - apply holds_base; [done|]. intros w. cbn in Hf. destruct (base t); try done. intros [= <-]. constructor.
    - apply holds_base; [done|]. intros w. cbn in Hf. destruct (base t); try done.
      + cbn. destruct (_ && _); [|done]. intros [= <-]. constructor.
      + intros [= <-]. constructor.
    - intros ->%decode_null_zero. constructor.
    - apply holds_base; [done|]. intros w. cbn in Hf. destruct (base t) as [| | | | |t'|t'|t'|n]; try done.
      rewrite decode_slice. destruct (elements fields t' l) as [vs|] eqn:E; [|done]. intros [= <-].
      destruct (elements_spec _ _ _ E) as [H1 H2]. inversion Hnd as [| | | |l' Hl'|]; subst.
      constructor; [done|]. intros i j v' Hj Hv.
      assert (Hin : j ∈ l) by (by eapply elem_of_list_lookup_2). eapply IH; eauto.
    - apply holds_base; [done|]. intros w. cbn in Hf. destruct (base t) as [| | | | |t'|t'|t'|n]; try done.
      rewrite decode_map. cbn [members_of]. destruct (entries fields t' kvs []) as [m|] eqn:E; [|done].
      intros [= <-]. inversion Hnd as [| | | | |kvs' Hd Hl']; subst.
      destruct (entries_spec _ _ _ _ E Hd) as (H1 & _ & H3).
      { intros k _ Hk. by apply elem_of_nil in Hk. }
      constructor; [done|]. intros k j v' Hj Hv. eapply IH; eauto.
    - apply holds_base; [done|]. intros w. cbn in Hf. destruct (base t) as [| | | | |t'|t'|t'|n]; try done.
      apply String.eqb_eq in Hf as ->. rewrite decode_struct. cbn [fields_of].
      destruct (keys fields (struct_of o) kvs []) as [fs|] eqn:E; [|done]. intros [= <-].
      inversion Hnd as [| | | | |kvs' Hd Hl']; subst.
      destruct (keys_spec _ _ _ _ E Hd) as [_ H2].
      { intros k k' x x' f t1 t2 Hi Hi' Hf1 Hf2.
        destruct (Hk _ _ Hi) as [He|[s1 Hs1]]; [by rewrite (extension_unread _ _ He) in Hf1|].
        destruct (Hk _ _ Hi') as [He|[s2 Hs2]]; [by rewrite (extension_unread _ _ He) in Hf2|].
        apply (distinct o _ _ _ _ Hs1 Hs2).
        apply find_field_spec in Hf1 as [<- _]. apply find_field_spec in Hf2 as [<- _]. done. }
      { done. }
      apply (holds_obj _ _ _ _ _
               (fun k => match find_field (fields (struct_of o)) k with Some (f, _) => f | None => k end)).
      + intros k. destruct (find_field (fields (struct_of o)) k) as [[f t1]|] eqn:Ef; [|done].
        by apply find_field_spec in Ef as [? _].
      + intros k j s Hj Hs Hu. destruct (stored o k s Hs Hu) as (f & t1 & Ef). rewrite Ef.
        eapply IH; [exact Hj|exact Hs|eapply fit; [exact Hs|exact Ef]|eapply Hl'; exact Hj|].
        eapply H2; [exact Hj|exact Ef].
    - intros Hd. apply holds_left. apply (IH t); [|done|done].
      cbn in Hf. destruct (base t); by apply andb_prop in Hf as [??].
    - intros Hd. apply holds_right. apply (IH t); [|done|done].
      cbn in Hf. destruct (base t); by apply andb_prop in Hf as [??].
  Qed.
End grammars.

(** * The tables *)
Definition restricted (cs : list change) (tbl : list (string * list (string * shape))) :=
  map (fun ors => (ors.1, map (fun ks => (ks.1, default ks.2 (changed cs ors.1 ks.1))) ors.2)) tbl.
Lemma look_restricted cs tbl o :
  look (restricted cs tbl) o = restrict cs (fun o => default [] (assoc o tbl)) o.
Proof.
  unfold look, restrict. induction tbl as [|[o' rows] r IH]; [done|]. cbn.
  destruct (String.eqb o' o) eqn:E; [|exact IH]. apply String.eqb_eq in E as ->. done.
Qed.
Lemma valid_ext g g' s j : (forall o, g o = g' o) -> valid g s j -> valid g' s j.
Proof.
  intros E. induction 1; try (constructor; by eauto); try (by apply valid_right).
  constructor.
  - intros k j Hj. rewrite <- E. eauto.
  - intros k j s Hj Hs. rewrite <- E in Hs. eauto.
Qed.
Lemma inside_ext g g' s j o kvs : (forall o, g o = g' o) -> inside g s j o kvs -> inside g' s j o kvs.
Proof.
  intros E. induction 1 as [o kvs|s l j o kvs Hj Hi IH|s l k j o kvs Hj Hi IH|o' l k s j o kvs Hj Hs Hi IH
                           |a b j o kvs Hi IH|a b j o kvs Hi IH].
  - apply inside_here.
  - by eapply inside_list.
  - by eapply inside_map.
  - rewrite E in Hs. by eapply inside_obj.
  - by apply inside_left.
  - by apply inside_right.
Qed.
Lemma without_ext g g' fs s j j' : (forall o, g o = g' o) -> without g fs s j j' -> without g' fs s j j'.
Proof.
  intros E. induction 1 as [o a k x b Hu|s a j j' b Hw IH|s a k j j' b Hw IH|o a k s j j' b Hs Hw IH
                           |a b j j' Hw IH|a b j j' Hw IH].
  - by apply without_here.
  - by apply without_list.
  - by apply without_map.
  - rewrite E in Hs. by eapply without_obj.
  - by apply without_left.
  - by apply without_right.
Qed.
Lemma holds_ext g g' fs s j v : (forall o, g o = g' o) -> holds g fs s j v -> holds g' fs s j v.
Proof.
  intros E. induction 1 as [| | | | | | | |s l vs Hn Hl IH|s kvs m Hm Hl IH|o kvs vs name Hn Hl IH
                           |a b j v Hh IH|a b j v Hh IH]; try (by constructor).
  eapply holds_obj; [exact Hn|]. intros k j s Hj Hs Hu. rewrite <- E in Hs. eauto.
Qed.

Definition read3 := restricted (narrow3 ++ never_read unread3) asyncapi3_table.
Definition read2 := restricted (narrow2 ++ never_read unread2) asyncapi2_table.
Lemma look3 o : look read3 o = readable3 o.
Proof. apply look_restricted. Qed.
Lemma look2 o : look read2 o = readable2 o.
Proof. apply look_restricted. Qed.

Definition structs_of (m : major) := match m with V2 => v2_structs | V3 => v3_structs end.
Definition spec_of (m : major) := match m with V2 => asyncapi2_table | V3 => asyncapi3_table end.
Definition read_of (m : major) := match m with V2 => read2 | V3 => read3 end.
Lemma look_read m o : look (read_of m) o = readable m o.
Proof. destruct m; [apply look2|apply look3]. Qed.
Lemma look_spec m o : look (spec_of m) o = asyncapi m o.
Proof. by destruct m. Qed.
Lemma look_fields m n : look (structs_of m) n = Decoding.fields m n.
Proof. by destruct m. Qed.

Lemma same_all m :
  forallb (fun ors => same_row (structs_of m) ors.1 (look (spec_of m) ors.1) ors.2) (read_of m) = true.
Proof. destruct m; vm_compute; reflexivity. Qed.
Lemma known_all m : forallb (fun ors => known_row ors.2 (look (read_of m) ors.1)) (spec_of m) = true.
Proof. destruct m; vm_compute; reflexivity. Qed.
Lemma fit_all m : forallb (fun ors => fit_row (structs_of m) ors.1 ors.2) (read_of m) = true.
Proof. destruct m; vm_compute; reflexivity. Qed.
Lemma ext_all m : extensions_ok (structs_of m) = true.
Proof. destruct m; vm_compute; reflexivity. Qed.
Lemma unread_all m :
  forallb (fun ok => if find_field (look (structs_of m) (struct_of ok.1)) ok.2 then false else true) (unread m)
  = true.
Proof. destruct m; vm_compute; reflexivity. Qed.
Lemma distinct_all m : forallb (fun ors => distinct_row ors.1 ors.2) (read_of m) = true.
Proof. destruct m; vm_compute; reflexivity. Qed.
Lemma stored_all m :
  forallb (fun ors => stored_row (structs_of m) (unread m) ors.1 ors.2) (read_of m) = true.
Proof. destruct m; vm_compute; reflexivity. Qed.

(** * Documents *)
Lemma fields_look m : Decoding.fields m = look (structs_of m).
Proof. by destruct m. Qed.

Lemma unmarshal_readable m j :
  valid (asyncapi m) (AObj "AsyncAPI") j ->
  (is_Some (unmarshal m j) <-> valid (readable m) (AObj "AsyncAPI") j).
Proof.
  intros Hv. unfold unmarshal. rewrite fields_look. split.
  - intros H. apply (valid_ext (look (read_of m))); [apply look_read|].
    assert (E : AObj "AsyncAPI" = narrowed (AObj "AsyncAPI") (TStruct "Specification")) by reflexivity.
    rewrite E. eapply readable_of_accepted; [apply same_all|apply known_all| |].
    + eapply valid_ext; [|exact Hv]. intros o. by rewrite look_spec.
    + destruct H as [v H]. by exists v.
  - intros H. eapply (accepted_of_readable (structs_of m) (read_of m)); [apply fit_all|apply ext_all| |].
    + eapply valid_ext; [|exact H]. intros o. by rewrite look_read.
    + reflexivity.
Qed.

Lemma unmarshal_inside m j o kvs k x s :
  is_Some (unmarshal m j) -> inside (readable m) (AObj "AsyncAPI") j o kvs -> (k, x) ∈ kvs ->
  (k, s) ∈ asyncapi m o -> valid (asyncapi m) s x ->
  forall f t, find_field (Decoding.fields m (struct_of o)) k = Some (f, t) ->
  valid (readable m) (narrowed s t) x.
Proof.
  intros [v Hu] Hi Hx Hs Hv f t Hf.
  apply (valid_ext (look (read_of m))); [apply look_read|].
  eapply readable_of_accepted; [apply same_all|apply known_all| |].
  { eapply valid_ext; [|exact Hv]. intros o'. by rewrite look_spec. }
  assert (Ha : acc (look (structs_of m)) (JObj kvs) (TStruct (struct_of o))).
  { eapply (inside_accepted (structs_of m) (spec_of m) (read_of m)); [apply same_all|apply fit_all| | |].
    - eapply inside_ext; [|exact Hi]. intros o'. by rewrite look_read.
    - instantiate (1 := TStruct "Specification"). reflexivity.
    - exists v. unfold unmarshal in Hu. by rewrite fields_look in Hu. }
  rewrite fields_look in Hf. by apply (proj1 (acc_struct _ _ _) Ha k x f t).
Qed.

Lemma unmarshal_without m j j' :
  without (readable m) (unread m) (AObj "AsyncAPI") j j' -> unmarshal m j = unmarshal m j'.
Proof.
  intros H. unfold unmarshal. rewrite fields_look.
  eapply (without_same (structs_of m) (read_of m)); [apply fit_all|apply unread_all| |].
  - eapply without_ext; [|exact H]. intros o. by rewrite look_read.
  - reflexivity.
Qed.

Lemma unmarshal_holds m j v :
  valid (asyncapi m) (AObj "AsyncAPI") j -> no_duplicates j -> unmarshal m j = Some v ->
  holds (readable m) (unread m) (AObj "AsyncAPI") j v.
Proof.
  intros Hv Hd Hu. apply (holds_ext (look (read_of m))); [apply look_read|].
  assert (Hr : valid (readable m) (AObj "AsyncAPI") j) by (apply unmarshal_readable; eauto).
  unfold unmarshal in Hu. rewrite fields_look in Hu.
  eapply (all_stored (structs_of m) (read_of m));
    [apply fit_all|apply ext_all|apply distinct_all|apply stored_all| | |exact Hd|exact Hu].
  - eapply valid_ext; [|exact Hr]. intros o. by rewrite look_read.
  - reflexivity.
Qed.

(** * The choice of the parser *)
Lemma member_last kvs k j (m0 : gmap string member) :
  NoDup (map fst kvs) -> (k, j) ∈ kvs ->
  foldl (fun m kv => <[kv.1 := member_of kv.2]> m) m0 kvs !! k = Some (member_of j).
Proof.
  revert m0. induction kvs as [|[k' j'] r IH]; intros m0 Hnd Hin; [by apply elem_of_nil in Hin|].
  cbn in *. apply NoDup_cons in Hnd as [Hk Hnd]. apply elem_of_cons in Hin as [[= <- <-]|Hin]; [|by apply IH].
  assert (G : forall m0 : gmap string member, m0 !! k = Some (member_of j) ->
    foldl (fun m kv => <[kv.1 := member_of kv.2]> m) m0 r !! k = Some (member_of j)).
  { clear IH Hnd. induction r as [|[k1 j1] r IH]; intros m1 Hm; [done|]. cbn in *.
    apply not_elem_of_cons in Hk as [Hk1 Hk2]. apply IH; [done|]. by rewrite lookup_insert_ne. }
  apply G. by rewrite lookup_insert.
Qed.

(** * Fields that cannot be read *)
Lemma unreadable_type m o k x :
  unreadable m o k x ->
  exists f t, find_field (Decoding.fields m (struct_of o)) k = Some (f, t) /\ ~ acc (Decoding.fields m) x t.
Proof.
  Local Ltac none := eexists _, _; split; [vm_compute; reflexivity|intros [v Hv]; vm_compute in Hv; done].
  intros [m' k' b Hk|k' b Hk|m' l|m' l|m' n|k' kvs Hk|m' k' b Hk|l|s|n|l].
  - rewrite !elem_of_cons, elem_of_nil in Hk. destruct Hk as [->|[->|[]]]; destruct m'; none.
  - rewrite !elem_of_cons, elem_of_nil in Hk. destruct Hk as [->|[->|[->|[->|[]]]]]; none.
  - destruct m'; none.
  - destruct m'; none.
  - destruct m'; none.
  - rewrite !elem_of_cons, elem_of_nil in Hk. destruct Hk as [->|[->|[->|[]]]]; none.
  - rewrite !elem_of_cons, elem_of_nil in Hk. destruct Hk as [->|[->|[]]]; destruct m'; none.
  - none.
  - none.
  - none.
  - none.
Qed.
Lemma unmarshal_unreadable m j o kvs k x :
  inside (readable m) (AObj "AsyncAPI") j o kvs -> (k, x) ∈ kvs -> unreadable m o k x ->
  unmarshal m j = None.
Proof.
  intros Hi Hx Hu. destruct (unmarshal m j) as [v|] eqn:E; [|done]. exfalso.
  destruct (unreadable_type _ _ _ _ Hu) as (f & t & Hf & Hn). apply Hn.
  assert (Ha : acc (look (structs_of m)) (JObj kvs) (TStruct (struct_of o))).
  { eapply (inside_accepted (structs_of m) (spec_of m) (read_of m)); [apply same_all|apply fit_all| | |].
    - eapply inside_ext; [|exact Hi]. intros o'. by rewrite look_read.
    - instantiate (1 := TStruct "Specification"). reflexivity.
    - exists v. unfold unmarshal in E. by rewrite fields_look in E. }
  rewrite fields_look in Hf |- *. by apply (proj1 (acc_struct _ _ _) Ha k x f t).
Qed.

(** * Deciding validity (for the examples) *)
Definition extension_b (k : string) : bool :=
  has_prefix "x-" k && negb (existsb (String.eqb (fold k)) tool_extensions).
Section deciding.
  Context (g : grammar).
  Fixpoint valid_b (j : json) : shape -> bool :=
    fix go (s : shape) : bool :=
      match s, j with
      | AOr a b, _ => go a || go b
      | AAny, _ => true
      | AStr, JStr _ => true
      | ABool, JBool _ => true
      | ANum, JNum _ => true
      | ANat, JNum n => fits_uint n
      | ANull, JNull => true
      | AList s', JArr l => forallb (fun x => valid_b x s') l
      | AMap s', JObj kvs => forallb (fun kv => valid_b kv.2 s') kvs
      | AObj o, JObj kvs =>
          forallb (fun kv =>
            (extension_b kv.1 || existsb (fun ks => String.eqb ks.1 kv.1) (g o)) &&
            forallb (fun ks => negb (String.eqb ks.1 kv.1) || valid_b kv.2 ks.2) (g o)) kvs
      | _, _ => false
      end.
  Lemma extension_sound k : extension_b k = true -> extension k.
  Proof.
    intros [H1 H2]%andb_prop. split.
    - unfold has_prefix, strip_prefix in H1. destruct k as [|a k]; [done|].
      destruct (Ascii.eqb "x" a) eqn:Ea; [|done]. destruct k as [|b k]; [done|].
      destruct (Ascii.eqb "-" b) eqn:Eb; [|done].
      apply Ascii.eqb_eq in Ea as <-, Eb as <-. by exists k.
    - intros H. apply negb_true_iff in H2. apply elem_of_list_In in H.
      assert (existsb (String.eqb (fold k)) tool_extensions = true); [|congruence].
      apply existsb_exists. exists (fold k). by rewrite String.eqb_refl.
  Qed.
  Lemma valid_sound j : forall s, valid_b j s = true -> valid g s j.
  Proof.
    induction j as [|b|n|s0|l IH|kvs IH] using json_induction;
      induction s as [| | | | | |s IHs|s IHs|o|s1 IH1 s2 IH2|]; intros H; try done; try (by constructor);
      try (cbn in H; apply orb_prop in H as [H|H]; [by apply valid_left, IH1|by apply valid_right, IH2]).
    - destruct n as [z|]; [|done]. cbn in H. apply andb_prop in H as [H1 H2].
      apply Z.leb_le in H1. apply Z.ltb_lt in H2. constructor.
      change (2 ^ 64)%Z with 18446744073709551616%Z. lia.
    - cbn in H. rewrite forallb_forall in H. constructor. intros j Hj.
      rewrite Forall_forall in IH. apply IH; [done|]. apply H. by apply elem_of_list_In.
    - cbn in H. rewrite forallb_forall in H. constructor. intros k j Hj.
      rewrite Forall_forall in IH. apply (IH (k, j)); [done|]. apply (H (k, j)). by apply elem_of_list_In.
    - cbn in H. rewrite forallb_forall in H. constructor.
      + intros k j Hj. apply elem_of_list_In in Hj. specialize (H _ Hj). cbn in H.
        apply andb_prop in H as [H _]. apply orb_prop in H as [H|H]; [left; by apply extension_sound|].
        right. apply existsb_exists in H as ([k' s'] & Hin & E). cbn in E. apply String.eqb_eq in E as ->.
        exists s'. by apply elem_of_list_In.
      + intros k j s Hj Hs. pose proof Hj as Hj'. apply elem_of_list_In in Hj. specialize (H _ Hj).
        apply andb_prop in H as [_ H]. rewrite forallb_forall in H.
        apply elem_of_list_In in Hs. specialize (H _ Hs). cbn [fst snd] in H.
        rewrite String.eqb_refl in H. cbn in H. rewrite Forall_forall in IH. by apply (IH (k, j)).
  Qed.
End deciding.
Fixpoint no_duplicates_b (j : json) : bool :=
  match j with
  | JArr l => forallb no_duplicates_b l
  | JObj kvs => bool_decide (NoDup (map fst kvs)) && forallb (fun kv => no_duplicates_b kv.2) kvs
  | _ => true
  end.
Lemma no_duplicates_sound j : no_duplicates_b j = true -> no_duplicates j.
Proof.
  induction j as [|b|n|s0|l IH|kvs IH] using json_induction; intros H; try (by constructor).
  - cbn in H. rewrite forallb_forall in H. rewrite Forall_forall in IH. constructor.
    intros j Hj. apply IH; [done|]. apply H. by apply elem_of_list_In.
  - cbn in H. apply andb_prop in H as [Hn H]. rewrite forallb_forall in H. rewrite Forall_forall in IH.
    constructor; [by apply bool_decide_eq_true in Hn|].
    intros k j Hj. apply (IH (k, j)); [done|]. apply (H (k, j)). by apply elem_of_list_In.
Qed.
