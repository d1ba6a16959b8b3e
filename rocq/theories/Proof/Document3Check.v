(** Whether a document is processed as it should can be computed: for the examples. *)
From stdpp Require Import gmap list strings.
From Coq Require Import NArith Ascii String.
From Verif.Model Require Import GoStrings Reference Linking Naming Names Operations Package Document3.
From Verif.Spec Require Import ReferenceSpec NamingSpec NamesSpec LinkingSpec PackageSpec Document3Spec.
From Verif.Proof Require Import ReferenceProof LinkingProof LinkingCheck NamesProof PackageOnceProof Document3Proof.
Local Open Scope string_scope.
Local Open Scope list_scope.
Local Open Scope nat_scope.

Fixpoint parts (f : file) : list object :=
  let 'File _ root others := f in (root :: in_field root "components") ++ List.concat (map parts others).
Definition parts_channels (f : file) : list object := List.concat (map (fun p => in_field p "channels") (parts f)).
Definition is_placed (f : file) : bool :=
  bool_decide (NoDup (List.concat (map (fun c => map o_id (in_field c "messages")) (parts_channels f)) ++
                      List.concat (map (fun p => map o_id (in_field p "messages")) (parts f)))).
Definition is_ascii_text (s : string) : bool := forallb (fun a => (N_of_ascii a <? 128)%N) (list_ascii_of_string s).
Definition are_ascii (t : texts) (f : file) : bool :=
  forallb (fun c => is_ascii_text (key_of t (o_id c)) && forallb (fun m => is_ascii_text (key_of t (o_id m))) (in_field c "messages")) (parts_channels f) &&
  forallb (fun p => forallb (fun o => is_ascii_text (key_of t (o_id o))) (in_field p "operations")) (parts f) &&
  forallb (fun p => forallb (fun o => is_ascii_text (key_of t (o_id o))) (in_field p "messages")) (parts f).
Definition are_different (t : texts) (f : file) : bool :=
  bool_decide (NoDup (kind_names "Channel" (keys t (root_of f) "channels"))) && bool_decide (NoDup (kind_names "Operation" (keys t (root_of f) "operations"))).

Lemma is_ascii_sound s : is_ascii_text s = true -> ascii_key s.
Proof.
  unfold is_ascii_text, ascii_key. rewrite forallb_forall. intros H. apply Forall_forall. intros a Ha. apply N.ltb_lt. apply H. by apply elem_of_list_In.
Qed.
Lemma concat_same {A B} (h : A -> list B) (xs : list A) a b x : NoDup (List.concat (map h xs)) -> a ∈ xs -> b ∈ xs -> x ∈ h a -> x ∈ h b -> a = b.
Proof.
  induction xs as [|c xs IH]; intros N Ha Hb Xa Xb; [by apply elem_of_nil in Ha|]. cbn in N. apply NoDup_app in N as (_ & D & N).
  assert (Later : forall d, d ∈ xs -> x ∈ h d -> x ∈ List.concat (map h xs)) by (intros d Hd Xd; apply in_concat; eauto).
  apply elem_of_cons in Ha as [->|Ha], Hb as [->|Hb]; [done| | |by apply IH].
  - exfalso. apply (D x Xa). by apply (Later b).
  - exfalso. apply (D x Xb). by apply (Later a).
Qed.
Lemma forallb_elem {A} (p : A -> bool) l x : forallb p l = true -> x ∈ l -> p x = true.
Proof. rewrite forallb_forall. intros H Hx. apply H. by apply elem_of_list_In. Qed.

Section check.
  Variable w : world.
  Variable f : file.
  Hypothesis Reg : regular w (find_object f) f.
  Lemma roots_ s r : LinkingSpec.files f s r -> conforms r /\ o_kind r = KSpecification.
  Proof. intros H. by destruct (reg_conforms _ _ _ Reg s r H). Qed.
  Lemma parts_spec g p : (forall s r, LinkingSpec.files g s r -> conforms r) -> part_of g p -> p ∈ parts g.
  Proof.
    intros C H. induction H as [s root others|s root others c Hc|s root others g p Hg _ IH]; cbn [parts].
    - left.
    - right. apply elem_of_app. left. apply in_field_holds; [|done]. apply (C s). constructor.
    - apply elem_of_app. right. apply in_concat. exists g. split; [done|]. apply IH. intros s' r Hr. apply (C s'). by eapply file_other.
  Qed.
  Lemma part_listed p : part_of f p -> p ∈ parts f /\ conforms p /\ forall g c, holds p g c -> conforms c.
  Proof.
    intros H. split; [apply parts_spec; [|done]; intros s r Hr; by destruct (roots_ s r Hr)|]. destruct (part_file f p roots_ H) as (s & _ & C & _). split; [done|].
    apply conforms_inv in C as (_ & _ & _ & C). exact C.
  Qed.
  Lemma channel_listed p c : part_of f p -> holds p "channels" c -> c ∈ parts_channels f /\ conforms c.
  Proof.
    intros Hp Hc. destruct (part_listed p Hp) as (Lp & Cp & Cc). split; [|by apply (Cc "channels")]. apply in_concat. exists p. split; [done|]. by apply in_field_holds.
  Qed.
  Lemma is_placed_sound : is_placed f = true -> placed f.
  Proof.
    unfold is_placed. rewrite bool_decide_eq_true. intros N. apply NoDup_app in N as (N & D & _). split.
    - intros p c p' c' m Hp Hp' Hc Hc' Hm Hm'. destruct (channel_listed p c Hp Hc) as [Lc Cc], (channel_listed p' c' Hp' Hc') as [Lc' Cc'].
      apply (concat_same _ _ c c' (o_id m) N Lc Lc'); apply elem_of_list_fmap; exists m; (split; [done|]); by apply in_field_holds.
    - intros p c p' m Hp Hp' Hc Hm Hm'. destruct (channel_listed p c Hp Hc) as [Lc Cc], (part_listed p' Hp') as (Lp & Cp & _). apply (D (o_id m)).
      + apply in_concat. exists c. split; [done|]. apply elem_of_list_fmap. exists m. split; [done|]. by apply in_field_holds.
      + apply in_concat. exists p'. split; [done|]. apply elem_of_list_fmap. exists m. split; [done|]. by apply in_field_holds.
  Qed.
  Lemma are_ascii_sound t : are_ascii t f = true -> ascii_keys t f.
  Proof.
    unfold are_ascii. intros H. apply andb_prop in H as [H H3]. apply andb_prop in H as [H1 H2]. intros p Hp. destruct (part_listed p Hp) as (Lp & Cp & Cc).
    split; [|split].
    - intros c Hc. destruct (channel_listed p c Hp Hc) as [Lc C]. apply (forallb_elem _ _ _ H1) in Lc. apply andb_prop in Lc as [Lc Lm]. split; [by apply is_ascii_sound|].
      intros m Hm. apply is_ascii_sound. apply in_field_holds in Hm; [|done]. exact (forallb_elem _ _ _ Lm Hm).
    - intros o Ho. apply is_ascii_sound. apply in_field_holds in Ho; [|done]. apply (forallb_elem _ _ _ H2) in Lp. exact (forallb_elem _ _ _ Lp Ho).
    - intros o Ho. apply is_ascii_sound. apply in_field_holds in Ho; [|done]. apply (forallb_elem _ _ _ H3) in Lp. exact (forallb_elem _ _ _ Lp Ho).
  Qed.
End check.

Definition is_processed (w : world) (schema : nat -> res unit) (t : texts) (f : file) : bool :=
  is_regular w f && is_placed f && are_ascii t f && are_different t f && match set_all w (find_object f) schema f ∅ with Ok _ => true | _ => false end.
Definition linked_of (w : world) (schema : nat -> res unit) (f : file) : links := match set_all w (find_object f) schema f ∅ with Ok l => l | _ => ∅ end.
Lemma is_processed_sound w schema t f : is_processed w schema t f = true -> processed w (find_object f) schema t f (linked_of w schema f).
Proof.
  unfold is_processed. intros H. apply andb_prop in H as [H H5]. apply andb_prop in H as [H H4]. apply andb_prop in H as [H H3]. apply andb_prop in H as [H1 H2].
  apply is_regular_sound in H1. split.
  - done.
  - by apply (found_object w (find_object f)).
  - by apply (is_placed_sound w).
  - by apply (are_ascii_sound w).
  - unfold linked_of. by destruct (set_all w (find_object f) schema f ∅).
  - apply andb_prop in H4 as [A B]. apply bool_decide_eq_true in A, B. by split.
Qed.

Definition no_names : N -> bool := fun _ => false.
Definition all_names (t : texts) (f : file) : list string := map snd (meta_file no_names no_names (fun _ => []) t f).
Lemma all_names_spec w f t x n : regular w (find_object f) f -> ascii_keys t f -> called t f x n -> n ∈ all_names t f.
Proof.
  intros Reg A H. apply elem_of_list_fmap. exists (o_id x, n). split; [done|]. apply (meta_file_spec _ _ _ t f); [intros s r; by apply (roots_ w f Reg)|done|]. eauto.
Qed.
Definition are_apart (t : texts) (f : file) (schemas : list string) : bool :=
  bool_decide (NoDup schemas) &&
  forallb (fun n => negb (bool_decide (n ∈ schemas ++ map (fun n => "New" +:+ n) (all_names t f) ++ map (fun n => "ReplyTo" +:+ n) (all_names t f))) &&
                    negb (bool_decide ("New" +:+ n ∈ schemas))) (all_names t f).
Lemma are_apart_sound w t f schemas : regular w (find_object f) f -> ascii_keys t f -> Forall type_name schemas -> are_apart t f schemas = true -> schemas_apart t f schemas.
Proof.
  intros Reg A T H. unfold are_apart in H. apply andb_prop in H as [H1 H2]. apply bool_decide_eq_true in H1.
  assert (Named : forall x n, called t f x n -> n ∈ all_names t f) by (intros x n Hx; by apply (all_names_spec w) in Hx).
  assert (Hn : forall x n, called t f x n -> n ∉ schemas /\ "New" +:+ n ∉ schemas /\ forall x' n', called t f x' n' -> n <> "New" +:+ n' /\ n <> "ReplyTo" +:+ n').
  { intros x n Hx. apply Named in Hx. apply (forallb_elem _ _ _ H2) in Hx. apply andb_prop in Hx as [X1 X2].
    apply negb_true_iff in X1, X2. apply bool_decide_eq_false in X1, X2. rewrite !elem_of_app in X1. split; [tauto|]. split; [done|]. intros x' n' Hx'. apply Named in Hx'.
    split; intros ->; apply X1; [right; left|right; right]; apply elem_of_list_fmap; eauto. }
  split; [done|done| | | |].
  - intros m n Hm _. by apply (Hn m).
  - intros m n Hm _. by apply (Hn m).
  - intros m n m' n' Hm Hm' _ _. by apply (Hn m n Hm) in Hm' as [? _].
  - intros m n m' n' Hm Hm' _ _. by apply (Hn m n Hm) in Hm' as [_ ?].
Qed.
Definition are_readable (ks : list (list ascii)) : bool := forallb (fun k => forallb (fun a => (N_of_ascii a <? 128)%N) k && negb (NamesProof.from_b (NamingSpec.name_of k))) ks.
Lemma are_readable_sound ks : are_readable ks = true -> readable ks.
Proof.
  intros H. split; apply Forall_forall; intros k Hk; apply (forallb_elem _ _ _ H) in Hk; apply andb_prop in Hk as [A B].
  - apply Forall_forall. intros a Ha. apply N.ltb_lt. by apply (forallb_elem _ _ _ A).
  - apply negb_true_iff in B. by apply NamesProof.from_b_spec.
Qed.
