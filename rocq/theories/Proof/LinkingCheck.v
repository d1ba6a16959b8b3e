(** Whether a document is regular can be computed: for the examples. *)
From stdpp Require Import gmap list strings.
From Coq Require Import Ascii String.
From Verif.Model Require Import GoStrings Reference Linking.
From Verif.Spec Require Import ReferenceSpec LinkingSpec.
From Verif.Proof Require Import ReferenceProof LinkingProof.
Local Open Scope string_scope.

Definition is_blind (k : kind) (f : string) : bool :=
  match k with KMessage | KMessageTrait => String.eqb f "correlationID" | KOperation => String.eqb f "tags" | _ => false end.
Lemma is_blind_spec k f : is_blind k f = false -> ~ blind k f.
Proof. intros H [[-> ->]|[[-> ->]|[-> ->]]]; discriminate. Qed.

Fixpoint all_of (o : object) : list object :=
  let 'Object _ _ _ _ fields := o in o :: List.concat (map (fun '(f, cs) => List.concat (map all_of cs)) fields).
Fixpoint seen_of (o : object) : list object :=
  let 'Object _ k _ _ fields := o in o :: List.concat (map (fun '(f, cs) => if is_blind k f then [] else List.concat (map seen_of cs)) fields).
Fixpoint pairs (f : file) : list (spec * object) :=
  let 'File s root others := f in (map (fun x => (s, x)) (all_of root) ++ List.concat (map pairs others))%list.
Fixpoint seen_pairs (f : file) : list (spec * object) :=
  let 'File s root others := f in (map (fun x => (s, x)) (seen_of root) ++ List.concat (map seen_pairs others))%list.
Fixpoint roots (f : file) : list (spec * object) :=
  let 'File s root others := f in (s, root) :: List.concat (map roots others).

Lemma elem_concat {A} (x : A) (ls : list (list A)) : x ∈ List.concat ls <-> exists l, l ∈ ls /\ x ∈ l.
Proof.
  induction ls as [|l ls IH]; cbn.
  - split; [intros H; now apply elem_of_nil in H|intros (l & H & _); now apply elem_of_nil in H].
  - rewrite elem_of_app, IH. split.
    + intros [H|(k & Hk & H)]; [exists l; split; [left|exact H]|exists k; split; [now right|exact H]].
    + intros (k & Hk & H). apply elem_of_cons in Hk as [->|Hk]; [now left|right; eauto].
Qed.
Lemma inside_all o x : inside o x -> x ∈ all_of o.
Proof.
  induction 1 as [o|o f c x (l & Hl & Hc) _ IH]; [destruct o; left|]. destruct o as [i k r loc fields]. cbn [all_of o_fields] in *. right.
  apply elem_concat. exists (List.concat (map all_of l)). split; [apply elem_of_list_fmap; now exists (f, l)|].
  apply elem_concat. exists (all_of c). split; [apply elem_of_list_fmap; now exists c|exact IH].
Qed.
Lemma seen_sighted o x : x ∈ seen_of o -> sighted o x.
Proof.
  revert x. induction o as [o IH] using object_induction. intros x Hx. destruct o as [i k r loc fields]. cbn [seen_of] in Hx.
  apply elem_of_cons in Hx as [->|Hx]; [constructor|].
  apply elem_concat in Hx as (l & Hl & Hx). apply elem_of_list_fmap in Hl as ([f cs] & -> & Hf).
  destruct (is_blind k f) eqn:B; [now apply elem_of_nil in Hx|].
  apply elem_concat in Hx as (l & Hl & Hx). apply elem_of_list_fmap in Hl as (c & -> & Hc).
  assert (H : holds (Object i k r loc fields) f c) by now exists cs.
  apply (sighted_field _ f c); [exact H|now apply is_blind_spec|now apply (IH f)].
Qed.
Lemma anywhere_pairs f s x : anywhere f s x -> (s, x) ∈ pairs f.
Proof.
  induction 1 as [s root others x H|s root others f s' x Hf _ IH]; cbn [pairs]; apply elem_of_app; [left|right].
  - apply elem_of_list_fmap. exists x. split; [reflexivity|now apply inside_all].
  - apply elem_concat. exists (pairs f). split; [apply elem_of_list_fmap; now exists f|exact IH].
Qed.
Lemma pairs_in_file f s x : (s, x) ∈ seen_pairs f -> in_file f s x.
Proof.
  induction f as [s0 root others IH] using file_induction. cbn [seen_pairs]. intros H. apply elem_of_app in H as [H|H].
  - apply elem_of_list_fmap in H as (y & [= -> ->] & Hy). constructor. now apply seen_sighted.
  - apply elem_concat in H as (l & Hl & H). apply elem_of_list_fmap in Hl as (g & -> & Hg). apply (in_other _ _ _ g); [exact Hg|now apply IH].
Qed.
Lemma files_roots f s root : files f s root -> (s, root) ∈ roots f.
Proof.
  induction 1 as [s root others|s root others f s' x Hf _ IH]; cbn [roots]; [left|right].
  apply elem_concat. exists (roots f). split; [apply elem_of_list_fmap; now exists f|exact IH].
Qed.

Fixpoint conforming (o : object) : bool :=
  let 'Object _ k r _ fields := o in
  (bool_decide (NoDup (map fst fields)) &&
   forallb (fun '(f, cs) => forallb (fun c => bool_decide ((f, o_kind c) ∈ declares k) && conforming c) cs) fields &&
   (negb (bool_decide (k = KSpecification \/ k = KComponents \/ k = KInfo)) || String.eqb r ""))%bool.
Lemma conforming_sound o : conforming o = true -> conforms o.
Proof.
  induction o as [o IH] using object_induction. destruct o as [i k r loc fields]. cbn [conforming]. intros H.
  apply andb_prop in H as [H H3]. apply andb_prop in H as [H1 H2]. apply bool_decide_eq_true in H1.
  rewrite forallb_forall in H2.
  assert (F : forall f c, holds (Object i k r loc fields) f c -> (f, o_kind c) ∈ declares k /\ conforming c = true).
  { intros f c (l & Hl & Hc). cbn [o_fields] in Hl. apply elem_of_list_In in Hl. specialize (H2 _ Hl). cbn in H2. rewrite forallb_forall in H2.
    apply elem_of_list_In in Hc. specialize (H2 _ Hc). apply andb_prop in H2 as [H2 H4]. now apply bool_decide_eq_true in H2. }
  constructor; cbn [o_fields o_kind o_ref].
  - exact H1.
  - intros f c Hc. exact (proj1 (F f c Hc)).
  - intros Hk. apply orb_prop in H3 as [H3|H3]; [|now apply String.eqb_eq in H3]. rewrite bool_decide_eq_true_2 in H3 by exact Hk. discriminate.
  - intros f c Hc. apply (IH f); [exact Hc|]. exact (proj2 (F f c Hc)).
Qed.

(** The objects by their addresses. *)
Definition find_object (f : file) (p : nat) : option object :=
  option_map snd (List.find (fun '(_, x) => Nat.eqb (o_id x) p) (seen_pairs f)).
Lemma find_object_spec f p o : find_object f p = Some o -> o_id o = p /\ exists s, in_file f s o.
Proof.
  unfold find_object. destruct (List.find _ _) as [[s x]|] eqn:E; [|discriminate]. intros [= <-].
  apply List.find_some in E as [I E]. apply Nat.eqb_eq in E. split; [exact E|]. exists s. apply pairs_in_file. now apply elem_of_list_In.
Qed.

Section regular.
  Variable w : world.
  Definition aim_of (s : spec) (x : object) : res nat :=
    match o_kind x with
    | KCorrelationID => as_other "correlationIds" (reference3 w s (o_ref x))
    | KSchema => Err
    | k => target w s k (o_ref x)
    end.
  Lemma aim_of_spec s x p : designated w s (o_kind x) (o_ref x) p -> aim_of s x = Ok p.
  Proof.
    unfold aim_of. destruct (o_kind x) eqn:K; intros H;
      first [ apply target_designated; [discriminate|discriminate|exact H] | idtac ].
    - apply reference_other_exact; [apply (bool_decide_unpack _); vm_compute; exact I|apply (bool_decide_unpack _); vm_compute; exact I|exact H].
    - destruct H.
  Qed.
  Definition fine (f : file) (sx : spec * object) : bool :=
    let '(s, x) := sx in
    (forallb (fun g => (List.length (entry (o_fields x) g) <=? 1)%nat) ["reply"; "channel"; "correlationID"] &&
     (negb (bool_decide (o_kind x = KOperation)) || match entry (o_fields x) "reply" with [] => true | _ => String.eqb (o_ref x) "" end) &&
     match aim_of s x with
     | Ok p => match find_object f p with Some o => bool_decide (o_kind o = o_kind x) | None => false end
     | _ => true
     end)%bool.
  Definition is_regular (f : file) : bool :=
    (forallb (fun '(_, r) => bool_decide (o_kind r = KSpecification) && conforming r) (roots f) &&
     bool_decide (NoDup (map (fun '(_, x) => o_id x) (pairs f))) && forallb (fine f) (pairs f))%bool.

  Lemma unique_by {A} (g : A -> nat) l a b : NoDup (map g l) -> a ∈ l -> b ∈ l -> g a = g b -> a = b.
  Proof.
    induction l as [|c l IH]; intros N Ha Hb E; [now apply elem_of_nil in Ha|]. cbn in N. apply NoDup_cons in N as [Nc N].
    apply elem_of_cons in Ha. apply elem_of_cons in Hb. destruct Ha as [->|Ha], Hb as [->|Hb].
    - reflexivity.
    - exfalso. apply Nc. rewrite E. apply elem_of_list_fmap. now exists b.
    - exfalso. apply Nc. rewrite <- E. apply elem_of_list_fmap. now exists a.
    - now apply IH.
  Qed.
  Lemma is_regular_sound f : is_regular f = true -> regular w (find_object f) f.
  Proof.
    intros H. apply andb_prop in H as [H H3]. apply andb_prop in H as [H1 H2].
    rewrite forallb_forall in H1. apply bool_decide_eq_true in H2. rewrite forallb_forall in H3.
    assert (R : forall s root, files f s root -> o_kind root = KSpecification /\ conforms root).
    { intros s root Hr. apply files_roots in Hr. apply elem_of_list_In in Hr. specialize (H1 _ Hr). cbn in H1. apply andb_prop in H1 as [A B].
      apply bool_decide_eq_true in A. apply conforming_sound in B. now split. }
    assert (C : forall s x, in_file f s x -> conforms x).
    { clear -R. intros s x H. induction H as [s root others x Hs|s root others g s' x Hg _ IH].
      - apply (conforms_sighted root); [|exact Hs]. apply (R s root). constructor.
      - apply IH. intros s0 r0 Hr. apply (R s0). now apply (file_other _ _ _ g). }
    assert (F : forall s x, in_file f s x -> fine f (s, x) = true).
    { intros s x Hx. apply H3. apply elem_of_list_In. apply anywhere_pairs. now apply anywhere_in. }
    constructor.
    - exact R.
    - intros s x s' y Hx Hy E. apply anywhere_pairs in Hx. apply anywhere_pairs in Hy.
      assert (U := unique_by (fun '(_, x) => o_id x) (pairs f) (s, x) (s', y) H2 Hx Hy E). now injection U as -> ->.
    - intros s x g Hx Hg c d Hc Hd. assert (Cx := C s x Hx). apply F in Hx. unfold fine in Hx. apply andb_prop in Hx as [Hx _]. apply andb_prop in Hx as [Hx _].
      rewrite forallb_forall in Hx. assert (L : (List.length (entry (o_fields x) g) <=? 1)%nat = true).
      { apply Hx. cbn. destruct Hg as [->|[->| ->]]; auto. }
      apply holds_entry in Hc; [|exact Cx]. apply holds_entry in Hd; [|exact Cx].
      destruct (entry (o_fields x) g) as [|a [|b r]]; [now apply elem_of_nil in Hc| |discriminate].
      apply elem_of_list_singleton in Hc, Hd. congruence.
    - intros s x r Hx Kx Hr. assert (Cx := C s x Hx). apply F in Hx. unfold fine in Hx. apply andb_prop in Hx as [Hx _]. apply andb_prop in Hx as [_ Hx].
      rewrite bool_decide_eq_true_2 in Hx by exact Kx. cbn in Hx. apply holds_entry in Hr; [|exact Cx].
      destruct (entry (o_fields x) "reply"); [now apply elem_of_nil in Hr|]. now apply String.eqb_eq in Hx.
    - intros s x p Hx D. apply F in Hx. unfold fine in Hx. apply andb_prop in Hx as [_ Hx]. rewrite (aim_of_spec s x p D) in Hx.
      destruct (find_object f p) as [o|] eqn:E; [|discriminate]. apply bool_decide_eq_true in Hx.
      destruct (find_object_spec f p o E) as (I & s' & O). now exists o, s'.
  Qed.
End regular.
