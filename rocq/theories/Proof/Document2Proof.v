(** The processing of a document of version 2: what is accepted, and what it leaves. *)
From stdpp Require Import gmap list strings.
From Coq Require Import NArith Ascii String.
From Verif.Model Require Import GoStrings Reference Linking Naming Names Operations Package Package2 Document2.
From Verif.Spec Require Import ReferenceSpec NamingSpec LinkingSpec PackageSpec Package2Spec Document2Spec.
From Verif.Proof Require Import GoStringsProof ReferenceProof LinkingProof NamingProof PackageProof Package2Proof.
Local Open Scope string_scope.
Local Open Scope list_scope.
Local Open Scope nat_scope.

Notation document := Document2.document.

(** ** Induction *)
Lemma message_ind' (P : message -> Prop) :
  (forall i r c h p alts, (forall a, a ∈ alts -> P a) -> P (Message i r c h p alts)) -> forall m, P m.
Proof.
  intros H. fix IH 1. intros [i r c h p alts]. apply H.
  assert (F : Forall P alts) by (induction alts as [|a l IHl]; constructor; [apply IH|exact IHl]).
  intros a. by apply Forall_forall.
Qed.
Lemma document_ind' (P : document -> Prop) :
  (forall s c sc m p o, (forall a, a ∈ o -> P a) -> P (Doc s c sc m p o)) -> forall d, P d.
Proof.
  intros H. fix IH 1. intros [s c sc m p o]. apply H.
  assert (F : Forall P o) by (induction o as [|a l IHl]; constructor; [apply IH|exact IHl]).
  intros a. by apply Forall_forall.
Qed.
Lemma in_concat_map {A B} (f : A -> list B) l (y : B) : y ∈ List.concat (map f l) <-> exists x, x ∈ l /\ y ∈ f x.
Proof.
  induction l as [|a l IH]; cbn.
  - split; [intros H; by apply elem_of_nil in H|]. intros (x & Hx & _). by apply elem_of_nil in Hx.
  - rewrite elem_of_app, IH. split.
    + intros [H|(x & Hx & H)]; [exists a; split; [left|done]|exists x; split; [by right|done]].
    + intros (x & Hx & H). apply elem_of_cons in Hx as [-> |Hx]; [by left|right; eauto].
Qed.
Lemma concat_map_concat {A B C} (f : B -> list C) (g : A -> list B) l :
  List.concat (map f (List.concat (map g l))) = List.concat (map (fun x => List.concat (map f (g x))) l).
Proof. induction l as [|a l IH]; cbn; [done|]. by rewrite map_app, concat_app, IH. Qed.
Lemma concat_map_ext {A B} (f g : A -> list B) l : (forall x, x ∈ l -> f x = g x) -> List.concat (map f l) = List.concat (map g l).
Proof.
  induction l as [|a l IH]; intros H; cbn; [done|]. rewrite (H a) by left. f_equal. apply IH. intros x Hx. apply H. by right.
Qed.

Lemma inside_self m : m ∈ inside m.
Proof. destruct m. cbn. left. Qed.

Section proof.
  Variable namify : string -> string.
  Variable itoa : nat -> string.
  Variable w : world.
  Variable correlation_at : nat -> option string.
  Variable schema : nat -> res unit.
  Variable headers_object : nat -> bool.
  Variable merge : nat -> nat -> res unit.
  Notation meta_message := (meta_message namify itoa).
  Notation meta_operation := (meta_operation namify itoa).
  Notation meta_channel := (meta_channel namify itoa).
  Notation meta_document := (meta_document namify itoa).
  Notation act := (act w correlation_at schema headers_object merge).
  Notation run := (run w correlation_at schema headers_object merge).
  Notation process := (process namify itoa w correlation_at schema headers_object merge).
  Notation place_of := (place_of w correlation_at).

  (** ** The actions *)
  Definition meta_file (f : document) : list action :=
    List.concat (map (fun kc => meta_channel kc.1 kc.2) (d_channels f)) ++ List.concat (map (fun km => meta_message (km.1 +:+ "Message") km.2) (d_messages f)).
  Definition set_file (f : document) : list action :=
    List.concat (map (fun kc => set_channel (d_spec f) kc.2) (d_channels f)) ++ map (fun ks => ASchema ks.2) (d_schemas f) ++
    List.concat (map (fun km => set_message (d_spec f) km.2) (d_messages f)) ++ List.concat (map (fun kp => set_parameter (d_spec f) kp.2) (d_params f)).
  Lemma meta_files d : meta_document d = List.concat (map meta_file (files d)).
  Proof.
    induction d as [s c sc m p o IH] using document_ind'. cbn [Document2.meta_document files].
    rewrite map_app, concat_app, concat_map_concat. f_equal; [by apply concat_map_ext|]. cbn. by rewrite app_nil_r.
  Qed.
  Lemma set_files d : set_document d = List.concat (map set_file (files d)).
  Proof.
    induction d as [s c sc m p o IH] using document_ind'. cbn [Document2.set_document files].
    rewrite map_app, concat_app, concat_map_concat. f_equal; [by apply concat_map_ext|]. cbn. by rewrite app_nil_r.
  Qed.

  (** What is done for a message itself. *)
  Definition own (s : spec) (m : message) (a : action) : Prop :=
    (exists x, m_payload m = Some x /\ a = ASchema x) \/
    (m_ref m <> "" /\ a = AMessage s (m_id m) (m_ref m)) \/
    (exists x, m_headers m = Some x /\ (a = ASchema x \/ a = AHeaders x)) \/
    (exists y, y ∈ m_one_of m /\ a = AMerge (m_id m) (m_id y)) \/
    a = APlace s (m_id m) (m_correlation m) (match m_one_of m with [] => m_ref m | _ :: _ => "" end).
  Lemma in_set_message s m a : a ∈ set_message s m <-> exists x, x ∈ inside m /\ own s x a.
  Proof.
    induction m as [i r c h p alts IH] using message_ind'. cbn [set_message inside].
    rewrite !elem_of_app, in_concat_map.
    assert (E : (exists x, x ∈ Message i r c h p alts :: List.concat (map inside alts) /\ own s x a) <->
      own s (Message i r c h p alts) a \/ exists y, y ∈ alts /\ exists x, x ∈ inside y /\ own s x a).
    { split.
      - intros (x & Hx & Ho). apply elem_of_cons in Hx as [-> |Hx]; [by left|]. apply in_concat_map in Hx as (y & Hy & Hx). right. eauto.
      - intros [Ho|(y & Hy & x & Hx & Ho)]; [exists (Message i r c h p alts); split; [left|done]|]. exists x. split; [|done]. right. apply in_concat_map. eauto. }
    rewrite E. clear E. unfold own at 1. cbn [m_payload m_ref m_headers m_one_of m_correlation m_id]. split.
    - intros [H|[H|[H|[(y & Hy & H)|H]]]].
      + destruct p as [x|]; [|by apply elem_of_nil in H]. apply elem_of_list_singleton in H. left. left. eauto.
      + destruct (String.eqb_spec r ""); [by apply elem_of_nil in H|]. apply elem_of_list_singleton in H. left. right. left. eauto.
      + destruct h as [x|]; [|by apply elem_of_nil in H]. left. right. right. left. exists x. split; [done|].
        apply elem_of_cons in H as [H|H]; [by left|]. apply elem_of_list_singleton in H. by right.
      + apply elem_of_app in H as [H|H].
        * right. exists y. split; [done|]. by apply IH.
        * apply elem_of_list_singleton in H. left. do 3 right. left. eauto.
      + apply elem_of_list_singleton in H. left. do 4 right. done.
    - intros [[H|[H|[H|[H|H]]]]|(y & Hy & H)].
      + destruct H as (x & -> & ->). left. left.
      + destruct H as (N & ->). right. left. destruct (String.eqb_spec r ""); [done|]. left.
      + destruct H as (x & -> & [-> | ->]); do 2 right; left; [left|right; left].
      + destruct H as (y & Hy & ->). do 3 right. left. exists y. split; [done|]. apply elem_of_app. right. left.
      + subst a. do 4 right. left.
      + do 3 right. left. exists y. split; [done|]. apply elem_of_app. left. by apply IH.
  Qed.
  Lemma in_operations_of f o : o ∈ operations_of f <-> exists kc, kc ∈ d_channels f /\ (c_subscribe kc.2 = Some o \/ c_publish kc.2 = Some o).
  Proof.
    unfold operations_of. rewrite in_concat_map. apply exist_proper. intros kc. apply and_iff_compat_l. unfold operations_in. rewrite elem_of_app.
    destruct (c_subscribe kc.2) as [x|], (c_publish kc.2) as [y|]; cbn; rewrite ?elem_of_list_singleton, ?elem_of_nil; naive_solver.
  Qed.
  Lemma in_outer f m : m ∈ outer_messages f <-> (exists o, o ∈ operations_of f /\ op_message o = m) \/ exists k, (k, m) ∈ d_messages f.
  Proof.
    unfold outer_messages. rewrite elem_of_app. split.
    - intros [H|H].
      + left. apply elem_of_list_fmap in H as (o & -> & H). eauto.
      + right. apply elem_of_list_fmap in H as ([k m'] & -> & H). eauto.
    - intros [(o & H & <-)|(k & H)]; [left|right]; apply elem_of_list_fmap; [eauto|]. exists (k, m). done.
  Qed.
  Lemma in_set_operation s o a : a ∈ set_operation s o <-> exists p, o = Some p /\ a ∈ set_message s (op_message p).
  Proof. destruct o as [p|]; cbn; [|rewrite elem_of_nil]; naive_solver. Qed.
  Lemma in_set_parameter s p a : a ∈ set_parameter s p <-> p_ref p <> "" /\ a = AParameter s (p_id p) (p_ref p).
  Proof. unfold set_parameter. destruct (String.eqb_spec (p_ref p) ""); rewrite ?elem_of_nil, ?elem_of_list_singleton; naive_solver. Qed.

  Lemma in_set d a : a ∈ set_document d <->
    (exists s m, msg_in d s m /\ own s m a) \/
    (exists f k x, f ∈ files d /\ (k, x) ∈ d_schemas f /\ a = ASchema x) \/
    (exists s p, parameter_in d s p /\ p_ref p <> "" /\ a = AParameter s (p_id p) (p_ref p)).
  Proof.
    rewrite set_files, in_concat_map. unfold msg_in, parameter_in. split.
    - intros (f & Hf & H). unfold set_file in H. rewrite !elem_of_app, !in_concat_map in H.
      destruct H as [(kc & Hk & H)|[H|[(km & Hk & H)|(kp & Hk & H)]]].
      + unfold set_channel in H. rewrite !elem_of_app, !in_set_operation, in_concat_map in H.
        destruct H as [(p & E & H)|[(p & E & H)|(kp & Hp & H)]].
        * apply in_set_message in H as (x & Hx & Ho). left. exists (d_spec f), x. split; [|done]. exists f, (op_message p).
          repeat (split; [done|]). split; [|done]. apply in_outer. left. exists p. split; [|done]. apply in_operations_of. eauto.
        * apply in_set_message in H as (x & Hx & Ho). left. exists (d_spec f), x. split; [|done]. exists f, (op_message p).
          repeat (split; [done|]). split; [|done]. apply in_outer. left. exists p. split; [|done]. apply in_operations_of. eauto.
        * apply in_set_parameter in H as [N ->]. do 2 right. exists (d_spec f), kp.2. split; [|done]. exists f, kp.1.
          split; [done|]. split; [done|]. right. exists kc. split; [done|]. by destruct kp.
      + apply elem_of_list_fmap in H as ([k x] & -> & H). right. left. exists f, k, x. done.
      + apply in_set_message in H as (x & Hx & Ho). left. exists (d_spec f), x. split; [|done]. exists f, km.2.
        repeat (split; [done|]). split; [|done]. apply in_outer. right. exists km.1. by destruct km.
      + apply in_set_parameter in H as [N ->]. do 2 right. exists (d_spec f), kp.2. split; [|done]. exists f, kp.1.
        split; [done|]. split; [done|]. left. by destruct kp.
    - intros [(s & m & (f & o & Hf & <- & Ho & Hm) & H)|[(f & k & x & Hf & H & ->)|(s & p & (f & k & Hf & <- & H) & N & ->)]];
        exists f; (split; [done|]); unfold set_file; rewrite !elem_of_app, !in_concat_map.
      + apply in_outer in Ho as [(p & Hp & <-)|(k & Hk)].
        * apply in_operations_of in Hp as (kc & Hk & Hp). left. exists kc. split; [done|]. unfold set_channel. rewrite !elem_of_app, !in_set_operation.
          destruct Hp as [Hp|Hp]; [left|right; left]; exists p; (split; [done|]); apply in_set_message; eauto.
        * do 2 right. left. exists (k, o). split; [done|]. apply in_set_message. eauto.
      + right. left. apply elem_of_list_fmap. exists (k, x). done.
      + destruct H as [H|(kc & Hk & H)].
        * do 3 right. exists (k, p). split; [done|]. by apply in_set_parameter.
        * left. exists kc. split; [done|]. unfold set_channel. rewrite !elem_of_app, in_concat_map. do 2 right. exists (k, p). split; [done|]. by apply in_set_parameter.
  Qed.

  (** *** Metadata *)
  Definition ids (l : list action) : list nat := omap (fun a => match a with AName i _ => Some i | _ => None end) l.
  Lemma ids_app l l' : ids (l ++ l') = ids l ++ ids l'.
  Proof. apply omap_app. Qed.
  Fixpoint alternatives (name : string) (k : nat) (alts : list message) : list action :=
    match alts with [] => [] | a :: rest => meta_message (namify name +:+ "Message" +:+ itoa k) a ++ alternatives name (S k) rest end.
  Lemma meta_message_eq name i r c h p alts :
    meta_message name (Message i r c h p alts) =
    AName i (namify name) :: alternatives name 0 alts ++ match c with Some l => [ALocation l] | None => [] end.
  Proof. cbn [Document2.meta_message]. f_equal. f_equal. generalize 0. induction alts as [|a alts IH]; intros k; cbn; [done|]. by rewrite IH. Qed.
  Lemma ids_meta_message m : forall name, ids (meta_message name m) = map m_id (inside m).
  Proof.
    induction m as [i r c h p alts IH] using message_ind'. intros name. rewrite meta_message_eq. cbn [inside map m_id].
    change (ids (?a :: ?l)) with (i :: ids l). f_equal. rewrite ids_app.
    assert (E : ids (match c with Some l => [ALocation l] | None => [] end) = []) by (by destruct c). rewrite E, app_nil_r. clear E.
    generalize 0. induction alts as [|a alts IHl]; intros k; cbn; [done|]. rewrite ids_app, map_app, IH by left. f_equal. apply IHl. intros x Hx. apply IH. by right.
  Qed.
  Lemma in_meta_message m a : forall name, a ∈ meta_message name m ->
    (exists i n, a = AName i n) \/ exists x l, x ∈ inside m /\ m_correlation x = Some l /\ a = ALocation l.
  Proof.
    induction m as [i r c h p alts IH] using message_ind'. intros name H. rewrite meta_message_eq in H.
    apply elem_of_cons in H as [-> |H]; [eauto|]. apply elem_of_app in H as [H|H].
    - assert (E : exists y n, y ∈ alts /\ a ∈ meta_message n y).
      { revert H. clear IH. generalize 0. induction alts as [|y alts IHl]; intros k H; [by apply elem_of_nil in H|].
        cbn in H. apply elem_of_app in H as [H|H]; [eexists y, _; split; [left|exact H]|].
        destruct (IHl _ H) as (z & n & Hz & Hn). exists z, n. split; [by right|done]. }
      destruct E as (y & n & Hy & Hn). destruct (IH y Hy n Hn) as [E|(x & l & Hx & E & ->)]; [by left|].
      right. exists x, l. split; [|done]. cbn. right. apply in_concat_map. eauto.
    - destruct c as [l|]; [|by apply elem_of_nil in H]. apply elem_of_list_singleton in H. right. exists (Message i r (Some l) h p alts), l.
      split; [apply inside_self|done].
  Qed.
  Lemma meta_message_location m : forall name x l, x ∈ inside m -> m_correlation x = Some l -> ALocation l ∈ meta_message name m.
  Proof.
    induction m as [i r c h p alts IH] using message_ind'. intros name x l Hx E. rewrite meta_message_eq. right.
    cbn in Hx. apply elem_of_cons in Hx as [-> |Hx].
    - cbn in E. subst c. apply elem_of_app. right. left.
    - apply elem_of_app. left. apply in_concat_map in Hx as (y & Hy & Hx). generalize 0.
      induction alts as [|z alts IHl]; intros k; [by apply elem_of_nil in Hy|]. cbn. apply elem_of_app.
      apply elem_of_cons in Hy as [-> |Hy]; [left; eapply IH; [left|done|done]|]. right. apply IHl; [|done]. intros b Hb. apply IH. by right.
  Qed.
  Lemma meta_message_name m name : AName (m_id m) (namify name) ∈ meta_message name m.
  Proof. destruct m. rewrite meta_message_eq. left. Qed.

  (** The name of the message of an operation. *)
  Definition given_name (path : string) (c : channel) (t : string) (m : message) (n : string) : Prop :=
    if String.eqb (m_ref m) "" then n = (namify (namify path +:+ suffix c t) +:+ "Message")
    else exists x, split "/" (m_ref m) !! 3 = Some x /\ n = (x +:+ "Message").
  Lemma meta_operation_cases path c t o :
    (exists n, given_name path c t (op_message o) n /\ meta_operation (namify path +:+ suffix c t) o = meta_message n (op_message o)) \/
    (m_ref (op_message o) <> "" /\ split "/" (m_ref (op_message o)) !! 3 = None /\ meta_operation (namify path +:+ suffix c t) o = [AShort]).
  Proof.
    unfold Document2.meta_operation, given_name. destruct (String.eqb_spec (m_ref (op_message o)) ""); [left; eauto|].
    destruct (split "/" (m_ref (op_message o)) !! 3) as [x|] eqn:E; [left; eauto|right; eauto].
  Qed.

  (** ** Acceptance *)
  Definition fine (a : action) : Prop :=
    match a with
    | AName _ _ => True
    | AShort => False
    | ALocation l => has_path l
    | ASchema i => schema i = Ok tt
    | AHeaders i => headers_object i = true
    | AMerge i j => merge i j = Ok tt
    | AMessage s _ r => exists p, message_at w s r p
    | AParameter s _ r => exists p, parameter_at w s r p
    | APlace s _ c r => exists l, place_of s c r = Ok l
    end.
  Lemma message_at_ok s r p : as_message (reference2 w s r) = Ok p <-> message_at w s r p.
  Proof. apply reference_message_exact. Qed.
  Lemma parameter_at_ok s r p : as_other "parameters" (reference2 w s r) = Ok p <-> parameter_at w s r p.
  Proof. apply reference_other_exact; apply (bool_decide_unpack _); vm_compute; exact I. Qed.
  Lemma keep_with_ok (r : res unit) t : (exists t', keep_with r t = Ok t') <-> r = Ok tt.
  Proof. destruct r as [| |[]]; cbn; naive_solver. Qed.
  Lemma set_with_ok {A} (r : res A) f : (exists t', set_with r f = Ok t') <-> exists x, r = Ok x.
  Proof. destruct r; cbn; naive_solver. Qed.
  Lemma act_fine a t : (exists t', act a t = Ok t') <-> fine a.
  Proof.
    destruct a as [i n| |l|i|i|i j|s i r|s i r|s i c r]; cbn [Document2.act fine]; rewrite ?keep_with_ok, ?set_with_ok; try naive_solver.
    - destruct (has_path_parent l) as [[-> H]|[-> H]]; naive_solver.
    - destruct (headers_object i); naive_solver.
    - apply exist_proper. intros p. apply message_at_ok.
    - apply exist_proper. intros p. apply parameter_at_ok.
  Qed.
  Lemma run_fine l : forall t, (exists t', run l t = Ok t') <-> forall a, a ∈ l -> fine a.
  Proof.
    induction l as [|a l IH]; intros t; cbn [Document2.run].
    - split; [|eauto]. intros _ a Ha. by apply elem_of_nil in Ha.
    - split.
      + intros (t' & E) b Hb. destruct (act a t) as [| |t1] eqn:Ea; try discriminate. apply elem_of_cons in Hb as [-> |Hb].
        * apply (act_fine a t). eauto.
        * apply (IH t1); eauto.
      + intros H. destruct (proj2 (act_fine a t) (H a (elem_of_list_here _ _))) as (t1 & ->). apply IH. intros b Hb. apply H. by right.
  Qed.
  Lemma process_fine d : (exists t, process d = Ok t) <-> (forall a, a ∈ meta_document d -> fine a) /\ (forall a, a ∈ set_document d -> fine a).
  Proof.
    unfold Document2.process. split.
    - intros (t & E). destruct (run (meta_document d) start) as [| |t1] eqn:E1; try discriminate. split; [apply (run_fine _ start)|apply (run_fine _ t1)]; eauto.
    - intros [H1 H2]. destruct (proj2 (run_fine _ start) H1) as (t1 & ->). by apply run_fine.
  Qed.

  Lemma split_length sep a r : List.length (split sep (a +:+ String sep r)) = List.length (split sep a) + List.length (split sep r).
  Proof.
    induction a as [|c a IH].
    - change ("" +:+ String sep r) with (String sep r). cbn [split]. by rewrite Ascii.eqb_refl.
    - change (String c a +:+ String sep r) with (String c (a +:+ String sep r)). cbn [split]. destruct (Ascii.eqb c sep); cbn [List.length]; [by rewrite IH|].
      destruct (split_nonnil sep a) as (x & xs & E). destruct (split_nonnil sep (a +:+ String sep r)) as (y & ys & E').
      rewrite E, E' in *. cbn in *. lia.
  Qed.
  Lemma split_down sep s k x : split sep s !! S k = Some x -> exists a r, s = (a +:+ String sep r) /\ split sep r !! k = Some x.
  Proof.
    induction s as [|c s IH]; cbn [split]; [destruct k; discriminate|].
    destruct (Ascii.eqb_spec c sep) as [-> |N].
    - intros H. exists "", s. split; [done|exact H].
    - destruct (split_nonnil sep s) as (y & ys & E). rewrite E in IH |- *. intros H. destruct (IH H) as (a & r & -> & Hr). exists (String c a), r. done.
  Qed.
  Lemma split_four s : (exists x, split "/" s !! 3 = Some x) <-> exists a b c r, s = (a +:+ "/" +:+ b +:+ "/" +:+ c +:+ "/" +:+ r).
  Proof.
    split.
    - intros (x & H). destruct (split_down _ _ _ _ H) as (a & r & -> & H1). destruct (split_down _ _ _ _ H1) as (b & r1 & -> & H2).
      destruct (split_down _ _ _ _ H2) as (c & r2 & -> & _). by exists a, b, c, r2.
    - intros (a & b & c & r & ->). apply lookup_lt_is_Some_2. change ("/" +:+ r) with (String "/" r).
      change ("/" +:+ (c +:+ String "/" r)) with (String "/" (c +:+ String "/" r)).
      change ("/" +:+ (b +:+ String "/" (c +:+ String "/" r))) with (String "/" (b +:+ String "/" (c +:+ String "/" r))).
      rewrite !split_length. destruct (split_nonnil "/" a) as (? & ? & ->). destruct (split_nonnil "/" b) as (? & ? & ->).
      destruct (split_nonnil "/" c) as (? & ? & ->). destruct (split_nonnil "/" r) as (? & ? & ->). cbn. lia.
  Qed.

  (** The actions of metadata, for a file. *)
  Lemma in_meta_channel path c a : a ∈ meta_channel path c <->
    exists o t, (c_subscribe c = Some o /\ t = "Subscribe" \/ c_publish c = Some o /\ t = "Publish") /\ a ∈ meta_operation (namify path +:+ suffix c t) o.
  Proof.
    unfold Document2.meta_channel. rewrite elem_of_app. split.
    - intros [H|H]; [destruct (c_subscribe c) as [o|]|destruct (c_publish c) as [o|]]; try (by apply elem_of_nil in H); eauto 10.
    - intros (o & t & [[-> ->]|[-> ->]] & H); [by left|by right].
  Qed.
  Lemma meta_ok d : (forall a, a ∈ meta_document d -> fine a) <->
    (forall f o, f ∈ files d -> o ∈ operations_of f -> m_ref (op_message o) <> "" ->
      exists a b c r, m_ref (op_message o) = (a +:+ "/" +:+ b +:+ "/" +:+ c +:+ "/" +:+ r)) /\
    ((forall f o, f ∈ files d -> o ∈ operations_of f -> m_ref (op_message o) <> "" -> exists x, split "/" (m_ref (op_message o)) !! 3 = Some x) ->
      forall s m l, msg_in d s m -> m_correlation m = Some l -> has_path l).
  Proof.
    rewrite meta_files. split.
    - intros H.
      assert (L : forall f o, f ∈ files d -> o ∈ operations_of f -> m_ref (op_message o) <> "" -> exists x, split "/" (m_ref (op_message o)) !! 3 = Some x).
      { intros f o Hf Ho N. apply in_operations_of in Ho as (kc & Hk & Ho).
        assert (E : exists t, (c_subscribe kc.2 = Some o /\ t = "Subscribe" \/ c_publish kc.2 = Some o /\ t = "Publish")) by (destruct Ho; eauto).
        destruct E as (t & Ht). destruct (meta_operation_cases kc.1 kc.2 t o) as [(n & G & _)|(_ & _ & E)].
        - unfold given_name in G. destruct (String.eqb_spec (m_ref (op_message o)) ""); [done|]. destruct G as (x & G & _). eauto.
        - exfalso. apply (H AShort). apply in_concat_map. exists f. split; [done|]. apply elem_of_app. left. apply in_concat_map. exists kc. split; [done|].
          apply in_meta_channel. exists o, t. split; [done|]. rewrite E. left. }
      split; [intros; apply split_four; eauto|]. intros _ s m l (f & o & Hf & <- & Ho & Hm) E. apply (H (ALocation l)). apply in_concat_map.
      exists f. split; [done|]. apply elem_of_app. apply in_outer in Ho as [(p & Hp & <-)|(k & Hk)].
      + left. pose proof Hp as Hp'. apply in_operations_of in Hp as (kc & Hk & Hp). apply in_concat_map. exists kc. split; [done|]. apply in_meta_channel.
        assert (E' : exists t, (c_subscribe kc.2 = Some p /\ t = "Subscribe" \/ c_publish kc.2 = Some p /\ t = "Publish")) by (destruct Hp; eauto).
        destruct E' as (t & Ht). exists p, t. split; [done|].
        destruct (meta_operation_cases kc.1 kc.2 t p) as [(n & _ & ->)|(N & E' & _)]; [by eapply meta_message_location|].
        destruct (L f p Hf Hp' N) as (x & Hx). congruence.
      + right. apply in_concat_map. exists (k, o). split; [done|]. by eapply meta_message_location.
    - intros [L0 H0]. assert (L : forall f o, f ∈ files d -> o ∈ operations_of f -> m_ref (op_message o) <> "" -> exists x, split "/" (m_ref (op_message o)) !! 3 = Some x).
      { intros f o Hf Ho N. apply split_four. eauto. }
      specialize (H0 L). intros a Ha. apply in_concat_map in Ha as (f & Hf & Ha). unfold meta_file in Ha. apply elem_of_app in Ha as [Ha|Ha].
      + apply in_concat_map in Ha as (kc & Hk & Ha). apply in_meta_channel in Ha as (o & t & Ht & Ha).
        assert (Ho : o ∈ operations_of f) by (apply in_operations_of; exists kc; naive_solver).
        destruct (meta_operation_cases kc.1 kc.2 t o) as [(n & _ & E)|(N & E & _)]; [|destruct (L f o Hf Ho N) as (x & Hx); congruence].
        rewrite E in Ha. apply in_meta_message in Ha as [(i & m & ->)|(x & l & Hx & Ex & ->)]; [done|].
        apply (H0 (d_spec f) x l); [|done]. exists f, (op_message o). repeat (split; [done|]). split; [|done]. apply in_outer. eauto.
      + apply in_concat_map in Ha as (km & Hk & Ha). apply in_meta_message in Ha as [(i & m & ->)|(x & l & Hx & Ex & ->)]; [done|].
        apply (H0 (d_spec f) x l); [|done]. exists f, km.2. repeat (split; [done|]). split; [|done]. apply in_outer. right. exists km.1. by destruct km.
  Qed.

  Lemma place_of_fine s m : (m_ref m <> "" -> exists p, message_at w s (m_ref m) p) ->
    exists l, place_of s (m_correlation m) (match m_one_of m with [] => m_ref m | _ :: _ => "" end) = Ok l /\ place w correlation_at s m l.
  Proof.
    intros H. unfold Document2.place_of. destruct (m_correlation m) as [l|] eqn:C; [exists l; split; [done|by apply place_own]|].
    destruct (m_one_of m) as [|y ys] eqn:A; [|exists ""; split; [done|]; apply place_nowhere; [done|right; congruence]].
    destruct (String.eqb_spec (m_ref m) "") as [E|N]; [exists ""; split; [done|]; apply place_nowhere; [done|by left]|].
    destruct (H N) as (p & Hp). pose proof Hp as Hp'. apply message_at_ok in Hp'. rewrite Hp'.
    destruct (correlation_at p) as [l|] eqn:K; [exists l; split; [done|by eapply place_referred]|exists ""; split; [done|by eapply place_unsaid]].
  Qed.

  Lemma accepted d : (exists t, process d = Ok t) <-> acceptable2 w schema headers_object merge d.
  Proof.
    rewrite process_fine, meta_ok. split.
    - intros ((L & HL) & H). specialize (HL ltac:(intros; apply split_four; eauto)).
      assert (O : forall s m a, msg_in d s m -> own s m a -> fine a) by (intros s m a Hm Ho; apply H, in_set; left; eauto).
      split; [exact L|exact HL| | | | | |].
      + intros s m Hm N. apply (O s m (AMessage s (m_id m) (m_ref m)) Hm). right. left. done.
      + intros s p Hp N. apply (H (AParameter s (p_id p) (p_ref p))). apply in_set. do 2 right. eauto.
      + intros s m x Hm E. apply (O s m (ASchema x) Hm). left. eauto.
      + intros s m x Hm E. split; [apply (O s m (ASchema x) Hm)|apply (O s m (AHeaders x) Hm)]; do 2 right; left; eauto.
      + intros s m a Hm Ha. apply (O s m (AMerge (m_id m) (m_id a)) Hm). do 3 right. left. eauto.
      + intros f k x Hf Hx. apply (H (ASchema x)). apply in_set. right. left. exists f, k, x. done.
    - intros [A1 A2 A3 A4 A5 A6 A7 A8]. split; [split; [exact A1|intros _; exact A2]|]. intros a Ha.
      apply in_set in Ha as [(s & m & Hm & Ho)|[(f & k & x & Hf & Hx & ->)|(s & p & Hp & N & ->)]]; [|by eapply A8|by apply A4].
      destruct Ho as [(x & E & ->)|[(N & ->)|[(x & E & [-> | ->])|[(y & Hy & ->)| ->]]]]; cbn [fine].
      + by eapply A5.
      + by apply A3.
      + by eapply A6.
      + by eapply A6.
      + by eapply A7.
      + destruct (place_of_fine s m (A3 s m Hm)) as (l & E & _). eauto.
  Qed.

  (** ** The state *)
  Lemma run_get {V} (get : state -> nat -> option V) (hit : action -> nat -> V -> Prop) i v l :
    (forall a t t', act a t = Ok t' -> (forall v', hit a i v' -> get t' i = Some v') /\ ((forall v', ~ hit a i v') -> get t' i = get t i)) ->
    (forall a, (exists v', hit a i v') \/ forall v', ~ hit a i v') ->
    (forall a v', a ∈ l -> hit a i v' -> v' = v) ->
    forall t t', run l t = Ok t' -> (exists a, a ∈ l /\ hit a i v) \/ get t i = Some v -> get t' i = Some v.
  Proof.
    intros Ha D. induction l as [|a l IH]; intros U t t' E H; cbn [Document2.run] in E.
    - injection E as <-. destruct H as [(a & Hi & _)|H]; [by apply elem_of_nil in Hi|done].
    - destruct (act a t) as [| |t1] eqn:Ea; try discriminate. apply (IH ltac:(intros b v' Hb; apply U; by right) t1 t' E).
      destruct (Ha a t t1 Ea) as [H1 H2]. destruct (D a) as [(v' & Hv)|N].
      + right. rewrite (H1 _ Hv). f_equal. apply (U a); [left|done].
      + rewrite (H2 N). destruct H as [(b & Hb & Hh)|H]; [|by right]. apply elem_of_cons in Hb as [-> |Hb]; [by destruct (N v)|left; eauto].
  Qed.
  Lemma run_keep {V} (get : state -> nat -> option V) (hit : action -> nat -> V -> Prop) i l :
    (forall a t t', act a t = Ok t' -> (forall v', hit a i v' -> get t' i = Some v') /\ ((forall v', ~ hit a i v') -> get t' i = get t i)) ->
    (forall a v', a ∈ l -> ~ hit a i v') -> forall t t', run l t = Ok t' -> get t' i = get t i.
  Proof.
    intros Ha. induction l as [|a l IH]; intros U t t' E; cbn [Document2.run] in E; [by injection E as <-|].
    destruct (act a t) as [| |t1] eqn:Ea; try discriminate. rewrite (IH ltac:(intros b v' Hb; apply U; by right) t1 t' E).
    apply (Ha a t t1 Ea). intros v'. apply U. left.
  Qed.

  Definition hit_name (a : action) (i : nat) (n : string) : Prop := a = AName i n.
  Definition hit_link (a : action) (i : nat) (p : nat) : Prop := exists s r, a = AMessage s i r /\ message_at w s r p.
  Definition hit_place (a : action) (i : nat) (l : string) : Prop := exists s c r, a = APlace s i c r /\ place_of s c r = Ok l.
  Definition hit_parameter (a : action) (i : nat) (p : nat) : Prop := exists s r, a = AParameter s i r /\ parameter_at w s r p.
  Ltac each_action a E :=
    destruct a as [j n| |l|j|j|j j'|s j r|s j r|s j c r]; cbn [Document2.act] in E;
    unfold keep_with, set_with in E; repeat (case_match; try discriminate); try discriminate; injection E as <-; cbn [names links places links_p].
  Ltac other_one := split; [intros v' Hv; unfold hit_name, hit_link, hit_place, hit_parameter in Hv; naive_solver|done].
  Lemma act_name a i t t' : act a t = Ok t' ->
    (forall v', hit_name a i v' -> names t' !! i = Some v') /\ ((forall v', ~ hit_name a i v') -> names t' !! i = names t !! i).
  Proof.
    intros E. each_action a E; try other_one. split.
    - intros v' Hv. injection Hv as -> ->. apply lookup_insert.
    - intros N. apply lookup_insert_ne. intros ->. by apply (N n).
  Qed.
  Lemma act_link a i t t' : act a t = Ok t' ->
    (forall v', hit_link a i v' -> links t' !! i = Some v') /\ ((forall v', ~ hit_link a i v') -> links t' !! i = links t !! i).
  Proof.
    intros E. each_action a E; try other_one.
    match goal with H : as_message _ = Ok _ |- _ => rename H into R end. pose proof (proj1 (message_at_ok _ _ _) R) as M. split.
    - intros v' (s' & r' & Hv & Hm). injection Hv as -> -> ->. apply message_at_ok in Hm. rewrite R in Hm. injection Hm as <-. apply lookup_insert.
    - intros N. apply lookup_insert_ne. intros ->. eapply N. exists s, r. eauto.
  Qed.
  Lemma act_parameter a i t t' : act a t = Ok t' ->
    (forall v', hit_parameter a i v' -> links_p t' !! i = Some v') /\ ((forall v', ~ hit_parameter a i v') -> links_p t' !! i = links_p t !! i).
  Proof.
    intros E. each_action a E; try other_one.
    match goal with H : as_other _ _ = Ok _ |- _ => rename H into R end. pose proof (proj1 (parameter_at_ok _ _ _) R) as M. split.
    - intros v' (s' & r' & Hv & Hm). injection Hv as -> -> ->. apply parameter_at_ok in Hm. rewrite R in Hm. injection Hm as <-. apply lookup_insert.
    - intros N. apply lookup_insert_ne. intros ->. eapply N. exists s, r. eauto.
  Qed.
  Lemma act_place a i t t' : act a t = Ok t' ->
    (forall v', hit_place a i v' -> places t' !! i = Some v') /\ ((forall v', ~ hit_place a i v') -> places t' !! i = places t !! i).
  Proof.
    intros E. destruct a as [j n| |l|j|j|j j'|s j r|s j r|s j c r]; cbn [Document2.act] in E;
      try (unfold keep_with, set_with in E; repeat (case_match; try discriminate); try discriminate; injection E as <-; cbn [places]; other_one).
    destruct (place_of s c r) as [| |l] eqn:R; try discriminate. injection E as <-. cbn [places]. split.
    - intros v' (s' & c' & r' & Hv & Hm). injection Hv as -> -> -> ->. rewrite R in Hm. injection Hm as <-. apply lookup_insert.
    - intros N. apply lookup_insert_ne. intros ->. eapply N. exists s, c, r. eauto.
  Qed.

  (** Addresses *)
  Lemma NoDup_concat_inj {A B} (F : A -> list B) l x y z : NoDup (List.concat (map F l)) -> x ∈ l -> y ∈ l -> z ∈ F x -> z ∈ F y -> x = y.
  Proof.
    induction l as [|a l IH]; cbn; intros N Hx Hy Zx Zy; [by apply elem_of_nil in Hx|]. apply NoDup_app in N as (_ & N1 & N2).
    apply elem_of_cons in Hx as [-> |Hx]; apply elem_of_cons in Hy as [-> |Hy]; [done| | |by apply IH].
    - destruct (N1 z Zx). apply in_concat_map. eauto.
    - destruct (N1 z Zy). apply in_concat_map. eauto.
  Qed.
  Lemma NoDup_concat_one {A B} (F : A -> list B) l x : NoDup (List.concat (map F l)) -> x ∈ l -> NoDup (F x).
  Proof.
    induction l as [|a l IH]; cbn; intros N Hx; [by apply elem_of_nil in Hx|]. apply NoDup_app in N as (N0 & _ & N2).
    apply elem_of_cons in Hx as [-> |Hx]; [done|by apply IH].
  Qed.
  Lemma NoDup_map_inj {A B} (F : A -> B) l x y : NoDup (map F l) -> x ∈ l -> y ∈ l -> F x = F y -> x = y.
  Proof.
    induction l as [|a l IH]; cbn; intros N Hx Hy E; [by apply elem_of_nil in Hx|]. apply NoDup_cons in N as [N1 N2].
    apply elem_of_cons in Hx as [-> |Hx]; apply elem_of_cons in Hy as [-> |Hy]; [done| | |by apply IH].
    - destruct N1. rewrite E. by apply elem_of_list_fmap_1.
    - destruct N1. rewrite <- E. by apply elem_of_list_fmap_1.
  Qed.
  Lemma ids_unique d s m s' m' : apart d -> msg_in d s m -> msg_in d s' m' -> m_id m = m_id m' -> s = s' /\ m = m'.
  Proof.
    intros [N _] (f & o & Hf & <- & Ho & Hm) (f' & o' & Hf' & <- & Ho' & Hm') E. unfold message_ids in N.
    assert (I : forall g q x, q ∈ outer_messages g -> x ∈ inside q -> m_id x ∈ List.concat (map (fun o => map m_id (inside o)) (outer_messages g))).
    { intros g q x Hq Hx. apply in_concat_map. exists q. split; [done|]. by apply elem_of_list_fmap_1. }
    assert (f = f') as <-. { apply (NoDup_concat_inj _ _ f f' (m_id m) N Hf Hf'); [by eapply I|]. rewrite E. by eapply I. }
    pose proof (NoDup_concat_one _ _ f N Hf) as N1. cbn beta in N1.
    assert (o = o') as <-. { apply (NoDup_concat_inj _ _ o o' (m_id m) N1 Ho Ho'); [by apply elem_of_list_fmap_1|]. rewrite E. by apply elem_of_list_fmap_1. }
    pose proof (NoDup_concat_one _ _ o N1 Ho) as N2. cbn beta in N2. split; [done|]. by apply (NoDup_map_inj m_id (inside o)).
  Qed.

  Lemma process_runs d t : process d = Ok t -> exists t1, run (meta_document d) start = Ok t1 /\ run (set_document d) t1 = Ok t.
  Proof. unfold Document2.process. destruct (run (meta_document d) start) as [| |t1] eqn:E; try discriminate. eauto. Qed.
  Lemma in_meta d a : a ∈ meta_document d -> (exists i n, a = AName i n) \/ a = AShort \/ exists l, a = ALocation l.
  Proof.
    rewrite meta_files. intros H. apply in_concat_map in H as (f & Hf & H). unfold meta_file in H. apply elem_of_app in H as [H|H].
    - apply in_concat_map in H as (kc & Hk & H). apply in_meta_channel in H as (o & t & _ & H).
      destruct (meta_operation_cases kc.1 kc.2 t o) as [(n & _ & E)|(_ & _ & E)]; rewrite E in H.
      + apply in_meta_message in H as [H|(x & l & _ & _ & ->)]; eauto.
      + apply elem_of_list_singleton in H. eauto.
    - apply in_concat_map in H as (km & Hk & H). apply in_meta_message in H as [H|(x & l & _ & _ & ->)]; eauto.
  Qed.
  Lemma hit_link_dec a i : (exists v, hit_link a i v) \/ forall v, ~ hit_link a i v.
  Proof.
    destruct a as [j n| |l|j|j|j j'|s j r|s j r|s j c r]; try (right; intros v (s' & r' & Hv & _); discriminate).
    destruct (decide (j = i)) as [-> |N]; [|right; intros v (s' & r' & Hv & _); congruence].
    destruct (as_message (reference2 w s r)) as [| |p] eqn:R.
    - right. intros v (s' & r' & Hv & Hm). injection Hv as -> ->. apply message_at_ok in Hm. congruence.
    - right. intros v (s' & r' & Hv & Hm). injection Hv as -> ->. apply message_at_ok in Hm. congruence.
    - left. exists p, s, r. split; [done|]. by apply message_at_ok.
  Qed.
  Lemma hit_parameter_dec a i : (exists v, hit_parameter a i v) \/ forall v, ~ hit_parameter a i v.
  Proof.
    destruct a as [j n| |l|j|j|j j'|s j r|s j r|s j c r]; try (right; intros v (s' & r' & Hv & _); discriminate).
    destruct (decide (j = i)) as [-> |N]; [|right; intros v (s' & r' & Hv & _); congruence].
    destruct (as_other "parameters" (reference2 w s r)) as [| |p] eqn:R.
    - right. intros v (s' & r' & Hv & Hm). injection Hv as -> ->. apply parameter_at_ok in Hm. congruence.
    - right. intros v (s' & r' & Hv & Hm). injection Hv as -> ->. apply parameter_at_ok in Hm. congruence.
    - left. exists p, s, r. split; [done|]. by apply parameter_at_ok.
  Qed.
  Lemma hit_place_dec a i : (exists v, hit_place a i v) \/ forall v, ~ hit_place a i v.
  Proof.
    destruct a as [j n| |l|j|j|j j'|s j r|s j r|s j c r]; try (right; intros v (s' & c' & r' & Hv & _); discriminate).
    destruct (decide (j = i)) as [-> |N]; [|right; intros v (s' & c' & r' & Hv & _); congruence].
    destruct (place_of s c r) as [| |p] eqn:R.
    - right. intros v (s' & c' & r' & Hv & Hm). injection Hv as -> -> ->. congruence.
    - right. intros v (s' & c' & r' & Hv & Hm). injection Hv as -> -> ->. congruence.
    - left. exists p, s, c, r. done.
  Qed.
  Lemma hit_name_dec a i : (exists v, hit_name a i v) \/ forall v, ~ hit_name a i v.
  Proof.
    destruct a as [j n| |l|j|j|j j'|s j r|s j r|s j c r]; try (right; intros v Hv; discriminate).
    destruct (decide (j = i)) as [-> |N]; [left; by exists n|right; intros v Hv; unfold hit_name in Hv; congruence].
  Qed.
  Lemma own_message s m s' i r : own s m (AMessage s' i r) -> s' = s /\ i = m_id m /\ r = m_ref m /\ m_ref m <> "".
  Proof. unfold own. naive_solver. Qed.
  Lemma own_place s m s' i c r : own s m (APlace s' i c r) ->
    s' = s /\ i = m_id m /\ c = m_correlation m /\ r = match m_one_of m with [] => m_ref m | _ :: _ => "" end.
  Proof. unfold own. naive_solver. Qed.

  Lemma linked d t s m : apart d -> process d = Ok t -> msg_in d s m ->
    (m_ref m <> "" -> exists p, message_at w s (m_ref m) p /\ links t !! m_id m = Some p) /\ (m_ref m = "" -> links t !! m_id m = None).
  Proof.
    intros A E Hm. destruct (process_runs d t E) as (t1 & E1 & E2).
    assert (L1 : links t1 !! m_id m = None).
    { rewrite (run_keep (fun t i => links t !! i) hit_link (m_id m) (meta_document d) (fun a t t' => act_link a _ t t')) with (t := start); [done| |done].
      intros a v Ha (s' & r' & -> & _). apply in_meta in Ha as [(? & ? & H)|[H|(? & H)]]; discriminate. }
    assert (O : forall s' i r, AMessage s' i r ∈ set_document d -> exists m', msg_in d s' m' /\ i = m_id m' /\ r = m_ref m' /\ m_ref m' <> "").
    { intros s' i r H. apply in_set in H as [(s1 & m1 & H1 & H)|[(f & k & x & _ & _ & H)|(s1 & p & _ & _ & H)]]; try discriminate.
      apply own_message in H as (-> & -> & -> & N). eauto. }
    split.
    - intros N. destruct (proj1 (accepted d) (ex_intro _ t E)) as [_ _ AM _ _ _ _ _]. destruct (AM s m Hm N) as (p & Hp). exists p. split; [done|].
      apply (run_get (fun t i => links t !! i) hit_link (m_id m) p (set_document d) (fun a t t' => act_link a _ t t') (fun a => hit_link_dec a _)) with (t := t1); [|done|].
      + intros a v Ha (s' & r' & -> & Hv). destruct (O _ _ _ Ha) as (m' & Hm' & Ei & -> & _). destruct (ids_unique d s m s' m' A Hm Hm' Ei) as [<- <-].
        apply message_at_ok in Hv, Hp. congruence.
      + left. exists (AMessage s (m_id m) (m_ref m)). split; [|by exists s, (m_ref m)]. apply in_set. left. exists s, m. split; [done|]. right. by left.
    - intros N. rewrite <- L1. apply (run_keep (fun t i => links t !! i) hit_link (m_id m) (set_document d) (fun a t t' => act_link a _ t t')); [|done].
      intros a v Ha (s' & r' & -> & Hv). destruct (O _ _ _ Ha) as (m' & Hm' & Ei & -> & N'). destruct (ids_unique d s m s' m' A Hm Hm' Ei) as [<- <-]. done.
  Qed.
  Lemma placed d t s m : apart d -> process d = Ok t -> msg_in d s m -> exists l, place w correlation_at s m l /\ places t !! m_id m = Some l.
  Proof.
    intros A E Hm. destruct (process_runs d t E) as (t1 & E1 & E2). destruct (proj1 (accepted d) (ex_intro _ t E)) as [_ _ AM _ _ _ _ _].
    destruct (place_of_fine s m (AM s m Hm)) as (l & El & Pl). exists l. split; [done|].
    apply (run_get (fun t i => places t !! i) hit_place (m_id m) l (set_document d) (fun a t t' => act_place a _ t t') (fun a => hit_place_dec a _)) with (t := t1); [|done|].
    - intros a v Ha (s' & c' & r' & -> & Hv). apply in_set in Ha as [(s1 & m1 & H1 & H)|[(f & k & x & _ & _ & H)|(s1 & p & _ & _ & H)]]; try discriminate.
      apply own_place in H as (-> & Ei & -> & ->). destruct (ids_unique d s m s1 m1 A Hm H1 Ei) as [<- <-]. congruence.
    - left. eexists. split; [|by eexists _, _, _]. apply in_set. left. exists s, m. split; [done|]. do 4 right. done.
  Qed.
  Lemma linked_parameter d t s p : apart d -> process d = Ok t -> parameter_in d s p ->
    (p_ref p <> "" -> exists q, parameter_at w s (p_ref p) q /\ links_p t !! p_id p = Some q) /\ (p_ref p = "" -> links_p t !! p_id p = None).
  Proof.
    intros [_ A] E Hm. destruct (process_runs d t E) as (t1 & E1 & E2).
    assert (L1 : links_p t1 !! p_id p = None).
    { rewrite (run_keep (fun t i => links_p t !! i) hit_parameter (p_id p) (meta_document d) (fun a t t' => act_parameter a _ t t')) with (t := start); [done| |done].
      intros a v Ha (s' & r' & -> & _). apply in_meta in Ha as [(? & ? & H)|[H|(? & H)]]; discriminate. }
    assert (O : forall s' i r, AParameter s' i r ∈ set_document d -> exists m', parameter_in d s' m' /\ i = p_id m' /\ r = p_ref m' /\ p_ref m' <> "").
    { intros s' i r H. apply in_set in H as [(s1 & m1 & H1 & H)|[(f & k & x & _ & _ & H)|(s1 & q & Hq & N & H)]]; try discriminate.
      - unfold own in H. naive_solver.
      - injection H as -> -> ->. eauto. }
    split.
    - intros N. destruct (proj1 (accepted d) (ex_intro _ t E)) as [_ _ _ AP _ _ _ _]. destruct (AP s p Hm N) as (q & Hp). exists q. split; [done|].
      apply (run_get (fun t i => links_p t !! i) hit_parameter (p_id p) q (set_document d) (fun a t t' => act_parameter a _ t t') (fun a => hit_parameter_dec a _)) with (t := t1); [|done|].
      + intros a v Ha (s' & r' & -> & Hv). destruct (O _ _ _ Ha) as (m' & Hm' & Ei & -> & _). pose proof (A s p s' m' Hm Hm' Ei) as Eq. injection Eq as <- <-.
        apply parameter_at_ok in Hv, Hp. congruence.
      + left. exists (AParameter s (p_id p) (p_ref p)). split; [|by exists s, (p_ref p)]. apply in_set. do 2 right. eauto.
    - intros N. rewrite <- L1. apply (run_keep (fun t i => links_p t !! i) hit_parameter (p_id p) (set_document d) (fun a t t' => act_parameter a _ t t')); [|done].
      intros a v Ha (s' & r' & -> & Hv). destruct (O _ _ _ Ha) as (m' & Hm' & Ei & -> & N'). pose proof (A s p s' m' Hm Hm' Ei) as Eq. injection Eq as <- <-. done.
  Qed.

  (** Names *)
  Lemma ids_concat {A} (F : A -> list action) l : ids (List.concat (map F l)) = List.concat (map (fun x => ids (F x)) l).
  Proof. induction l as [|a l IH]; cbn; [done|]. by rewrite ids_app, IH. Qed.
  Lemma ids_operation path c t o : AShort ∉ meta_operation (namify path +:+ suffix c t) o ->
    ids (meta_operation (namify path +:+ suffix c t) o) = map m_id (inside (op_message o)).
  Proof.
    intros N. destruct (meta_operation_cases path c t o) as [(n & _ & ->)|(_ & _ & E)]; [apply ids_meta_message|]. rewrite E in N. destruct N. left.
  Qed.
  Lemma ids_document d : AShort ∉ meta_document d -> ids (meta_document d) = message_ids d.
  Proof.
    rewrite meta_files. intros N. rewrite ids_concat. unfold message_ids. apply concat_map_ext. intros f Hf.
    assert (Nf : AShort ∉ meta_file f) by (intros H; apply N, in_concat_map; eauto). clear N. unfold meta_file in *.
    apply not_elem_of_app in Nf as [N _]. rewrite ids_app, !ids_concat. unfold outer_messages. rewrite map_app, concat_app. f_equal.
    - unfold operations_of. rewrite map_map, concat_map_concat. apply concat_map_ext. intros kc Hk.
      assert (Nk : AShort ∉ meta_channel kc.1 kc.2) by (intros H; apply N, in_concat_map; eauto). clear N. unfold Document2.meta_channel in *.
      apply not_elem_of_app in Nk as [N1 N2]. rewrite ids_app. unfold operations_in.
      destruct (c_subscribe kc.2) as [o|], (c_publish kc.2) as [o'|]; cbn [option_list app map List.concat]; rewrite ?app_nil_r; try done.
      all: rewrite ?ids_operation by done; cbn; by rewrite ?app_nil_r.
    - rewrite map_map. apply concat_map_ext. intros km _. apply ids_meta_message.
  Qed.
  Lemma ids_name_unique l i n n' : NoDup (ids l) -> AName i n ∈ l -> AName i n' ∈ l -> n = n'.
  Proof.
    assert (I : forall k x, AName i x ∈ k -> i ∈ ids k) by (intros k x H; apply elem_of_list_omap; by exists (AName i x)).
    induction l as [|a l IH]; intros N H H'; [by apply elem_of_nil in H|].
    apply elem_of_cons in H as [<-|H]; apply elem_of_cons in H' as [E|H'].
    - by injection E.
    - change (ids (AName i n :: l)) with (i :: ids l) in N. apply NoDup_cons in N as [N _]. destruct N. eauto.
    - subst a. change (ids (AName i n' :: l)) with (i :: ids l) in N. apply NoDup_cons in N as [N _]. destruct N. eauto.
    - apply IH; try done. unfold ids in N |- *. cbn in N. destruct a; try done. by apply NoDup_cons in N as [_ N].
  Qed.
  Lemma named d t i n : apart d -> process d = Ok t -> AName i n ∈ meta_document d -> names t !! i = Some n.
  Proof.
    intros [A _] E H. destruct (process_runs d t E) as (t1 & E1 & E2). pose proof (proj1 (proj1 (process_fine d) (ex_intro _ t E))) as F.
    rewrite (run_keep (fun t i => names t !! i) hit_name i (set_document d) (fun a t t' => act_name a _ t t')) with (t := t1); [| |done].
    - apply (run_get (fun t i => names t !! i) hit_name i n (meta_document d) (fun a t t' => act_name a _ t t') (fun a => hit_name_dec a _)) with (t := start); [|done|].
      + intros a v Ha ->. symmetry. apply (ids_name_unique (meta_document d) i); [|done|done]. rewrite ids_document; [done|]. intros Hs. by apply (F AShort).
      + left. by exists (AName i n).
    - intros a v Ha ->. apply in_set in Ha as [(s1 & m1 & H1 & Ho)|[(f & k & x & _ & _ & Ho)|(s1 & q & Hq & N & Ho)]]; try discriminate. unfold own in Ho. naive_solver.
  Qed.
  Lemma named_component d t f k m : apart d -> process d = Ok t -> f ∈ files d -> (k, m) ∈ d_messages f -> names t !! m_id m = Some (namify (k +:+ "Message")).
  Proof.
    intros A E Hf Hk. apply (named d); [done|done|]. rewrite meta_files. apply in_concat_map. exists f. split; [done|]. apply elem_of_app. right.
    apply in_concat_map. exists (k, m). split; [done|]. apply meta_message_name.
  Qed.
  Lemma named_operation d t f kc o x : apart d -> process d = Ok t -> f ∈ files d -> kc ∈ d_channels f ->
    (c_subscribe kc.2 = Some o /\ x = "Subscribe" \/ c_publish kc.2 = Some o /\ x = "Publish") ->
    exists n, given_name kc.1 kc.2 x (op_message o) n /\ names t !! m_id (op_message o) = Some (namify n).
  Proof.
    intros A E Hf Hk Ho. pose proof (proj1 (proj1 (process_fine d) (ex_intro _ t E))) as F.
    assert (I : forall a, a ∈ meta_operation (namify kc.1 +:+ suffix kc.2 x) o -> a ∈ meta_document d).
    { intros a Ha. rewrite meta_files. apply in_concat_map. exists f. split; [done|]. apply elem_of_app. left. apply in_concat_map. exists kc. split; [done|].
      apply in_meta_channel. eauto. }
    destruct (meta_operation_cases kc.1 kc.2 x o) as [(n & G & Eq)|(_ & _ & Eq)].
    - exists n. split; [done|]. apply (named d); [done|done|]. apply I. rewrite Eq. apply meta_message_name.
    - destruct (F AShort). apply I. rewrite Eq. left.
  Qed.
End proof.

(** Headers that are no objects, everything else in order: an error. *)
Lemma headers_error namify itoa w correlation_at schema headers_object merge d :
  acceptable2 w schema (fun _ => true) merge d -> ~ acceptable2 w schema headers_object merge d ->
  process namify itoa w correlation_at schema headers_object merge d = Err.
Proof.
  intros A N. destruct (proj1 (process_fine namify itoa w correlation_at schema (fun _ => true) merge d)) as [F1 F2];
    [by apply accepted|].
  assert (R : forall l t, (forall a, a ∈ l -> fine w correlation_at schema (fun _ => true) merge a) ->
    run w correlation_at schema headers_object merge l t <> Panic).
  { induction l as [|a l IH]; intros t F; cbn [Document2.run]; [discriminate|].
    assert (Fa : fine w correlation_at schema (fun _ => true) merge a) by (apply F; left).
    destruct (act w correlation_at schema headers_object merge a t) as [| |t1] eqn:E.
    - exfalso. destruct a as [i n| |l'|i|i|i j|s i r|s i r|s i c r];
        try (destruct (proj2 (act_fine namify itoa w correlation_at schema (fun _ => true) merge _ t) Fa) as (t2 & E2);
          enough (Panic = Ok t2) by discriminate; rewrite <- E, <- E2; reflexivity).
      cbn [Document2.act] in E. destruct (headers_object i); discriminate.
    - discriminate.
    - apply IH. intros b Hb. apply F. by right. }
  destruct (process namify itoa w correlation_at schema headers_object merge d) as [| |t] eqn:E; [|done|].
  - exfalso. unfold process in E. pose proof (R (meta_document namify itoa d) start F1) as R1.
    destruct (run w correlation_at schema headers_object merge (meta_document namify itoa d) start) as [| |t1]; [done|discriminate|].
    by apply (R (set_document d) t1 F2).
  - destruct N. apply (accepted namify itoa w correlation_at). eauto.
Qed.
