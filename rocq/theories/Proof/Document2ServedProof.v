(** The code generated for a processed document of version 2. *)
From stdpp Require Import gmap list strings.
From Coq Require Import NArith Ascii String.
From Verif.Model Require Import GoStrings Reference Linking Naming Names Operations Package Package2 Document2.
From Verif.Spec Require Import ReferenceSpec NamingSpec LinkingSpec PackageSpec Package2Spec Document2Spec.
From Verif.Proof Require Import GoStringsProof ReferenceProof LinkingProof NamingProof PackageProof Package2Proof Document2Proof.
Local Open Scope string_scope.
Local Open Scope list_scope.
Local Open Scope nat_scope.

(** ** Names *)
Lemma chars_app a b : list_ascii_of_string (a +:+ b) = list_ascii_of_string a ++ list_ascii_of_string b.
Proof. induction a as [|c a IH]; [done|]. change (String c a +:+ b) with (String c (a +:+ b)). cbn. by rewrite IH. Qed.
Lemma ascii_app a b : ascii_text a -> ascii_text b -> ascii_text (a +:+ b).
Proof. unfold ascii_text. rewrite chars_app. intros. by apply Forall_app. Qed.

Section names.
  Variable ul ud : N -> bool.
  Variable uu : N -> bytes.
  Notation name_it := (name_it ul ud uu).
  Notation name_without_params := (name_without_params ul ud uu).
  Lemma name_of_valid s : Forall is_ascii s -> NamingSpec.name_of s = [] \/ exported (NamingSpec.name_of s).
  Proof.
    intros A. destruct (namify_idempotent ul ud (fun _ => ["a"%char]) s) as (n & E & H & _); [discriminate|].
    rewrite namify_ascii in E by done. injection E as <-. done.
  Qed.
  Lemma name_it_chars s : ascii_text s -> list_ascii_of_string (name_it s) = NamingSpec.name_of (list_ascii_of_string s).
  Proof. intros A. unfold Package.name_it. rewrite namify_ascii by done. apply list_ascii_of_string_of_list_ascii. Qed.
  Lemma exported_words s : exported s -> Forall word_char s.
  Proof. intros (c & r & -> & H & F). constructor; [|done]. right. by left. Qed.
  Lemma name_it_words s : ascii_text s -> Forall word_char (list_ascii_of_string (name_it s)).
  Proof. intros A. rewrite name_it_chars by done. destruct (name_of_valid _ A) as [-> |E]; [constructor|by apply exported_words]. Qed.
  Lemma name_it_ascii s : ascii_text s -> ascii_text (name_it s).
  Proof. intros A. apply words_ascii. by apply name_it_words. Qed.
  Lemma name_it_message s : ascii_text s -> exported_text (name_it (s +:+ "Message")).
  Proof.
    intros A. assert (A' : ascii_text (s +:+ "Message")) by (apply ascii_app; [done|]; repeat constructor; vm_compute; reflexivity).
    unfold exported_text. rewrite name_it_chars by done. destruct (name_of_valid _ A') as [E|E]; [|done]. exfalso.
    apply name_of_nil in E. rewrite chars_app in E. apply Forall_app in E as [_ E]. cbn in E. apply Forall_cons in E as [E _]. apply E. right.
    apply (bool_decide_unpack _). vm_compute. exact I.
  Qed.
  Lemma words_no_brace s : Forall word_char s -> "}"%char ∉ s.
  Proof.
    intros F H. rewrite Forall_forall in F. specialize (F _ H). revert F.
    assert (D : bool_decide (word_char "}"%char) = false) by (vm_compute; reflexivity). by apply bool_decide_eq_false in D.
  Qed.
  Lemma without_params_same k : ascii_text k -> "}"%char ∉ list_ascii_of_string k -> name_without_params k = name_without_params (name_it k).
  Proof.
    intros A N. unfold Package.name_without_params, namify_without_params, remove_params.
    rewrite !remove_params_none; [|lia|apply words_no_brace; by apply name_it_words|lia|done].
    pose proof (name_it_ascii k A) as A'. rewrite (namify_ascii _ _ _ (list_ascii_of_string (name_it k))) by done.
    rewrite namify_ascii by done. rewrite name_it_chars by done. f_equal.
    destruct (namify_idempotent ul ud (fun _ => ["a"%char]) (list_ascii_of_string k)) as (n & E & _ & E'); [discriminate|].
    rewrite namify_ascii in E by done. injection E as <-. rewrite namify_ascii in E' by (rewrite <- name_it_chars by done; done). by injection E' as ->.
  Qed.
End names.

Lemma self_file d : d ∈ files d.
Proof. destruct d. cbn. apply elem_of_app. right. left. Qed.
Lemma outer_in d m : m ∈ outer_messages d -> msg_in d (d_spec d) m.
Proof. intros H. exists d, m. split; [apply self_file|]. split; [done|]. split; [done|apply inside_self]. Qed.
Lemma component_outer d k m : (k, m) ∈ d_messages d -> m ∈ outer_messages d.
Proof. intros H. apply in_outer. eauto. Qed.
Lemma with_payload_has m : with_payload m -> has_payload m = true.
Proof. destruct m as [i r c h p alts]. intros (x & E). cbn in *. by subst p. Qed.

Section served.
  Variable ul ud : N -> bool.
  Variable uu : N -> bytes.
  Variable itoa : nat -> string.
  Variable w : world.
  Variable correlation_at : nat -> option string.
  Variable schema : nat -> res unit.
  Variable headers_object : nat -> bool.
  Variable merge : nat -> nat -> res unit.
  Notation name_it := (name_it ul ud uu).
  Notation process := (process name_it itoa w correlation_at schema headers_object merge).

  Lemma message_here s r p : message_at w s ("#" +:+ r) p -> exists k, comps s "messages" !! k = Some p.
  Proof.
    intros (used & q & steps & D & _ & S). assert (used = s) as ->.
    { remember ("#" +:+ r) as ref eqn:R. destruct D as [x Hx|file key x d' N Wf Wx Sf Hd]; [done|]. exfalso. destruct file as [|c file]; [done|].
      change (String c file +:+ ("#" +:+ x)) with (String c (file +:+ ("#" +:+ x))) in R. change ("#" +:+ r) with (String "#" r) in R. injection R as -> _.
      apply Wf. cbn. left. }
    inversion S as [n m H|]; subst; [eauto|discriminate].
  Qed.

  Variable d : document.
  Variable t : state.
  Hypothesis HA : apart d.
  Hypothesis HS : stored correlation_at d.
  Hypothesis HP : plain d.
  Hypothesis HE : process d = Ok t.

  (** What a message of the document refers to. *)
  Lemma refers_to m : m ∈ outer_messages d -> m_ref m <> "" ->
    exists k m', message_at w (d_spec d) (m_ref m) (m_id m') /\ (k, m') ∈ d_messages d /\ links t !! m_id m = Some (m_id m').
  Proof.
    intros Hm N. destruct (linked _ _ _ _ _ _ _ d t (d_spec d) m HA HE (outer_in d m Hm)) as [L _]. destruct (L N) as (p & Hp & El).
    destruct (pl_refers _ HP m Hm N) as ((r & Er) & _). pose proof Hp as Hq. rewrite Er in Hq. destruct (message_here _ _ _ Hq) as (k & Hk).
    apply (st_messages _ _ HS) in Hk as (m' & Hk & <-). eauto.
  Qed.
  Lemma no_link m : m ∈ outer_messages d -> m_ref m = "" -> links t !! m_id m = None.
  Proof. intros Hm N. by apply (linked _ _ _ _ _ _ _ d t (d_spec d) m HA HE (outer_in d m Hm)). Qed.

  Lemma follow_end n : forall m q, m ∈ outer_messages d -> follow n (links t) (m_id m) = Some q ->
    (m_ref m = "" /\ q = m_id m) \/ (m_ref m <> "" /\ exists k m', (k, m') ∈ d_messages d /\ q = m_id m').
  Proof.
    induction n as [|n IH]; intros m q Hm E; cbn in E; (destruct (decide (m_ref m = "")) as [N|N]; [rewrite (no_link m Hm N) in E; injection E as <-; by left|]);
      destruct (refers_to m Hm N) as (k & m' & _ & Hk & El); rewrite El in E; [discriminate|].
    right. split; [done|]. destruct (IH m' q (component_outer _ _ _ Hk) E) as [(_ & ->)|(_ & H)]; eauto.
  Qed.
  Lemma follow_located n m q : m ∈ outer_messages d -> follow n (links t) (m_id m) = Some q -> located t (m_id m) = true -> located t q = true.
  Proof.
    intros Hm E L. destruct (decide (m_ref m = "")) as [N|N].
    { destruct (follow_end n m q Hm E) as [(_ & ->)|(N' & _)]; [done|contradiction]. }
    destruct (refers_to m Hm N) as (k & m' & Hp & Hk & El). destruct (pl_refers _ HP m Hm N) as (_ & A & C).
    destruct (placed _ _ _ _ _ _ _ d t (d_spec d) m HA HE (outer_in d m Hm)) as (l & Pl & E1). unfold located in L. rewrite E1 in L.
    inversion Pl as [l' C'|p l' _ _ _ Hp' K|p _ _ _ _ _ E0|_ [E0|E0] E0']; subst; try congruence; try discriminate.
    assert (p = m_id m') as ->. { apply message_at_ok in Hp, Hp'. congruence. }
    rewrite (st_correlation _ _ HS k m' Hk) in K.
    assert (R' : m_ref m' = "").
    { destruct (decide (m_ref m' = "")) as [|N']; [done|]. destruct (pl_refers _ HP m' (component_outer _ _ _ Hk) N') as (_ & _ & C'). congruence. }
    assert (q = m_id m') as ->.
    { destruct n as [|n]; cbn in E; rewrite El in E; [discriminate|]. pose proof (no_link m' (component_outer _ _ _ Hk) R') as NL.
      destruct n; cbn in E; rewrite NL in E; by injection E as <-. }
    destruct (placed _ _ _ _ _ _ _ d t (d_spec d) m' HA HE (outer_in d m' (component_outer _ _ _ Hk))) as (l2 & Pl2 & E2). unfold located. rewrite E2.
    inversion Pl2 as [l3 C3|? ? C3|? C3|C3]; subst; congruence.
  Qed.

  Lemma suffix_ascii c x : ascii_text x -> ascii_text (suffix c x).
  Proof. intros A. unfold suffix. destruct (has (c_subscribe c) && has (c_publish c))%bool; [done|constructor]. Qed.
  (** The operations of the templates and those of the document. *)
  Lemma operation2_inv n o o2 : operation2_of n t o = Some o2 ->
    follow n (links t) (m_id (op_message o)) = Some (o2_message o2) /\ o2_located o2 = located t (m_id (op_message o)) /\
    o2_inline o2 = (if has_payload (op_message o) then Some (m_id (op_message o)) else None).
  Proof. unfold operation2_of. destruct (follow n (links t) (m_id (op_message o))) as [q|]; cbn; [|discriminate]. intros E. by injection E as <-. Qed.
  Lemma chan2_inv n kc0 kc : chan2_of name_it n t kc0 = Some kc ->
    kc.1 = kc0.1 /\ h2_name kc.2 = name_it kc0.1 /\ (h2_params kc.2 = true -> c_parameters kc0.2 <> []) /\
    (forall o2, h2_publish kc.2 = Some o2 -> exists o, c_publish kc0.2 = Some o /\ operation2_of n t o = Some o2) /\
    (forall o2, h2_subscribe kc.2 = Some o2 -> exists o, c_subscribe kc0.2 = Some o /\ operation2_of n t o = Some o2).
  Proof.
    unfold chan2_of. intros E. destruct (optional (operation2_of n t) (c_publish kc0.2)) as [p|] eqn:Ep; cbn in E; [|discriminate].
    destruct (optional (operation2_of n t) (c_subscribe kc0.2)) as [s|] eqn:Es; cbn in E; [|discriminate]. injection E as <-. cbn.
    split; [done|]. split; [done|]. split; [by destruct (c_parameters kc0.2)|].
    assert (O : forall (x : option operation) y o2, optional (operation2_of n t) x = Some y -> y = Some o2 -> exists o, x = Some o /\ operation2_of n t o = Some o2).
    { intros [o|] y o2 Ex ->; cbn in Ex; [|discriminate]. exists o. split; [done|]. destruct (operation2_of n t o); cbn in Ex; [|discriminate]. by injection Ex as ->. }
    split; intros o2 Eo; eapply O; eassumption.
  Qed.
  Lemma channels2_inv n cs kc : channels2_of name_it n t d = Some cs -> kc ∈ cs -> exists kc0, kc0 ∈ d_channels d /\ chan2_of name_it n t kc0 = Some kc.
  Proof.
    intros E Hk. unfold channels2_of in E. apply mapM_Some in E. apply elem_of_list_lookup in Hk as (i & Hi).
    destruct (Forall2_lookup_r _ _ _ _ _ E Hi) as (kc0 & H0 & Eq). exists kc0. split; [|done]. by eapply elem_of_list_lookup_2.
  Qed.

  Lemma served_channel n cs kc : channels2_of name_it n t d = Some cs -> kc ∈ cs ->
    served2 (name_without_params ul ud uu) (details2_of t) cs (messages2_of d) kc.
  Proof.
    intros E Hk. destruct (channels2_inv n cs kc E Hk) as ([k c] & H0 & Ec). destruct (chan2_inv n _ kc Ec) as (E1 & E2 & E3 & Ep & Es). cbn [fst snd] in *.
    destruct (pl_channels _ HP k c H0) as [Ak Bk].
    assert (OP : forall o2, operation_of kc.2 o2 -> exists o x, (c_subscribe c = Some o /\ x = "Subscribe" \/ c_publish c = Some o /\ x = "Publish") /\ operation2_of n t o = Some o2).
    { intros o2 [H|H]; [destruct (Ep _ H) as (o & Ho & Eo); exists o, "Publish"|destruct (Es _ H) as (o & Ho & Eo); exists o, "Subscribe"]; auto. }
    assert (IN : forall o x, (c_subscribe c = Some o /\ x = "Subscribe" \/ c_publish c = Some o /\ x = "Publish") -> o ∈ operations_of d).
    { intros o x H. apply in_operations_of. exists (k, c). cbn. split; [done|]. naive_solver. }
    assert (OUT : forall o x, (c_subscribe c = Some o /\ x = "Subscribe" \/ c_publish c = Some o /\ x = "Publish") -> op_message o ∈ outer_messages d).
    { intros o x H. apply in_outer. left. eauto. }
    split.
    - intros H. rewrite E1, E2. apply without_params_same; auto.
    - intros o2 Ho2. destruct (OP o2 Ho2) as (o & x & Hx & Eo). destruct (operation2_inv n o o2 Eo) as (Ef & _ & Ei).
      destruct (follow_end n _ _ (OUT _ _ Hx) Ef) as [(N & Eq)|(N & k' & m' & Hk' & Eq)].
      + pose proof (pl_operations _ HP o (IN _ _ Hx) N) as Pw. rewrite (with_payload_has _ Pw) in Ei. split.
        * left. exists kc, o2. split; [done|]. split; [done|]. by rewrite Eq.
        * destruct (named_operation _ _ _ _ _ _ _ d t d (k, c) o x HA HE (self_file d) H0 Hx) as (nm & G & En). unfold given_name in G. rewrite N in G. cbn [String.eqb fst snd] in G. subst nm.
          cbn. rewrite Eq, En. cbn. apply name_it_message. apply name_it_ascii. apply ascii_app; [by apply name_it_ascii|]. apply suffix_ascii.
          destruct Hx as [[_ ->]|[_ ->]]; repeat constructor; vm_compute; reflexivity.
      + destruct (pl_messages _ HP k' m' Hk') as [Ak' Pw]. split.
        * right. rewrite Eq. apply elem_of_list_fmap. exists (k', m'). cbn. by rewrite (with_payload_has _ Pw).
        * cbn. rewrite Eq, (named_component _ _ _ _ _ _ _ d t d k' m' HA HE (self_file d) Hk'). cbn. by apply name_it_message.
    - intros o2 Ho2 L. destruct (Es o2 Ho2) as (o & Ho & Eo). destruct (operation2_inv n o o2 Eo) as (Ef & El & _). rewrite El in L.
      cbn. eapply follow_located; [|exact Ef|exact L]. apply (OUT o "Subscribe"). auto.
  Qed.
  Lemma document_backed n cs schemas : channels2_of name_it n t d = Some cs ->
    exists c, package2 ul ud uu (details2_of t) cs (messages2_of d) schemas = Some c /\ all_backed c.
  Proof.
    intros E. apply package2_backed.
    - apply Forall_forall. intros kc Hk. by eapply served_channel.
    - intros m p H. apply elem_of_list_fmap in H as ([k x] & Eq & H). injection Eq as -> ->. apply with_payload_has. by apply (pl_messages _ HP k x H).
  Qed.
End served.

(** ** Following ends *)
Lemma mapM_ext_in {A B} (f g : A -> option B) l : (forall x, x ∈ l -> f x = g x) -> mapM f l = mapM g l.
Proof.
  induction l as [|a l IH]; intros H; cbn; [done|]. rewrite (H a) by left. rewrite IH; [done|]. intros x Hx. apply H. by right.
Qed.
Section follows.
  Variable namify : string -> string.
  Variable itoa : nat -> string.
  Variable w : world.
  Variable correlation_at : nat -> option string.
  Variable schema : nat -> res unit.
  Variable headers_object : nat -> bool.
  Variable merge : nat -> nat -> res unit.
  Notation process := (process namify itoa w correlation_at schema headers_object merge).

  Lemma link_source d t i p : apart d -> process d = Ok t -> links t !! i = Some p ->
    exists s m, msg_in d s m /\ i = m_id m /\ m_ref m <> "" /\ message_at w s (m_ref m) p.
  Proof.
    intros HA HE El. destruct (process_runs _ _ _ _ _ _ _ d t HE) as (t1 & E1 & E2).
    destruct (decide (i ∈ message_ids d)) as [Hi|Hi].
    - unfold message_ids in Hi. apply in_concat_map in Hi as (f & Hf & Hi). apply in_concat_map in Hi as (o & Ho & Hi). apply elem_of_list_fmap in Hi as (m & -> & Hm).
      assert (M : msg_in d (d_spec f) m) by (exists f, o; done). exists (d_spec f), m. split; [done|]. split; [done|].
      destruct (linked _ _ _ _ _ _ _ d t _ m HA HE M) as [L1 L2]. destruct (decide (m_ref m = "")) as [N|N]; [rewrite (L2 N) in El; discriminate|].
      destruct (L1 N) as (q & Hq & Eq). rewrite El in Eq. injection Eq as ->. done.
    - exfalso. rewrite (run_keep w correlation_at schema headers_object merge (fun t i => links t !! i) (hit_link w) i (set_document d)
        (fun a t t' => act_link namify itoa w correlation_at schema headers_object merge a _ t t')) with (t := t1) in El; [| |done].
      + rewrite (run_keep w correlation_at schema headers_object merge (fun t i => links t !! i) (hit_link w) i (meta_document namify itoa d)
          (fun a t t' => act_link namify itoa w correlation_at schema headers_object merge a _ t t')) with (t := start) in El; [discriminate| |done].
        intros a v Ha (s' & r' & -> & _). apply in_meta in Ha as [(? & ? & H)|[H|(? & H)]]; discriminate.
      + intros a v Ha (s' & r' & -> & _). apply in_set in Ha as [(s1 & m1 & H1 & H)|[(f & k & x & _ & _ & H)|(s1 & q & _ & _ & H)]]; try discriminate.
        apply (own_message namify itoa correlation_at schema headers_object merge) in H as (-> & -> & _). apply Hi. destruct H1 as (f & o & Hf & _ & Ho & Hm). unfold message_ids. apply in_concat_map. exists f. split; [done|].
        apply in_concat_map. exists o. split; [done|]. by apply elem_of_list_fmap_1.
  Qed.
  Lemma follow_ranked l (rank : nat -> nat) : (forall i p, l !! i = Some p -> rank p < rank i) -> forall n i, rank i <= n -> exists q, follow n l i = Some q.
  Proof.
    intros R. induction n as [|n IH]; intros i Hi; cbn; destruct (l !! i) as [p|] eqn:E; eauto; specialize (R _ _ E); [lia|]. apply IH. lia.
  Qed.
  Lemma follow_mono l n : forall i q, follow n l i = Some q -> forall n', n <= n' -> follow n' l i = Some q.
  Proof.
    induction n as [|n IH]; intros i q E [|n'] L; cbn in E |- *; destruct (l !! i) as [p|]; try done; [lia|]. apply IH; [done|lia].
  Qed.
  Lemma channels_follow l n d t : links t = l -> (forall o, o ∈ operations_of d -> exists q, follow n l (m_id (op_message o)) = Some q) ->
    exists cs, channels2_of namify n t d = Some cs.
  Proof.
    intros <- H. unfold channels2_of. apply mapM_is_Some. apply Forall_forall. intros kc Hk. change (exists y, chan2_of namify n t kc = Some y). unfold chan2_of.
    assert (O : forall x, x = c_publish kc.2 \/ x = c_subscribe kc.2 -> exists y, optional (operation2_of n t) x = Some y).
    { intros [o|] Hx; cbn; [|eauto]. destruct (H o) as (q & Eq); [apply in_operations_of; exists kc; split; [done|]; destruct Hx as [Hx|Hx]; rewrite <- Hx; auto|].
      unfold operation2_of. rewrite Eq. cbn. eauto. }
    destruct (O (c_publish kc.2)) as (p & ->); [auto|]. destruct (O (c_subscribe kc.2)) as (s & ->); [auto|]. cbn. eauto.
  Qed.
End follows.
