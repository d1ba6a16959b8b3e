(** Version 2: nothing is declared twice, and what each side is given. *)
From stdpp Require Import gmap list strings.
From Coq Require Import NArith Ascii String.
From Verif.Model Require Import Naming Names Operations Package Package2.
From Verif.Spec Require Import NamingSpec NamesSpec OperationsSpec PackageSpec Package2Spec.
From Verif.Proof Require Import NamingProof NamesProof OperationsProof PackageProof PackageOnceProof Package2Proof.
Local Open Scope string_scope.
Local Open Scope list_scope.
Local Notation lit := list_ascii_of_string.

Lemma in_concat_map {A B} (f : A -> list B) l x : x ∈ List.concat (map f l) -> exists a, a ∈ l /\ x ∈ f a.
Proof. intros H. apply elem_of_list_In, in_concat in H as (y & Hy & Hx). apply in_map_iff in Hy as (a & <- & Ha). exists a. split; by apply elem_of_list_In. Qed.
Lemma mnames_in2 info m x : x ∈ mnames info m ->
  (x.1 = None /\ (x.2 = message_name info m \/ x.2 = "New" +:+ message_name info m \/ x.2 = "brokerMessageTo" +:+ message_name info m)) \/ x.1 = Some (message_name info m).
Proof. apply (mnames_in info (fun _ _ => [])). Qed.

Section once2.
  Variable ul ud : N -> bool.
  Variable uu : N -> bytes.
  Variable info : details.
  Variable cs : list (string * chan2).
  Variable messages : list (nat * bool).
  Variable schemas : list string.
  Local Notation opn := (operation_name ul ud uu).
  Local Notation ms := (inline_messages cs ++ messages.*1).
  Hypothesis Nkeys : NoDup cs.
  Hypothesis Apart : named_apart2 info opn cs ms schemas.

  Definition lnames (s : side) (kc : string * chan2) : list (option string * string) :=
    let c := Some (controller_name s) in [(c, "Subscribe" +:+ opn kc.2); (c, "listenTo" +:+ opn kc.2 +:+ "NextMessage"); (c, "Unsubscribe" +:+ opn kc.2)].
  Definition pubnames (s : side) (kc : string * chan2) : list (option string * string) := [(Some (controller_name s), "Publish" +:+ opn kc.2)].
  Definition wnames (s : side) (kc : string * chan2) : list (option string * string) :=
    let c := Some (controller_name s) in
    match s, h2_subscribe kc.2 with
    | User, Some o => only (o2_located o) [(c, "WaitFor" +:+ opn kc.2); (c, "waitFor" +:+ opn kc.2 +:+ "NextMessage")]
    | _, _ => []
    end.
  Definition all2 (s : side) : list (option string * string) := [(Some (controller_name s), "SubscribeAll"); (Some (controller_name s), "UnsubscribeAll")].
  Definition sub2 (s : side) : list (option string * string) :=
    (None, prefix s +:+ "Subscriber") :: map (fun kc => (Some (prefix s +:+ "Subscriber"), opn kc.2)) (subscribed s cs).
  Ltac steps E := repeat match type of E with mbind _ _ = Some _ => let x := fresh "x" in let H := fresh "H" in apply bind_some in E as (x & H & E) end.

  Lemma side_names2 s c : side_code2 ul ud uu info s cs = Some c ->
    let b := (0 <? method_count2 s cs)%nat in
    nm c = only b (sub2 s) ++ side_fixed s ++ only b (all2 s)
      ++ List.concat (map (lnames s) (subscribed s cs)) ++ List.concat (map (pubnames s) (published s cs)) ++ List.concat (map (wnames s) (subscribed s cs)).
  Proof.
    intros E. cbv zeta. unfold side_code2, subscriber2, subscribe_all2 in E. cbv zeta in E.
    apply bind_some in E as (sub & Esub & E). apply bind_some in Esub as (hs & Ehs & Esub). injection Esub as <-.
    apply bind_some in E as (all & Eall & E). apply bind_some in Eall as (us & Eus & Eall). injection Eall as <-.
    apply bind_some in E as (rcv & Er & E). apply bind_some in E as (snd & Es & E). apply bind_some in E as (wait & Ew & E). injection E as <-.
    rewrite emit_names. cbn [map List.concat]. rewrite !map_app, !concat_app.
    apply (f_equal2 app); [|apply (f_equal2 app); [|apply (f_equal2 app); [|apply (f_equal2 app); [|apply (f_equal2 app)]]]].
    - destruct (0 <? method_count2 s cs)%nat; [|done]. cbn [when only]. rewrite emit_names. cbn [map List.concat].
      rewrite (mapM_names _ (fun kc => [(Some (prefix s +:+ "Subscriber"), opn kc.2)]) _ _ Ehs); [by rewrite concat_map_one|].
      intros kc p _ Hp. unfold handler_decl2 in Hp. steps Hp. by injection Hp as <-.
    - done.
    - by destruct (0 <? method_count2 s cs)%nat.
    - f_equal. apply (mapM_names _ _ _ _ Er). intros kc p _ Hp. unfold listening2 in Hp. steps Hp. by injection Hp as <-.
    - f_equal. apply (mapM_names _ _ _ _ Es). intros kc p _ Hp. unfold publishing2 in Hp. steps Hp. by injection Hp as <-.
    - f_equal. apply (mapM_names _ _ _ _ Ew). intros kc p _ Hp. unfold waiting2 in Hp. unfold wnames. destruct s; [by injection Hp as <-|].
      destruct (h2_subscribe kc.2) as [o|]; [|done]. destruct (o2_located o); cbn [negb] in Hp; [|by injection Hp as <-]. steps Hp. by injection Hp as <-.
  Qed.

  Lemma in_lnames s kc x : x ∈ lnames s kc -> exists n, x = (Some (controller_name s), n) /\ (n = "Subscribe" +:+ opn kc.2 \/ n = "listenTo" +:+ opn kc.2 +:+ "NextMessage" \/ n = "Unsubscribe" +:+ opn kc.2).
  Proof. unfold lnames. intros H. repeat (apply elem_of_cons in H as [->|H]; [eexists; split; [reflexivity|tauto]|]). by apply elem_of_nil in H. Qed.
  Lemma in_pubnames s kc x : x ∈ pubnames s kc -> x = (Some (controller_name s), "Publish" +:+ opn kc.2).
  Proof. by intros H%elem_of_list_singleton. Qed.
  Lemma in_wnames s kc x : x ∈ wnames s kc -> exists n, x = (Some (controller_name s), n) /\ (n = "WaitFor" +:+ opn kc.2 \/ n = "waitFor" +:+ opn kc.2 +:+ "NextMessage").
  Proof.
    unfold wnames. destruct s; [by intros H%elem_of_nil|]. destruct (h2_subscribe kc.2); [|by intros H%elem_of_nil]. intros H%in_only.
    repeat (apply elem_of_cons in H as [->|H]; [eexists; split; [reflexivity|tauto]|]). by apply elem_of_nil in H.
  Qed.
  Lemma same_subscribed s kc kc' : kc ∈ subscribed s cs -> kc' ∈ subscribed s cs -> opn kc.2 = opn kc'.2 -> kc = kc'.
  Proof.
    rewrite !in_subscribed. intros [H R] [H' R'] E. apply (n2_operations _ _ _ _ _ Apart kc kc' H H' E). destruct s; cbn in R, R'; auto.
  Qed.
  Lemma same_published s kc kc' : kc ∈ published s cs -> kc' ∈ published s cs -> opn kc.2 = opn kc'.2 -> kc = kc'.
  Proof.
    rewrite !in_published. intros [H R] [H' R'] E. apply (n2_operations _ _ _ _ _ Apart kc kc' H H' E). destruct s; cbn in R, R'; auto.
  Qed.
  Lemma not_all s kc : kc ∈ subscribed s cs -> opn kc.2 <> "All".
  Proof. rewrite in_subscribed. intros [H _]. by apply (n2_all _ _ _ _ _ Apart). Qed.
  Lemma filter_nodup {A} (f : A -> bool) (l : list A) : NoDup l -> NoDup (List.filter f l).
  Proof. induction 1 as [|a l Ha N IH]; [constructor|]. cbn. destruct (f a); [|done]. constructor; [|done]. rewrite elem_of_list_In, filter_In, <- elem_of_list_In. tauto. Qed.
  Ltac clash := match goal with H : _ = _ |- _ => exfalso; discriminate H end.
  Ltac none H := repeat (apply elem_of_cons in H as [H|H]; [discriminate H|]); by apply elem_of_nil in H.

  Lemma side_once2 s c : side_code2 ul ud uu info s cs = Some c -> NoDup (nm c).
  Proof.
    intros E. rewrite (side_names2 s c E). cbv zeta. set (b := (0 <? method_count2 s cs)%nat).
    assert (Ns : NoDup (subscribed s cs)) by by apply filter_nodup. assert (Np : NoDup (published s cs)) by by apply filter_nodup.
    repeat (apply NoDup_app; split; [|split]).
    - apply nodup_only. unfold sub2. apply NoDup_cons. split.
      + intros H. apply elem_of_list_fmap in H as (kg & X & _). discriminate X.
      + apply (NoDup_fmap_2_strong (fun kc : string * chan2 => (Some (prefix s +:+ "Subscriber"), opn kc.2))); [|done].
        intros kc kc' H H' X. injection X as X. by eapply same_subscribed.
    - intros x Hx Hx'. apply in_only in Hx. assert (x.1 <> Some (controller_name s)) as N1.
      { apply elem_of_cons in Hx as [->|Hx]; [done|]. apply elem_of_list_fmap in Hx as (kc & -> & _). destruct s; discriminate. }
      rewrite !elem_of_app in Hx'. destruct Hx' as [H|[H|[H|[H|H]]]].
      + apply elem_of_cons in Hx as [->|Hx]; [destruct s; none H|]. apply elem_of_list_fmap in Hx as (kc & -> & _). destruct s; none H.
      + apply in_only in H. apply elem_of_cons in H as [->|H]; [done|]. by apply elem_of_list_singleton in H as ->.
      + apply in_concat_map in H as (kc & _ & H). by apply in_lnames in H as (n & -> & _).
      + apply in_concat_map in H as (kc & _ & H). by apply in_pubnames in H as ->.
      + apply in_concat_map in H as (kc & _ & H). by apply in_wnames in H as (n & -> & _).
    - destruct s; apply (bool_decide_unpack _); vm_compute; exact I.
    - intros x Hx Hx'. rewrite !elem_of_app in Hx'. destruct Hx' as [H|[H|[H|H]]].
      + apply in_only in H. apply elem_of_cons in H as [->|H]; [|apply elem_of_list_singleton in H as ->]; destruct s; none Hx.
      + apply in_concat_map in H as (kc & _ & H). apply in_lnames in H as (n & -> & Hn). unfold side_fixed in Hx.
        repeat (apply elem_of_cons in Hx as [Hx|Hx]; [try discriminate Hx; injection Hx as X; subst n; destruct Hn as [X|[X|X]]; discriminate X|]); by apply elem_of_nil in Hx.
      + apply in_concat_map in H as (kc & _ & H). apply in_pubnames in H as ->. none Hx.
      + apply in_concat_map in H as (kc & _ & H). apply in_wnames in H as (n & -> & Hn). unfold side_fixed in Hx.
        repeat (apply elem_of_cons in Hx as [Hx|Hx]; [try discriminate Hx; injection Hx as X; subst n; destruct Hn as [X|X]; try discriminate X|]); by apply elem_of_nil in Hx.
    - apply nodup_only. destruct s; apply (bool_decide_unpack _); vm_compute; exact I.
    - intros x Hx Hx'. apply in_only in Hx. rewrite !elem_of_app in Hx'. destruct Hx' as [H|[H|H]].
      + apply in_concat_map in H as (kc & Hk & H). apply in_lnames in H as (n & -> & Hn). pose proof (not_all s kc Hk) as A.
        apply elem_of_cons in Hx as [Hx|Hx]; [|apply elem_of_list_singleton in Hx]; injection Hx as X; subst n; destruct Hn as [X|[X|X]]; try discriminate X.
        * change "SubscribeAll" with ("Subscribe" +:+ "All") in X. apply app_inj_l in X. congruence.
        * change "UnsubscribeAll" with ("Unsubscribe" +:+ "All") in X. apply app_inj_l in X. congruence.
      + apply in_concat_map in H as (kc & _ & H). apply in_pubnames in H as ->. none Hx.
      + apply in_concat_map in H as (kc & _ & H). apply in_wnames in H as (n & -> & Hn).
        apply elem_of_cons in Hx as [Hx|Hx]; [|apply elem_of_list_singleton in Hx]; injection Hx as X; subst n; destruct Hn as [X|X]; discriminate X.
    - apply nodup_concat; [done| |].
      + intros kc _. unfold lnames. repeat (apply NoDup_cons; split; [|]); try constructor; intros X; none X.
      + intros kc kc' x H H' Hx Hx'. apply (same_subscribed s); [done|done|]. destruct (in_lnames _ _ _ Hx) as (n & -> & Hn), (in_lnames _ _ _ Hx') as (n' & En & Hn'). injection En as <-.
        destruct Hn as [->|[->| ->]], Hn' as [X|[X|X]]; try clash; apply app_inj_l in X; [done|by apply app_inj_r in X|done].
    - intros x H H'. apply in_concat_map in H as (kc & _ & H). apply in_lnames in H as (n & -> & Hn). rewrite elem_of_app in H'. destruct H' as [H'|H'].
      + apply in_concat_map in H' as (kc' & _ & H'). apply in_pubnames in H'. injection H' as ->. destruct Hn as [X|[X|X]]; discriminate X.
      + apply in_concat_map in H' as (kc' & _ & H'). apply in_wnames in H' as (n' & X & Hn'). injection X as <-. destruct Hn as [->|[->| ->]], Hn' as [X|X]; discriminate X.
    - apply nodup_concat; [done|intros kc _; apply NoDup_singleton|].
      intros kc kc' x H H' Hx Hx'. apply (same_published s); [done|done|]. apply in_pubnames in Hx as ->. apply in_pubnames in Hx'. injection Hx' as X. done.
    - intros x H H'. apply in_concat_map in H as (kc & _ & H). apply in_pubnames in H as ->. apply in_concat_map in H' as (kc' & _ & H'). apply in_wnames in H' as (n' & X & Hn'). injection X as <-.
      destruct Hn' as [X|X]; discriminate X.
    - apply nodup_concat; [done| |].
      + intros kc _. unfold wnames. destruct s; [constructor|]. destruct (h2_subscribe kc.2); [|constructor]. apply nodup_only. repeat (apply NoDup_cons; split; [|]); try constructor; intros X; none X.
      + intros kc kc' x H H' Hx Hx'. apply (same_subscribed s); [done|done|]. destruct (in_wnames _ _ _ Hx) as (n & -> & Hn), (in_wnames _ _ _ Hx') as (n' & En & Hn'). injection En as <-.
        destruct Hn as [->| ->], Hn' as [X|X]; try clash; apply app_inj_l in X; [done|by apply app_inj_r in X].
  Qed.
  Lemma side_own2 s c x : side_code2 ul ud uu info s cs = Some c -> x ∈ nm c -> own s x.
  Proof.
    intros E. rewrite (side_names2 s c E). cbv zeta. rewrite !elem_of_app. intros [H|[H|[H|[H|[H|H]]]]].
    - apply in_only in H. apply elem_of_cons in H as [->|H].
      + left. split; [done|]. left.
      + apply elem_of_list_fmap in H as (kg & -> & _). right. by left.
    - unfold side_fixed in H. repeat (apply elem_of_cons in H as [->|H]; [first [right; by right|left; split; [done|]; inl]|]). by apply elem_of_nil in H.
    - apply in_only in H. repeat (apply elem_of_cons in H as [->|H]; [right; by right|]). by apply elem_of_nil in H.
    - apply in_concat_map in H as (kc & _ & H). apply in_lnames in H as (n & -> & _). right. by right.
    - apply in_concat_map in H as (kc & _ & H). apply in_pubnames in H as ->. right. by right.
    - apply in_concat_map in H as (kc & _ & H). apply in_wnames in H as (n & -> & _). right. by right.
  Qed.

  (** ** Types *)
  Definition params_names2 (kc : string * chan2) : list (option string * string) := only (h2_params kc.2) [(None, h2_name kc.2 +:+ "Parameters")].
  Definition path_names2 : list (option string * string) :=
    match cs with [] => [] | _ => map (fun kc => (None, h2_name kc.2 +:+ "Path")) cs ++ [(None, "ChannelsPaths")] end.
  Lemma type_of_message m : m ∈ ms -> type_of ul ud uu info m = message_name info m.
  Proof. intros H. unfold type_of. by apply name_it_exported, (n2_message _ _ _ _ _ Apart). Qed.
  Lemma message_names2 m : m ∈ ms -> nm (message_code ul ud uu info m) = mnames info m.
  Proof. intros H. unfold message_code, mnames. cbv zeta. rewrite type_of_message by done. by destruct (correlated info m). Qed.
  Lemma types_names2 c : types_code2 ul ud uu info cs messages schemas = Some c ->
    nm c = fixed_names ++ List.concat (map params_names2 cs) ++ List.concat (map (mnames info) ms) ++ map (fun t => (None, t)) schemas ++ path_names2.
  Proof.
    unfold types_code2. intros E. apply bind_some in E as (l & El & E). injection E as <-.
    rewrite emit_names. cbn [map List.concat]. rewrite !map_app, !concat_app. cbn [map List.concat]. rewrite app_nil_r, <- app_assoc.
    apply (f_equal2 app); [done|]. apply (f_equal2 app); [|apply (f_equal2 app); [|apply (f_equal2 app); [|apply (f_equal2 app)]]].
    - rewrite map_map. f_equal. apply map_ext_in. intros kc H. apply elem_of_list_In in H. pose proof (n2_channel _ _ _ _ _ Apart kc H) as X.
      unfold channel_params2, params_names2. rewrite without_exported by done. by destruct (h2_params kc.2).
    - rewrite map_map. f_equal. apply map_ext_in. intros m H. apply elem_of_list_In in H. apply message_names2, elem_of_app. by left.
    - assert (map nm l = map (fun mp => mnames info mp.1) messages) as K; [apply (mapM_names _ _ _ _ El)|etrans; [apply (f_equal (@List.concat _) K)|by rewrite <- map_map]]. intros [m p] q H Hq. unfold component_message in Hq. destruct p; [|done]. injection Hq as <-.
      apply message_names2, elem_of_app. right. apply elem_of_list_fmap. by exists (m, true).
    - unfold nm. cbn [fst]. by rewrite map_map.
    - unfold path_names2, channel_paths2. destruct cs as [|kc0 r] eqn:Ecs; [done|]. unfold nm. cbn [fst]. rewrite map_app. f_equal. rewrite map_map. apply map_ext_in.
      intros kc H. apply elem_of_list_In in H. pose proof (n2_channel _ _ _ _ _ Apart kc H) as X. unfold path_name2. cbn. rewrite without_exported by done. done.
  Qed.
  Lemma params_in2 x : x ∈ List.concat (map params_names2 cs) -> exists kc, kc ∈ cs /\ x = (None, h2_name kc.2 +:+ "Parameters").
  Proof. intros H. apply in_concat_map in H as (kc & Hk & H). exists kc. split; [done|]. unfold params_names2 in H. apply in_only in H. by apply elem_of_list_singleton in H. Qed.
  Lemma paths_in2 x : x ∈ path_names2 -> x.1 = None /\ (x.2 = "ChannelsPaths" \/ exists kc, kc ∈ cs /\ x.2 = h2_name kc.2 +:+ "Path").
  Proof.
    unfold path_names2. destruct cs as [|c l]; [by intros H%elem_of_nil|]. intros H. apply elem_of_app in H as [H|H].
    - apply elem_of_list_fmap in H as (nc & -> & Hn). eauto.
    - apply elem_of_list_singleton in H as ->. eauto.
  Qed.
  Lemma made_message m : m ∈ ms -> message_name info m ∈ made info ms schemas.
  Proof. intros H. apply elem_of_app. left. apply elem_of_list_fmap. eauto. Qed.
  Lemma made_new m : m ∈ ms -> "New" +:+ message_name info m ∈ made info ms schemas.
  Proof. intros H. apply elem_of_app. right. apply elem_of_app. right. apply elem_of_list_fmap. eauto. Qed.
  Lemma made_schema t : t ∈ schemas -> t ∈ made info ms schemas.
  Proof. intros H. apply elem_of_app. right. apply elem_of_app. by left. Qed.
  Lemma exported_start a b : exported_text a -> exported (lit a) -> Forall word_char (lit b) -> exported_text (a +:+ b).
  Proof. intros _ H W. unfold exported_text. rewrite lit_app. by apply exported_app. Qed.
  Lemma channel_word kc e : kc ∈ cs -> e ∈ ["Path"; "Parameters"] -> exported_text (h2_name kc.2 +:+ e).
  Proof.
    intros H He. pose proof (n2_channel _ _ _ _ _ Apart kc H) as X. apply exported_start; [done|done|].
    repeat (apply elem_of_cons in He as [->|He]; [apply (bool_decide_unpack _); vm_compute; exact I|]). by apply elem_of_nil in He.
  Qed.
  (** A name made from a message or schema is none of those that are always there. *)
  Lemma fixed_reserved t : exported_text t -> (None, t) ∈ fixed_names -> t ∈ reserved.
  Proof.
    intros X H. repeat (apply elem_of_cons in H as [H|H]; [try discriminate H; injection H as ->; first [solve [inl]|exfalso; revert X; intros (c & r & E & Hc & _); injection E as <- <-; revert Hc; apply (bool_decide_unpack _); vm_compute; exact I]|]).
    by apply elem_of_nil in H.
  Qed.
  Lemma new_exported m : m ∈ ms -> exported_text ("New" +:+ message_name info m).
  Proof.
    intros H. unfold exported_text. rewrite lit_app. apply exported_app; [|by apply exported_words, (n2_message _ _ _ _ _ Apart)].
    exists "N"%char, (lit "ew"). split; [done|]. split; apply (bool_decide_unpack _); vm_compute; exact I.
  Qed.
  (** The names of a message at the top of the package. *)
  Lemma message_top m x : m ∈ ms -> x ∈ mnames info m -> x.1 = None -> (x.2 ∈ made info ms schemas /\ exported_text x.2) \/ x.2 = "brokerMessageTo" +:+ message_name info m.
  Proof.
    intros Hm Hx E. apply mnames_in2 in Hx as [(_ & [-> | [-> | -> ]])|Hx]; [left|left|by right|by rewrite E in Hx].
    - split; [by apply made_message|by apply (n2_message _ _ _ _ _ Apart)].
    - split; [by apply made_new|by apply new_exported].
  Qed.
  Lemma not_reserved n t : t ∈ made info ms schemas -> t = n -> n ∈ reserved -> False.
  Proof. intros H <- R. by apply (n2_made _ _ _ _ _ Apart t H). Qed.

  Lemma types_once2 c : types_code2 ul ud uu info cs messages schemas = Some c -> NoDup (nm c).
  Proof.
    intros E. rewrite (types_names2 c E). pose proof (n2_types _ _ _ _ _ Apart) as NT. unfold made in NT.
    apply NoDup_app in NT as (NM & DT & NT). apply NoDup_app in NT as (NS & DS & NN).
    assert (Md : forall t, t ∈ made info ms schemas -> (forall p, t <> p +:+ "Path") /\ (forall p, t <> p +:+ "Parameters")) by (intros t Ht; by apply (n2_made _ _ _ _ _ Apart t Ht)).
    assert (Xm : forall m, m ∈ ms -> exported_text (message_name info m)) by apply (n2_message _ _ _ _ _ Apart).
    assert (Kp : forall n kc e, kc ∈ cs -> e ∈ ["Path"; "Parameters"] -> "brokerMessageTo" +:+ n <> h2_name kc.2 +:+ e).
    { intros n kc e Hk He X. eapply (broker_not _ n); [by eapply (channel_word kc e)|by symmetry]. }
    assert (Cm : forall x, x ∈ List.concat (map (mnames info) ms) -> exists m, m ∈ ms /\ x ∈ mnames info m) by (intros x; apply in_concat_map).
    repeat (apply NoDup_app; split; [|split]).
    - apply (bool_decide_unpack _); vm_compute; exact I.
    - intros x Hx H. rewrite !elem_of_app in H. destruct H as [H|[H|[H|H]]].
      + apply params_in2 in H as (kc & _ & ->). repeat (apply elem_of_cons in Hx as [Hx|Hx]; [try discriminate Hx; injection Hx as X; apply (f_equal two) in X; rewrite two_app in X by (cbn; lia); discriminate X|]). by apply elem_of_nil in Hx.
      + apply Cm in H as (m & Hm & H). destruct x as [[r|] n].
        * apply mnames_in2 in H as [(X & _)|X]; [discriminate X|]. cbn in X. injection X as ->.
          repeat (apply elem_of_cons in Hx as [Hx|Hx]; [try discriminate Hx; injection Hx as X _; refine (not_reserved _ _ (made_message m Hm) X _); inl|]). by apply elem_of_nil in Hx.
        * destruct (message_top m _ Hm H eq_refl) as [(Hd & He)|X]; cbn in *.
          -- by apply (n2_made _ _ _ _ _ Apart n Hd), fixed_reserved.
          -- subst n. repeat (apply elem_of_cons in Hx as [Hx|Hx]; [discriminate Hx|]). by apply elem_of_nil in Hx.
      + apply elem_of_list_fmap in H as (t & -> & H). apply (n2_made _ _ _ _ _ Apart t (made_schema t H)), fixed_reserved; [by apply (n2_schema _ _ _ _ _ Apart)|done].
      + apply paths_in2 in H as (E1 & [E2|(nc & _ & E2)]); destruct x as [r n]; cbn in E1, E2; subst r n.
        * revert Hx. apply (bool_decide_unpack _); vm_compute; exact I.
        * repeat (apply elem_of_cons in Hx as [Hx|Hx]; [try discriminate Hx; injection Hx as X; apply (f_equal two) in X; rewrite two_app in X by (cbn; lia); discriminate X|]). by apply elem_of_nil in Hx.
    - apply nodup_concat.
      + done.
      + intros nc _. unfold params_names2. apply nodup_only, NoDup_singleton.
      + intros kc kc' x H H' Hx Hx'. unfold params_names2 in Hx, Hx'. apply in_only, elem_of_list_singleton in Hx as ->. apply in_only, elem_of_list_singleton in Hx'. injection Hx' as X. apply app_inj_r in X.
        exact (nodup_map_inj (fun kc => h2_name kc.2) _ _ _ (n2_channels _ _ _ _ _ Apart) H H' X).
    - intros x Hx H. apply params_in2 in Hx as (kc & Hk & ->). rewrite !elem_of_app in H. destruct H as [H|[H|H]].
      + apply Cm in H as (m & Hm & H). destruct (message_top m _ Hm H eq_refl) as [(Hd & _)|X]; cbn in *; [by eapply (proj2 (Md _ Hd))|]. eapply (Kp _ kc "Parameters"); [done|inl|by symmetry].
      + apply elem_of_list_fmap in H as (t & E' & H). injection E' as E'. by eapply (proj2 (Md _ (made_schema t H))).
      + apply paths_in2 in H as (_ & [E2|(nc' & _ & E2)]); cbn in E2; apply (f_equal two) in E2; rewrite !two_app in E2 by (cbn; lia); discriminate E2.
    - apply nodup_concat.
      + by apply (nodup_of_map (message_name info)).
      + intros m Hm. unfold mnames. cbn [app].
        assert (X1 : message_name info m <> "New" +:+ message_name info m).
        { intros X. apply (DT (message_name info m)); [apply elem_of_list_fmap; eauto|]. apply elem_of_app. right. apply elem_of_list_fmap. eauto. }
        assert (X2 : forall n, message_name info m <> "brokerMessageTo" +:+ n) by (intros n; apply broker_not; by apply Xm).
        assert (Y : forall a, a ∈ only (correlated info m) [(Some (message_name info m), "CorrelationID"); (Some (message_name info m), "SetCorrelationID"); (Some (message_name info m), "SetAsResponseFrom")] ->
          a.1 = Some (message_name info m) /\ a.2 <> "toBrokerMessage").
        { intros a H. apply in_only in H. repeat (apply elem_of_cons in H as [->|H]; [split; [done|discriminate]|]). by apply elem_of_nil in H. }
        repeat (apply NoDup_cons; split).
        * rewrite !not_elem_of_cons. repeat split; [congruence|intros X; injection X as X; by eapply X2|congruence|intros H; apply Y in H; by destruct H].
        * rewrite !not_elem_of_cons. repeat split; [intros X; injection X as X; discriminate X|congruence|intros H; apply Y in H; by destruct H].
        * rewrite !not_elem_of_cons. repeat split; [congruence|intros H; apply Y in H; by destruct H].
        * intros H. apply Y in H. by destruct H.
        * apply nodup_only. repeat (apply NoDup_cons; split); try constructor; intros X;
            repeat (apply elem_of_cons in X as [X|X]; [discriminate X|]); by apply elem_of_nil in X.
      + assert (New : forall m m', m ∈ ms -> m' ∈ ms -> message_name info m = "New" +:+ message_name info m' -> False).
        { intros m m' H H' X. apply (DT (message_name info m)); [apply elem_of_list_fmap; eauto|]. apply elem_of_app. right. rewrite X. apply (elem_of_list_fmap_1 (fun m => "New" +:+ message_name info m)). done. }
        intros m m' x H H' Hx Hx'. apply mnames_in2 in Hx, Hx'.
        assert (N : message_name info m = message_name info m').
        { destruct x as [r n]; cbn in Hx, Hx'. destruct Hx as [(-> & Hx)| -> ], Hx' as [(E' & Hx')|E']; [|discriminate E'|discriminate E'|by injection E'].
          destruct Hx as [->|[->| ->]], Hx' as [X|[X|X]]; try discriminate X.
          - done.
          - exfalso. by eapply (New m m').
          - exfalso. eapply broker_not; [apply (Xm m H)|exact X].
          - exfalso. by eapply (New m' m).
          - by apply app_inj_l in X.
          - exfalso. eapply broker_not; [apply (Xm m' H')|by symmetry].
          - by apply app_inj_l in X. }
        exact (nodup_map_inj _ _ _ _ NM H H' N).
    - intros x Hx H. apply Cm in Hx as (m & Hm & Hx). rewrite elem_of_app in H. destruct H as [H|H].
      + apply elem_of_list_fmap in H as (t & -> & H). apply mnames_in2 in Hx as [(_ & [X|[X|X]])|X]; cbn in X; [| | |discriminate X].
        * apply (DT t); [|by apply elem_of_app; left]. apply elem_of_list_fmap. by exists m.
        * apply (DS t); [done|]. apply elem_of_list_fmap. by exists m.
        * eapply broker_not; [|exact X]. by apply (n2_schema _ _ _ _ _ Apart).
      + apply paths_in2 in H as (E' & H). destruct (message_top m x Hm Hx E') as [(Hd & _)|X]; destruct H as [H|(kc & Hk & H)]; rewrite H in *.
        * refine (not_reserved _ _ Hd eq_refl _); inl.
        * by eapply (proj1 (Md _ Hd)).
        * discriminate X.
        * eapply (Kp _ kc "Path"); [done|inl|by symmetry].
    - apply (NoDup_fmap_2 (fun t : string => (@None string, t))). done.
    - intros x Hx H. apply elem_of_list_fmap in Hx as (t & -> & Ht). apply paths_in2 in H as (_ & H). cbn in H. pose proof (made_schema t Ht) as Hd.
      destruct H as [H|(kc & Hk & H)]; [refine (not_reserved _ _ Hd H _); inl|by eapply (proj1 (Md _ Hd))].
    - unfold path_names2. pose proof (n2_channels _ _ _ _ _ Apart) as Nc. destruct cs as [|c0 l] eqn:Ec; [constructor|]. rewrite <- Ec in *. apply NoDup_app. split; [|split; [|apply NoDup_singleton]].
      + change (NoDup ((fun kc : string * chan2 => (@None string, h2_name kc.2 +:+ "Path")) <$> cs)). apply NoDup_fmap_2_strong; [|done].
        intros a b Ha Hb X. injection X as X. apply app_inj_r in X. by apply (nodup_map_inj (fun kc => h2_name kc.2) cs).
      + intros x H X. apply elem_of_list_fmap in H as (nc & -> & _). apply elem_of_list_singleton in X. injection X as X. apply (f_equal two) in X. rewrite two_app in X by (cbn; lia). discriminate X.
  Qed.

  Lemma own_top s x : own s x -> x.1 = None -> x.2 ∈ reserved \/ x.2 = "add" +:+ prefix s +:+ "ContextValues".
  Proof.
    intros [(_ & H)|[H|H]] E; [|by rewrite E in H|by rewrite E in H].
    destruct s; repeat (apply elem_of_cons in H as [->|H]; [first [by right|left; apply (bool_decide_unpack _); vm_compute; exact I]|]); by apply elem_of_nil in H.
  Qed.
  Lemma add_not s t : exported_text t -> t <> "add" +:+ prefix s +:+ "ContextValues".
  Proof. intros (c & r & E & Hc & _) ->. destruct s; injection E as <- _; revert Hc; apply (bool_decide_unpack _); vm_compute; exact I. Qed.
  Lemma types_own2 s x c : types_code2 ul ud uu info cs messages schemas = Some c -> own s x -> x ∈ nm c -> False.
  Proof.
    intros E Ho. rewrite (types_names2 c E), !elem_of_app.
    assert (Not : x.1 = None -> x.2 ∈ made info ms schemas -> exported_text x.2 -> False).
    { intros E1 Hd X. destruct (own_top s x Ho E1) as [H|H]; [by apply (n2_made _ _ _ _ _ Apart x.2 Hd)|by eapply add_not]. }
    assert (End : forall n e, e ∈ ["Path"; "Parameters"] -> x = (None, n +:+ e) -> False).
    { intros n e He ->. destruct (own_top s _ Ho eq_refl) as [H|H]; cbn in H.
      - repeat (apply elem_of_cons in H as [H|H]; [apply (f_equal two) in H; apply elem_of_cons in He as [->|He]; [|apply elem_of_list_singleton in He as ->]; rewrite two_app in H by (cbn; lia); discriminate H|]). by apply elem_of_nil in H.
      - apply (f_equal two) in H. apply elem_of_cons in He as [->|He]; [|apply elem_of_list_singleton in He as ->]; rewrite two_app in H by (cbn; lia); destruct s; discriminate H. }
    intros [H|[H|[H|[H|H]]]].
    - destruct Ho as [(E1 & X)|[X|X]].
      + destruct x as [r n]. cbn in E1, X. subst r.
        destruct s; repeat (apply elem_of_cons in X as [->|X]; [revert H; apply (bool_decide_unpack _); vm_compute; exact I|]); by apply elem_of_nil in X.
      + destruct x as [r n]. cbn in X. subst r. destruct s; none H.
      + destruct x as [r n]. cbn in X. subst r. destruct s; none H.
    - apply params_in2 in H as (kc & _ & ->). eapply (End _ "Parameters"); [inl|reflexivity].
    - apply in_concat_map in H as (m & Hm & H). destruct x as [[r|] n].
      + apply mnames_in2 in H as [(X & _)|X]; [discriminate X|]. cbn in X. injection X as ->.
        destruct Ho as [(X & _)|[X|X]]; [discriminate X| |]; injection X as X; (refine (not_reserved _ _ (made_message m Hm) X _); destruct s; inl).
      + destruct (message_top m _ Hm H eq_refl) as [(Hd & He)|X]; [by apply Not|]. cbn in X. subst n.
        destruct (own_top s _ Ho eq_refl) as [R|R]; [none R|]. discriminate R.
    - apply elem_of_list_fmap in H as (t & -> & Ht). apply Not; [done|by apply made_schema|by apply (n2_schema _ _ _ _ _ Apart)].
    - apply paths_in2 in H as (E1 & [H|(kc & _ & H)]); destruct x as [r n]; cbn in E1, H; subst r n.
      + destruct Ho as [(_ & X)|[X|X]]; [|discriminate X|discriminate X]. cbn in X. destruct s; none X.
      + eapply (End _ "Path"); [inl|reflexivity].
  Qed.

  Lemma package_once2 c : package2 ul ud uu info cs messages schemas = Some c -> declared_once c.1.
  Proof.
    unfold package2. intros E. apply bind_some in E as (t & Et & E). apply bind_some in E as (a & Ea & E). apply bind_some in E as (b & Eb & E). injection E as <-.
    unfold declared_once. change (NoDup (nm (emit [t; a; b]))). rewrite emit_names. cbn [map List.concat]. rewrite app_nil_r.
    apply NoDup_app. split; [by apply types_once2|]. split; [|apply NoDup_app; split; [by apply (side_once2 Application)|split; [|by apply (side_once2 User)]]].
    - intros x Hx H. apply elem_of_app in H as [H|H].
      + exact (types_own2 Application x t Et (side_own2 Application _ _ Ea H) Hx).
      + exact (types_own2 User x t Et (side_own2 User _ _ Eb H) Hx).
    - intros x Hx H. apply (side_own2 Application _ _ Ea) in Hx. apply (side_own2 User _ _ Eb) in H.
      destruct Hx as [(E1 & X)|[X|X]], H as [(E2 & Y)|[Y|Y]]; rewrite ?X, ?Y, ?E1, ?E2 in *; try discriminate.
      repeat (apply elem_of_cons in X as [X|X]; [rewrite X in Y; revert Y; apply (bool_decide_unpack _); vm_compute; exact I|]). by apply elem_of_nil in X.
  Qed.
End once2.

(** ** What each side is given *)
Lemma package2_parts ul ud uu info cs messages schemas l s : package2 ul ud uu info cs messages schemas = Some l ->
  exists c, side_code2 ul ud uu info s cs = Some c /\ c.1 ⊆ l.1.
Proof.
  unfold package2. intros E. apply bind_some in E as (t & Et & E). apply bind_some in E as (a & Ea & E). apply bind_some in E as (b & Eb & E). injection E as <-.
  destruct s; eexists; (split; [eassumption|]); intros d Hd; apply emit_decl; eexists; (split; [|exact Hd]); inl.
Qed.
Lemma side_methods ul ud uu info s cs c : side_code2 ul ud uu info s cs = Some c ->
  (forall kc m, kc ∈ subscribed s cs -> channel_to_message kc.2 ToSubscribe = Some m ->
    DeclMethod (prefix s +:+ "Subscriber") (operation_name ul ud uu kc.2) [TyCtx; TyName (message_name info m)] [TyError] ∈ c.1 /\
    DeclMethod (controller_name s) ("Subscribe" +:+ operation_name ul ud uu kc.2) (TyCtx :: params_arg2 ul ud uu kc ++ [TyHandler (message_name info m)]) [TyError] ∈ c.1) /\
  (forall kc m, kc ∈ published s cs -> channel_to_message kc.2 ToPublish = Some m ->
    DeclMethod (controller_name s) ("Publish" +:+ operation_name ul ud uu kc.2) (TyCtx :: params_arg2 ul ud uu kc ++ [TyName (message_name info m)]) [TyError] ∈ c.1).
Proof.
  intros E. unfold side_code2, subscriber2, subscribe_all2 in E. cbv zeta in E.
  apply bind_some in E as (sub & Esub & E). apply bind_some in Esub as (hs & Ehs & Esub). injection Esub as <-.
  apply bind_some in E as (all & Eall & E). apply bind_some in Eall as (us & Eus & Eall). injection Eall as <-.
  apply bind_some in E as (rcv & Er & E). apply bind_some in E as (snd & Es & E). apply bind_some in E as (wait & Ew & E). injection E as <-.
  split; intros kc m Hk Em.
  - split.
    + destruct (mapM_at _ _ _ _ Ehs Hk) as (h & Hh & Eh). apply emit_decl. eexists. split; [left|]. rewrite (method_count_pos s cs kc Hk). cbn [when]. apply emit_decl.
      exists h. split; [by right|]. unfold handler_decl2, Package2.message_type in Eh. rewrite Em in Eh. injection Eh as <-. left.
    + destruct (mapM_at _ _ _ _ Er Hk) as (h & Hh & Eh). apply emit_decl. exists h. split; [do 3 right; rewrite !elem_of_app; auto|].
      unfold listening2, Package2.message_type, message_correlated in Eh. rewrite Em in Eh. injection Eh as <-. left.
  - destruct (mapM_at _ _ _ _ Es Hk) as (h & Hh & Eh). apply emit_decl. exists h. split; [do 3 right; rewrite !elem_of_app; auto|].
    unfold publishing2, Package2.message_type, message_correlated in Eh. rewrite Em in Eh. injection Eh as <-. left.
Qed.
