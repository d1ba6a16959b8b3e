(** Version 2: every use in the generated code has its declaration. *)
From stdpp Require Import gmap list strings.
From Coq Require Import NArith Ascii String.
From Verif.Model Require Import Naming Names Operations Package Package2.
From Verif.Spec Require Import NamingSpec NamesSpec OperationsSpec PackageSpec Package2Spec.
From Verif.Proof Require Import NamingProof NamesProof OperationsProof PackageProof.
Local Open Scope string_scope.
Local Open Scope list_scope.

Ltac inl := repeat (first [apply elem_of_list_here|apply elem_of_list_further]).
Ltac uses := repeat first [apply Forall_app_2|apply Forall_cons_2|apply Forall_nil_2].

Lemma in_subscribed s cs kc : kc ∈ subscribed s cs <-> kc ∈ cs /\ is_Some (received_by s kc.2).
Proof.
  unfold subscribed. rewrite elem_of_list_In, filter_In, <- elem_of_list_In. apply and_iff_compat_l.
  destruct s; cbn; (destruct (h2_publish _) || idtac); try destruct (h2_subscribe _); cbn; (split; [by intros|by intros [? [=]]]) || (split; [done|by intros [? ?]]).
Qed.
Lemma in_published s cs kc : kc ∈ published s cs <-> kc ∈ cs /\ is_Some (received_by (other_side s) kc.2).
Proof.
  unfold published. rewrite elem_of_list_In, filter_In, <- elem_of_list_In. apply and_iff_compat_l.
  destruct s; cbn; [destruct (h2_subscribe _)|destruct (h2_publish _)]; cbn; (split; [by intros|by intros [? [=]]]) || (split; [done|by intros [? ?]]).
Qed.
Lemma count_mono cs : forall a b, let '(p, sb) := fold_left (fun '(p, s) (kc : string * channel2) =>
    ((if c2_publish kc.2 then S p else p), (if c2_subscribe kc.2 then S s else s))) cs (a, b) in
  p = (a + List.length (List.filter (fun kc => c2_publish kc.2) cs))%nat /\ sb = (b + List.length (List.filter (fun kc => c2_subscribe kc.2) cs))%nat.
Proof.
  induction cs as [|kc cs IH]; intros a b; cbn [fold_left List.filter].
  - cbn. lia.
  - specialize (IH (if c2_publish kc.2 then S a else a) (if c2_subscribe kc.2 then S b else b)).
    destruct (fold_left _ cs _) as [p sb]. destruct (c2_publish kc.2), (c2_subscribe kc.2); cbn [List.length] in *; lia.
Qed.
Lemma filter_map_flags (f : channel2 -> bool) cs : List.length (List.filter (fun kc : string * channel2 => f kc.2) (map (fun kc : string * chan2 => (kc.1, flags2 kc.2)) cs)) =
  List.length (List.filter (fun kc : string * chan2 => f (flags2 kc.2)) cs).
Proof. induction cs as [|kc cs IH]; [done|]. cbn. destruct (f (flags2 kc.2)); cbn; by rewrite IH. Qed.
Lemma method_count_spec s cs : method_count2 s cs = List.length (subscribed s cs).
Proof.
  unfold method_count2, publish_subscribe_count. pose proof (count_mono (map (fun kc => (kc.1, flags2 kc.2)) cs) 0 0) as H.
  destruct (fold_left _ _ _) as [p sb]. destruct H as [-> ->]. unfold subscribed. destruct s; cbn [is_subscribe_channel Nat.add]; apply (filter_map_flags (fun c => _ c)).
Qed.
Lemma method_count_pos s cs kc : kc ∈ subscribed s cs -> (0 <? method_count2 s cs)%nat = true.
Proof. rewrite method_count_spec. destruct (subscribed s cs); [by intros ?%elem_of_nil|done]. Qed.

Lemma to_message_received s c d : is_Some (received_by s c) -> exists o, operation_of c o /\ channel_to_message c d = Some (o2_message o).
Proof.
  unfold channel_to_message, operation_of. destruct s; cbn [received_by]; intros [o Ho]; destruct (h2_publish c) as [p|], (h2_subscribe c) as [q|]; destruct d; cbn; try done; eauto.
Qed.
(** What a subscription of the user is about. *)
Lemma to_message_user c o : h2_subscribe c = Some o -> channel_to_message c ToSubscribe = Some (o2_message o).
Proof. unfold channel_to_message. intros ->. by destruct (h2_publish c). Qed.

Section package2.
  Variable ul ud : N -> bool.
  Variable uu : N -> bytes.
  Variable info : details.
  Variable cs : list (string * chan2).
  Variable messages : list (nat * bool).
  Variable schemas : list string.
  Local Notation without := (name_without_params ul ud uu).
  Hypothesis Hserved : Forall (served2 without info cs messages) cs.
  Hypothesis Hpayload : forall m p, (m, p) ∈ messages -> p = true.
  Local Notation type_of := (type_of ul ud uu info).
  Local Notation opn := (operation_name ul ud uu).

  Lemma types_some : exists ms, mapM (component_message ul ud uu info) messages = Some ms /\
    forall m, (m, true) ∈ messages -> message_code ul ud uu info m ∈ ms.
  Proof.
    destruct (mapM_some (component_message ul ud uu info) messages) as [ms E].
    { intros [m p] H. unfold component_message. rewrite (Hpayload _ _ H). done. }
    exists ms. split; [done|]. intros m Hm. destruct (mapM_at _ _ _ _ E Hm) as (b & Hb & Eb). cbn in Eb. by injection Eb as ->.
  Qed.

  Variable types : code.
  Hypothesis Etypes : types_code2 ul ud uu info cs messages schemas = Some types.
  Variable ds : list decl.
  Hypothesis Ht : types.1 ⊆ ds.

  Lemma message_in m d : generated cs messages m -> d ∈ (message_code ul ud uu info m).1 -> d ∈ ds.
  Proof.
    intros Hm Hd. apply Ht. unfold types_code2 in Etypes. apply bind_some in Etypes as (ms & E & E'). injection E' as <-.
    apply emit_decl. exists (message_code ul ud uu info m). split; [|done]. apply elem_of_cons. right. rewrite !elem_of_app, !elem_of_list_fmap.
    destruct Hm as [(kc & o & Hk & Ho & Hi)|Hm].
    - right. left. exists m. split; [done|]. unfold inline_messages. apply elem_of_list_In, in_concat. exists (inline_of (h2_subscribe kc.2) ++ inline_of (h2_publish kc.2)). split.
      + apply in_map_iff. exists kc. split; [done|]. by apply elem_of_list_In.
      + apply elem_of_list_In, elem_of_app. destruct Ho as [-> | ->]; [right|left]; cbn; rewrite Hi; left.
    - right. right. left. destruct types_some as (ms' & E2 & H). unfold code in *. rewrite E in E2. injection E2 as <-. by apply H.
  Qed.
  Lemma message_decls m : generated cs messages m -> exported_text (message_name info m) ->
    DeclType (message_name info m) ∈ ds /\
    DeclFunc ("brokerMessageTo" +:+ message_name info m) [TyBrokerMessage] [TyName (message_name info m); TyError] ∈ ds /\
    DeclMethod (message_name info m) "toBrokerMessage" [] [TyBrokerMessage; TyError] ∈ ds /\
    (correlated info m = true -> DeclMethod (message_name info m) "CorrelationID" [] [TyText] ∈ ds /\ DeclMethod (message_name info m) "SetCorrelationID" [TyText] [] ∈ ds).
  Proof.
    intros Hm Hx. assert (T : type_of m = message_name info m) by (unfold Package.type_of; by apply name_it_exported).
    split; [|split; [|split; [|intros C; split]]]; (apply (message_in m); [done|]); unfold message_code; cbn [fst]; rewrite T, ?C; inl.
  Qed.
  Lemma fixed_in d : d ∈ fixed_types.1 -> d ∈ ds.
  Proof. intros H. apply Ht. unfold types_code2 in Etypes. apply bind_some in Etypes as (ms & E & E'). injection E' as <-. apply emit_decl. exists fixed_types. split; [left|done]. Qed.
  Lemma params_backed kc : kc ∈ cs -> Forall (backed ds) (params_use2 ul ud uu kc).
  Proof.
    intros H. unfold params_use2. destruct (h2_params kc.2) eqn:E; [|constructor]. rewrite Forall_forall in Hserved.
    uses. cbn [backed]. rewrite (s2_params _ _ _ _ _ (Hserved kc H) E).
    apply Ht. unfold types_code2 in Etypes. apply bind_some in Etypes as (ms & E1 & E'). injection E' as <-. apply emit_decl. exists (channel_params2 ul ud uu kc).
    split; [|unfold channel_params2; rewrite E; left]. apply elem_of_cons. right. apply elem_of_app. left. apply elem_of_list_fmap. eauto.
  Qed.

  Lemma types_backed : Forall (backed ds) types.2.
  Proof.
    pose proof fixed_in as Hfix. unfold types_code2 in Etypes. apply bind_some in Etypes as (ms & E1 & E'). injection E' as <-.
    apply Forall_forall. intros u Hu. apply emit_use in Hu as (c & Hc & Hu). apply elem_of_cons in Hc as [->|Hc].
    { cbn in Hu. repeat (apply elem_of_cons in Hu as [->|Hu]; [cbn [backed]; apply Hfix; inl|]). by apply elem_of_nil in Hu. }
    assert (Hmsg : forall m, u ∈ (message_code ul ud uu info m).2 -> backed ds u).
    { intros m H. unfold message_code in H. cbn [snd] in H. destruct (correlated info m); [|by apply elem_of_nil in H].
      repeat (apply elem_of_cons in H as [->|H]; [cbn [backed]; apply Hfix; inl|]). by apply elem_of_nil in H. }
    apply elem_of_app in Hc as [Hc|Hc].
    { apply elem_of_list_fmap in Hc as (nc & -> & _). unfold channel_params2, when in Hu. destruct (h2_params nc.2); by apply elem_of_nil in Hu. }
    apply elem_of_app in Hc as [Hc|Hc]; [apply elem_of_list_fmap in Hc as (m & -> & _); by eapply Hmsg|].
    apply elem_of_app in Hc as [Hc|Hc].
    { destruct (mapM_in _ _ _ _ E1 Hc) as ([m p] & _ & Em). unfold component_message in Em. destruct p; [|done]. injection Em as <-. by eapply Hmsg. }
    apply elem_of_cons in Hc as [->|Hc]; [by apply elem_of_nil in Hu|]. apply elem_of_list_singleton in Hc as ->.
    assert (Hp : forall d, d ∈ (channel_paths2 ul ud uu cs).1 -> d ∈ ds).
    { intros d Hd. apply Ht, emit_decl. exists (channel_paths2 ul ud uu cs). split; [|done]. apply elem_of_cons. right. rewrite !elem_of_app. right. right. right. inl. }
    unfold channel_paths2 in Hu, Hp. destruct cs as [|nc0 r] eqn:E; [by apply elem_of_nil in Hu|]. rewrite <- E in *. cbn [snd fst] in *.
    apply elem_of_list_fmap in Hu as (nc & -> & Hn). cbn [backed]. apply Hp. apply elem_of_app. left. apply elem_of_list_fmap. eauto.
  Qed.

  (** The message that a channel is about, in a direction. *)
  Lemma about kc s d : kc ∈ cs -> is_Some (received_by s kc.2) -> exists m, channel_to_message kc.2 d = Some m /\ generated cs messages m /\ exported_text (message_name info m).
  Proof.
    intros H R. destruct (to_message_received s kc.2 d R) as (o & Ho & ->). exists (o2_message o). split; [done|]. rewrite Forall_forall in Hserved. by apply (Hserved kc H).
  Qed.

  Variable s : side.
  Hypothesis Hb : (controller_base2 s cs).1 ⊆ ds.
  Local Notation c := (controller_name s).
  Lemma context_backed : backed ds (context_values s).
  Proof. cbn. apply Hb. unfold controller_base2. cbn [fst]. inl. Qed.
  Lemma middlewares_backed : backed ds (middlewares_run s).
  Proof. cbn. apply Hb. unfold controller_base2. cbn [fst]. inl. Qed.

  Lemma listening_ok kc : kc ∈ subscribed s cs -> exists l m, listening2 ul ud uu info s kc = Some l /\ channel_to_message kc.2 ToSubscribe = Some m /\ (l.1 ⊆ ds -> Forall (backed ds) l.2) /\
    DeclMethod c ("Subscribe" +:+ opn kc.2) (TyCtx :: params_arg2 ul ud uu kc ++ [TyHandler (message_name info m)]) [TyError] ∈ l.1 /\
    DeclMethod c ("Unsubscribe" +:+ opn kc.2) (TyCtx :: params_arg2 ul ud uu kc) [] ∈ l.1.
  Proof.
    rewrite in_subscribed. intros [Hk Hr]. destruct (about kc s ToSubscribe Hk Hr) as (m & Em & Hg & Hx). destruct (message_decls m Hg Hx) as (M1 & M2 & M3 & M4).
    unfold listening2, message_type, message_correlated. rewrite Em. cbn [fmap option_fmap option_map mbind option_bind]. eexists _, m. split; [reflexivity|]. split; [done|]. cbn [fst snd]. split.
    - intros Hd. uses.
      + done.
      + cbn [backed]. apply Hd. inl.
      + apply context_backed.
      + apply middlewares_backed.
      + done.
      + unfold only. destruct (correlated info m) eqn:C; uses. cbn [backed]. by apply M4.
      + by apply params_backed.
    - split; inl.
  Qed.
  Lemma publishing_ok kc : kc ∈ published s cs -> exists l m, publishing2 ul ud uu info s kc = Some l /\ channel_to_message kc.2 ToPublish = Some m /\ Forall (backed ds) l.2 /\
    DeclMethod c ("Publish" +:+ opn kc.2) (TyCtx :: params_arg2 ul ud uu kc ++ [TyName (message_name info m)]) [TyError] ∈ l.1.
  Proof.
    rewrite in_published. intros [Hk Hr]. destruct (about kc _ ToPublish Hk Hr) as (m & Em & Hg & Hx). destruct (message_decls m Hg Hx) as (M1 & M2 & M3 & M4).
    unfold publishing2, message_type, message_correlated. rewrite Em. cbn [fmap option_fmap option_map mbind option_bind]. eexists _, m. split; [reflexivity|]. split; [done|]. cbn [fst snd]. split.
    - uses.
      + done.
      + apply context_backed.
      + apply middlewares_backed.
      + done.
      + unfold only. destruct (correlated info m) eqn:C; uses; cbn [backed]; by apply M4.
      + by apply params_backed.
    - inl.
  Qed.
  Lemma waiting_ok kc : kc ∈ subscribed s cs -> exists l, waiting2 ul ud uu info s kc = Some l /\ (l.1 ⊆ ds -> Forall (backed ds) l.2).
  Proof.
    rewrite in_subscribed. intros [Hk Hr]. destruct (about kc s ToSubscribe Hk Hr) as (m & Em & Hg & Hx). destruct (message_decls m Hg Hx) as (M1 & M2 & M3 & M4).
    unfold waiting2, message_type. pose proof context_backed as Bc. pose proof middlewares_backed as Bm. destruct s; [eexists; split; [reflexivity|constructor]|].
    cbn [received_by] in Hr. destruct Hr as [o Ho]. rewrite Ho. destruct (o2_located o) eqn:El; cbn [negb]; [|eexists; split; [reflexivity|constructor]].
    rewrite Em. cbn [fmap option_fmap option_map mbind option_bind]. eexists. split; [reflexivity|]. cbn [fst snd].
    assert (C : correlated info m = true).
    { rewrite (to_message_user _ _ Ho) in Em. injection Em as <-. rewrite Forall_forall in Hserved. by apply (s2_correlated _ _ _ _ _ (Hserved kc Hk)). }
    intros Hd. uses.
    - done.
    - cbn [backed]. apply fixed_in. inl.
    - done.
    - done.
    - cbn [backed]. apply Hd. inl.
    - cbn [backed]. apply fixed_in. inl.
    - done.
    - cbn [backed]. by apply M4.
    - by apply params_backed.
  Qed.
  Lemma handler_ok kc : kc ∈ subscribed s cs -> exists l m, handler_decl2 ul ud uu info s kc.2 = Some l /\ channel_to_message kc.2 ToSubscribe = Some m /\ Forall (backed ds) l.2 /\
    DeclMethod (prefix s +:+ "Subscriber") (opn kc.2) [TyCtx; TyName (message_name info m)] [TyError] ∈ l.1.
  Proof.
    rewrite in_subscribed. intros [Hk Hr]. destruct (about kc s ToSubscribe Hk Hr) as (m & Em & Hg & Hx). destruct (message_decls m Hg Hx) as (M1 & M2 & M3 & M4).
    unfold handler_decl2, message_type. rewrite Em. cbn [fmap option_fmap option_map mbind option_bind]. eexists _, m. split; [reflexivity|]. split; [done|]. cbn [fst snd]. split; [by uses|inl].
  Qed.
  Lemma subscribe_one_ok kc : kc ∈ subscribed s cs ->
    (forall m, channel_to_message kc.2 ToSubscribe = Some m ->
      DeclMethod (prefix s +:+ "Subscriber") (opn kc.2) [TyCtx; TyName (message_name info m)] [TyError] ∈ ds /\
      DeclMethod c ("Subscribe" +:+ opn kc.2) (TyCtx :: params_arg2 ul ud uu kc ++ [TyHandler (message_name info m)]) [TyError] ∈ ds /\
      DeclMethod c ("Unsubscribe" +:+ opn kc.2) (TyCtx :: params_arg2 ul ud uu kc) [] ∈ ds) ->
    exists l, subscribe_one2 ul ud uu info s kc.2 = Some l /\ Forall (backed ds) l.
  Proof.
    rewrite in_subscribed. intros [Hk Hr] Hd. destruct (about kc s ToSubscribe Hk Hr) as (m & Em & Hg & Hx). destruct (Hd m Em) as (D1 & D2 & D3).
    unfold subscribe_one2. destruct (h2_params kc.2) eqn:E; [eexists; split; [reflexivity|constructor]|].
    unfold message_type. rewrite Em. cbn [fmap option_fmap option_map mbind option_bind]. eexists. split; [reflexivity|].
    unfold params_arg2 in D2, D3. rewrite E in D2, D3. uses; done.
  Qed.
End package2.

Section side2.
  Variable ul ud : N -> bool.
  Variable uu : N -> bytes.
  Variable info : details.
  Variable cs : list (string * chan2).
  Variable messages : list (nat * bool).
  Variable schemas : list string.
  Local Notation without := (name_without_params ul ud uu).
  Hypothesis Hserved : Forall (served2 without info cs messages) cs.
  Hypothesis Hpayload : forall m p, (m, p) ∈ messages -> p = true.
  Variable types : code.
  Hypothesis Etypes : types_code2 ul ud uu info cs messages schemas = Some types.

  Lemma side_some s : is_Some (side_code2 ul ud uu info s cs).
  Proof.
    set (ds := types.1 ++ (controller_base2 s cs).1).
    assert (Ht : types.1 ⊆ ds) by (intros d Hd; apply elem_of_app; by left).
    assert (Hb : (controller_base2 s cs).1 ⊆ ds) by (intros d Hd; apply elem_of_app; by right).
    unfold side_code2, subscriber2, subscribe_all2. cbv zeta.
    destruct (mapM_some (fun kc => handler_decl2 ul ud uu info s kc.2) (subscribed s cs)) as [l1 E1].
    { intros kc H. by destruct (handler_ok ul ud uu info cs messages schemas Hserved Hpayload types Etypes ds Ht s kc H) as (l & m & -> & _). }
    destruct (mapM_some (fun kc => subscribe_one2 ul ud uu info s kc.2) (subscribed s cs)) as [l2 E2].
    { intros kc H. apply in_subscribed in H as [_ H]. destruct (to_message_received s kc.2 ToSubscribe H) as (o & _ & Em).
      unfold subscribe_one2, message_type. destruct (h2_params kc.2); [done|]. by rewrite Em. }
    destruct (mapM_some (listening2 ul ud uu info s) (subscribed s cs)) as [l3 E3].
    { intros kc H. by destruct (listening_ok ul ud uu info cs messages schemas Hserved Hpayload types Etypes ds Ht s Hb kc H) as (l & m & -> & _). }
    destruct (mapM_some (publishing2 ul ud uu info s) (published s cs)) as [l4 E4].
    { intros kc H. by destruct (publishing_ok ul ud uu info cs messages schemas Hserved Hpayload types Etypes ds Ht s Hb kc H) as (l & m & -> & _). }
    destruct (mapM_some (waiting2 ul ud uu info s) (subscribed s cs)) as [l5 E5].
    { intros kc H. by destruct (waiting_ok ul ud uu info cs messages schemas Hserved Hpayload types Etypes ds Ht s Hb kc H) as (l & -> & _). }
    unfold code in *. rewrite E1. cbn [mbind option_bind]. rewrite E2. cbn [mbind option_bind]. rewrite E3. cbn [mbind option_bind]. rewrite E4. cbn [mbind option_bind]. by rewrite E5.
  Qed.

  Lemma side_backed s l ds : side_code2 ul ud uu info s cs = Some l -> types.1 ⊆ ds -> l.1 ⊆ ds -> Forall (backed ds) l.2.
  Proof.
    intros E Ht Hl. unfold side_code2, subscriber2, subscribe_all2 in E. cbv zeta in E.
    apply bind_some in E as (sub & Esub & E). apply bind_some in Esub as (hs & Ehs & Esub). injection Esub as <-.
    apply bind_some in E as (all & Eall & E). apply bind_some in Eall as (us & Eus & Eall). injection Eall as <-.
    apply bind_some in E as (rcv & Er & E). apply bind_some in E as (snd & Es & E). apply bind_some in E as (wait & Ew & E). injection E as <-.
    set (cnt := (0 <? method_count2 s cs)%nat) in *.
    match type of Hl with (emit ?p).1 ⊆ _ => set (parts := p) in * end.
    assert (In : forall p d, p ∈ parts -> d ∈ p.1 -> d ∈ ds) by (intros p d Hp Hd; apply Hl, emit_decl; eauto).
    assert (Hb : (controller_base2 s cs).1 ⊆ ds) by (intros d; apply In; subst parts; right; left).
    assert (Hrcv : forall p, p ∈ rcv -> p.1 ⊆ ds) by (intros p Hp d; apply In; subst parts; do 3 right; rewrite !elem_of_app; auto).
    assert (Hwait : forall p, p ∈ wait -> p.1 ⊆ ds) by (intros p Hp d; apply In; subst parts; do 3 right; rewrite !elem_of_app; auto).
    apply Forall_forall. intros u Hu. apply emit_use in Hu as (p & Hp & Hu). subst parts.
    apply elem_of_cons in Hp as [->|Hp]; [|apply elem_of_cons in Hp as [->|Hp]; [|apply elem_of_cons in Hp as [->|Hp]; [|apply elem_of_app in Hp as [Hp|Hp]; [|apply elem_of_app in Hp as [Hp|Hp]]]]].
    - (* the subscriber *)
      unfold when in Hu. destruct cnt; [|by apply elem_of_nil in Hu]. apply emit_use in Hu as (p & Hp & Hu). apply elem_of_cons in Hp as [->|Hp]; [by apply elem_of_nil in Hu|].
      destruct (mapM_in _ _ _ _ Ehs Hp) as (kc & Hk & Eh).
      destruct (handler_ok ul ud uu info cs messages schemas Hserved Hpayload types Etypes ds Ht s kc Hk) as (h & m & Eh' & _ & Hf & _).
      rewrite Eh in Eh'. injection Eh' as <-. rewrite Forall_forall in Hf. by apply Hf.
    - (* the base *)
      unfold controller_base2 in Hu. cbn [Datatypes.snd] in Hu. apply elem_of_app in Hu as [Hu|Hu].
      + repeat (apply elem_of_cons in Hu as [->|Hu]; [cbn [backed]; first [solve [apply Hb; unfold controller_base2; cbn [fst]; inl]
          |apply (fixed_in ul ud uu info cs messages schemas types Etypes ds Ht); inl]|]). by apply elem_of_nil in Hu.
      + fold cnt in Hu. unfold only in Hu. destruct cnt eqn:Ecnt; [|by apply elem_of_nil in Hu]. apply elem_of_list_singleton in Hu as ->. cbn [backed].
        eapply In; [right; right; left|]. unfold when. cbn [fst]. right. left.
    - (* all channels *)
      unfold when in Hu. destruct cnt eqn:Ecnt; [|by apply elem_of_nil in Hu]. cbn [Datatypes.snd] in Hu. apply elem_of_cons in Hu as [->|Hu].
      + cbn [backed]. eapply In; [left|]. cbn [when]. apply emit_decl. eexists. split; [left|]. left.
      + apply elem_of_list_In, in_concat in Hu as (v & Hv & Hu). apply elem_of_list_In in Hv, Hu. destruct (mapM_in _ _ _ _ Eus Hv) as (kc & Hk & Ev).
        destruct (subscribe_one_ok ul ud uu info cs messages Hserved ds s kc Hk) as (v' & Ev' & Hf).
        { intros m Em. destruct (mapM_at _ _ _ _ Ehs Hk) as (h & Hh & Eh). destruct (mapM_at _ _ _ _ Er Hk) as (r & Hr & Er').
          destruct (handler_ok ul ud uu info cs messages schemas Hserved Hpayload types Etypes ds Ht s kc Hk) as (h' & m' & Eh' & Em' & _ & D1).
          rewrite Eh in Eh'. injection Eh' as <-. rewrite Em in Em'. injection Em' as <-.
          destruct (listening_ok ul ud uu info cs messages schemas Hserved Hpayload types Etypes ds Ht s Hb kc Hk) as (r' & m' & Er'' & Em' & _ & D2 & D3).
          rewrite Er' in Er''. injection Er'' as <-. rewrite Em in Em'. injection Em' as <-.
          split; [|split; by apply (Hrcv r)]. eapply In; [left|]. cbn [when]. apply emit_decl. exists h. split; [by right|done]. }
        rewrite Ev in Ev'. injection Ev' as <-. rewrite Forall_forall in Hf. by apply Hf.
    - destruct (mapM_in _ _ _ _ Er Hp) as (kc & Hk & Ep).
      destruct (listening_ok ul ud uu info cs messages schemas Hserved Hpayload types Etypes ds Ht s Hb kc Hk) as (q & m & Eq & _ & Hq & _).
      rewrite Ep in Eq. injection Eq as <-. specialize (Hq (Hrcv _ Hp)). rewrite Forall_forall in Hq. by apply Hq.
    - destruct (mapM_in _ _ _ _ Es Hp) as (kc & Hk & Ep).
      destruct (publishing_ok ul ud uu info cs messages schemas Hserved Hpayload types Etypes ds Ht s Hb kc Hk) as (q & m & Eq & _ & Hq & _).
      rewrite Ep in Eq. injection Eq as <-. rewrite Forall_forall in Hq. by apply Hq.
    - destruct (mapM_in _ _ _ _ Ew Hp) as (kc & Hk & Ep).
      destruct (waiting_ok ul ud uu info cs messages schemas Hserved Hpayload types Etypes ds Ht s Hb kc Hk) as (q & Eq & Hq).
      rewrite Ep in Eq. injection Eq as <-. specialize (Hq (Hwait _ Hp)). rewrite Forall_forall in Hq. by apply Hq.
  Qed.
End side2.

Lemma package2_backed ul ud uu info cs messages schemas :
  Forall (served2 (name_without_params ul ud uu) info cs messages) cs -> (forall m p, (m, p) ∈ messages -> p = true) ->
  exists l, package2 ul ud uu info cs messages schemas = Some l /\ all_backed l.
Proof.
  intros Hs Hp. destruct (types_some ul ud uu info messages Hp) as (ms & Ems & _).
  assert (exists types, types_code2 ul ud uu info cs messages schemas = Some types) as [types Et].
  { unfold types_code2. unfold code in *. rewrite Ems. cbn [mbind option_bind]. eauto. }
  destruct (side_some ul ud uu info cs messages schemas Hs Hp types Et Application) as [a Ea].
  destruct (side_some ul ud uu info cs messages schemas Hs Hp types Et User) as [b Eb].
  unfold package2. rewrite Et, Ea, Eb. cbn [mbind option_bind]. eexists. split; [reflexivity|]. unfold all_backed. set (l := emit _).
  assert (Sub : forall p, p ∈ [types; a; b] -> p.1 ⊆ l.1) by (intros p Hp' d Hd; apply emit_decl; eauto).
  pose proof (Sub types ltac:(left)) as St. apply Forall_forall. intros u Hu. apply emit_use in Hu as (p & Hq & Hu).
  apply elem_of_cons in Hq as [->|Hq]; [|apply elem_of_cons in Hq as [->|Hq]; [|apply elem_of_list_singleton in Hq as ->]].
  - pose proof (types_backed ul ud uu info cs messages schemas Hs types Et l.1 St) as H. rewrite Forall_forall in H. by apply H.
  - pose proof (side_backed ul ud uu info cs messages schemas Hs Hp types Et Application a l.1 Ea St (Sub a ltac:(right; left))) as H. rewrite Forall_forall in H. by apply H.
  - pose proof (side_backed ul ud uu info cs messages schemas Hs Hp types Et User b l.1 Eb St (Sub b ltac:(right; right; left))) as H. rewrite Forall_forall in H. by apply H.
Qed.
