From stdpp Require Import gmap list strings.
From Coq Require Import NArith Ascii String.
From Verif.Model Require Import Naming Names Operations Package Package2.
From Verif.Spec Require Import NamingSpec OperationsSpec PackageSpec Package2Spec OfferedSpec.
From Verif.Proof Require Import NamingProof NamesProof OperationsProof PackageProof PackageOnceProof Package2Proof Package2OnceProof.
Local Open Scope string_scope.
Local Open Scope list_scope.

Lemma not_visible a r : bool_decide (a ∈ uppers) = false -> ~ visible (String a r).
Proof. intros H (b & t & E & Hb). injection E as <- <-. by apply bool_decide_eq_false in H. Qed.
Ltac hidden V := exfalso; refine (not_visible _ _ _ V); vm_compute; reflexivity.

Lemma controller_word s : controller_name s = word s +:+ "Controller".
Proof. by destruct s. Qed.
Lemma prefix_word s : prefix s = word s.
Proof. by destruct s. Qed.
Lemma preposition_word s : preposition s = as_or_to s.
Proof. by destruct s. Qed.
Lemma controller_side s s' : controller_name s = controller_name s' -> s = s'.
Proof. by destruct s, s'. Qed.
Lemma controller_not_subscriber s s' : controller_name s <> prefix s' +:+ "Subscriber".
Proof. by destruct s, s'. Qed.
Lemma subscriber_side s s' : prefix s +:+ "Subscriber" = prefix s' +:+ "Subscriber" -> s = s'.
Proof. by destruct s, s'. Qed.

Lemma handled2_spec c m : handled2 c m <-> channel_to_message c ToSubscribe = Some m.
Proof.
  unfold handled2, channel_to_message. destruct (h2_publish c) as [p|], (h2_subscribe c) as [q|]; cbn; split.
  all: try (intros [(o & [= <-] & <-)|(E & o & [= <-] & <-)]; done). all: try (intros [= <-]; eauto). all: try done.
Qed.
Lemma published2_spec c m : published2 c m <-> channel_to_message c ToPublish = Some m.
Proof.
  unfold published2, channel_to_message. destruct (h2_publish c) as [p|], (h2_subscribe c) as [q|]; cbn; split.
  all: try (intros [(o & [= <-] & <-)|(E & o & [= <-] & <-)]; done). all: try (intros [= <-]; eauto). all: try done.
Qed.

Section version2.
  Variable ul ud : N -> bool.
  Variable uu : N -> bytes.
  Variable info : details.
  Variable cs : list (string * chan2).
  Local Notation opn := (operation_name ul ud uu).
  Local Notation parn := (fun k => name_without_params ul ud uu k +:+ "Parameters").
  Local Notation offered2 := (offered2 opn parn (message_name info) cs).
  Local Notation asked2 := (asked2 opn (message_name info) cs).

  Lemma parameters2_spec kc : params_arg2 ul ud uu kc = parameters2 parn kc.
  Proof. done. Qed.

  (** The methods of a side. *)
  Lemma side_method s c t n a r : side_code2 ul ud uu info s cs = Some c ->
    DeclMethod t n a r ∈ c.1 -> (t = controller_name s /\ (visible n -> offered2 s n a r)) \/ (t = prefix s +:+ "Subscriber" /\ asked2 s n a r).
  Proof.
    intros E H. unfold side_code2, subscriber2, subscribe_all2 in E. cbv zeta in E.
    apply bind_some in E as (sub & Esub & E). apply bind_some in Esub as (hs & Ehs & Esub). injection Esub as <-.
    apply bind_some in E as (all & Eall & E). apply bind_some in Eall as (us & Eus & Eall). injection Eall as <-.
    apply bind_some in E as (rcv & Er & E). apply bind_some in E as (snd & Es & E). apply bind_some in E as (wait & Ew & E). injection E as <-.
    assert (Hc : (0 <? method_count2 s cs)%nat = true -> exists kc, kc ∈ cs /\ is_Some (received_by s kc.2)).
    { rewrite method_count_spec. destruct (subscribed s cs) as [|kc l] eqn:El; [done|]. intros _. exists kc. apply in_subscribed. rewrite El. left. }
    apply emit_decl in H as (p & Hp & Hd). apply elem_of_cons in Hp as [->|Hp].
    { right. unfold when in Hd. destruct (0 <? _)%nat; [|by apply elem_of_nil in Hd]. apply emit_decl in Hd as (q & Hq & Hd).
      apply elem_of_cons in Hq as [->|Hq]; [by apply elem_of_list_singleton in Hd|].
      destruct (mapM_in _ _ _ _ Ehs Hq) as (kc & Hk & Ek). unfold handler_decl2, Package2.message_type in Ek. apply bind_some in Ek as (m & Em & Ek). injection Ek as <-.
      apply elem_of_list_singleton in Hd. injection Hd as -> -> -> ->. split; [done|]. apply in_subscribed in Hk as [Hk Hr].
      apply fmap_Some in Em as (m' & Em & ->). by apply asked2_handler; [..|apply handled2_spec]. }
    left. apply elem_of_cons in Hp as [->|Hp].
    { unfold controller_base2 in Hd. cbn [fst] in Hd.
      repeat (apply elem_of_cons in Hd as [E|Hd]; [first [discriminate E|injection E as -> -> -> ->; split; [done|]; first [intros V; hidden V|intros _; constructor]]|]). by apply elem_of_nil in Hd. }
    apply elem_of_cons in Hp as [->|Hp].
    { unfold when in Hd. destruct (0 <? _)%nat; [|by apply elem_of_nil in Hd]. destruct (Hc eq_refl) as (kc & Hk & Hr). cbn [fst] in Hd. rewrite prefix_word in Hd.
      apply elem_of_cons in Hd as [E|Hd]; [injection E as -> -> -> ->; split; [done|]; intros _; by eapply offered2_subscribe_all|].
      apply elem_of_list_singleton in Hd. injection Hd as -> -> -> ->. split; [done|]. intros _. by eapply offered2_unsubscribe_all. }
    apply elem_of_app in Hp as [Hp|Hp].
    { destruct (mapM_in _ _ _ _ Er Hp) as (kc & Hk & Ek). unfold listening2, Package2.message_type, message_correlated in Ek. cbv zeta in Ek.
      apply bind_some in Ek as (m & Em & Ek). apply bind_some in Ek as (cor & _ & Ek). injection Ek as <-. apply in_subscribed in Hk as [Hk Hr].
      apply fmap_Some in Em as (m' & Em & ->). cbn [fst] in Hd.
      apply elem_of_cons in Hd as [E|Hd]; [injection E as -> -> -> ->; split; [done|]; intros _; by apply offered2_subscribe; [..|apply handled2_spec]|].
      apply elem_of_cons in Hd as [E|Hd]; [injection E as -> -> -> ->; split; [done|]; intros V; hidden V|].
      apply elem_of_list_singleton in Hd. injection Hd as -> -> -> ->. split; [done|]. intros _. by apply offered2_unsubscribe. }
    apply elem_of_app in Hp as [Hp|Hp].
    { destruct (mapM_in _ _ _ _ Es Hp) as (kc & Hk & Ek). unfold publishing2, Package2.message_type, message_correlated in Ek. cbv zeta in Ek.
      apply bind_some in Ek as (m & Em & Ek). apply bind_some in Ek as (cor & _ & Ek). injection Ek as <-. apply in_published in Hk as [Hk Hr].
      apply fmap_Some in Em as (m' & Em & ->). cbn [fst] in Hd. apply elem_of_list_singleton in Hd. injection Hd as -> -> -> ->. split; [done|]. intros _.
      by apply offered2_publish; [..|apply published2_spec]. }
    destruct (mapM_in _ _ _ _ Ew Hp) as (kc & Hk & Ek). apply in_subscribed in Hk as [Hk Hr]. unfold waiting2 in Ek. destruct s; [injection Ek as <-; by apply elem_of_nil in Hd|].
    destruct (h2_subscribe kc.2) as [o|] eqn:Eo; [|done]. destruct (negb (o2_located o)) eqn:El; [injection Ek as <-; by apply elem_of_nil in Hd|].
    cbv zeta in Ek. unfold Package2.message_type in Ek. apply bind_some in Ek as (m & Em & Ek). injection Ek as <-. apply fmap_Some in Em as (m' & Em & ->). cbn [fst] in Hd.
    rewrite (to_message_user _ o) in Em by done. injection Em as <-.
    apply elem_of_cons in Hd as [E|Hd]; [injection E as -> -> -> ->; split; [done|]; intros _; apply offered2_wait; [done..|by destruct (o2_located o)]|].
    apply elem_of_list_singleton in Hd. injection Hd as -> -> -> ->. split; [done|]. intros V. hidden V.
  Qed.

  Lemma side_offered s c n a r : side_code2 ul ud uu info s cs = Some c -> offered2 s n a r -> DeclMethod (controller_name s) n a r ∈ c.1.
  Proof.
    intros E H. unfold side_code2, subscriber2, subscribe_all2 in E. cbv zeta in E.
    apply bind_some in E as (sub & Esub & E). apply bind_some in E as (all & Eall & E). apply bind_some in Eall as (us & Eus & Eall). injection Eall as <-.
    apply bind_some in E as (rcv & Er & E). apply bind_some in E as (snd & Es & E). apply bind_some in E as (wait & Ew & E). injection E as <-.
    apply emit_decl.
    destruct H as [|kc m Hk Hr Hm|kc Hk Hr|kc m Hk Hr Hm|kc o Hk -> Ho Hl|kc Hk Hr|kc Hk Hr].
    - eexists. split; [right; left|]. unfold controller_base2. cbn [fst]. inl.
    - assert (Hs : kc ∈ subscribed s cs) by by apply in_subscribed. destruct (mapM_at _ _ _ _ Er Hs) as (h & Hh & Eh). exists h. split; [do 3 right; rewrite !elem_of_app; auto|].
      apply handled2_spec in Hm. unfold listening2, Package2.message_type, message_correlated in Eh. rewrite Hm in Eh. injection Eh as <-. left.
    - assert (Hs : kc ∈ subscribed s cs) by by apply in_subscribed. destruct (mapM_at _ _ _ _ Er Hs) as (h & Hh & Eh). exists h. split; [do 3 right; rewrite !elem_of_app; auto|].
      unfold listening2 in Eh. cbv zeta in Eh. apply bind_some in Eh as (m & Em & Eh). apply bind_some in Eh as (cor & _ & Eh). injection Eh as <-. cbn [fst]. inl.
    - assert (Hs : kc ∈ published s cs) by by apply in_published. destruct (mapM_at _ _ _ _ Es Hs) as (h & Hh & Eh). exists h. split; [do 3 right; rewrite !elem_of_app; auto|].
      apply published2_spec in Hm. unfold publishing2, Package2.message_type, message_correlated in Eh. rewrite Hm in Eh. injection Eh as <-. left.
    - assert (Hs : kc ∈ subscribed User cs) by (apply in_subscribed; cbn; rewrite Ho; eauto). destruct (mapM_at _ _ _ _ Ew Hs) as (h & Hh & Eh). exists h. split; [do 3 right; rewrite !elem_of_app; auto|].
      unfold waiting2 in Eh. rewrite Ho, Hl in Eh. cbv zeta in Eh. cbn [negb] in Eh. unfold Package2.message_type in Eh. rewrite (to_message_user _ o) in Eh by done. injection Eh as <-. left.
    - assert (Hs : kc ∈ subscribed s cs) by by apply in_subscribed. eexists. split; [do 2 right; left|]. rewrite (method_count_pos s cs kc Hs), <- prefix_word. left.
    - assert (Hs : kc ∈ subscribed s cs) by by apply in_subscribed. eexists. split; [do 2 right; left|]. rewrite (method_count_pos s cs kc Hs). cbn [when fst]. inl.
  Qed.

  Lemma side_asked s c n a r : side_code2 ul ud uu info s cs = Some c -> asked2 s n a r -> DeclMethod (prefix s +:+ "Subscriber") n a r ∈ c.1.
  Proof.
    intros E [kc m Hk Hr Hm]. apply (side_methods _ _ _ _ _ _ _ E); [by apply in_subscribed|by apply handled2_spec].
  Qed.

  Variable messages : list (nat * bool).
  Variable schemas : list string.
  Lemma types_methods types t n a r : types_code2 ul ud uu info cs messages schemas = Some types -> DeclMethod t n a r ∈ types.1 ->
    t = "MessageWithCorrelationID" \/ t = "Error" \/ exists m, generated cs messages m /\ t = type_of ul ud uu info m.
  Proof.
    intros Et H. unfold types_code2 in Et. apply bind_some in Et as (ms & Em & Et). injection Et as <-. apply emit_decl in H as (p & Hp & Hd).
    assert (Hmsg : forall m, p = message_code ul ud uu info m -> t = type_of ul ud uu info m).
    { intros m ->. unfold message_code in Hd. cbn [fst] in Hd. apply elem_of_app in Hd as [Hd|Hd]; [|destruct (correlated info m)];
        repeat (apply elem_of_cons in Hd as [E'|Hd]; [try discriminate E'; by injection E' as -> -> -> ->|]); by apply elem_of_nil in Hd. }
    apply elem_of_cons in Hp as [->|Hp].
    { cbn [fixed_types fst] in Hd. repeat (apply elem_of_cons in Hd as [E'|Hd]; [try discriminate E'; injection E' as -> -> -> ->; auto|]). by apply elem_of_nil in Hd. }
    rewrite !elem_of_app, !elem_of_list_fmap in Hp. destruct Hp as [(kc & -> & Hk)|[(m & Ep & Hm)|[Hp|Hp]]].
    - unfold channel_params2, when in Hd. destruct (h2_params kc.2); [by apply elem_of_list_singleton in Hd|by apply elem_of_nil in Hd].
    - right. right. exists m. split; [|by apply Hmsg]. unfold inline_messages in Hm. apply in_concat_map in Hm as (kc & Hk & Hm). left. exists kc.
      apply elem_of_app in Hm as [Hm|Hm]; unfold inline_of in Hm; [destruct (h2_subscribe kc.2) as [o|] eqn:Eo|destruct (h2_publish kc.2) as [o|] eqn:Eo];
        try (by apply elem_of_nil in Hm); exists o; (split; [done|]); (split; [unfold operation_of; auto|]); destruct (o2_inline o); cbn in Hm;
        first [apply elem_of_list_singleton in Hm as ->; done|by apply elem_of_nil in Hm].
    - destruct (mapM_in _ _ _ _ Em Hp) as ([m b] & Hm & Eb). unfold component_message in Eb. cbn [fst snd] in Eb. destruct b; [|done]. injection Eb as Eb.
      right. right. exists m. split; [by right|]. by apply Hmsg.
    - apply elem_of_cons in Hp as [->|Hp]; [cbn [fst] in Hd; apply elem_of_list_fmap in Hd as (? & ? & _); done|]. apply elem_of_list_singleton in Hp as ->.
      unfold channel_paths2 in Hd. destruct cs as [|kc0 r0]; [by apply elem_of_nil in Hd|]. cbn [fst] in Hd. apply elem_of_app in Hd as [Hd|Hd]; [|by apply elem_of_list_singleton in Hd].
      apply elem_of_list_fmap in Hd as (? & ? & _). done.
  Qed.

  Variable l : code.
  Hypothesis E : package2 ul ud uu info cs messages schemas = Some l.
  (** The types that declare methods themselves. *)
  Hypothesis apart : forall m s, generated cs messages m -> type_of ul ud uu info m <> controller_name s /\ type_of ul ud uu info m <> prefix s +:+ "Subscriber".

  Lemma package2_methods t n a r : DeclMethod t n a r ∈ l.1 ->
    (t = "MessageWithCorrelationID" \/ t = "Error" \/ exists m, generated cs messages m /\ t = type_of ul ud uu info m) \/
    exists s c, side_code2 ul ud uu info s cs = Some c /\ DeclMethod t n a r ∈ c.1.
  Proof.
    intros H. unfold package2 in E. apply bind_some in E as (ty & Et & E1). apply bind_some in E1 as (app & Ea & E1). apply bind_some in E1 as (us & Eu & E1). injection E1 as <-.
    apply emit_decl in H as (p & Hp & Hd). apply elem_of_cons in Hp as [->|Hp]; [left; by eapply types_methods|]. right.
    apply elem_of_cons in Hp as [->|Hp]; [eauto|]. apply elem_of_list_singleton in Hp as ->. eauto.
  Qed.

  Lemma controllers2 s n a r : visible n -> DeclMethod (controller_name s) n a r ∈ l.1 <-> offered2 s n a r.
  Proof.
    intros V. split.
    - intros H. apply package2_methods in H as [[E1|[E1|(m & Hm & E1)]]|(s' & c & Es & H)].
      + exfalso. revert E1. clear. by destruct s.
      + exfalso. revert E1. clear. by destruct s.
      + exfalso. symmetry in E1. by destruct (apart m s Hm).
      + destruct (side_method s' c _ n a r Es H) as [[E1 Ho]|[E1 _]]; [|exfalso; by apply controller_not_subscriber in E1].
        apply controller_side in E1 as <-. by apply Ho.
    - intros H. destruct (package2_parts _ _ _ _ _ _ _ _ s E) as (c & Ec & Sc). apply Sc. by eapply side_offered.
  Qed.
  Lemma subscribers2 s n a r : DeclMethod (prefix s +:+ "Subscriber") n a r ∈ l.1 <-> asked2 s n a r.
  Proof.
    split.
    - intros H. apply package2_methods in H as [[E1|[E1|(m & Hm & E1)]]|(s' & c & Es & H)].
      + exfalso. revert E1. clear. by destruct s.
      + exfalso. revert E1. clear. by destruct s.
      + exfalso. symmetry in E1. by destruct (apart m s Hm).
      + destruct (side_method s' c _ n a r Es H) as [[E1 _]|[E1 Ho]]; [exfalso; symmetry in E1; by apply controller_not_subscriber in E1|].
        apply subscriber_side in E1 as <-. done.
    - intros H. destruct (package2_parts _ _ _ _ _ _ _ _ s E) as (c & Ec & Sc). apply Sc. by eapply side_asked.
  Qed.
End version2.

(** ** Version 3 *)
Section version3.
  Variable ul ud : N -> bool.
  Variable uu : N -> bytes.
  Variable info : details.
  Variable order : nat -> channel -> list nat.
  Hypothesis perm : forall site ch, order site ch ≡ₚ ch_messages ch.
  Variable cs : list named_channel.
  Variable messages : list nat.
  Variable schemas : list string.
  Variable ops : list (string * operation).
  Hypothesis Nops : NoDup ops.*1.
  Hypothesis Hops : Forall (fun ko => determined ko.2) ops.
  Local Notation parn := (fun k => name_without_params ul ud uu k +:+ "Parameters").
  Local Notation typ := (type_of ul ud uu info).
  Local Notation offered := (offered info parn typ ops).
  Local Notation asked := (asked typ ops).

  Lemma ops_determined k o : (k, o) ∈ ops -> determined o.
  Proof. intros H. rewrite Forall_forall in Hops. by apply (Hops (k, o)). Qed.
  Lemma plain_op k o : (k, o) ∈ ops -> o_refers o = None.
  Proof. intros H. eapply dt_plain. by eapply ops_determined. Qed.
  Lemma answered_op k o ch : (k, o) ∈ ops -> answered_on o ch <-> exists r, o_reply o = Some r /\ r_channel r = Some ch.
  Proof. intros H. unfold answered_on, follow. by rewrite (plain_op k o H). Qed.
  Lemma op_data k o : (k, o) ∈ ops -> exists m, only_message o m /\ name_it ul ud uu (gop_name (GOp o)) = o_name o /\ forall site, message_at order site (GOp o) = Some m.
  Proof.
    intros H. pose proof (ops_determined k o H) as S. destruct (dt_message _ S) as (m & Hm). exists m. split; [done|]. split.
    - apply op_name_it; [apply S|by eapply plain_op].
    - intros site. by apply (message_at_op order perm).
  Qed.
  Lemma only_one k o m m' : (k, o) ∈ ops -> only_message o m -> only_message o m' -> m = m'.
  Proof. intros _. apply only_message_unique. Qed.
  Lemma reply_data k o ch : (k, o) ∈ ops -> answered_on o ch -> exists rm, ch_messages ch = [rm] /\ name_it ul ud uu (gop_name (GReply o ch)) = "ReplyTo" +:+ o_name o /\
    (forall site, message_at order site (GReply o ch) = Some rm) /\ forall site, order site ch = [rm].
  Proof.
    intros H A. pose proof (ops_determined k o H) as S. destruct (dt_reply _ S ch A) as (rm & Em). exists rm. split; [done|]. split.
    - apply reply_name_it; [apply S|by eapply plain_op].
    - split; intros site; [by apply (message_at_reply order perm)|by apply (order_one order perm)].
  Qed.

  Lemma some_received s : (0 <? receive_count (new_action_operations s ops))%nat = true <-> exists k o, (k, o) ∈ ops /\ receives s o.
  Proof.
    rewrite receive_count_size by done. rewrite Nat.ltb_lt. split.
    - intros H. destruct (decide (receive (new_action_operations s ops) = ∅)) as [E|E]; [rewrite E, map_size_empty in H; lia|].
      apply map_choose in E as (k & g & E). rewrite receive_maps in E. apply receive_spec in E as (o & Ho & Hr & _); [eauto|done|intros ? ? ?; by eapply plain_op].
    - intros (k & o & Ho & Hr). assert (E : receive (new_action_operations s ops) !! k = Some (GOp o)).
      { rewrite receive_maps. apply receive_spec; [done|intros ? ? ?; by eapply plain_op|eauto]. }
      destruct (decide (size (receive (new_action_operations s ops)) = O)) as [Z|Z]; [|lia]. apply map_size_empty_inv in Z. by rewrite Z in E.
  Qed.
  Lemma in_receive s k o : (k, GOp o) ∈ map_to_list (receive (new_action_operations s ops)) <-> (k, o) ∈ ops /\ receives s o.
  Proof.
    rewrite elem_of_map_to_list, receive_maps, receive_spec; [|done|intros ? ? ?; by eapply plain_op]. split; [intros (o' & ? & ? & [= ->]); done|intros []; eauto].
  Qed.
  Lemma op_received s kg : kg ∈ map_to_list (receive (new_action_operations s ops)) -> exists o, kg.2 = GOp o /\ (kg.1, o) ∈ ops /\ receives s o.
  Proof.
    destruct kg as [k g]. rewrite elem_of_map_to_list, receive_maps, receive_spec; [|done|intros ? ? ?; by eapply plain_op]. intros (o & ? & ? & ->). eauto.
  Qed.
  Lemma in_send s kg : kg ∈ map_to_list (send (new_action_operations s ops)) ->
    (exists o, kg.2 = GOp o /\ (kg.1, o) ∈ ops /\ sends s o) \/ (exists k o ch, kg.2 = GReply o ch /\ (k, o) ∈ ops /\ receives s o /\ answered_on o ch).
  Proof.
    destruct kg as [k g]. rewrite elem_of_map_to_list, send_maps. intros H. apply send_sound in H; [|intros ? ? ?; by eapply plain_op].
    destruct H as [(o & Ho & Hs & ->)|(k' & o & ch & Ho & Hr & Ha & _ & ->)]; [left|right]; eauto 10.
  Qed.

  Ltac parts E := unfold side_code, subscriber, subscribe_all in E; cbv zeta in E;
    apply bind_some in E as (sub & Esub & E); apply bind_some in Esub as (hs & Ehs & Esub); injection Esub as <-;
    apply bind_some in E as (all & Eall & E); apply bind_some in Eall as (us & Eus & Eall); injection Eall as <-;
    apply bind_some in E as (rcv & Er & E); apply bind_some in E as (sds & Es & E); injection E as <-.
  Ltac run E := cbn [fmap option_fmap option_map mbind option_bind] in E.

  Lemma listening3 s k o d : (k, o) ∈ ops -> receives s o -> forall l, listening ul ud uu info order s (GOp o) = Some l -> d ∈ l.1 ->
    exists n a r, d = DeclMethod (controller_name s) n a r /\ (visible n -> offered s n a r).
  Proof.
    intros Ho Hr l E Hd. destruct (op_data k o Ho) as (m & Hm & En & Ha). unfold listening, op_message, op_correlated in E. rewrite !Ha, En in E. run E. injection E as <-. cbn [fst] in Hd.
    apply elem_of_cons in Hd as [->|Hd]; [do 3 eexists; split; [reflexivity|]; intros _; by eapply offered_subscribe|].
    apply elem_of_cons in Hd as [->|Hd]; [do 3 eexists; split; [reflexivity|]; intros V; hidden V|].
    apply elem_of_list_singleton in Hd as ->. do 3 eexists; split; [reflexivity|]; intros _. by eapply offered_unsubscribe.
  Qed.
  Lemma answering3 s k o d : (k, o) ∈ ops -> receives s o -> forall l, answering ul ud uu info order s o = Some l -> d ∈ l.1 ->
    exists n a r, d = DeclMethod (controller_name s) n a r /\ (visible n -> offered s n a r).
  Proof.
    intros Ho Hr l E Hd. destruct (op_data k o Ho) as (m & Hm & En & Ha). unfold answering in E. destruct (o_reply o) as [r|] eqn:Er; [|injection E as <-; by apply elem_of_nil in Hd].
    destruct (r_channel r) as [ch|] eqn:Ec; [|done]. assert (A : answered_on o ch) by (apply (answered_op k o ch Ho); eauto).
    destruct (reply_data k o ch Ho A) as (rm & Em & _ & Hb & _). unfold op_message, op_correlated in E. rewrite !Ha, !Hb, En in E. run E. injection E as <-. cbn [fst] in Hd.
    apply elem_of_list_singleton in Hd as ->. do 3 eexists; split; [reflexivity|]; intros _. by eapply offered_answer.
  Qed.
  Lemma sending3 s k o d : (k, o) ∈ ops -> sends s o -> forall l, sending ul ud uu info order s (GOp o) = Some l -> d ∈ l.1 ->
    exists n a r, d = DeclMethod (controller_name s) n a r /\ (visible n -> offered s n a r).
  Proof.
    intros Ho Hr l E Hd. destruct (op_data k o Ho) as (m & Hm & En & Ha). unfold sending, op_message, op_correlated in E. rewrite !Ha, En in E. run E. injection E as <-. cbn [fst] in Hd.
    apply elem_of_list_singleton in Hd as ->. do 3 eexists; split; [reflexivity|]; intros _. rewrite preposition_word. by eapply offered_send.
  Qed.
  Lemma sending_reply3 s k o ch d : (k, o) ∈ ops -> receives s o -> answered_on o ch -> forall l, sending ul ud uu info order s (GReply o ch) = Some l -> d ∈ l.1 ->
    exists n a r, d = DeclMethod (controller_name s) n a r /\ (visible n -> offered s n a r).
  Proof.
    intros Ho Hr A l E Hd. destruct (reply_data k o ch Ho A) as (rm & Em & En & Hb & _). unfold sending, op_message, op_correlated in E. rewrite !Hb, En in E. run E. injection E as <-. cbn [fst] in Hd.
    apply elem_of_list_singleton in Hd as ->. do 3 eexists; split; [reflexivity|]; intros _. rewrite preposition_word. by eapply offered_send_answer.
  Qed.
  Lemma requesting3 s k o d : (k, o) ∈ ops -> sends s o -> forall l, requesting ul ud uu info order s o = Some l -> d ∈ l.1 ->
    exists n a r, d = DeclMethod (controller_name s) n a r /\ (visible n -> offered s n a r).
  Proof.
    intros Ho Hr l E Hd. destruct (op_data k o Ho) as (m & Hm & En & Ha). unfold requesting in E. destruct (o_reply o) as [r|] eqn:Er; [|injection E as <-; by apply elem_of_nil in Hd].
    destruct (r_channel r) as [ch|] eqn:Ec; [|done]. assert (A : answered_on o ch) by (apply (answered_op k o ch Ho); eauto).
    destruct (reply_data k o ch Ho A) as (rm & Em & _ & _ & Hb). unfold op_message, op_correlated, channel_message in E. rewrite !Ha, !Hb, En in E. run E. cbn [channel_get_message head] in E. run E. injection E as <-. cbn [fst] in Hd.
    apply elem_of_cons in Hd as [->|Hd]; [do 3 eexists; split; [reflexivity|]; intros _; rewrite preposition_word; by eapply offered_request|].
    apply elem_of_list_singleton in Hd as ->. do 3 eexists; split; [reflexivity|]; intros V. hidden V.
  Qed.

  Lemma side3_method s c t n a r : side_code ul ud uu info order s ops = Some c ->
    DeclMethod t n a r ∈ c.1 -> (t = controller_name s /\ (visible n -> offered s n a r)) \/ (t = prefix s +:+ "Subscriber" /\ asked s n a r).
  Proof.
    intros E H. parts E.
    assert (fin : (exists n' a' r', DeclMethod t n a r = DeclMethod (controller_name s) n' a' r' /\ (visible n' -> offered s n' a' r')) ->
      (t = controller_name s /\ (visible n -> offered s n a r)) \/ (t = prefix s +:+ "Subscriber" /\ asked s n a r)).
    { intros (n' & a' & r' & [= -> -> -> ->] & Hv). by left. }
    apply emit_decl in H as (p & Hp & Hd). apply elem_of_cons in Hp as [->|Hp].
    { right. unfold when in Hd. destruct (0 <? _)%nat; [|by apply elem_of_nil in Hd]. apply emit_decl in Hd as (q & Hq & Hd).
      apply elem_of_cons in Hq as [->|Hq]; [by apply elem_of_list_singleton in Hd|].
      destruct (mapM_in _ _ _ _ Ehs Hq) as ([k g] & Hk & Ek). destruct (op_received s _ Hk) as (o & Eg & Ho & Hr). cbn [fst snd] in *. subst g.
      destruct (op_data k o Ho) as (m & Hm & En & Ha). unfold handler_decl, op_message in Ek. rewrite Ha, En in Ek. run Ek. injection Ek as <-.
      apply elem_of_list_singleton in Hd. injection Hd as -> -> -> ->. split; [done|]. by eapply asked_handler. }
    apply elem_of_cons in Hp as [->|Hp].
    { left. unfold controller_base in Hd. cbn [fst] in Hd.
      repeat (apply elem_of_cons in Hd as [E|Hd]; [first [discriminate E|injection E as -> -> -> ->; split; [done|]; first [intros V; hidden V|intros _; constructor]]|]). by apply elem_of_nil in Hd. }
    apply elem_of_cons in Hp as [->|Hp].
    { left. unfold when in Hd. destruct (0 <? _)%nat eqn:Ec; [|by apply elem_of_nil in Hd]. apply some_received in Ec as (k & o & Ho & Hr). cbn [fst] in Hd. rewrite prefix_word in Hd.
      apply elem_of_cons in Hd as [E|Hd]; [injection E as -> -> -> ->; split; [done|]; intros _; by eapply offered_subscribe_all|].
      apply elem_of_list_singleton in Hd. injection Hd as -> -> -> ->. split; [done|]. intros _. by eapply offered_unsubscribe_all. }
    apply fin. apply elem_of_app in Hp as [Hp|Hp].
    - destruct (mapM_in _ _ _ _ Er Hp) as ([k g] & Hk & Ek). destruct (op_received s _ Hk) as (o & Eg & Ho & Hr). cbn [fst snd] in *. subst g.
      cbn [receiving] in Ek. apply bind_some in Ek as (l1 & E1 & Ek). apply bind_some in Ek as (l2 & E2 & Ek). injection Ek as <-.
      apply emit_decl in Hd as (q & Hq & Hd). apply elem_of_cons in Hq as [->|Hq]; [by eapply listening3|]. apply elem_of_list_singleton in Hq as ->. by eapply answering3.
    - destruct (mapM_in _ _ _ _ Es Hp) as ([k g] & Hk & Ek). destruct (in_send s _ Hk) as [(o & Eg & Ho & Hr)|(k' & o & ch & Eg & Ho & Hr & A)]; cbn [fst snd] in *; subst g; cbn [emitting] in Ek.
      + apply bind_some in Ek as (l1 & E1 & Ek). apply bind_some in Ek as (l2 & E2 & Ek). injection Ek as <-.
        apply emit_decl in Hd as (q & Hq & Hd). apply elem_of_cons in Hq as [->|Hq]; [by eapply sending3|]. apply elem_of_list_singleton in Hq as ->. by eapply requesting3.
      + by eapply sending_reply3.
  Qed.

  Lemma side3_offered s c n a r : no_clash s ops -> side_code ul ud uu info order s ops = Some c -> offered s n a r -> DeclMethod (controller_name s) n a r ∈ c.1.
  Proof.
    intros Hn E H. parts E. apply emit_decl.
    assert (Hall : forall k o, (k, o) ∈ ops -> receives s o -> (0 <? receive_count (new_action_operations s ops))%nat = true) by (intros; apply some_received; eauto).
    assert (Hrcv : forall k o, (k, o) ∈ ops -> receives s o -> exists l1 l2, listening ul ud uu info order s (GOp o) = Some l1 /\ answering ul ud uu info order s o = Some l2 /\ emit [l1; l2] ∈ rcv).
    { intros k o Ho Hr. assert (Hk : (k, GOp o) ∈ map_to_list (receive (new_action_operations s ops))) by by apply in_receive.
      destruct (mapM_at _ _ _ _ Er Hk) as (p & Hp & Ep). cbn [receiving snd] in Ep. apply bind_some in Ep as (l1 & E1 & Ep). apply bind_some in Ep as (l2 & E2 & Ep). injection Ep as <-. eauto. }
    destruct (send_complete s ops Nops ltac:(intros ? ? ?; by eapply plain_op) Hn) as [Sop Srep].
    assert (Hsnd : forall k o, (k, o) ∈ ops -> sends s o -> exists l1 l2, sending ul ud uu info order s (GOp o) = Some l1 /\ requesting ul ud uu info order s o = Some l2 /\ emit [l1; l2] ∈ sds).
    { intros k o Ho Hr. assert (Hk : (k, GOp o) ∈ map_to_list (send (new_action_operations s ops))) by (apply elem_of_map_to_list; rewrite send_maps; by apply Sop).
      destruct (mapM_at _ _ _ _ Es Hk) as (p & Hp & Ep). cbn [emitting snd] in Ep. apply bind_some in Ep as (l1 & E1 & Ep). apply bind_some in Ep as (l2 & E2 & Ep). injection Ep as <-. eauto. }
    assert (In1 : forall l1 l2 d, emit [l1; l2] ∈ rcv \/ emit [l1; l2] ∈ sds -> d ∈ l1.1 \/ d ∈ l2.1 -> exists p, p ∈ (when (0 <? receive_count (new_action_operations s ops))%nat (emit (([DeclType (prefix s +:+ "Subscriber")], []) :: hs))
        :: controller_base s (new_action_operations s ops) :: when (0 <? receive_count (new_action_operations s ops))%nat
          ([DeclMethod (controller_name s) "SubscribeToAllChannels" [TyCtx; TyName (prefix s +:+ "Subscriber")] [TyError]; DeclMethod (controller_name s) "UnsubscribeFromAllChannels" [TyCtx] []],
             UseType (prefix s +:+ "Subscriber") :: List.concat us) :: rcv ++ sds) /\ d ∈ p.1).
    { intros l1 l2 d Hp Hd. exists (emit [l1; l2]). split; [do 3 right; by apply elem_of_app|]. apply emit_decl. destruct Hd as [Hd|Hd]; [exists l1|exists l2]; (split; [inl|done]). }
    destruct H as [|k o m Ho Hr Hm|k o Ho Hr|k o m ch rm Ho Hr Hm A Em|k o ch rm Ho Hr A Em|k o m Ho Hr Hm|k o m ch rm Ho Hr Hm A Em|k o Ho Hr|k o Ho Hr].
    - eexists. split; [right; left|]. unfold controller_base. cbn [fst]. inl.
    - destruct (Hrcv k o Ho Hr) as (l1 & l2 & E1 & E2 & Hp). apply (In1 l1 l2); [by left|left]. destruct (op_data k o Ho) as (m' & Hm' & En & Ha). rewrite (only_one k o m m') by done.
      unfold listening, op_message, op_correlated in E1. rewrite !Ha, En in E1. run E1. injection E1 as <-. cbn [fst]. left.
    - destruct (Hrcv k o Ho Hr) as (l1 & l2 & E1 & E2 & Hp). apply (In1 l1 l2); [by left|left]. destruct (op_data k o Ho) as (m' & Hm' & En & Ha).
      unfold listening, op_message, op_correlated in E1. rewrite !Ha, En in E1. run E1. injection E1 as <-. cbn [fst]. inl.
    - destruct (Hrcv k o Ho Hr) as (l1 & l2 & E1 & E2 & Hp). apply (In1 l1 l2); [by left|right]. destruct (op_data k o Ho) as (m' & Hm' & En & Ha). rewrite (only_one k o m m') by done.
      destruct (reply_data k o ch Ho A) as (rm' & Em' & _ & Hb & _). rewrite Em in Em'. injection Em' as <-. apply (answered_op k o ch Ho) in A as (r & Er' & Ec).
      unfold answering in E2. rewrite Er', Ec in E2. unfold op_message, op_correlated in E2. rewrite !Ha, !Hb, En in E2. run E2. injection E2 as <-. cbn [fst]. left.
    - assert (Hk : (ch_name ch, GReply o ch) ∈ map_to_list (send (new_action_operations s ops))) by (apply elem_of_map_to_list; rewrite send_maps; by eapply Srep).
      destruct (mapM_at _ _ _ _ Es Hk) as (p & Hp & Ep). exists p. split; [do 3 right; apply elem_of_app; by right|]. cbn [emitting snd] in Ep.
      destruct (reply_data k o ch Ho A) as (rm' & Em' & En & Hb & _). rewrite Em in Em'. injection Em' as <-. unfold sending, op_message, op_correlated in Ep. rewrite !Hb, En in Ep. run Ep. injection Ep as <-. cbn [fst].
      left.
    - destruct (Hsnd k o Ho Hr) as (l1 & l2 & E1 & E2 & Hp). apply (In1 l1 l2); [by right|left]. destruct (op_data k o Ho) as (m' & Hm' & En & Ha). rewrite (only_one k o m m') by done.
      unfold sending, op_message, op_correlated in E1. rewrite !Ha, En in E1. run E1. injection E1 as <-. cbn [fst]. left.
    - destruct (Hsnd k o Ho Hr) as (l1 & l2 & E1 & E2 & Hp). apply (In1 l1 l2); [by right|right]. destruct (op_data k o Ho) as (m' & Hm' & En & Ha). rewrite (only_one k o m m') by done.
      destruct (reply_data k o ch Ho A) as (rm' & Em' & _ & _ & Hb). rewrite Em in Em'. injection Em' as <-. apply (answered_op k o ch Ho) in A as (r & Er' & Ec).
      unfold requesting in E2. rewrite Er', Ec in E2. unfold op_message, op_correlated, channel_message in E2. rewrite !Ha, !Hb, En in E2. run E2. cbn [channel_get_message head] in E2. run E2. injection E2 as <-. cbn [fst].
      left.
    - eexists. split; [do 2 right; left|]. rewrite (Hall k o Ho Hr). left.
    - eexists. split; [do 2 right; left|]. rewrite (Hall k o Ho Hr). cbn [when fst]. inl.
  Qed.

  Lemma side3_asked s c n a r : side_code ul ud uu info order s ops = Some c -> asked s n a r -> DeclMethod (prefix s +:+ "Subscriber") n a r ∈ c.1.
  Proof.
    intros E [k o m Ho Hr Hm]. parts E. apply emit_decl. eexists. split; [left|].
    assert (Hc : (0 <? receive_count (new_action_operations s ops))%nat = true) by (apply some_received; eauto). rewrite Hc. cbn [when].
    assert (Hk : (k, GOp o) ∈ map_to_list (receive (new_action_operations s ops))) by by apply in_receive.
    destruct (mapM_at _ _ _ _ Ehs Hk) as (p & Hp & Ep). apply emit_decl. exists p. split; [by right|]. destruct (op_data k o Ho) as (m' & Hm' & En & Ha). rewrite (only_one k o m m') by done.
    unfold handler_decl, op_message in Ep. cbn [snd] in Ep. rewrite Ha, En in Ep. run Ep. injection Ep as <-. left.
  Qed.

  Lemma types3_methods t n a r : DeclMethod t n a r ∈ (types_code ul ud uu info cs messages schemas).1 ->
    t = "MessageWithCorrelationID" \/ t = "Error" \/ exists m, m ∈ messages /\ t = typ m.
  Proof.
    intros H. apply emit_decl in H as (p & Hp & Hd).
    assert (Hmsg : forall m, p = message_code ul ud uu info m -> t = typ m).
    { intros m ->. unfold message_code in Hd. cbn [fst] in Hd. apply elem_of_app in Hd as [Hd|Hd]; [|destruct (correlated info m)];
        repeat (apply elem_of_cons in Hd as [E'|Hd]; [try discriminate E'; by injection E' as -> -> -> ->|]); by apply elem_of_nil in Hd. }
    apply elem_of_cons in Hp as [->|Hp].
    { cbn [fixed_types fst] in Hd. repeat (apply elem_of_cons in Hd as [E'|Hd]; [try discriminate E'; injection E' as -> -> -> ->; auto|]). by apply elem_of_nil in Hd. }
    rewrite !elem_of_app, !elem_of_list_fmap in Hp. destruct Hp as [(kc & -> & Hk)|[(m & Ep & Hm)|Hp]].
    - unfold channel_params, when in Hd. destruct (nc_params kc); [by apply elem_of_list_singleton in Hd|by apply elem_of_nil in Hd].
    - right. right. exists m. split; [done|by apply Hmsg].
    - apply elem_of_cons in Hp as [->|Hp]; [cbn [fst] in Hd; apply elem_of_list_fmap in Hd as (? & ? & _); done|]. apply elem_of_list_singleton in Hp as ->.
      unfold channel_paths in Hd. destruct cs as [|kc0 r0]; [by apply elem_of_nil in Hd|]. cbn [fst] in Hd. apply elem_of_app in Hd as [Hd|Hd]; [|by apply elem_of_list_singleton in Hd].
      apply elem_of_list_fmap in Hd as (? & ? & _). done.
  Qed.

  Variable l : code.
  Hypothesis E : package ul ud uu info order ops cs messages schemas = Some l.
  Hypothesis apart : forall m s, m ∈ messages -> typ m <> controller_name s /\ typ m <> prefix s +:+ "Subscriber".

  Lemma package3_methods t n a r : DeclMethod t n a r ∈ l.1 ->
    (t = "MessageWithCorrelationID" \/ t = "Error" \/ exists m, m ∈ messages /\ t = typ m) \/
    exists s c, side_code ul ud uu info order s ops = Some c /\ DeclMethod t n a r ∈ c.1.
  Proof.
    intros H. unfold package in E. apply bind_some in E as (app & Ea & E1). apply bind_some in E1 as (us & Eu & E1). injection E1 as <-.
    apply emit_decl in H as (p & Hp & Hd). apply elem_of_cons in Hp as [->|Hp]; [eauto|].
    apply elem_of_cons in Hp as [->|Hp]; [eauto|]. apply elem_of_list_singleton in Hp as ->. left. by eapply types3_methods.
  Qed.
  Lemma package3_parts s : exists c, side_code ul ud uu info order s ops = Some c /\ c.1 ⊆ l.1.
  Proof.
    unfold package in E. apply bind_some in E as (a & Ea & E1). apply bind_some in E1 as (b & Eb & E1). injection E1 as <-.
    destruct s; eexists; (split; [eassumption|]); intros d Hd; apply emit_decl; eexists; (split; [|exact Hd]); inl.
  Qed.

  Lemma controllers3 s n a r : no_clash s ops -> visible n -> DeclMethod (controller_name s) n a r ∈ l.1 <-> offered s n a r.
  Proof.
    intros Hn V. split.
    - intros H. apply package3_methods in H as [[E1|[E1|(m & Hm & E1)]]|(s' & c & Es & H)].
      + exfalso. revert E1. clear. by destruct s.
      + exfalso. revert E1. clear. by destruct s.
      + exfalso. symmetry in E1. by destruct (apart m s Hm).
      + destruct (side3_method s' c _ n a r Es H) as [[E1 Ho]|[E1 _]]; [|exfalso; by apply controller_not_subscriber in E1].
        apply controller_side in E1 as <-. by apply Ho.
    - intros H. destruct (package3_parts s) as (c & Ec & Sc). apply Sc. by eapply side3_offered.
  Qed.
  Lemma subscribers3 s n a r : DeclMethod (prefix s +:+ "Subscriber") n a r ∈ l.1 <-> asked s n a r.
  Proof.
    split.
    - intros H. apply package3_methods in H as [[E1|[E1|(m & Hm & E1)]]|(s' & c & Es & H)].
      + exfalso. revert E1. clear. by destruct s.
      + exfalso. revert E1. clear. by destruct s.
      + exfalso. symmetry in E1. by destruct (apart m s Hm).
      + destruct (side3_method s' c _ n a r Es H) as [[E1 _]|[E1 Ho]]; [exfalso; symmetry in E1; by apply controller_not_subscriber in E1|].
        apply subscriber_side in E1 as <-. done.
    - intros H. destruct (package3_parts s) as (c & Ec & Sc). apply Sc. by eapply side3_asked.
  Qed.
End version3.
