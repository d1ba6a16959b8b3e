(** Every use in the generated code has its declaration. *)
From stdpp Require Import gmap list strings.
From Coq Require Import NArith Ascii String.
From Verif.Model Require Import Naming Names Operations Package.
From Verif.Spec Require Import NamingSpec NamesSpec OperationsSpec PackageSpec.
From Verif.Proof Require Import NamingProof NamesProof OperationsProof.
Local Open Scope string_scope.
Local Open Scope list_scope.

Lemma emit_decl cs (d : decl) : d ∈ (emit cs).1 <-> exists c, c ∈ cs /\ d ∈ c.1.
Proof.
  unfold emit. cbn [fst]. rewrite elem_of_list_In, in_concat. setoid_rewrite in_map_iff. split.
  - intros (l & (c & <- & Hc) & Hd). exists c. split; by apply elem_of_list_In.
  - intros (c & Hc & Hd). exists c.1. apply elem_of_list_In in Hc, Hd. eauto.
Qed.
Lemma emit_use cs (u : use) : u ∈ (emit cs).2 <-> exists c, c ∈ cs /\ u ∈ c.2.
Proof.
  unfold emit. cbn [snd]. rewrite elem_of_list_In, in_concat. setoid_rewrite in_map_iff. split.
  - intros (l & (c & <- & Hc) & Hd). exists c. split; by apply elem_of_list_In.
  - intros (c & Hc & Hd). exists c.2. apply elem_of_list_In in Hc, Hd. eauto.
Qed.
Lemma backed_mono ds ds' u : ds ⊆ ds' -> backed ds u -> backed ds' u.
Proof. intros H. destruct u; cbn; apply H. Qed.

Lemma text_inv s : string_of_list_ascii (list_ascii_of_string s) = s.
Proof. apply string_of_list_ascii_of_string. Qed.

Section package.
  Variable ul ud : N -> bool.
  Variable uu : N -> bytes.
  Variable info : details.
  Variable order : nat -> channel -> list nat.
  Local Notation name_it := (name_it ul ud uu).

  Lemma name_it_exported s : exported_text s -> name_it s = s.
  Proof.
    intros H. unfold Package.name_it. rewrite namify_ascii by by apply exported_ascii.
    rewrite (name_of_camel _ (list_ascii_of_string s)); [apply text_inv| |done]. by apply camel_exported.
  Qed.
  Lemma lit_app a b : list_ascii_of_string (a +:+ b) = list_ascii_of_string a ++ list_ascii_of_string b.
  Proof. induction a as [|c a IH]; [done|]. change (String c a +:+ b) with (String c (a +:+ b)). cbn. by rewrite IH. Qed.
  Lemma reply_name_it o ch : exported_text (o_name o) -> o_refers o = None -> name_it (gop_name (GReply o ch)) = "ReplyTo" +:+ o_name o.
  Proof.
    intros H _. cbn [gop_name]. apply name_it_exported. unfold exported_text. rewrite lit_app.
    apply exported_app; [|by apply exported_words]. exists "R"%char, (list_ascii_of_string "eplyTo"). split; [done|]. split; apply (bool_decide_unpack _); vm_compute; exact I.
  Qed.
  Lemma op_name_it o : exported_text (o_name o) -> o_refers o = None -> name_it (gop_name (GOp o)) = o_name o.
  Proof. intros H P. cbn [gop_name]. unfold follow. rewrite P. by apply name_it_exported. Qed.

  Hypothesis perm : forall site ch, order site ch ≡ₚ ch_messages ch.

  Lemma order_one site ch m : ch_messages ch = [m] -> order site ch = [m].
  Proof. intros E. pose proof (perm site ch) as P. rewrite E in P. symmetry in P. by apply Permutation_singleton_r in P || apply Permutation_singleton_l in P. Qed.
  Lemma message_at_op site o m : only_message o m -> message_at order site (GOp o) = Some m.
  Proof.
    intros [H|[H1 H2]]; unfold message_at; cbn [get_message gop_channel].
    - destruct (o_messages o); [done|]. by injection H as ->.
    - rewrite H1. by rewrite (order_one _ _ m).
  Qed.
  Lemma message_at_reply site o ch m : ch_messages ch = [m] -> message_at order site (GReply o ch) = Some m.
  Proof. intros H. unfold message_at. cbn [get_message gop_channel]. by rewrite (order_one _ _ m). Qed.

  Variable cs : list named_channel.
  Variable messages : list nat.
  Variable schemas : list string.
  Local Notation types := (types_code ul ud uu info cs messages schemas).
  Local Notation type_of := (type_of ul ud uu info).
  Local Notation served := (served info cs messages).
  Ltac inl := repeat (first [apply elem_of_list_here|apply elem_of_list_further]).

  Variable ds : list decl.
  Hypothesis Ht : types.1 ⊆ ds.

  Lemma types_in c : c ∈ fixed_types :: map (channel_params ul ud uu) cs ++ map (message_code ul ud uu info) messages ++ [(map DeclType schemas, []); channel_paths ul ud uu cs] ->
    forall d, d ∈ c.1 -> d ∈ ds.
  Proof. intros Hc d Hd. apply Ht. apply emit_decl. eauto. Qed.
  Lemma message_in m d : m ∈ messages -> d ∈ (message_code ul ud uu info m).1 -> d ∈ ds.
  Proof.
    intros Hm. apply types_in. apply elem_of_cons. right. apply elem_of_app. right. apply elem_of_app. left. apply elem_of_list_fmap. eauto.
  Qed.
  Lemma params_in nc : nc ∈ cs -> nc_params nc = true -> DeclType (name_without_params ul ud uu (nc_name nc) +:+ "Parameters") ∈ ds.
  Proof.
    intros Hn Hp. apply (types_in (channel_params ul ud uu nc)).
    - apply elem_of_cons. right. apply elem_of_app. left. apply elem_of_list_fmap. eauto.
    - unfold channel_params. rewrite Hp. inl.
  Qed.
  Lemma params_backed o : served o -> Forall (backed ds) (params_use ul ud uu info (o_channel o)).
  Proof.
    intros H. unfold params_use. destruct (has_params _ _) eqn:E; [|constructor]. destruct (sv_params _ _ _ _ H E) as (nc & Hn & Hp & Hc).
    repeat constructor. cbn [backed]. unfold params_name. rewrite <- Hc. by apply params_in.
  Qed.
  Lemma message_decls m : m ∈ messages ->
    DeclType (type_of m) ∈ ds /\ DeclFunc ("New" +:+ type_of m) [] [TyName (type_of m)] ∈ ds /\
    DeclFunc ("brokerMessageTo" +:+ type_of m) [TyBrokerMessage] [TyName (type_of m); TyError] ∈ ds /\
    DeclMethod (type_of m) "toBrokerMessage" [] [TyBrokerMessage; TyError] ∈ ds /\
    (correlated info m = true -> DeclMethod (type_of m) "CorrelationID" [] [TyText] ∈ ds /\ DeclMethod (type_of m) "SetCorrelationID" [TyText] [] ∈ ds /\
      DeclMethod (type_of m) "SetAsResponseFrom" [TyName "MessageWithCorrelationID"] [] ∈ ds).
  Proof.
    intros Hm. split; [|split; [|split; [|split; [|intros C; split; [|split]]]]]; (apply (message_in m); [done|]); unfold message_code; cbn [fst]; rewrite ?C; inl.
  Qed.
  Lemma fixed_in d : d ∈ fixed_types.1 -> d ∈ ds.
  Proof. apply types_in. inl. Qed.

  Lemma types_backed : Forall (backed ds) types.2.
  Proof.
    apply Forall_forall. intros u Hu. apply emit_use in Hu as (c & Hc & Hu). apply elem_of_cons in Hc as [->|Hc].
    { cbn in Hu. repeat (apply elem_of_cons in Hu as [->|Hu]; [cbn [backed]; apply fixed_in; inl|]). by apply elem_of_nil in Hu. }
    apply elem_of_app in Hc as [Hc|Hc].
    { apply elem_of_list_fmap in Hc as (nc & -> & _). unfold channel_params, when in Hu. destruct (nc_params nc); by apply elem_of_nil in Hu. }
    apply elem_of_app in Hc as [Hc|Hc].
    { apply elem_of_list_fmap in Hc as (m & -> & _). unfold message_code in Hu. cbn [snd] in Hu. destruct (correlated info m); [|by apply elem_of_nil in Hu].
      repeat (apply elem_of_cons in Hu as [->|Hu]; [cbn [backed]; apply fixed_in; inl|]). by apply elem_of_nil in Hu. }
    apply elem_of_cons in Hc as [->|Hc]; [by apply elem_of_nil in Hu|]. apply elem_of_list_singleton in Hc as ->.
    assert (Hp : forall d, d ∈ (channel_paths ul ud uu cs).1 -> d ∈ ds).
    { apply types_in. apply elem_of_cons. right. rewrite !elem_of_app. right. right. inl. }
    unfold channel_paths in Hu, Hp. destruct cs as [|nc0 r] eqn:E; [by apply elem_of_nil in Hu|]. rewrite <- E in *. cbn [snd fst] in *.
    apply elem_of_list_fmap in Hu as (nc & -> & Hn). cbn [backed]. apply Hp. apply elem_of_app. left. apply elem_of_list_fmap. eauto.
  Qed.

  Variable s : side.
  Variable ao : action_operations.
  Hypothesis Hb : (controller_base s ao).1 ⊆ ds.
  Local Notation c := (controller_name s).

  Lemma context_backed : backed ds (context_values s).
  Proof. cbn. apply Hb. unfold controller_base. cbn [fst]. inl. Qed.
  Lemma middlewares_backed : backed ds (middlewares_run s).
  Proof. cbn. apply Hb. unfold controller_base. cbn [fst]. inl. Qed.

  Ltac msg site := rewrite (message_at_op site) by eassumption.
  Ltac uses := repeat first [apply Forall_app_2|apply Forall_cons_2|apply Forall_nil_2].

  Lemma listening_ok o : served o -> exists l, listening ul ud uu info order s (GOp o) = Some l /\ (l.1 ⊆ ds -> Forall (backed ds) l.2) /\
    exists m, only_message o m /\ m ∈ messages /\
    DeclMethod c ("SubscribeTo" +:+ o_name o) (TyCtx :: params_arg ul ud uu info (o_channel o) ++ [TyHandler (type_of m)]) [TyError] ∈ l.1 /\
    DeclMethod c ("UnsubscribeFrom" +:+ o_name o) (TyCtx :: params_arg ul ud uu info (o_channel o)) [] ∈ l.1.
  Proof.
    intros H. destruct (sv_message _ _ _ _ H) as (m & Hm & Hin). destruct (message_decls m Hin) as (M1 & M2 & M3 & M4 & M5).
    unfold listening, op_message, op_correlated. rewrite !(message_at_op _ o m) by done. cbn [fmap option_fmap option_map mbind option_bind gop_channel].
    rewrite op_name_it by apply H. eexists. split; [reflexivity|]. cbn [fst snd]. split.
    - intros Hd. uses.
      + done.
      + done.
      + cbn [backed]. apply Hd. inl.
      + apply context_backed.
      + apply middlewares_backed.
      + done.
      + unfold only. destruct (correlated info m) eqn:C; uses. cbn [backed]. by apply M5.
      + by apply params_backed.
    - exists m. split; [done|]. split; [done|]. split; inl.
  Qed.

  Lemma only_message_unique o m m' : only_message o m -> only_message o m' -> m = m'.
  Proof.
    intros [H|[H1 H2]] [H'|[H1' H2']].
    - congruence.
    - by rewrite H1' in H.
    - by rewrite H1 in H'.
    - congruence.
  Qed.

  Lemma sending_op_ok o : served o -> exists l, sending ul ud uu info order s (GOp o) = Some l /\ (l.1 ⊆ ds -> Forall (backed ds) l.2) /\
    exists m, only_message o m /\ m ∈ messages /\
    DeclMethod c ("Send" +:+ preposition s +:+ o_name o)
      (TyCtx :: params_arg ul ud uu info (o_channel o) ++ (if no_address info (o_channel o) then [TyText] else []) ++ [TyName (type_of m)]) [TyError] ∈ l.1.
  Proof.
    intros H. destruct (sv_message _ _ _ _ H) as (m & Hm & Hin). destruct (message_decls m Hin) as (M1 & M2 & M3 & M4 & M5).
    unfold sending, op_message, op_correlated. rewrite !(message_at_op _ o m) by done. cbn [fmap option_fmap option_map mbind option_bind gop_channel].
    rewrite op_name_it by apply H. eexists. split; [reflexivity|]. cbn [fst snd]. split.
    - intros Hd. uses.
      + done.
      + apply context_backed.
      + apply middlewares_backed.
      + done.
      + unfold only. destruct (correlated info m) eqn:C; uses; cbn [backed]; by apply M5.
      + unfold only. destruct (correlated info m) eqn:C; uses. cbn [backed]. by apply M5.
      + by apply params_backed.
    - exists m. split; [done|]. split; [done|]. inl.
  Qed.

  Lemma sending_reply_ok o r ch rm : served o -> o_reply o = Some r -> r_channel r = Some ch -> ch_messages ch = [rm] -> rm ∈ messages -> has_params info ch = false ->
    exists l, sending ul ud uu info order s (GReply o ch) = Some l /\ (l.1 ⊆ ds -> Forall (backed ds) l.2) /\
    DeclMethod c ("Send" +:+ preposition s +:+ "ReplyTo" +:+ o_name o) (TyCtx :: (if no_address info ch then [TyText] else []) ++ [TyName (type_of rm)]) [TyError] ∈ l.1.
  Proof.
    intros H Hr Hc Hm Hin Hp. destruct (message_decls rm Hin) as (M1 & M2 & M3 & M4 & M5).
    unfold sending, op_message, op_correlated. rewrite !(message_at_reply _ o ch rm) by done. cbn [fmap option_fmap option_map mbind option_bind gop_channel].
    rewrite reply_name_it by apply H. eexists. split; [reflexivity|]. cbn [fst snd]. split.
    - intros Hd. uses.
      + done.
      + apply context_backed.
      + apply middlewares_backed.
      + done.
      + unfold only. destruct (correlated info rm) eqn:C; uses; cbn [backed]; by apply M5.
      + unfold only. destruct (correlated info rm) eqn:C; uses. cbn [backed]. by apply M5.
      + unfold params_use. rewrite Hp. constructor.
    - unfold params_arg. rewrite Hp. inl.
  Qed.

  Lemma answering_ok o : served o ->
    (forall r ch rm, o_reply o = Some r -> r_channel r = Some ch -> ch_messages ch = [rm] ->
      DeclMethod c ("Send" +:+ preposition s +:+ "ReplyTo" +:+ o_name o) (TyCtx :: (if no_address info ch then [TyText] else []) ++ [TyName (type_of rm)]) [TyError] ∈ ds) ->
    exists l, answering ul ud uu info order s o = Some l /\ (l.1 ⊆ ds -> Forall (backed ds) l.2).
  Proof.
    intros H Hs. destruct (sv_message _ _ _ _ H) as (m & Hm & Hin). destruct (message_decls m Hin) as (M1 & M2 & M3 & M4 & M5).
    unfold answering. destruct (o_reply o) as [r|] eqn:Er; [|eexists; split; [reflexivity|constructor]].
    destruct (sv_reply _ _ _ _ H r Er) as (ch & rm & Ec & Em & Hrm & Hp & Ha & _ & Hcor). rewrite Ec.
    destruct (message_decls rm Hrm) as (R1 & R2 & R3 & R4 & R5).
    unfold op_message, op_correlated. rewrite !(message_at_op _ o m) by done. rewrite !(message_at_reply _ o ch rm) by done.
    cbn [fmap option_fmap option_map mbind option_bind].
    rewrite op_name_it by apply H. eexists. split; [reflexivity|]. cbn [fst snd]. intros Hd. uses.
    - done.
    - done.
    - done.
    - unfold only. destruct (correlated info m) eqn:C; uses; cbn [backed].
      + by apply R5, (Hcor m).
      + by apply M5.
      + by apply M5.
    - cbn [backed]. rewrite <- Ha. by apply (Hs r ch rm).
  Qed.

  Lemma requesting_ok o : served o ->
    (forall m, only_message o m -> DeclMethod c ("Send" +:+ preposition s +:+ o_name o)
      (TyCtx :: params_arg ul ud uu info (o_channel o) ++ (if no_address info (o_channel o) then [TyText] else []) ++ [TyName (type_of m)]) [TyError] ∈ ds) ->
    exists l, requesting ul ud uu info order s o = Some l /\ (l.1 ⊆ ds -> Forall (backed ds) l.2).
  Proof.
    intros H Hs. destruct (sv_message _ _ _ _ H) as (m & Hm & Hin). destruct (message_decls m Hin) as (M1 & M2 & M3 & M4 & M5).
    unfold requesting. destruct (o_reply o) as [r|] eqn:Er; [|eexists; split; [reflexivity|constructor]].
    destruct (sv_reply _ _ _ _ H r Er) as (ch & rm & Ec & Em & Hrm & Hp & Ha & Hna & Hcor). rewrite Ec.
    destruct (message_decls rm Hrm) as (R1 & R2 & R3 & R4 & R5).
    unfold op_message, op_correlated, channel_message. rewrite !(message_at_op _ o m) by done. rewrite !(order_one _ ch rm) by done.
    cbn [fmap option_fmap option_map mbind option_bind channel_get_message head gop_channel].
    rewrite op_name_it by apply H. eexists. split; [reflexivity|]. cbn [fst snd]. intros Hd. specialize (Hs m Hm). rewrite Hna in Hs. cbn [app] in Hs. uses.
    - done.
    - done.
    - apply context_backed.
    - apply middlewares_backed.
    - done.
    - cbn [backed]. apply Hd. inl.
    - by apply params_backed.
    - unfold only. destruct (correlated info m) eqn:C; uses; cbn [backed]; by apply M5.
    - unfold only. destruct (correlated info m) eqn:C; uses; cbn [backed]; by apply M5.
    - unfold only. destruct (correlated info m) eqn:C; uses; cbn [backed].
      + done.
      + by apply M5.
      + by apply R5, (Hcor m).
    - done.
  Qed.

  Lemma handler_ok o : served o -> exists l, handler_decl ul ud uu info order s (GOp o) = Some l /\ Forall (backed ds) l.2 /\
    exists m, only_message o m /\ DeclMethod (prefix s +:+ "Subscriber") (o_name o +:+ "Received") [TyCtx; TyName (type_of m)] [TyError] ∈ l.1.
  Proof.
    intros H. destruct (sv_message _ _ _ _ H) as (m & Hm & Hin). destruct (message_decls m Hin) as (M1 & M2 & M3 & M4 & M5).
    unfold handler_decl, op_message. rewrite !(message_at_op _ o m) by done. cbn [fmap option_fmap option_map mbind option_bind].
    rewrite op_name_it by apply H. eexists. split; [reflexivity|]. cbn [fst snd]. split; [by uses|]. exists m. split; [done|inl].
  Qed.

  Lemma subscribe_one_ok o : served o ->
    (forall m, only_message o m ->
      DeclMethod (prefix s +:+ "Subscriber") (o_name o +:+ "Received") [TyCtx; TyName (type_of m)] [TyError] ∈ ds /\
      DeclMethod c ("SubscribeTo" +:+ o_name o) (TyCtx :: params_arg ul ud uu info (o_channel o) ++ [TyHandler (type_of m)]) [TyError] ∈ ds /\
      DeclMethod c ("UnsubscribeFrom" +:+ o_name o) (TyCtx :: params_arg ul ud uu info (o_channel o)) [] ∈ ds) ->
    exists l, subscribe_one ul ud uu info order s (GOp o) = Some l /\ Forall (backed ds) l.
  Proof.
    intros H Hd. destruct (sv_message _ _ _ _ H) as (m & Hm & Hin). destruct (Hd m Hm) as (D1 & D2 & D3).
    unfold subscribe_one. cbn [gop_channel]. destruct (has_params _ _) eqn:E; [eexists; split; [reflexivity|constructor]|].
    unfold op_message. rewrite !(message_at_op _ o m) by done. cbn [fmap option_fmap option_map mbind option_bind].
    rewrite op_name_it by apply H. eexists. split; [reflexivity|]. unfold params_arg in D2, D3. rewrite E in D2, D3. uses; done.
  Qed.
End package.

(** ** The code of a side *)
Section side.
  Variable ul ud : N -> bool.
  Variable uu : N -> bytes.
  Variable info : details.
  Variable order : nat -> channel -> list nat.
  Hypothesis perm : forall site ch, order site ch ≡ₚ ch_messages ch.
  Variable cs : list named_channel.
  Variable messages : list nat.
  Variable schemas : list string.
  Variable ops : list (string * operation).
  Hypothesis Nops : NoDup ops.*1.
  Hypothesis Hops : Forall (fun ko => served info cs messages ko.2) ops.
  Local Notation served := (served info cs messages).
  Local Notation types := (types_code ul ud uu info cs messages schemas).

  Lemma ops_served k o : (k, o) ∈ ops -> served o.
  Proof. intros H. rewrite Forall_forall in Hops. by apply (Hops (k, o)). Qed.
  Lemma ops_plain : no_reference ops.
  Proof. intros k o H. eapply sv_plain. by eapply ops_served. Qed.

  (** What a side receives and sends. *)
  Definition in_gop (g : gop) : Prop :=
    match g with
    | GOp o => served o
    | GReply o ch => served o /\ exists r, o_reply o = Some r /\ r_channel r = Some ch
    end.
  Lemma received_op s kg : kg ∈ map_to_list (receive (new_action_operations s ops)) -> exists o, kg.2 = GOp o /\ (kg.1, o) ∈ ops /\ receives s o.
  Proof.
    destruct kg as [k g]. rewrite elem_of_map_to_list, receive_maps, receive_spec; [|done|apply ops_plain]. intros (o & ? & ? & ->). eauto.
  Qed.
  Lemma sent_op s kg : kg ∈ map_to_list (send (new_action_operations s ops)) -> in_gop kg.2.
  Proof.
    destruct kg as [k g]. rewrite elem_of_map_to_list, send_maps. intros H. apply send_sound in H; [|apply ops_plain].
    destruct H as [(o & Ho & _ & ->)|(k' & o & ch & Ho & _ & (r & Hr & Hc) & _ & ->)]; cbn; [by eapply ops_served|].
    split; [by eapply ops_served|]. exists r. unfold follow in Hr. by rewrite (ops_plain _ _ Ho) in Hr.
  Qed.

  Lemma answering_some s o : served o -> is_Some (answering ul ud uu info order s o).
  Proof.
    intros H. destruct (sv_message _ _ _ _ H) as (m & Hm & _). unfold answering. destruct (o_reply o) as [r|] eqn:Er; [|done].
    destruct (sv_reply _ _ _ _ H r Er) as (ch & rm & Ec & Em & _). rewrite Ec. unfold op_message, op_correlated.
    rewrite !(message_at_op order perm _ o m) by done. rewrite !(message_at_reply order perm _ o ch rm) by done. done.
  Qed.
  Lemma requesting_some s o : served o -> is_Some (requesting ul ud uu info order s o).
  Proof.
    intros H. destruct (sv_message _ _ _ _ H) as (m & Hm & _). unfold requesting. destruct (o_reply o) as [r|] eqn:Er; [|done].
    destruct (sv_reply _ _ _ _ H r Er) as (ch & rm & Ec & Em & _). rewrite Ec. unfold op_message, op_correlated, channel_message.
    rewrite !(message_at_op order perm _ o m) by done. rewrite !(order_one order perm _ ch rm) by done. done.
  Qed.
  Lemma message_some site g : in_gop g -> is_Some (message_at order site g).
  Proof.
    destruct g as [o|o ch]; cbn [in_gop].
    - intros H. destruct (sv_message _ _ _ _ H) as (m & Hm & _). by rewrite (message_at_op order perm _ o m).
    - intros (H & r & Er & Ec). destruct (sv_reply _ _ _ _ H r Er) as (ch' & rm & Ec' & Em & _). rewrite Ec in Ec'. injection Ec' as <-.
      by rewrite (message_at_reply order perm _ o ch rm).
  Qed.
  Lemma receiving_some s o : served o -> is_Some (receiving ul ud uu info order s (GOp o)).
  Proof.
    intros H. cbn [receiving]. unfold listening, op_message, op_correlated.
    destruct (sv_message _ _ _ _ H) as (m & Hm & _). rewrite !(message_at_op order perm _ o m) by done. cbn [fmap option_fmap option_map mbind option_bind].
    destruct (answering_some s o H) as [l ->]. done.
  Qed.
  Lemma emitting_some s g : in_gop g -> is_Some (emitting ul ud uu info order s g).
  Proof.
    intros H. destruct (message_some 9 g H) as [m9 E9]. destruct (message_some 10 g H) as [m10 E10]. destruct (message_some 11 g H) as [m11 E11].
    destruct g as [o|o ch]; cbn [emitting]; unfold sending, op_message, op_correlated; rewrite E9, E10, E11; cbn [fmap option_fmap option_map mbind option_bind]; [|done].
    destruct (requesting_some s o H) as [l ->]. done.
  Qed.

  Lemma mapM_some {A B} (f : A -> option B) l : (forall a, a ∈ l -> is_Some (f a)) -> is_Some (mapM f l).
  Proof. intros H. apply mapM_is_Some. by apply Forall_forall. Qed.
  Lemma mapM_in {A B} (f : A -> option B) l r b : mapM f l = Some r -> b ∈ r -> exists a, a ∈ l /\ f a = Some b.
  Proof. intros E H. apply mapM_Some in E. apply elem_of_list_lookup in H as (i & Hi). destruct (Forall2_lookup_r _ _ _ _ _ E Hi) as (a & Ha & Hf). apply elem_of_list_lookup_2 in Ha. eauto. Qed.
  Lemma mapM_at {A B} (f : A -> option B) l r a : mapM f l = Some r -> a ∈ l -> exists b, b ∈ r /\ f a = Some b.
  Proof. intros E H. apply mapM_Some in E. apply elem_of_list_lookup in H as (i & Hi). destruct (Forall2_lookup_l _ _ _ _ _ E Hi) as (b & Hb & Hf). apply elem_of_list_lookup_2 in Hb. eauto. Qed.

  Lemma side_some s : is_Some (side_code ul ud uu info order s ops).
  Proof.
    unfold side_code, subscriber, subscribe_all. cbv zeta. set (ao := new_action_operations s ops).
    assert (Hr : forall kg, kg ∈ map_to_list (receive ao) -> exists o, kg.2 = GOp o /\ served o).
    { intros kg H. apply received_op in H as (o & E & Ho & _). exists o. split; [done|]. by eapply ops_served. }
    destruct (mapM_some (fun kg => handler_decl ul ud uu info order s kg.2) (map_to_list (receive ao))) as [l1 E1].
    { intros kg H. destruct (Hr kg H) as (o & -> & So). destruct (message_some 0 (GOp o) So) as [m Em]. unfold handler_decl, op_message. by rewrite Em. }
    destruct (mapM_some (fun kg => subscribe_one ul ud uu info order s kg.2) (map_to_list (receive ao))) as [l2 E2].
    { intros kg H. destruct (Hr kg H) as (o & -> & So). destruct (message_some 0 (GOp o) So) as [m Em]. unfold subscribe_one, op_message. destruct (has_params _ _); [done|]. by rewrite Em. }
    destruct (mapM_some (fun kg => receiving ul ud uu info order s kg.2) (map_to_list (receive ao))) as [l3 E3].
    { intros kg H. destruct (Hr kg H) as (o & -> & So). by apply receiving_some. }
    destruct (mapM_some (fun kg => emitting ul ud uu info order s kg.2) (map_to_list (send ao))) as [l4 E4].
    { intros kg H. apply emitting_some. by eapply sent_op. }
    unfold code in *. rewrite E1. cbn [mbind option_bind]. rewrite E2. cbn [mbind option_bind]. rewrite E3. cbn [mbind option_bind]. rewrite E4. done.
  Qed.

  Lemma side_backed s l ds : no_clash s ops -> side_code ul ud uu info order s ops = Some l -> types.1 ⊆ ds -> l.1 ⊆ ds -> Forall (backed ds) l.2.
  Proof.
    intros Hc E Ht Hl. unfold side_code, subscriber, subscribe_all in E. cbv zeta in E. set (ao := new_action_operations s ops) in E.
    apply bind_some in E as (sub & Esub & E). apply bind_some in Esub as (hs & Ehs & Esub). injection Esub as <-.
    apply bind_some in E as (all & Eall & E). apply bind_some in Eall as (us & Eus & Eall). injection Eall as <-.
    apply bind_some in E as (rcv & Er & E). apply bind_some in E as (snd & Es & E). injection E as <-.
    set (cnt := (0 <? receive_count ao)%nat) in *.
    match type of Hl with (emit ?p).1 ⊆ _ => set (parts := p) in * end.
    assert (In : forall p d, p ∈ parts -> d ∈ p.1 -> d ∈ ds) by (intros p d Hp Hd; apply Hl, emit_decl; eauto).
    assert (Hb : (controller_base s ao).1 ⊆ ds) by (intros d; apply In; subst parts; right; left).
    assert (Hsnd : forall p, p ∈ snd -> p.1 ⊆ ds) by (intros p Hp d; apply In; subst parts; do 3 right; apply elem_of_app; by right).
    assert (Hrcv : forall p, p ∈ rcv -> p.1 ⊆ ds) by (intros p Hp d; apply In; subst parts; do 3 right; apply elem_of_app; by left).
    assert (Two : forall a b : code, (emit [a; b]).1 ⊆ ds -> a.1 ⊆ ds /\ b.1 ⊆ ds).
    { intros a b H. split; intros d Hd; apply H, emit_decl; [exists a|exists b]; (split; [|done]); [left|right; left]. }
    assert (TwoU : forall a b : code, Forall (backed ds) a.2 -> Forall (backed ds) b.2 -> Forall (backed ds) (emit [a; b]).2).
    { intros a b Ha Hb'. apply Forall_forall. intros u Hu. apply emit_use in Hu as (x & Hx & Hu). rewrite Forall_forall in Ha, Hb'.
      apply elem_of_cons in Hx as [->|Hx]; [by apply Ha|]. apply elem_of_list_singleton in Hx as ->. by apply Hb'. }
    (* what is received *)
    assert (Hcnt : forall kg, kg ∈ map_to_list (receive ao) -> cnt = true).
    { intros [k g] H. subst cnt. apply Nat.ltb_lt. destruct (receive_count ao) eqn:E0; [|lia]. exfalso.
      subst ao. rewrite receive_count_size in E0 by done. apply map_size_empty_iff in E0. rewrite elem_of_map_to_list in H. by rewrite E0 in H. }
    (* the replies are sent *)
    assert (Hreply : forall k o r ch rm, (k, o) ∈ ops -> receives s o -> o_reply o = Some r -> r_channel r = Some ch -> ch_messages ch = [rm] ->
      DeclMethod (controller_name s) ("Send" +:+ preposition s +:+ "ReplyTo" +:+ o_name o) (TyCtx :: (if no_address info ch then [TyText] else []) ++ [TyName (type_of ul ud uu info rm)]) [TyError] ∈ ds).
    { intros k o r ch rm Ho Hs Hr Hch Hm. pose proof (ops_served _ _ Ho) as So.
      assert (Hsend : send ao !! ch_name ch = Some (GReply o ch)).
      { subst ao. rewrite send_maps. apply (send_complete s ops Nops ops_plain Hc) with k; [done|done|]. exists r. unfold follow. by rewrite (ops_plain _ _ Ho). }
      destruct (mapM_at _ _ _ (ch_name ch, GReply o ch) Es) as (p & Hp & Ep); [by apply elem_of_map_to_list|]. cbn [Datatypes.snd emitting] in Ep.
      destruct (sv_reply _ _ _ _ So r Hr) as (ch' & rm' & Ec' & Em' & Hin & Hpar & _). rewrite Hch in Ec'. injection Ec' as <-. rewrite Hm in Em'. injection Em' as <-.
      destruct (sending_reply_ok ul ud uu info order perm cs messages schemas ds Ht s ao Hb o r ch rm So Hr Hch Hm Hin Hpar) as (q & Eq & _ & Hq).
      rewrite Ep in Eq. injection Eq as <-. by apply (Hsnd p). }
    assert (Hsub : forall k o, (k, GOp o) ∈ map_to_list (receive ao) -> exists m, only_message o m /\
      DeclMethod (prefix s +:+ "Subscriber") (o_name o +:+ "Received") [TyCtx; TyName (type_of ul ud uu info m)] [TyError] ∈ ds /\
      DeclMethod (controller_name s) ("SubscribeTo" +:+ o_name o) (TyCtx :: params_arg ul ud uu info (o_channel o) ++ [TyHandler (type_of ul ud uu info m)]) [TyError] ∈ ds /\
      DeclMethod (controller_name s) ("UnsubscribeFrom" +:+ o_name o) (TyCtx :: params_arg ul ud uu info (o_channel o)) [] ∈ ds).
    { intros k o H. pose proof H as H'. apply received_op in H' as (o' & E & Ho & Hs). injection E as <-. cbn [fst] in Ho. pose proof (ops_served _ _ Ho) as So.
      destruct (mapM_at _ _ _ _ Er H) as (p & Hp & Ep). cbn [Datatypes.snd receiving] in Ep. apply bind_some in Ep as (a & Ea & Ep). apply bind_some in Ep as (b & Eb & Ep). injection Ep as <-.
      destruct (listening_ok ul ud uu info order perm cs messages schemas ds Ht s ao Hb o So) as (q & Eq & _ & m & Hm & _ & D1 & D2).
      rewrite Ea in Eq. injection Eq as <-. destruct (Two a b (Hrcv _ Hp)) as [Ha _].
      destruct (mapM_at _ _ _ _ Ehs H) as (h & Hh & Eh). cbn [Datatypes.snd] in Eh.
      destruct (handler_ok ul ud uu info order perm cs messages schemas ds Ht s o So) as (h' & Eh' & _ & m' & Hm' & D3).
      rewrite Eh in Eh'. injection Eh' as <-. rewrite (only_message_unique o m' m Hm' Hm) in D3.
      exists m. split; [done|]. split; [|split; [by apply Ha|by apply Ha]].
      apply (In (when cnt (emit (([DeclType (prefix s +:+ "Subscriber")], []) :: hs)))); [left|].
      rewrite (Hcnt _ H). cbn [when]. apply emit_decl. exists h. split; [by right|done]. }
    apply Forall_forall. intros u Hu. apply emit_use in Hu as (p & Hp & Hu). subst parts.
    apply elem_of_cons in Hp as [->|Hp]; [|apply elem_of_cons in Hp as [->|Hp]; [|apply elem_of_cons in Hp as [->|Hp]; [|apply elem_of_app in Hp as [Hp|Hp]]]].
    - (* the subscriber *)
      unfold when in Hu. destruct cnt; [|by apply elem_of_nil in Hu]. apply emit_use in Hu as (p & Hp & Hu). apply elem_of_cons in Hp as [->|Hp]; [by apply elem_of_nil in Hu|].
      destruct (mapM_in _ _ _ _ Ehs Hp) as (kg & Hkg & Eh). apply received_op in Hkg as (o & Eg & Ho & _). rewrite Eg in Eh.
      destruct (handler_ok ul ud uu info order perm cs messages schemas ds Ht s o (ops_served _ _ Ho)) as (h' & Eh' & Hf & _).
      rewrite Eh in Eh'. injection Eh' as <-. rewrite Forall_forall in Hf. by apply Hf.
    - (* the base *)
      unfold controller_base in Hu. cbn [Datatypes.snd] in Hu. apply elem_of_app in Hu as [Hu|Hu].
      + repeat (apply elem_of_cons in Hu as [->|Hu]; [cbn [backed]; first [solve [apply Hb; unfold controller_base; cbn [fst]; repeat (first [apply elem_of_list_here|apply elem_of_list_further])]
          |apply (fixed_in ul ud uu info cs messages schemas ds Ht); repeat (first [apply elem_of_list_here|apply elem_of_list_further])]|]). by apply elem_of_nil in Hu.
      + fold cnt in Hu. destruct cnt eqn:Ecnt; [|by apply elem_of_nil in Hu]. apply elem_of_list_singleton in Hu as ->. cbn [backed].
        eapply In; [right; right; left|]. unfold when. cbn [fst]. right. left.
    - (* all channels *)
      unfold when in Hu. destruct cnt eqn:Ecnt; [|by apply elem_of_nil in Hu]. cbn [Datatypes.snd] in Hu. apply elem_of_cons in Hu as [->|Hu].
      + cbn [backed]. eapply In; [left|]. cbn [when]. apply emit_decl. eexists. split; [left|]. left.
      + apply elem_of_list_In, in_concat in Hu as (v & Hv & Hu). apply elem_of_list_In in Hv, Hu. destruct (mapM_in _ _ _ _ Eus Hv) as ([k g] & Hkg & Ev).
        pose proof Hkg as Hkg'. apply received_op in Hkg' as (o & Eg & Ho & _). cbn [Datatypes.snd fst] in *. subst g.
        destruct (Hsub _ _ Hkg) as (m & Hm & D).
        destruct (subscribe_one_ok ul ud uu info order perm cs messages ds s o (ops_served _ _ Ho)) as (v' & Ev' & Hf).
        { intros m' Hm'. by rewrite (only_message_unique o m' m). }
        rewrite Ev in Ev'. injection Ev' as <-. rewrite Forall_forall in Hf. by apply Hf.
    - (* receptions *)
      destruct (mapM_in _ _ _ _ Er Hp) as ([k g] & Hkg & Ep). pose proof Hkg as Hkg'. apply received_op in Hkg' as (o & Eg & Ho & Hs). cbn [Datatypes.snd fst] in *. subst g.
      pose proof (ops_served _ _ Ho) as So. cbn [receiving] in Ep. apply bind_some in Ep as (a & Ea & Ep). apply bind_some in Ep as (b & Eb & Ep). injection Ep as <-.
      destruct (Two a b (Hrcv _ Hp)) as [Ha Hb'].
      destruct (listening_ok ul ud uu info order perm cs messages schemas ds Ht s ao Hb o So) as (q & Eq & Hq & _). rewrite Ea in Eq. injection Eq as <-.
      destruct (answering_ok ul ud uu info order perm cs messages schemas ds Ht s o So) as (q & Eq & Hq'); [intros r ch rm; by apply (Hreply k)|]. rewrite Eb in Eq. injection Eq as <-.
      assert (Hf : Forall (backed ds) (emit [a; b]).2) by (apply TwoU; auto). rewrite Forall_forall in Hf. by apply Hf.
    - (* sendings *)
      destruct (mapM_in _ _ _ _ Es Hp) as ([k g] & Hkg & Ep). pose proof (sent_op _ _ Hkg) as Hg. cbn [Datatypes.snd] in *.
      destruct g as [o|o ch]; cbn [emitting in_gop] in *.
      + apply bind_some in Ep as (a & Ea & Ep). apply bind_some in Ep as (b & Eb & Ep). injection Ep as <-.
        destruct (Two a b (Hsnd _ Hp)) as [Ha Hb'].
        destruct (sending_op_ok ul ud uu info order perm cs messages schemas ds Ht s ao Hb o Hg) as (q & Eq & Hq & m & Hm & _ & D). rewrite Ea in Eq. injection Eq as <-.
        destruct (requesting_ok ul ud uu info order perm cs messages schemas ds Ht s ao Hb o Hg) as (q & Eq & Hq').
        { intros m' Hm'. rewrite (only_message_unique o m' m) by done. by apply Ha. }
        rewrite Eb in Eq. injection Eq as <-.
        assert (Hf : Forall (backed ds) (emit [a; b]).2) by (apply TwoU; auto). rewrite Forall_forall in Hf. by apply Hf.
      + destruct Hg as (So & r & Er' & Ec). destruct (sv_reply _ _ _ _ So r Er') as (ch' & rm & Ec' & Em & Hin & Hpar & _). rewrite Ec in Ec'. injection Ec' as <-.
        destruct (sending_reply_ok ul ud uu info order perm cs messages schemas ds Ht s ao Hb o r ch rm So Er' Ec Em Hin Hpar) as (q & Eq & Hq & _).
        rewrite Ep in Eq. injection Eq as <-. specialize (Hq (Hsnd _ Hp)). rewrite Forall_forall in Hq. by apply Hq.
  Qed.

  Lemma package_backed : no_clash Application ops -> no_clash User ops ->
    exists l, package ul ud uu info order ops cs messages schemas = Some l /\ all_backed l.
  Proof.
    intros Ca Cu. destruct (side_some Application) as [a Ea]. destruct (side_some User) as [b Eb]. unfold package. rewrite Ea, Eb. cbn [mbind option_bind].
    eexists. split; [reflexivity|]. unfold all_backed. set (l := emit _).
    assert (Sub : forall p, p ∈ [a; b; types] -> p.1 ⊆ l.1) by (intros p Hp d Hd; apply emit_decl; eauto).
    apply Forall_forall. intros u Hu. apply emit_use in Hu as (p & Hp & Hu). pose proof (Sub types) as St. specialize (St ltac:(right; right; left)).
    apply elem_of_cons in Hp as [->|Hp]; [|apply elem_of_cons in Hp as [->|Hp]; [|apply elem_of_list_singleton in Hp as ->]].
    - pose proof (side_backed Application a l.1 Ca Ea St (Sub a ltac:(left))) as H. rewrite Forall_forall in H. by apply H.
    - pose proof (side_backed User b l.1 Cu Eb St (Sub b ltac:(right; left))) as H. rewrite Forall_forall in H. by apply H.
    - pose proof (types_backed ul ud uu info cs messages schemas l.1 St) as H. rewrite Forall_forall in H. by apply H.
  Qed.
End side.
