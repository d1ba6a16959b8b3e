(** Nothing is declared twice. *)
From stdpp Require Import gmap list strings.
From Coq Require Import NArith Ascii String.
From Verif.Model Require Import Naming Names Operations Package.
From Verif.Spec Require Import NamingSpec NamesSpec OperationsSpec PackageSpec.
From Verif.Proof Require Import NamingProof NamesProof OperationsProof PackageProof.
Local Open Scope string_scope.
Local Open Scope list_scope.
Local Notation lit := list_ascii_of_string.

(** ** Texts *)
Definition two (s : string) : list ascii := take 2 (reverse (lit s)).
Lemma two_app p e : (2 <= List.length (lit e))%nat -> two (p +:+ e) = two e.
Proof. intros H. unfold two. rewrite lit_app, reverse_app, take_app_le; [done|]. by rewrite reverse_length. Qed.
Lemma app_inj_r a b e : a +:+ e = b +:+ e -> a = b.
Proof. intros H. apply (f_equal lit) in H. rewrite !lit_app in H. apply app_inv_tail in H. by apply NamesProof.lit_inj. Qed.
Lemma app_inj_l a b e : e +:+ a = e +:+ b -> a = b.
Proof. apply (inj (String.append e)). Qed.

Lemma nodup_concat {A B} (f : A -> list B) l : NoDup l -> (forall a, a ∈ l -> NoDup (f a)) ->
  (forall a b x, a ∈ l -> b ∈ l -> x ∈ f a -> x ∈ f b -> a = b) -> NoDup (List.concat (map f l)).
Proof.
  induction l as [|a l IH]; intros N H D; [constructor|]. apply NoDup_cons in N as [Na N]. cbn. apply NoDup_app. split; [apply H; left|]. split.
  - intros x Hx Hl. apply elem_of_list_In, in_concat in Hl as (y & Hy & Hx'). apply in_map_iff in Hy as (b & <- & Hb). apply elem_of_list_In in Hb, Hx'.
    apply Na. rewrite (D a b x); [done|left|by right|done|done].
  - apply IH; [done|intros; apply H; by right|intros; eapply D; [by right|by right|done|done]].
Qed.
Lemma nodup_map_inj {A B} (f : A -> B) l a b : NoDup (map f l) -> a ∈ l -> b ∈ l -> f a = f b -> a = b.
Proof.
  induction l as [|x l IH]; [by intros _ H%elem_of_nil|]. cbn. intros [Nx N]%NoDup_cons Ha Hb E.
  apply elem_of_cons in Ha as [->|Ha], Hb as [->|Hb]; [done| | |by apply IH].
  - destruct Nx. rewrite E. apply elem_of_list_fmap. eauto.
  - destruct Nx. rewrite <- E. apply elem_of_list_fmap. eauto.
Qed.
Lemma nodup_of_map {A B} (f : A -> B) l : NoDup (map f l) -> NoDup l.
Proof. apply (NoDup_fmap_1 f). Qed.

Definition nm (c : code) : list (option string * string) := map declared_name c.1.
Lemma emit_names cs : nm (emit cs) = List.concat (map nm cs).
Proof. unfold nm, emit. cbn [fst]. rewrite <- map_concat || rewrite concat_map. by rewrite map_map. Qed.

Section once.
  Variable ul ud : N -> bool.
  Variable uu : N -> bytes.
  Variable info : details.
  Variable order : nat -> channel -> list nat.
  Variable ops : list (string * operation).
  Variable cs : list named_channel.
  Variable messages : list nat.
  Variable schemas : list string.
  Hypothesis Nops : NoDup ops.*1.
  Hypothesis Apart : named_apart info ops cs messages schemas.
  Local Notation T := (type_names info messages schemas).

  Lemma refs : no_reference ops.
  Proof. intros k o H. by destruct (na_operation _ _ _ _ _ Apart k o H). Qed.
  Lemma word_not_brace c : word_char c -> Ascii.eqb c "{"%char = false.
  Proof. intros H. apply Ascii.eqb_neq. intros ->. revert H. apply (bool_decide_unpack _). vm_compute. exact I. Qed.
  Lemma remove_words s : Forall word_char s -> remove_params s = s.
  Proof. unfold remove_params. induction 1 as [|c r Hc Hr IH]; [done|]. cbn. rewrite word_not_brace by done. by rewrite IH. Qed.
  Lemma without_exported s : exported_text s -> name_without_params ul ud uu s = s.
  Proof.
    intros H. unfold name_without_params, namify_without_params. rewrite remove_words by by apply exported_words. by apply name_it_exported.
  Qed.

  (** ** A side *)
  Definition rnames (s : side) (o : operation) : list (option string * string) :=
    let c := Some (controller_name s) in
    [(c, "SubscribeTo" +:+ o_name o); (c, "listenTo" +:+ o_name o +:+ "NextMessage"); (c, "UnsubscribeFrom" +:+ o_name o)]
      ++ match o_reply o with Some _ => [(c, "ReplyTo" +:+ o_name o)] | None => [] end.
  Definition gname (g : gop) : string := match g with GOp o => o_name o | GReply o _ => "ReplyTo" +:+ o_name o end.
  Definition snames (s : side) (g : gop) : list (option string * string) :=
    let c := Some (controller_name s) in
    (c, "Send" +:+ preposition s +:+ gname g)
      :: match g with
         | GOp o => match o_reply o with Some _ => [(c, "Request" +:+ preposition s +:+ gname g); (c, "waitFor" +:+ gname g +:+ "NextResponse")] | None => [] end
         | GReply _ _ => []
         end.
  Ltac steps E := repeat match type of E with mbind _ _ = Some _ => let x := fresh "x" in let H := fresh "H" in apply bind_some in E as (x & H & E) end.
  Lemma receiving_names s o p : o_refers o = None -> exported_text (o_name o) -> receiving ul ud uu info order s (GOp o) = Some p -> nm p = rnames s o.
  Proof.
    intros P X E. cbn [receiving] in E. apply bind_some in E as (a & Ea & E). apply bind_some in E as (b & Eb & E). injection E as <-.
    pose proof (op_name_it ul ud uu o X P) as Ho. cbn [gop_name] in Ho.
    unfold listening in Ea. steps Ea. injection Ea as <-. unfold answering in Eb.
    unfold rnames. destruct (o_reply o) as [r|]; [destruct (r_channel r); [|done]|]; steps Eb; injection Eb as <-; rewrite emit_names; cbn [gop_name]; rewrite !Ho; done.
  Qed.

  (** What a side can send. *)
  Definition in_side (kg : string * gop) : Prop :=
    match kg.2 with
    | GOp o => (kg.1, o) ∈ ops
    | GReply o ch => kg.1 = ch_name ch /\ (exists k, (k, o) ∈ ops) /\ exists r, o_reply o = Some r /\ r_channel r = Some ch
    end.
  Lemma emitting_names s kg p : in_side kg -> emitting ul ud uu info order s kg.2 = Some p -> nm p = snames s kg.2.
  Proof.
    destruct kg as [k [o|o ch]]; cbn [snd in_side]; unfold in_side; cbn [fst snd]; intros Hin E; cbn [emitting] in E.
    - destruct (na_operation _ _ _ _ _ Apart k o Hin) as (P & X & _). pose proof (op_name_it ul ud uu o X P) as Ho. cbn [gop_name] in Ho.
      apply bind_some in E as (a & Ea & E). apply bind_some in E as (b & Eb & E). injection E as <-.
      unfold sending in Ea. steps Ea. injection Ea as <-. unfold requesting in Eb.
      unfold snames. cbn [gname]. destruct (o_reply o) as [r|]; [destruct (r_channel r); [|done]|]; steps Eb; injection Eb as <-; rewrite emit_names; cbn [gop_name]; rewrite !Ho; done.
    - destruct Hin as (_ & (k' & Hin) & _). destruct (na_operation _ _ _ _ _ Apart k' o Hin) as (P & X & _). pose proof (reply_name_it ul ud uu o ch X P) as Ho.
      unfold sending in E. steps E. rewrite Ho in E. injection E as <-. done.
  Qed.
  Lemma received s kg : kg ∈ map_to_list (receive (new_action_operations s ops)) -> exists o, kg.2 = GOp o /\ (kg.1, o) ∈ ops.
  Proof.
    destruct kg as [k g]. rewrite elem_of_map_to_list, receive_maps, receive_spec; [|done|apply refs]. intros (o & ? & ? & ->). eauto.
  Qed.
  Lemma sent s kg : kg ∈ map_to_list (send (new_action_operations s ops)) -> in_side kg.
  Proof.
    destruct kg as [k g]. rewrite elem_of_map_to_list, send_maps. intros H. apply send_sound in H; [|apply refs]. unfold in_side. cbn [fst snd].
    destruct H as [(o & Ho & _ & ->)|(k' & o & ch & Ho & _ & (r & Hr & Hc) & Ek & ->)]; [done|].
    split; [done|]. split; [eauto|]. exists r. unfold follow in Hr. by rewrite (refs _ _ Ho) in Hr.
  Qed.
  Lemma same_op k o k' o' : (k, o) ∈ ops -> (k', o') ∈ ops -> o_name o = o_name o' -> (k, o) = (k', o').
  Proof. intros H H' E. exact (nodup_map_inj _ _ _ _ (na_operations _ _ _ _ _ Apart) H H' E). Qed.
  Lemma same_gop kg kg' : in_side kg -> in_side kg' -> gname kg.2 = gname kg'.2 -> kg = kg'.
  Proof.
    destruct kg as [k [o|o ch]], kg' as [k' [o'|o' ch']]; unfold in_side; cbn [fst snd gname]; intros H H' E.
    - by injection (same_op _ _ _ _ H H' E) as -> ->.
    - destruct H' as (_ & (k2 & H') & _). by destruct (na_replies _ _ _ _ _ Apart _ _ _ _ H H').
    - destruct H as (_ & (k2 & H) & _). by destruct (na_replies _ _ _ _ _ Apart _ _ _ _ H' H).
    - apply app_inj_l in E. destruct H as (-> & (k1 & H) & r & Er & Ec), H' as (-> & (k2 & H') & r' & Er' & Ec').
      injection (same_op _ _ _ _ H H' E) as -> ->. rewrite Er in Er'. injection Er' as <-. rewrite Ec in Ec'. by injection Ec' as <-.
  Qed.
  Lemma op_not_all k o : (k, o) ∈ ops -> o_name o <> "AllChannels".
  Proof. intros H E. destruct (na_operation _ _ _ _ _ Apart k o H) as (_ & _ & p & Ep). assert (E2 : two (p +:+ "Operation") = two "AllChannels") by congruence. rewrite two_app in E2; [done|cbn; lia]. Qed.

  Definition side_fixed (s : side) : list (option string * string) :=
    let c := controller_name s in
    [(None, c); (None, "New" +:+ c); (Some c, "wrapMiddlewares"); (Some c, "executeMiddlewares"); (None, "add" +:+ prefix s +:+ "ContextValues"); (Some c, "Close")].
  Definition subscriber_names (s : side) (l : list (string * gop)) : list (option string * string) :=
    (None, prefix s +:+ "Subscriber") :: map (fun kg => (Some (prefix s +:+ "Subscriber"), gname kg.2 +:+ "Received")) l.
  Definition all_names (s : side) : list (option string * string) :=
    [(Some (controller_name s), "SubscribeToAllChannels"); (Some (controller_name s), "UnsubscribeFromAllChannels")].
  Definition rn s (kg : string * gop) := match kg.2 with GOp o => rnames s o | GReply _ _ => [] end.
  Lemma mapM_names {A} (f : A -> option code) (g : A -> list (option string * string)) l r :
    mapM f l = Some r -> (forall a p, a ∈ l -> f a = Some p -> nm p = g a) -> map nm r = map g l.
  Proof.
    intros E H. apply mapM_Some in E. induction E as [|a b l r Hab E IH]; [done|]. cbn. rewrite (H a b ltac:(left) Hab). f_equal. apply IH. intros; apply H; [by right|done].
  Qed.
  Lemma concat_map_one {A B} (f : A -> B) l : List.concat (map (fun a => [f a]) l) = map f l.
  Proof. induction l; [done|]. cbn. by f_equal. Qed.
  Lemma side_names s c : side_code ul ud uu info order s ops = Some c ->
    let ao := new_action_operations s ops in let b := (0 <? receive_count ao)%nat in
    nm c = only b (subscriber_names s (map_to_list (receive ao))) ++ side_fixed s ++ only b (all_names s)
      ++ List.concat (map (rn s) (map_to_list (receive ao))) ++ List.concat (map (fun kg => snames s kg.2) (map_to_list (send ao))).
  Proof.
    intros E. cbv zeta. unfold side_code, subscriber, subscribe_all in E. cbv zeta in E. set (ao := new_action_operations s ops) in *.
    apply bind_some in E as (sub & Esub & E). apply bind_some in Esub as (hs & Ehs & Esub). injection Esub as <-.
    apply bind_some in E as (all & Eall & E). apply bind_some in Eall as (us & Eus & Eall). injection Eall as <-.
    apply bind_some in E as (rcv & Er & E). apply bind_some in E as (snd & Es & E). injection E as <-.
    rewrite emit_names. cbn [map List.concat]. rewrite map_app, concat_app.
    apply (f_equal2 app); [|apply (f_equal2 app); [|apply (f_equal2 app); [|apply (f_equal2 app)]]].
    - destruct (0 <? receive_count ao)%nat; [|done]. cbn [when only]. rewrite emit_names. cbn [map List.concat].
      rewrite (mapM_names _ (fun kg => [(Some (prefix s +:+ "Subscriber"), gname kg.2 +:+ "Received")]) _ _ Ehs); [by rewrite concat_map_one|].
      intros [k g] p Hin Hp. apply received in Hin as (o & Eg & Ho). cbn [Datatypes.snd fst] in *. subst g.
      destruct (na_operation _ _ _ _ _ Apart k o Ho) as (P & X & _). unfold handler_decl in Hp. steps Hp. rewrite op_name_it in Hp by done. by injection Hp as <-.
    - done.
    - by destruct (0 <? receive_count ao)%nat.
    - f_equal. apply (mapM_names _ _ _ _ Er). intros [k g] p Hin Hp. apply received in Hin as (o & Eg & Ho). cbn [Datatypes.snd fst] in *. subst g.
      destruct (na_operation _ _ _ _ _ Apart k o Ho) as (P & X & _). by apply receiving_names.
    - f_equal. apply (mapM_names _ _ _ _ Es). intros kg p Hin Hp. eapply emitting_names; [|done]. by eapply sent.
  Qed.

  (** The elements of each group. *)
  Lemma in_rn s x l : (forall kg, kg ∈ l -> exists o, kg.2 = GOp o /\ (kg.1, o) ∈ ops) -> x ∈ List.concat (map (rn s) l) -> exists k o, (k, o) ∈ ops /\ x ∈ rnames s o.
  Proof.
    intros Hl H. apply elem_of_list_In, in_concat in H as (y & Hy & Hx). apply in_map_iff in Hy as (kg & <- & Hkg). apply elem_of_list_In in Hkg, Hx.
    destruct (Hl kg Hkg) as (o & E & Ho). unfold rn in Hx. rewrite E in Hx. eauto.
  Qed.
  Lemma in_sn s x l : (forall kg, kg ∈ l -> in_side kg) -> x ∈ List.concat (map (fun kg => snames s kg.2) l) -> exists kg, in_side kg /\ x ∈ snames s kg.2.
  Proof.
    intros Hl H. apply elem_of_list_In, in_concat in H as (y & Hy & Hx). apply in_map_iff in Hy as (kg & <- & Hkg). apply elem_of_list_In in Hkg, Hx. eauto.
  Qed.
  Lemma in_rnames s o x : x ∈ rnames s o -> exists n, x = (Some (controller_name s), n) /\
    (n = "SubscribeTo" +:+ o_name o \/ n = "listenTo" +:+ o_name o +:+ "NextMessage" \/ n = "UnsubscribeFrom" +:+ o_name o \/ n = "ReplyTo" +:+ o_name o).
  Proof.
    unfold rnames. intros H. repeat (apply elem_of_cons in H as [->|H]; [eexists; split; [reflexivity|tauto]|]).
    destruct (o_reply o); [|by apply elem_of_nil in H]. apply elem_of_list_singleton in H as ->. eexists. split; [reflexivity|tauto].
  Qed.
  Lemma in_snames s g x : x ∈ snames s g -> exists n, x = (Some (controller_name s), n) /\
    (n = "Send" +:+ preposition s +:+ gname g \/ n = "Request" +:+ preposition s +:+ gname g \/ n = "waitFor" +:+ gname g +:+ "NextResponse").
  Proof.
    unfold snames. intros H. apply elem_of_cons in H as [->|H]; [eexists; split; [reflexivity|tauto]|].
    destruct g as [o|o ch]; [|by apply elem_of_nil in H]. destruct (o_reply o); [|by apply elem_of_nil in H].
    repeat (apply elem_of_cons in H as [->|H]; [eexists; split; [reflexivity|tauto]|]). by apply elem_of_nil in H.
  Qed.
  Lemma in_only {A} b (l : list A) x : x ∈ only b l -> x ∈ l.
  Proof. destruct b; [done|]. by intros H%elem_of_nil. Qed.
  Lemma nodup_only {A} b (l : list A) : NoDup l -> NoDup (only b l).
  Proof. destruct b; [done|]. constructor. Qed.
  Ltac clash := match goal with
    | H : _ = _ |- _ => exfalso; discriminate H
    end.

  Lemma rn_once s : NoDup (List.concat (map (rn s) (map_to_list (receive (new_action_operations s ops))))).
  Proof.
    apply nodup_concat; [apply NoDup_map_to_list| |].
    - intros kg H. destruct (received s kg H) as (o & E & _). unfold rn, rnames. rewrite E.
      destruct (o_reply o); cbn; repeat (apply NoDup_cons; split; [|]); try constructor; intros X;
        repeat (apply elem_of_cons in X as [X|X]; [discriminate X|]); by apply elem_of_nil in X.
    - intros kg kg' x H H' Hx Hx'. destruct (received s kg H) as (o & E & Ho), (received s kg' H') as (o' & E' & Ho').
      unfold rn in Hx, Hx'. rewrite E in Hx. rewrite E' in Hx'. destruct (in_rnames _ _ _ Hx) as (n & -> & Hn), (in_rnames _ _ _ Hx') as (n' & En & Hn'). injection En as <-.
      assert (N : o_name o = o_name o').
      { destruct Hn as [->|[->|[->| ->]]], Hn' as [X|[X|[X|X]]]; try clash; apply app_inj_l in X; [done|by apply app_inj_r in X|done|done]. }
      pose proof (same_op _ _ _ _ Ho Ho' N) as S. destruct kg, kg'; cbn in *. congruence.
  Qed.
  Lemma sn_once s : NoDup (List.concat (map (fun kg => snames s kg.2) (map_to_list (send (new_action_operations s ops))))).
  Proof.
    apply nodup_concat; [apply NoDup_map_to_list| |].
    - intros kg H. unfold snames. destruct kg.2 as [o|o ch]; [destruct (o_reply o)|]; repeat (apply NoDup_cons; split; [|]); try constructor; intros X;
        repeat (apply elem_of_cons in X as [X|X]; [discriminate X|]); by apply elem_of_nil in X.
    - intros kg kg' x H H' Hx Hx'. apply sent in H, H'. destruct (in_snames _ _ _ Hx) as (n & -> & Hn), (in_snames _ _ _ Hx') as (n' & En & Hn'). injection En as <-.
      apply same_gop; [done|done|].
      destruct Hn as [->|[->| ->]], Hn' as [X|[X|X]]; try clash; apply app_inj_l in X; [by apply app_inj_l in X|by apply app_inj_l in X|by apply app_inj_r in X].
  Qed.

  Lemma side_once s c : side_code ul ud uu info order s ops = Some c -> NoDup (nm c).
  Proof.
    intros E. rewrite (side_names s c E). cbv zeta. set (ao := new_action_operations s ops). set (b := (0 <? receive_count ao)%nat).
    assert (Rv : forall kg, kg ∈ map_to_list (receive ao) -> exists o, kg.2 = GOp o /\ (kg.1, o) ∈ ops) by apply received.
    assert (Sv : forall kg, kg ∈ map_to_list (send ao) -> in_side kg) by apply sent.
    repeat (apply NoDup_app; split; [|split]).
    - apply nodup_only. unfold subscriber_names. apply NoDup_cons. split.
      + intros H. apply elem_of_list_fmap in H as (kg & X & _). discriminate X.
      + apply (NoDup_fmap_2_strong (fun kg : string * gop => (Some (prefix s +:+ "Subscriber"), gname kg.2 +:+ "Received"))); [|apply NoDup_map_to_list].
        intros kg kg' H H' X. injection X as X. apply app_inj_r in X. destruct (Rv kg H) as (o & Eo & Ho), (Rv kg' H') as (o' & Eo' & Ho').
        rewrite Eo, Eo' in X. cbn [gname] in X. pose proof (same_op _ _ _ _ Ho Ho' X) as Y. destruct kg, kg'; cbn in *. congruence.
    - intros x Hx Hx'. apply in_only in Hx. apply elem_of_cons in Hx as [->|Hx].
      + rewrite !elem_of_app in Hx'. destruct Hx' as [H|[H|[H|H]]].
        * unfold side_fixed in H. destruct s; repeat (apply elem_of_cons in H as [H|H]; [discriminate H|]); by apply elem_of_nil in H.
        * apply in_only in H. repeat (apply elem_of_cons in H as [H|H]; [discriminate H|]); by apply elem_of_nil in H.
        * apply in_rn in H as (k & o & _ & H); [|done]. apply in_rnames in H as (n & X & _). discriminate X.
        * apply in_sn in H as (kg & _ & H); [|done]. apply in_snames in H as (n & X & _). discriminate X.
      + apply elem_of_list_fmap in Hx as (kg & -> & _). rewrite !elem_of_app in Hx'. destruct Hx' as [H|[H|[H|H]]].
        * unfold side_fixed in H. destruct s; repeat (apply elem_of_cons in H as [H|H]; [discriminate H|]); by apply elem_of_nil in H.
        * apply in_only in H. destruct s; repeat (apply elem_of_cons in H as [H|H]; [discriminate H|]); by apply elem_of_nil in H.
        * apply in_rn in H as (k & o & _ & H); [|done]. apply in_rnames in H as (n & X & _). destruct s; discriminate X.
        * apply in_sn in H as (kg' & _ & H); [|done]. apply in_snames in H as (n & X & _). destruct s; discriminate X.
    - destruct s; apply (bool_decide_unpack _); vm_compute; exact I.
    - intros x Hx Hx'. rewrite !elem_of_app in Hx'. destruct Hx' as [H|[H|H]].
      + apply in_only in H. unfold side_fixed in Hx. apply elem_of_cons in H as [->|H]; [|apply elem_of_list_singleton in H as ->];
          destruct s; repeat (apply elem_of_cons in Hx as [Hx|Hx]; [discriminate Hx|]); by apply elem_of_nil in Hx.
      + apply in_rn in H as (k & o & Ho & H); [|done]. apply in_rnames in H as (n & -> & Hn). unfold side_fixed in Hx.
        repeat (apply elem_of_cons in Hx as [Hx|Hx]; [try discriminate Hx; injection Hx as X; subst n; destruct Hn as [X|[X|[X|X]]]; discriminate X|]); by apply elem_of_nil in Hx.
      + apply in_sn in H as (kg & Ho & H); [|done]. apply in_snames in H as (n & -> & Hn). unfold side_fixed in Hx.
        repeat (apply elem_of_cons in Hx as [Hx|Hx]; [try discriminate Hx; injection Hx as X; subst n; destruct Hn as [X|[X|X]]; discriminate X|]); by apply elem_of_nil in Hx.
    - apply nodup_only. destruct s; apply (bool_decide_unpack _); vm_compute; exact I.
    - intros x Hx Hx'. apply in_only in Hx. rewrite elem_of_app in Hx'. destruct Hx' as [H|H].
      + apply in_rn in H as (k & o & Ho & H); [|done]. apply in_rnames in H as (n & -> & Hn). unfold all_names in Hx.
        apply elem_of_cons in Hx as [Hx|Hx]; [|apply elem_of_list_singleton in Hx]; injection Hx as X; subst n; destruct Hn as [X|[X|[X|X]]]; try discriminate X.
        * change "SubscribeToAllChannels" with ("SubscribeTo" +:+ "AllChannels") in X. apply app_inj_l in X. by eapply op_not_all.
        * change "UnsubscribeFromAllChannels" with ("UnsubscribeFrom" +:+ "AllChannels") in X. apply app_inj_l in X. by eapply op_not_all.
      + apply in_sn in H as (kg & Ho & H); [|done]. apply in_snames in H as (n & -> & Hn). unfold all_names in Hx.
        apply elem_of_cons in Hx as [Hx|Hx]; [|apply elem_of_list_singleton in Hx]; injection Hx as X; subst n; destruct Hn as [X|[X|X]]; discriminate X.
    - apply rn_once.
    - intros x H H'. apply in_rn in H as (k & o & Ho & H); [|done]. apply in_rnames in H as (n & -> & Hn).
      apply in_sn in H' as (kg & Hg & H'); [|done]. apply in_snames in H' as (n' & X & Hn'). injection X as <-.
      destruct Hn as [->|[->|[->| ->]]], Hn' as [X|[X|X]]; discriminate X.
    - apply sn_once.
  Qed.

  (** ** What only a side declares *)
  Definition own (s : side) (x : option string * string) : Prop :=
    (x.1 = None /\ x.2 ∈ [prefix s +:+ "Subscriber"; controller_name s; "New" +:+ controller_name s; "add" +:+ prefix s +:+ "ContextValues"]) \/
    x.1 = Some (prefix s +:+ "Subscriber") \/ x.1 = Some (controller_name s).
  Lemma side_own s c x : side_code ul ud uu info order s ops = Some c -> x ∈ nm c -> own s x.
  Proof.
    intros E. rewrite (side_names s c E). cbv zeta. set (ao := new_action_operations s ops).
    assert (Rv : forall kg, kg ∈ map_to_list (receive ao) -> exists o, kg.2 = GOp o /\ (kg.1, o) ∈ ops) by apply received.
    assert (Sv : forall kg, kg ∈ map_to_list (send ao) -> in_side kg) by apply sent.
    rewrite !elem_of_app. intros [H|[H|[H|[H|H]]]].
    - apply in_only in H. apply elem_of_cons in H as [->|H].
      + left. split; [done|]. left.
      + apply elem_of_list_fmap in H as (kg & -> & _). right. by left.
    - unfold side_fixed in H. repeat (apply elem_of_cons in H as [->|H]; [first [right; by right|left; split; [done|]; repeat (first [apply elem_of_list_here|apply elem_of_list_further])]|]). by apply elem_of_nil in H.
    - apply in_only in H. repeat (apply elem_of_cons in H as [->|H]; [right; by right|]). by apply elem_of_nil in H.
    - apply in_rn in H as (k & o & Ho & H); [|done]. apply in_rnames in H as (n & -> & _). right. by right.
    - apply in_sn in H as (k & o & H); [|done]. apply in_snames in H as (n & -> & _). right. by right.
  Qed.

  (** ** Types *)
  Definition fixed_names : list (option string * string) :=
    [(None, "AsyncAPIVersion"); (None, "controller"); (None, "ControllerOption"); (None, "WithLogger"); (None, "WithMiddlewares"); (None, "WithErrorHandler");
     (None, "MessageWithCorrelationID"); (Some "MessageWithCorrelationID", "CorrelationID"); (Some "MessageWithCorrelationID", "SetCorrelationID");
     (None, "Error"); (Some "Error", "Error")].
  Definition pnames (nc : named_channel) : list (option string * string) := only (nc_params nc) [(None, nc_name nc +:+ "Parameters")].
  Definition mnames (m : nat) : list (option string * string) :=
    let n := message_name info m in
    [(None, n); (None, "New" +:+ n); (None, "brokerMessageTo" +:+ n); (Some n, "toBrokerMessage")]
      ++ only (correlated info m) [(Some n, "CorrelationID"); (Some n, "SetCorrelationID"); (Some n, "SetAsResponseFrom")].
  Definition path_names (l : list named_channel) : list (option string * string) :=
    match l with [] => [] | _ => map (fun nc => (None, nc_name nc +:+ "Path")) l ++ [(None, "ChannelsPaths")] end.

  Lemma message_type m : m ∈ messages -> type_of ul ud uu info m = message_name info m.
  Proof.
    intros H. unfold type_of. apply name_it_exported, (na_type _ _ _ _ _ Apart). unfold type_names. apply elem_of_app. left. apply elem_of_list_fmap. eauto.
  Qed.
  Lemma types_names : nm (types_code ul ud uu info cs messages schemas) =
    fixed_names ++ List.concat (map pnames cs) ++ List.concat (map mnames messages) ++ map (fun t => (None, t)) schemas ++ path_names cs.
  Proof.
    unfold types_code. rewrite emit_names. cbn [map List.concat]. rewrite !map_app, !concat_app. cbn [map List.concat]. rewrite app_nil_r.
    apply (f_equal2 app); [done|]. apply (f_equal2 app); [|apply (f_equal2 app); [|apply (f_equal2 app)]].
    - rewrite map_map. f_equal. apply map_ext_in. intros nc H. apply elem_of_list_In in H. destruct (na_channel _ _ _ _ _ Apart nc H) as [X _].
      unfold channel_params, pnames. rewrite without_exported by done. by destruct (nc_params nc).
    - rewrite map_map. f_equal. apply map_ext_in. intros m H. apply elem_of_list_In in H. unfold message_code, mnames. cbv zeta. rewrite message_type by done.
      by destruct (correlated info m).
    - unfold nm. cbn [fst]. by rewrite map_map.
    - unfold path_names, channel_paths. destruct cs as [|nc l] eqn:Ecs; [done|]. unfold nm. cbn [fst]. rewrite map_app. f_equal. rewrite map_map. apply map_ext_in.
      intros nc' H. apply elem_of_list_In in H. destruct (na_channel _ _ _ _ _ Apart nc' H) as [X Y]. unfold path_name. cbn. rewrite Y, without_exported by done. done.
  Qed.

  Definition type_ends : list (list ascii) := map two ["Message"; "Channel"; "Schema"; "Payload"].
  Lemma type_two t : t ∈ T -> two t ∈ type_ends.
  Proof.
    intros H. destruct (na_type _ _ _ _ _ Apart t H) as (_ & p & e & He & ->). rewrite two_app; [apply elem_of_list_fmap; eauto|].
    repeat (apply elem_of_cons in He as [->|He]; [cbn; lia|]). by apply elem_of_nil in He.
  Qed.
  Lemma message_two m : m ∈ messages -> two (message_name info m) ∈ type_ends.
  Proof. intros H. apply type_two, elem_of_app. left. apply elem_of_list_fmap. eauto. Qed.
  Lemma two_after p t : two t ∈ type_ends -> two (p +:+ t) = two t.
  Proof.
    intros H. unfold two in *. rewrite lit_app, reverse_app, take_app_le; [done|]. destruct (reverse (lit t)) as [|a [|b r]]; [| |cbn; lia]; exfalso; repeat (apply elem_of_cons in H as [H|H]; [discriminate H|]); by apply elem_of_nil in H.
  Qed.

  Lemma pnames_in nc x : x ∈ pnames nc -> x = (None, nc_name nc +:+ "Parameters").
  Proof. unfold pnames. destruct (nc_params nc); cbn [only]; [by intros H%elem_of_list_singleton|by intros H%elem_of_nil]. Qed.
  Lemma mnames_in m x : x ∈ mnames m -> (x.1 = None /\ (x.2 = message_name info m \/ x.2 = "New" +:+ message_name info m \/ x.2 = "brokerMessageTo" +:+ message_name info m)) \/ x.1 = Some (message_name info m).
  Proof.
    unfold mnames. cbn [app]. intros H. repeat (apply elem_of_cons in H as [->|H]; [cbn; tauto|]). apply in_only in H. repeat (apply elem_of_cons in H as [->|H]; [cbn; tauto|]). by apply elem_of_nil in H.
  Qed.
  Lemma paths_in x : x ∈ path_names cs -> x.1 = None /\ (x.2 = "ChannelsPaths" \/ exists nc, nc ∈ cs /\ x.2 = nc_name nc +:+ "Path").
  Proof.
    unfold path_names. destruct cs as [|c l]; [by intros H%elem_of_nil|]. intros H. apply elem_of_app in H as [H|H].
    - apply elem_of_list_fmap in H as (nc & -> & Hn). eauto.
    - apply elem_of_list_singleton in H as ->. eauto.
  Qed.
  Lemma schema_in t : t ∈ schemas -> t ∈ T.
  Proof. intros H. apply elem_of_app. by right. Qed.
  Lemma message_in_T m : m ∈ messages -> message_name info m ∈ T.
  Proof. intros H. apply elem_of_app. left. apply elem_of_list_fmap. eauto. Qed.
  Lemma two_not (l : list (list ascii)) t (P : forall e, e ∈ l -> e ∈ type_ends -> False) : two t ∈ l -> two t ∈ type_ends -> False.
  Proof. intros; by eapply P. Qed.
  (** A name that ends like a type is none of those. *)
  Lemma not_type t : two t ∈ type_ends -> (None, t) ∉ fixed_names /\ (forall n, t <> n +:+ "Parameters") /\ (forall n, t <> n +:+ "Path") /\ t <> "ChannelsPaths".
  Proof.
    intros H. split; [|split; [|split]].
    - intros X. repeat (apply elem_of_cons in X as [X|X]; [try discriminate X; injection X as ->; revert H; apply (bool_decide_unpack _); vm_compute; exact I|]). by apply elem_of_nil in X.
    - intros n ->. rewrite two_app in H by (cbn; lia). revert H. apply (bool_decide_unpack _); vm_compute; exact I.
    - intros n ->. rewrite two_app in H by (cbn; lia). revert H. apply (bool_decide_unpack _); vm_compute; exact I.
    - intros ->. revert H. apply (bool_decide_unpack _); vm_compute; exact I.
  Qed.
  Lemma broker_not t n : exported_text t -> t <> "brokerMessageTo" +:+ n.
  Proof.
    intros (c & r & E & Hc & _) ->. change (list_ascii_of_string ("brokerMessageTo" +:+ n)) with ("b"%char :: list_ascii_of_string ("rokerMessageTo" +:+ n)) in E.
    injection E as <- _. revert Hc. apply (bool_decide_unpack _); vm_compute; exact I.
  Qed.
  Lemma types_once : NoDup (nm (types_code ul ud uu info cs messages schemas)).
  Proof.
    rewrite types_names. pose proof (na_types _ _ _ _ _ Apart) as NT. apply NoDup_app in NT as (NM & DT & NS).
    assert (Dm : forall m, m ∈ messages -> exported_text (message_name info m)) by (intros m H; by apply (na_type _ _ _ _ _ Apart), message_in_T).
    assert (Cp : forall x, x ∈ List.concat (map pnames cs) -> exists nc, nc ∈ cs /\ x = (None, nc_name nc +:+ "Parameters")).
    { intros x H. apply elem_of_list_In, in_concat in H as (y & Hy & Hx). apply in_map_iff in Hy as (nc & <- & Hn). apply elem_of_list_In in Hn, Hx. apply pnames_in in Hx. eauto. }
    assert (Cm : forall x, x ∈ List.concat (map mnames messages) -> exists m, m ∈ messages /\ x ∈ mnames m).
    { intros x H. apply elem_of_list_In, in_concat in H as (y & Hy & Hx). apply in_map_iff in Hy as (nc & <- & Hn). apply elem_of_list_In in Hn, Hx. eauto. }
    assert (Tm : forall m x, m ∈ messages -> x ∈ mnames m -> x.1 = None -> two x.2 ∈ type_ends).
    { intros m x Hm Hx E. apply mnames_in in Hx as [(_ & [->|[->| ->]])|Hx]; [by apply message_two|rewrite two_after; by apply message_two|rewrite two_after; by apply message_two|]. by rewrite E in Hx. }
    repeat (apply NoDup_app; split; [|split]).
    - apply (bool_decide_unpack _); vm_compute; exact I.
    - intros x Hx H. rewrite !elem_of_app in H. destruct H as [H|[H|[H|H]]].
      + apply Cp in H as (nc & _ & ->). repeat (apply elem_of_cons in Hx as [Hx|Hx]; [try discriminate Hx; injection Hx as X; apply (f_equal two) in X; rewrite two_app in X by (cbn; lia); discriminate X|]). by apply elem_of_nil in Hx.
      + apply Cm in H as (m & Hm & H). destruct x as [[r|] n].
        * apply mnames_in in H as [(X & _)|X]; [discriminate X|]. cbn in X. injection X as ->. pose proof (message_two m Hm) as H2.
          repeat (apply elem_of_cons in Hx as [Hx|Hx]; [try discriminate Hx; injection Hx as X _; rewrite X in H2; revert H2; apply (bool_decide_unpack _); vm_compute; exact I|]). by apply elem_of_nil in Hx.
        * exact (proj1 (not_type n (Tm m _ Hm H eq_refl)) Hx).
      + apply elem_of_list_fmap in H as (t & -> & H). exact (proj1 (not_type t (type_two t (schema_in t H))) Hx).
      + apply paths_in in H as (E1 & [E2|(nc & _ & E2)]); destruct x as [r n]; cbn in E1, E2; subst r n.
        * revert Hx. apply (bool_decide_unpack _); vm_compute; exact I.
        * repeat (apply elem_of_cons in Hx as [Hx|Hx]; [try discriminate Hx; injection Hx as X; apply (f_equal two) in X; rewrite two_app in X by (cbn; lia); discriminate X|]). by apply elem_of_nil in Hx.
    - apply nodup_concat.
      + apply (nodup_of_map nc_name), (na_channels _ _ _ _ _ Apart).
      + intros nc _. unfold pnames. apply nodup_only, NoDup_singleton.
      + intros nc nc' x H H' Hx Hx'. apply pnames_in in Hx as ->. apply pnames_in in Hx'. injection Hx' as X. apply app_inj_r in X.
        exact (nodup_map_inj _ _ _ _ (na_channels _ _ _ _ _ Apart) H H' X).
    - intros x Hx H. apply Cp in Hx as (nc & _ & ->). rewrite !elem_of_app in H. destruct H as [H|[H|H]].
      + apply Cm in H as (m & Hm & H). exact (proj1 (proj2 (not_type _ (Tm m _ Hm H eq_refl))) _ eq_refl).
      + apply elem_of_list_fmap in H as (t & E & H). injection E as E. exact (proj1 (proj2 (not_type _ (type_two t (schema_in t H)))) _ (eq_sym E)).
      + apply paths_in in H as (_ & [E2|(nc' & _ & E2)]); cbn in E2; apply (f_equal two) in E2; rewrite !two_app in E2 by (cbn; lia); discriminate E2.
    - apply nodup_concat.
      + by apply (nodup_of_map (message_name info)).
      + intros m Hm. unfold mnames. cbn [app].
        assert (X1 : message_name info m <> "New" +:+ message_name info m) by (apply (na_new _ _ _ _ _ Apart); [done|by apply message_in_T]).
        assert (X2 : forall n, message_name info m <> "brokerMessageTo" +:+ n) by (intros n; apply broker_not; by apply Dm).
        assert (Y : forall a, a ∈ only (correlated info m) [(Some (message_name info m), "CorrelationID"); (Some (message_name info m), "SetCorrelationID"); (Some (message_name info m), "SetAsResponseFrom")] ->
          a.1 = Some (message_name info m) /\ a.2 <> "toBrokerMessage").
        { intros a H. apply in_only in H. repeat (apply elem_of_cons in H as [->|H]; [split; [done|discriminate]|]). by apply elem_of_nil in H. }
        repeat (apply NoDup_cons; split).
        * rewrite !not_elem_of_cons. repeat split; [congruence|intros E; injection E as E; by eapply X2|congruence|intros H; apply Y in H; by destruct H].
        * rewrite !not_elem_of_cons. repeat split; [intros E; injection E as E; discriminate E|congruence|intros H; apply Y in H; by destruct H].
        * rewrite !not_elem_of_cons. repeat split; [congruence|intros H; apply Y in H; by destruct H].
        * intros H. apply Y in H. by destruct H.
        * apply nodup_only. repeat (apply NoDup_cons; split); try constructor; intros X;
            repeat (apply elem_of_cons in X as [X|X]; [discriminate X|]); by apply elem_of_nil in X.
      + intros m m' x H H' Hx Hx'. apply mnames_in in Hx, Hx'.
        assert (N : message_name info m = message_name info m').
        { destruct x as [r n]; cbn in Hx, Hx'. destruct Hx as [(-> & Hx)| -> ], Hx' as [(E & Hx')|E]; [|discriminate E|discriminate E|by injection E].
          destruct Hx as [->|[->| ->]], Hx' as [X|[X|X]]; try discriminate X.
          - done.
          - exfalso. eapply (na_new _ _ _ _ _ Apart); [exact H'|by apply (message_in_T m)|exact X].
          - exfalso. eapply broker_not; [apply (Dm m H)|exact X].
          - exfalso. eapply (na_new _ _ _ _ _ Apart); [exact H|by apply (message_in_T m')|by symmetry].
          - by apply app_inj_l in X.
          - exfalso. eapply broker_not; [apply (Dm m' H')|by symmetry].
          - by apply app_inj_l in X. }
        exact (nodup_map_inj _ _ _ _ NM H H' N).
    - intros x Hx H. apply Cm in Hx as (m & Hm & Hx). rewrite elem_of_app in H. destruct H as [H|H].
      + apply elem_of_list_fmap in H as (t & -> & H). apply mnames_in in Hx as [(_ & [X|[X|X]])|X]; cbn in X; [| | |discriminate X].
        * apply (DT t); [|done]. apply elem_of_list_fmap. by exists m.
        * eapply (na_new _ _ _ _ _ Apart); [exact Hm|by apply schema_in|exact X].
        * eapply broker_not; [|exact X]. by apply (na_type _ _ _ _ _ Apart), schema_in.
      + apply paths_in in H as (E & H). pose proof (Tm m x Hm Hx E) as H2. destruct H as [H|(nc & _ & H)]; rewrite H in H2; [exact (proj2 (proj2 (proj2 (not_type _ H2))) eq_refl)|exact (proj1 (proj2 (proj2 (not_type _ H2))) _ eq_refl)].
    - apply (NoDup_fmap_2 (fun t : string => (@None string, t))). done.
    - intros x Hx H. apply elem_of_list_fmap in Hx as (t & -> & Ht). apply paths_in in H as (_ & H). cbn in H. pose proof (type_two t (schema_in t Ht)) as H2.
      destruct H as [H|(nc & _ & H)]; rewrite H in H2; [exact (proj2 (proj2 (proj2 (not_type _ H2))) eq_refl)|exact (proj1 (proj2 (proj2 (not_type _ H2))) _ eq_refl)].
    - unfold path_names. pose proof (na_channels _ _ _ _ _ Apart) as Nc. destruct cs as [|c l] eqn:Ec; [constructor|]. rewrite <- Ec in *. apply NoDup_app. split; [|split; [|apply NoDup_singleton]].
      + change (NoDup ((fun nc => (@None string, nc_name nc +:+ "Path")) <$> cs)). apply NoDup_fmap_2_strong; [|by apply (nodup_of_map nc_name)].
        intros a b Ha Hb X. injection X as X. apply app_inj_r in X. by apply (nodup_map_inj nc_name cs).
      + intros x H X. apply elem_of_list_fmap in H as (nc & -> & _). apply elem_of_list_singleton in X. injection X as X. apply (f_equal two) in X. rewrite two_app in X by (cbn; lia). discriminate X.
  Qed.

  Lemma types_own s x : own s x -> x ∈ nm (types_code ul ud uu info cs messages schemas) -> False.
  Proof.
    intros Ho. rewrite types_names, !elem_of_app.
    assert (Not : two x.2 ∈ type_ends -> x.1 = None -> False).
    { intros H2 E. destruct Ho as [(_ & H)|[H|H]]; [|by rewrite E in H|by rewrite E in H].
      destruct s; repeat (apply elem_of_cons in H as [H|H]; [rewrite H in H2; revert H2; apply (bool_decide_unpack _); vm_compute; exact I|]); by apply elem_of_nil in H. }
    intros [H|[H|[H|[H|H]]]].
    - destruct Ho as [(E & X)|[X|X]].
      + destruct x as [r n]. cbn in E, X. subst r.
        destruct s; repeat (apply elem_of_cons in X as [->|X]; [revert H; apply (bool_decide_unpack _); vm_compute; exact I|]); by apply elem_of_nil in X.
      + destruct x as [r n]. cbn in X. subst r. destruct s; repeat (apply elem_of_cons in H as [H|H]; [discriminate H|]); by apply elem_of_nil in H.
      + destruct x as [r n]. cbn in X. subst r. destruct s; repeat (apply elem_of_cons in H as [H|H]; [discriminate H|]); by apply elem_of_nil in H.
    - apply elem_of_list_In, in_concat in H as (y & Hy & Hx). apply in_map_iff in Hy as (nc & <- & Hn). apply elem_of_list_In in Hx. apply pnames_in in Hx as ->.
      destruct Ho as [(_ & X)|[X|X]]; [|discriminate X|discriminate X]. cbn in X.
      destruct s; repeat (apply elem_of_cons in X as [X|X]; [apply (f_equal two) in X; rewrite two_app in X by (cbn; lia); discriminate X|]); by apply elem_of_nil in X.
    - apply elem_of_list_In, in_concat in H as (y & Hy & Hx). apply in_map_iff in Hy as (m & <- & Hm). apply elem_of_list_In in Hm, Hx. apply mnames_in in Hx as [(E & [X|[X|X]])|X].
      + apply Not; [rewrite X; by apply message_two|done].
      + apply Not; [rewrite X, two_after; by apply message_two|done].
      + apply Not; [rewrite X, two_after; by apply message_two|done].
      + pose proof (message_two m Hm) as H2. destruct Ho as [(E & _)|[E|E]]; [by rewrite E in X| |]; rewrite X in E; injection E as E; rewrite E in H2; revert H2; destruct s; apply (bool_decide_unpack _); vm_compute; exact I.
    - apply elem_of_list_fmap in H as (t & -> & Ht). apply Not; [by apply type_two, schema_in|done].
    - apply paths_in in H as (E & H). destruct Ho as [(_ & X)|[X|X]]; [|by rewrite E in X|by rewrite E in X]. destruct H as [H|(nc & _ & H)]; rewrite H in X.
      + revert X. destruct s; apply (bool_decide_unpack _); vm_compute; exact I.
      + destruct s; repeat (apply elem_of_cons in X as [X|X]; [apply (f_equal two) in X; rewrite two_app in X by (cbn; lia); discriminate X|]); by apply elem_of_nil in X.
  Qed.

  Lemma package_once c : package ul ud uu info order ops cs messages schemas = Some c -> declared_once c.1.
  Proof.
    unfold package. intros E. apply bind_some in E as (a & Ea & E). apply bind_some in E as (b & Eb & E). injection E as <-.
    unfold declared_once. change (NoDup (nm (emit [a; b; types_code ul ud uu info cs messages schemas]))). rewrite emit_names. cbn [map List.concat]. rewrite app_nil_r.
    apply NoDup_app. split; [by apply (side_once Application)|]. split; [|apply NoDup_app; split; [by apply (side_once User)|split; [|apply types_once]]].
    - intros x Hx H. apply (side_own Application _ _ Ea) in Hx. apply elem_of_app in H as [H|H]; [|by eapply types_own].
      apply (side_own User _ _ Eb) in H. destruct Hx as [(E1 & X)|[X|X]], H as [(E2 & Y)|[Y|Y]]; rewrite ?X, ?Y, ?E1, ?E2 in *; try discriminate.
      repeat (apply elem_of_cons in X as [X|X]; [rewrite X in Y; revert Y; apply (bool_decide_unpack _); vm_compute; exact I|]). by apply elem_of_nil in X.
    - intros x Hx H. apply (side_own User _ _ Eb) in Hx. by eapply types_own.
  Qed.
End once.

(** ** From the document *)
Lemma kind_exported kind ks s : exported (lit kind) -> lit s ∈ kind_names kind ks -> exported_text s /\ exists p, s = p +:+ kind.
Proof.
  intros He H. rewrite kind_names_word in H by done. apply elem_of_list_fmap in H as (k & E & _). unfold kind_word in E. split.
  - unfold exported_text. rewrite E. by apply name_app_exported.
  - exists (string_of_list_ascii (name_of k)). apply NamesProof.lit_inj. rewrite lit_app, list_ascii_of_string_of_list_ascii. done.
Qed.
Lemma exported_channel : exported (lit "Channel").
Proof. exists "C"%char, (lit "hannel"). split; [done|]. split; apply (bool_decide_unpack _); vm_compute; exact I. Qed.
Lemma exported_operation : exported (lit "Operation").
Proof. exists "O"%char, (lit "peration"). split; [done|]. split; apply (bool_decide_unpack _); vm_compute; exact I. Qed.
Lemma lit_map_nodup {A} (f : A -> string) l : NoDup (map (fun a => lit (f a)) l) -> NoDup (map f l).
Proof. intros H. rewrite <- map_map in H. by apply nodup_of_map in H. Qed.

Lemma named_by_apart ul ud uu d names info ops cs messages schemas :
  clear_document d -> document_names ul ud uu d = Some names -> named_by d (names.*2) info ops cs messages schemas ->
  (forall k o, (k, o) ∈ ops -> o_refers o = None) ->
  NoDup (kind_names "Operation" (map (fun ko => lit ko.1) ops)) ->
  never_prefixed "ReplyTo" (map (fun ko => o_name ko.2) ops) (map (fun ko => o_name ko.2) ops) ->
  never_prefixed "New" (type_names info messages schemas) (map (message_name info) messages) ->
  NoDup ops.*1 /\ named_apart info ops cs messages schemas.
Proof.
  intros Hc Hd [Bc Br Bo Bt] Hr No Hrep Hnew.
  destruct (document_names_shape ul ud uu d Hc) as (ws & (l & El & Ml) & Hg & Hl). rewrite Hd in El. injection El as <-.
  split.
  { rewrite kind_names_word in No by apply exported_operation. rewrite map_map in No. apply (nodup_of_map (fun s => kind_word "Operation" (lit s))).
    change (ops.*1) with (map fst ops). by rewrite map_map. }
  split.
  - intros k o H. split; [by eapply Hr|]. apply (kind_exported "Operation" (map (fun ko => lit ko.1) ops)); [apply exported_operation|].
    rewrite <- Bo. apply elem_of_list_fmap. by exists (k, o).
  - apply lit_map_nodup. by rewrite Bo.
  - intros k o k' o' H H'. apply Hrep; apply elem_of_list_fmap; [by exists (k, o)|by exists (k', o')].
  - intros nc H. split; [|by apply Br]. eapply (kind_exported "Channel"); [apply exported_channel|]. rewrite <- Bc. apply elem_of_list_fmap. eauto.
  - apply lit_map_nodup. rewrite Bc. by destruct Hc.
  - intros t Ht. assert (Hn : lit t ∈ names.*2) by (eapply elem_of_submseteq; [|exact Bt]; apply elem_of_list_fmap; eauto).
    split.
    + pose proof (good_exported _ Hg) as F. rewrite Forall_forall in F. rewrite <- Ml in F. by apply F.
    + rewrite Ml in Hn. apply elem_of_list_fmap in Hn as (e & E & He). destruct (Hl e He) as (l' & w & kind & Hk & ->).
      destruct (join_last l' (w ++ lit kind)) as (p & Ep). exists (string_of_list_ascii (p ++ w)), kind. split; [done|].
      apply NamesProof.lit_inj. rewrite lit_app, list_ascii_of_string_of_list_ascii, E, Ep. by rewrite app_assoc.
  - rewrite <- (map_id (type_names info messages schemas)). apply (lit_map_nodup (fun s => s)). apply submseteq_Permutation in Bt as (k & Bt). apply (NoDup_app (map lit (type_names info messages schemas)) k). rewrite <- Bt, Ml. by apply join_nodup.
  - intros m t Hm Ht. apply Hnew; [done|]. apply elem_of_list_fmap. eauto.
Qed.
