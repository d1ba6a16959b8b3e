(** C97: what the conversion functions do when they are executed.
    Full statement: for every message whose conversion functions compile, toBrokerMessage neither panics nor fails on a message whose mandatory fields are
    set, brokerMessageToX never panics, and a message that is converted to a broker message and back is unchanged. C97_encoder proves the first part;
    the second is false for integers only (C97_decoder); the third is false, and C97_survives says exactly which messages come back. *)
From stdpp Require Import gmap list strings.
From Coq Require Import Ascii String ZArith Lia.
From Verif.Model Require Import Types Codec Conversion.
From Verif.Spec Require Import CodecSpec ConversionSpec GoRun SurviveSpec.
From Verif.Proof Require Import ConversionProof GoRunProof.
From Verif.Properties Require Import C90_Conversion.
Local Open Scope string_scope.

Section C97.
  (** JSON, RFC 3339 and the errors are arbitrary. *)
  Context {J T E : Type}.
  Notation value := (value J T).
  Context (marshal : value -> string + E) (unmarshal : xtype -> string -> value + E).
  Context (tformat : T -> string) (tparse : string -> T + E) (err_nil err_unmarshal : E).
  Context (env : package_types) (v3 dates force : bool) (m : message).
  Notation types := (field_type dates force m).
  (** toBrokerMessage, on the message [σ]; brokerMessageToX, on the payload [x] and the headers [b] in the order in which they are walked. *)
  Notation to_broker σ := (gives marshal unmarshal tformat tparse err_nil err_unmarshal env types "" [] σ (encoder dates force m)).
  Notation from_broker x b zero := (fills marshal unmarshal tformat tparse err_nil err_unmarshal env types x b zero (decoder v3 dates force m)).
  Notation payload_survives := (payload_survives marshal unmarshal tformat tparse).
  Notation header_survives := (header_survives marshal unmarshal tformat tparse force).

  (** A message can be written exactly when its mandatory headers are set and JSON accepts its objects; otherwise an error is returned. *)
  Theorem C97_encoder σ :
    exports env -> message_ok env dates m -> both_compile env v3 dates force m -> well_typed env types σ ->
    ((exists r, to_broker σ = Next r) <-> writable marshal m σ) /\ ((exists r, to_broker σ = Next r) \/ exists e, to_broker σ = Fail e).
  Proof using.
    intros He Hm Hc. apply (C90_exact_partial _ _ _ _ _ He Hm) in Hc. now apply encoder_writes with v3.
  Qed.

  (** A broker message is read, or an error is returned, or there is a panic: when too few bytes are given for an integer. *)
  Theorem C97_decoder x b zero :
    exports env -> message_ok env dates m -> both_compile env v3 dates force m -> zero_values env types zero -> NoDup (map fst b) ->
    from_broker x b zero <> Stuck /\ (from_broker x b zero = Panic <-> too_short (m_payload m) x).
  Proof using.
    intros He Hm Hc. apply (C90_exact_partial _ _ _ _ _ He Hm) in Hc. now apply decoder_safe.
  Qed.

  (** C58 in full: every broker message, of any payload and headers, is read or refused with an error, and there is a panic exactly when the payload
      is that of an integer and has fewer bytes than the integer. *)
  Theorem C58_decoder_exact x b zero :
    exports env -> message_ok env dates m -> both_compile env v3 dates force m -> zero_values env types zero -> NoDup (map fst b) ->
    (from_broker x b zero = Panic <-> too_short (m_payload m) x) /\
    (~ too_short (m_payload m) x -> (exists σ, from_broker x b zero = Next σ) \/ exists e, from_broker x b zero = Fail e).
  Proof using.
    intros He Hm Hc Hz Hd. destruct (C97_decoder x b zero He Hm Hc Hz Hd) as [Hs Hp]. split; [exact Hp|]. intros Hn.
    destruct (from_broker x b zero) as [σ|e| |]; [left; now exists σ|right; now exists e|exfalso; now apply Hn, Hp|now exfalso].
  Qed.

  (** Neither the order of the headers nor those that the message does not declare change what is read. *)
  Theorem C97_undeclared x b b' zero σ :
    exports env -> message_ok env dates m -> both_compile env v3 dates force m -> zero_values env types zero ->
    NoDup (map fst b) -> NoDup (map fst b') -> (forall k t y, types (Header k) = Some t -> (k, y) ∈ b <-> (k, y) ∈ b') ->
    from_broker x b zero = Next σ -> exists σ', from_broker x b' zero = Next σ' /\ forall f, σ' f = σ f.
  Proof using.
    intros He Hm Hc Hz Hd Hd' Hb. pose proof Hc as Hc'. apply (C90_exact_partial _ _ _ _ _ He Hm) in Hc.
    apply decoder_depends; [assumption..|]. intros k y Hk.
    apply elem_of_list_In, in_map_iff in Hk as (h & <- & Hh). apply elem_of_list_In in Hh.
    destruct (good_in env v3 dates force He m Hm Hc h Hh) as (t & _ & _ & Ht). exact (Hb _ _ y Ht).
  Qed.

  (** Exactly the messages all of whose fields survive come back. *)
  Theorem C97_survives σ h x b zero :
    exports env -> message_ok env dates m -> both_compile env v3 dates force m -> well_typed env types σ -> zero_values env types zero ->
    to_broker σ = Next (h, x) -> b ≡ₚ map_to_list h ->
    (exists σ', from_broker x b zero = Next σ' /\ same_message types σ σ') <->
    (forall t, types Payload = Some t -> payload_survives (m_payload m) t (σ Payload)) /\
    (forall hs h t, m_headers m = Some hs -> h ∈ hs -> types (Header (h_key h)) = Some t -> header_survives h t (σ (Header (h_key h)))).
  Proof using.
    intros He Hm Hc Hw Hz Hg Hb. apply (C90_exact_partial _ _ _ _ _ He Hm) in Hc.
    rewrite (round_trip _ _ _ _ _ _ _ _ _ _ He m Hm Hc _ _ σ h x b zero Hw Hz Hg Hb). unfold hdrs.
    split; intros [H1 H2]; (split; [exact H1|]).
    - intros hs h0 t E0. rewrite E0 in H2. apply H2.
    - destruct (m_headers m) as [hs|]; intros h0 t Hin; [now apply (H2 hs)|now apply elem_of_nil in Hin].
  Qed.

  (** Strings always do, in the payload and in the headers. *)
  Theorem C97_strings σ h x b zero :
    exports env -> message_ok env dates m -> both_compile env v3 dates force m -> well_typed env types σ -> zero_values env types zero ->
    g_type (followed (m_payload m)) = "string" -> is_date_generated dates (g_format (followed (m_payload m))) = false ->
    (forall hs h, m_headers m = Some hs -> h ∈ hs -> g_type (own (h_part h)) = "string" /\ is_date_generated dates (g_format (own (h_part h))) = false) ->
    to_broker σ = Next (h, x) -> b ≡ₚ map_to_list h ->
    exists σ', from_broker x b zero = Next σ' /\ same_message types σ σ'.
  Proof using.
    intros He Hm Hc Hw Hz Hp Hpd Hh Hg Hb. apply (C97_survives σ h x b zero He Hm Hc Hw Hz Hg Hb).
    apply (C90_exact_partial _ _ _ _ _ He Hm) in Hc. split.
    - intros t Ht. unfold SurviveSpec.payload_survives. cbn zeta. rewrite Hp. cbn.
      destruct (payload_type env dates force m Hm) as (t' & Hn & Ht'). rewrite Ht' in Ht. injection Ht as <-.
      pose proof (payload_types env dates (m_payload m) t' (proj1 Hm) (proj1 (proj2 Hm)) (payload_sup env v3 dates force m Hc) Hn) as Hu.
      cbn zeta in Hu. rewrite Hp in Hu. cbn in Hu. rewrite Hpd in Hu. pose proof (Hw _ _ Ht') as Hv.
      destruct (σ Payload); try exact I. cbn [holds] in Hv. cbn in Hv. rewrite Hu in Hv. discriminate.
    - intros hs h0 t Ehs Hin Ht. destruct (Hh hs h0 Ehs Hin) as [E1 E2].
      assert (Hin' : h0 ∈ hdrs m) by (unfold hdrs; now rewrite Ehs).
      destruct (good_in env v3 dates force He m Hm Hc h0 Hin') as (t' & K & _ & Ht'). rewrite Ht' in Ht. injection Ht as <-.
      pose proof (value_shape env v3 dates force h0 t' _ K (Hw _ _ Ht')) as Sh. rewrite E1, E2 in Sh. cbn in Sh.
      unfold SurviveSpec.header_survives. rewrite E1. cbn.
      destruct Sh as [[_ ->]|(w & -> & _ & _ & (y & ->))]; [exact I|]. destruct (is_field_pointer force (h_declared h0 || h_flag h0) (own (h_part h0))); exact I.
  Qed.

  (** Never does an object that is an optional header, or any object header with pointers forced: what is written cannot be read. *)
  Theorem C97_object_header σ h x b zero hs h0 :
    exports env -> message_ok env dates m -> both_compile env v3 dates force m -> well_typed env types σ -> zero_values env types zero ->
    m_headers m = Some hs -> h0 ∈ hs -> g_type (own (h_part h0)) = "object" -> force = true \/ (h_flag h0 = false /\ h_listed h0 = false) ->
    σ (Header (h_key h0)) <> VNil ->
    to_broker σ = Next (h, x) -> b ≡ₚ map_to_list h -> forall σ', from_broker x b zero <> Next σ'.
  Proof using.
    intros He Hm Hc Hw Hz Ehs Hin Ho Hf Hn Hg Hb σ' Hr. apply (C90_exact_partial _ _ _ _ _ He Hm) in Hc.
    assert (Hin' : h0 ∈ hdrs m) by (unfold hdrs; now rewrite Ehs).
    pose proof (run_encoder marshal unmarshal tformat tparse err_nil err_unmarshal env v3 dates force He m Hm Hc "" [] σ Hw) as R. rewrite Hg in R.
    destruct R as (_ & R & _). specialize (R h0 Hin').
    assert (Hd : NoDup (map fst b)).
    { apply (NoDup_Permutation_proper _ _ (Permutation_map fst Hb)). apply (NoDup_fst_map_to_list h). }
    pose proof (run_decoder marshal unmarshal tformat tparse err_nil err_unmarshal env v3 dates force He m Hm Hc x b zero Hz Hd) as Q. rewrite Hr in Q.
    destruct Q as (_ & _ & _ & Q & _). destruct (good_in env v3 dates force He m Hm Hc h0 Hin') as (t & _ & _ & Ht).
    unfold hbytes in R. rewrite Ho in R. cbn in R.
    assert (NV : forall A (a c : A), match σ (Header (h_key h0)) with VNil => a | _ => c end = c) by (intros; destruct (σ (Header (h_key h0))); congruence).
    rewrite NV in R. destruct (marshal (strip (σ (Header (h_key h0))))) as [y|]; [|discriminate]. injection R as R.
    assert (Hy : (h_key h0, y) ∈ b) by (rewrite Hb; now apply elem_of_map_to_list).
    specialize (Q h0 _ y Hin' Hy Ht). unfold hread in Q. rewrite Ho in Q. cbn in Q.
    assert (Sp : is_field_pointer force (h_listed h0 || h_flag h0) (own (h_part h0)) = true).
    { unfold is_field_pointer. rewrite Ho. destruct Hf as [->|[-> ->]]; [reflexivity|]. now destruct force. }
    rewrite Sp in Q. discriminate.
  Qed.
End C97.

(** ** Examples *)
(** A stand-in for JSON that accepts all structures. *)
Definition j_marshal (v : value string string) : string + string := match v with VJson j => inl j | _ => inr "unsupported" end.
Definition j_unmarshal (t : xtype) (b : string) : value string string + string :=
  match t with X (TNamed _) => inl (VJson b) | XPointer (X (TNamed _)) => inl (VPtr (VJson b)) | _ => inr "unsupported" end.
Definition j_parse (b : string) : string + string := inl b.
Definition send (m : message) (σ : place -> value string string) :=
  gives j_marshal j_unmarshal id j_parse "nil" "not a pointer" env0 (field_type true false m) "" [] σ (encoder true false m).
Definition receive (m : message) (x : string) (b : list (string * string)) (zero : place -> value string string) :=
  fills j_marshal j_unmarshal id j_parse "nil" "not a pointer" env0 (field_type true false m) x b zero (decoder true true false m).

(** The message of C90_example: an object, an optional string, a mandatory reference to a string, a mandatory object and an optional date. *)
Definition v0 : place -> value string string := fun f =>
  match f with
  | Payload => VJson "{1}"
  | Header k => if String.eqb k "id" then VNil else if String.eqb k "key" then VStr "K" else if String.eqb k "meta" then VJson "{2}" else VPtr (VTime "now")
  end.
Definition zero0 : place -> value string string := fun f =>
  match f with
  | Payload => VJson ""
  | Header k => if String.eqb k "key" then VStr "" else if String.eqb k "meta" then VJson "" else VNil
  end.
Lemma types0 f t : field_type true false m0 f = Some t ->
  f = Payload /\ t = X (TNamed "Body") \/ f = Header "id" /\ t = XPointer (X TString) \/ f = Header "key" /\ t = X (TNamed "Key") \/
  f = Header "meta" /\ t = X (TNamed "Body") \/ f = Header "at" /\ t = XPointer (X TTime).
Proof.
  destruct f as [|k]; cbn; [intros [= <-]; auto|].
  destruct (decide ("id" = k)) as [<-|N1]; [cbn; intros [= <-]; auto|].
  destruct (decide ("key" = k)) as [<-|N2]; [cbn; intros [= <-]; auto|].
  destruct (decide ("meta" = k)) as [<-|N3]; [cbn; intros [= <-]; auto 6|].
  destruct (decide ("at" = k)) as [<-|N4]; [cbn; intros [= <-]; auto 7|]. discriminate.
Qed.
Lemma v0_typed : well_typed env0 (field_type true false m0) v0.
Proof.
  intros f t H. apply types0 in H as [[-> ->]|[[-> ->]|[[-> ->]|[[-> ->]|[-> ->]]]]]; cbn;
    try (exists (TNamed "Body"); repeat (split; [done|]); done); try (eexists; reflexivity); reflexivity.
Qed.
Lemma zero0_typed : zero_values env0 (field_type true false m0) zero0.
Proof.
  split.
  - intros f t H. apply types0 in H as [[-> ->]|[[-> ->]|[[-> ->]|[[-> ->]|[-> ->]]]]]; cbn;
      try (exists (TNamed "Body"); repeat (split; [done|]); done); try (eexists; reflexivity); reflexivity.
  - intros f t H. apply types0 in H as [[-> ?]|[[-> ?]|[[-> ?]|[[-> ?]|[-> ?]]]]]; try discriminate; reflexivity.
Qed.
Definition sent0 : gmap string string := <["at" := "now"]> (<["meta" := "{2}"]> (<["key" := "K"]> ∅)).
Example C97_example :
  message_ok env0 true m0 /\ both_compile env0 true true false m0 /\ well_typed env0 (field_type true false m0) v0 /\
  zero_values env0 (field_type true false m0) zero0 /\ writable j_marshal m0 v0 /\
  send m0 v0 = Next (sent0, "{1}") /\ exists σ', receive m0 "{1}" (map_to_list sent0) zero0 = Next σ' /\ same_message (field_type true false m0) v0 σ'.
Proof.
  destruct C90_example as (Hm & Hc & _).
  assert (Hg : send m0 v0 = Next (sent0, "{1}")) by (vm_compute; reflexivity).
  split; [exact Hm|]. split; [exact Hc|]. split; [exact v0_typed|]. split; [exact zero0_typed|]. split.
  { apply (C97_encoder j_marshal j_unmarshal id j_parse "nil" "not a pointer" env0 true true false m0 v0 exports0 Hm Hc v0_typed). eexists. exact Hg. }
  split; [exact Hg|].
  apply (C97_survives j_marshal j_unmarshal id j_parse "nil" "not a pointer" env0 true true false m0 v0 sent0 "{1}" (map_to_list sent0) zero0
    exports0 Hm Hc v0_typed zero0_typed Hg (Permutation_refl _)). split.
  - intros t [= <-]. exists "{1}". split; reflexivity.
  - intros hs h t [= <-] Hin Ht.
    apply elem_of_cons in Hin as [->|Hin]; [exact I|]. apply elem_of_cons in Hin as [->|Hin]; [exact I|].
    apply elem_of_cons in Hin as [->|Hin]; [injection Ht as <-; split; [reflexivity|exists "{2}"; split; reflexivity]|].
    apply elem_of_list_singleton in Hin as ->. reflexivity.
Qed.

(** The decoder on other input: an undeclared header is ignored, a missing one leaves its field as it was. *)
Example C97_undeclared_example : exists σ', receive m0 "{1}" [("at", "now"); ("trace", "z"); ("meta", "{2}"); ("key", "K")] zero0 = Next σ' /\ forall f, σ' f = match receive m0 "{1}" (map_to_list sent0) zero0 with Next σ => σ f | _ => VNil end.
Proof.
  destruct C97_example as (Hm & Hc & _ & _ & _ & _ & σ' & E & _). unfold receive in *. rewrite E.
  refine (C97_undeclared j_marshal j_unmarshal id j_parse "nil" "not a pointer" env0 true true false m0 _ _ _ zero0 σ' exports0 Hm Hc zero0_typed _ _ _ E).
  - apply NoDup_fst_map_to_list.
  - apply (bool_decide_unpack _). vm_compute. exact I.
  - intros k t y Ht. rewrite elem_of_map_to_list.
    apply types0 in Ht as [[? _]|[[Hk _]|[[Hk _]|[[Hk _]|[Hk _]]]]]; try discriminate; injection Hk as ->;
      rewrite !elem_of_cons, elem_of_nil; (split; [intros [= <-]; auto 10|]); intros H;
      repeat (destruct H as [H|H]; [first [discriminate H | injection H as ->; vm_compute; reflexivity]|]); contradiction.
Qed.

(** Integers are written with the most significant byte first and read with the least significant one first. *)
Definition amount : message := mkMessage (mkPart (simple "integer" "int64") None) None.
Definition a_value (z : Z) : place -> value string string := fun _ => VInt 64 z.
Lemma amount_ok : message_ok env0 true amount.
Proof. split; [apply plain_ok; [done|by exists TInt64]|]. split; [done|]. discriminate. Qed.
Lemma amount_typed z : (- 2 ^ 63 <= z < 2 ^ 63)%Z -> well_typed env0 (field_type true false amount) (a_value z).
Proof. intros Hz [|k] t H; [|discriminate]. injection H as <-. cbn. split; [by right|exact Hz]. Qed.
Lemma amount_zero : zero_values env0 (field_type true false amount) (a_value 0).
Proof. split; [apply amount_typed; lia|]. intros [|k] t H; discriminate H. Qed.
Theorem C97_integer_refuted :
  ~ (forall m σ h x b zero, message_ok env0 true m -> both_compile env0 true true false m -> well_typed env0 (field_type true false m) σ ->
       zero_values env0 (field_type true false m) zero -> send m σ = Next (h, x) -> b ≡ₚ map_to_list h ->
       exists σ', receive m x b zero = Next σ' /\ same_message (field_type true false m) σ σ').
Proof.
  intros H. destruct (H amount (a_value 1) ∅ (text [0; 0; 0; 0; 0; 0; 0; 1]%Z) [] (a_value 0)) as (σ' & R & S).
  - exact amount_ok.
  - split; vm_compute; reflexivity.
  - apply amount_typed. lia.
  - exact amount_zero.
  - vm_compute. reflexivity.
  - reflexivity.
  - specialize (S Payload _ eq_refl).
    assert (R' : match receive amount (text [0; 0; 0; 0; 0; 0; 0; 1]%Z) [] (a_value 0) with Next σ => σ Payload | _ => VNil end = VInt 64 1) by (rewrite R; now rewrite <- S).
    vm_compute in R'. discriminate R'.
Qed.
(** An empty payload makes the decoder of an integer panic. *)
Theorem C97_panic_refuted :
  ~ (forall m x b zero, message_ok env0 true m -> both_compile env0 true true false m -> zero_values env0 (field_type true false m) zero ->
       NoDup (map fst b) -> receive m x b zero <> Panic).
Proof.
  intros H. apply (H amount "" [] (a_value 0)); [exact amount_ok|split; vm_compute; reflexivity|exact amount_zero|constructor|].
  assert (Hc : both_compile env0 true true false amount) by (split; vm_compute; reflexivity).
  assert (Hd : NoDup (map fst ([] : list (string * string)))) by constructor.
  apply (C97_decoder j_marshal j_unmarshal id j_parse "nil" "not a pointer" env0 true true false amount "" [] (a_value 0) exports0 amount_ok Hc amount_zero Hd).
  split; [reflexivity|cbn; lia].
Qed.
(** The encoder returns an error when a mandatory header is nil, which it can be with pointers forced. *)
Definition forced (v : value string string) : place -> value string string := fun f => match f with Payload => VJson "{1}" | _ => v end.
Example C97_encoder_example :
  message_ok env0 true (one h2) /\ both_compile env0 true true true (one h2) /\ well_typed env0 (field_type true true (one h2)) (forced VNil) /\
  well_typed env0 (field_type true true (one h2)) (forced (VPtr (VStr "K"))) /\
  gives j_marshal j_unmarshal id j_parse "nil" "not a pointer" env0 (field_type true true (one h2)) "" [] (forced VNil) (encoder true true (one h2)) = Fail "nil" /\
  gives j_marshal j_unmarshal id j_parse "nil" "not a pointer" env0 (field_type true true (one h2)) "" [] (forced (VPtr (VStr "K"))) (encoder true true (one h2)) =
    Next (<["key" := "K"]> ∅, "{1}").
Proof.
  assert (Hf : forall f t, field_type true true (one h2) f = Some t -> f = Payload /\ t = X (TNamed "Body") \/ f = Header "key" /\ t = XPointer (X (TNamed "Key"))).
  { intros [|k] t; cbn; [intros [= <-]; auto|]. destruct (decide ("key" = k)) as [<-|]; [cbn; intros [= <-]; auto|discriminate]. }
  split; [apply one_ok, to_key_ok|]. split; [split; vm_compute; reflexivity|].
  split; [|split; [|split; vm_compute; reflexivity]].
  - intros f t H. apply Hf in H as [[-> ->]|[-> ->]]; cbn; [|by eexists]. exists (TNamed "Body"). repeat (split; [done|]). done.
  - intros f t H. apply Hf in H as [[-> ->]|[-> ->]]; cbn; [|done]. exists (TNamed "Body"). repeat (split; [done|]). done.
Qed.
(** An optional object among the headers: what is sent is not received, though JSON is perfect. *)
Definition meta : header := mkHeader "meta" false false false (mkPart body None).
Definition m_value : place -> value string string := fun f => match f with Payload => VJson "{1}" | _ => VPtr (VJson "{2}") end.
Definition m_zero : place -> value string string := fun f => match f with Payload => VJson "" | _ => VNil end.
Example C97_object_header_example :
  message_ok env0 true (one meta) /\ both_compile env0 true true false (one meta) /\ well_typed env0 (field_type true false (one meta)) m_value /\
  zero_values env0 (field_type true false (one meta)) m_zero /\ send (one meta) m_value = Next (<["meta" := "{2}"]> ∅, "{1}") /\
  (forall b, b ≡ₚ map_to_list (<["meta" := "{2}"]> ∅ : gmap string string) -> forall σ', receive (one meta) "{1}" b m_zero <> Next σ') /\
  receive (one meta) "{1}" [("meta", "{2}")] m_zero = Fail "not a pointer".
Proof.
  assert (Hf : forall f t, field_type true false (one meta) f = Some t -> f = Payload /\ t = X (TNamed "Body") \/ f = Header "meta" /\ t = XPointer (X (TNamed "Body"))).
  { intros [|k] t; cbn; [intros [= <-]; auto|]. destruct (decide ("meta" = k)) as [<-|]; [cbn; intros [= <-]; auto|discriminate]. }
  assert (Hm : message_ok env0 true (one meta)) by apply one_ok, body_ok.
  assert (Hc : both_compile env0 true true false (one meta)) by (split; vm_compute; reflexivity).
  assert (Hw : well_typed env0 (field_type true false (one meta)) m_value).
  { intros f t H. apply Hf in H as [[-> ->]|[-> ->]]; cbn; exists (TNamed "Body"); repeat (split; [done|]); done. }
  assert (Hz : zero_values env0 (field_type true false (one meta)) m_zero).
  { split; intros f t H; apply Hf in H as [[-> Ht]|[-> Ht]]; try discriminate Ht; try reflexivity; subst t; cbn; [|by eexists].
    exists (TNamed "Body"); repeat (split; [done|]); done. }
  assert (Hg : send (one meta) m_value = Next (<["meta" := "{2}"]> ∅, "{1}")) by (vm_compute; reflexivity).
  split; [exact Hm|]. split; [exact Hc|]. split; [exact Hw|]. split; [exact Hz|]. split; [exact Hg|]. split; [|vm_compute; reflexivity].
  intros b Hb. refine (C97_object_header j_marshal j_unmarshal id j_parse "nil" "not a pointer" env0 true true false (one meta) m_value _ "{1}" b m_zero [meta] meta
    exports0 Hm Hc Hw Hz eq_refl (elem_of_list_here _ _) eq_refl (or_intror (conj eq_refl eq_refl)) _ Hg Hb). discriminate.
Qed.
(** Strings: the payload by reference, one header set and one not. *)
Definition note : message := mkMessage to_key (Some [h1; mkHeader "to" true true true (mkPart (simple "string" "email") None)]).
Definition n_value : place -> value string string := fun f => match f with Payload => VStr "hello" | Header k => if String.eqb k "id" then VNil else VStr "a@b" end.
Definition n_zero : place -> value string string := fun f => match f with Payload => VStr "" | Header k => if String.eqb k "id" then VNil else VStr "" end.
Example C97_strings_example :
  message_ok env0 true note /\ both_compile env0 true true false note /\ send note n_value = Next (<["to" := "a@b"]> ∅, "hello") /\
  exists σ', receive note "hello" [("to", "a@b")] n_zero = Next σ' /\ same_message (field_type true false note) n_value σ'.
Proof.
  assert (Hf : forall f t, field_type true false note f = Some t -> f = Payload /\ t = X (TNamed "Key") \/ f = Header "id" /\ t = XPointer (X TString) \/ f = Header "to" /\ t = X TString).
  { intros [|k] t; cbn; [intros [= <-]; auto|]. destruct (decide ("id" = k)) as [<-|]; [cbn; intros [= <-]; auto|].
    destruct (decide ("to" = k)) as [<-|]; [cbn; intros [= <-]; auto|discriminate]. }
  assert (Hm : message_ok env0 true note).
  { split; [apply to_key_ok|]. split; [done|]. intros hs [= <-]. split; [apply (bool_decide_unpack _); vm_compute; exact I|].
    repeat (apply Forall_cons; split); [apply plain_ok; [done|by exists TString].. | apply Forall_nil; exact I]. }
  assert (Hc : both_compile env0 true true false note) by (split; vm_compute; reflexivity).
  assert (Hw : well_typed env0 (field_type true false note) n_value).
  { intros f t H. apply Hf in H as [[-> ->]|[[-> ->]|[-> ->]]]; cbn; try reflexivity. by eexists. }
  assert (Hz : zero_values env0 (field_type true false note) n_zero).
  { split; intros f t H; apply Hf in H as [[-> Ht]|[[-> Ht]|[-> Ht]]]; try discriminate Ht; try reflexivity; subst t; cbn; try reflexivity. by eexists. }
  assert (Hg : send note n_value = Next (<["to" := "a@b"]> ∅, "hello")) by (vm_compute; reflexivity).
  split; [exact Hm|]. split; [exact Hc|]. split; [exact Hg|].
  refine (C97_strings j_marshal j_unmarshal id j_parse "nil" "not a pointer" env0 true true false note n_value _ "hello" _ n_zero exports0 Hm Hc Hw Hz
    eq_refl eq_refl _ Hg _).
  - intros hs h [= <-] Hin. apply elem_of_cons in Hin as [->|Hin]; [split; reflexivity|]. apply elem_of_list_singleton in Hin as ->. split; reflexivity.
  - rewrite map_to_list_insert by reflexivity. rewrite map_to_list_empty. reflexivity.
Qed.

Print Assumptions C97_encoder.
Print Assumptions C97_decoder.
Print Assumptions C58_decoder_exact.
Print Assumptions C97_undeclared.
Print Assumptions C97_survives.
Print Assumptions C97_strings.
Print Assumptions C97_object_header.
Print Assumptions C97_integer_refuted.
Print Assumptions C97_panic_refuted.
