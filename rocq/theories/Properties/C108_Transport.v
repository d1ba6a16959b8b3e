(** C108: headers over NATS arrive as they were sent.
    Full statement: [forall h h', carries Nats h h' -> h' = h]. False: names that are not tokens are left out, newlines become spaces and white space at the
    ends of values is dropped. C108_arrives says what arrives, C108_same which headers are kept.
    C109: a typed message that an application publishes, through the version wrapper and a broker, is the one that its peer is given.
    Full statement: C109_through without the conditions on headers. False: C109_nats_refuted, C109_version_refuted, and C107_all_refuted. *)
From stdpp Require Import gmap list strings.
From Coq Require Import ZArith NArith Lia Ascii String.
From Verif.Model Require Import Decoding Types Wire JsonText Codec Conversion Typed BrokerMessage Versioning Transport.
From Verif.Spec Require Import ConversionSpec GoRun SurviveSpec WireSpec JsonTextSpec TypedSpec VersioningSpec TransportSpec WaySpec.
From Verif.Proof Require Import DecodingProof ConversionProof GoRunProof WireProof JsonTextProof VersioningProof TransportProof PrintProof.
From Verif.Properties Require Import C90_Conversion C97_Survive C103_Wire C106_Text C107_Typed.
Local Open Scope string_scope.

Theorem C108_arrives h : (exists h', carries Nats h h') /\ forall h', carries Nats h h' -> thinned h h'.
Proof. split; [apply nats_total|]. intros h'. apply nats_way. Qed.
Print Assumptions C108_arrives.

Theorem C108_same h h' : carries Nats h h' -> (h' = h <-> forall k v, h !! k = Some v -> kept k v).
Proof. intros C. by apply thinned_same, nats_way. Qed.
Print Assumptions C108_same.

(** Objects in headers are kept, whatever they hold: JSON is written on one line. *)
Theorem C108_json k j : token k -> sound (fun _ => True) j -> kept k (print j).
Proof. intros K S. split; [exact K|]. split; [by apply smooth_line, print_smooth|by apply print_bare]. Qed.
Print Assumptions C108_json.

Definition two_headers : gmap string string := <["trace" := String.append " a" (String "010" "b ")]> (<["my header" := "x"]> ∅).
Definition left_over : gmap string string := {["trace" := "a b"]}.
Lemma two_headers_carried : carries Nats two_headers left_over.
Proof.
  exists (map_to_list two_headers), (map_to_list (nats_headers (map_to_list two_headers))), {["trace" := ["a b"]]}, [("trace", ["a b"])].
  split; [done|]. split; [done|]. split; [vm_compute; reflexivity|]. split; [by rewrite map_to_list_singleton|]. vm_compute. reflexivity.
Qed.
Theorem C108_same_refuted : ~ (forall h h', carries Nats h h' -> h' = h).
Proof.
  intros H. specialize (H _ _ two_headers_carried). assert (X : left_over !! "my header" = two_headers !! "my header") by by rewrite H.
  vm_compute in X. discriminate X.
Qed.
Print Assumptions C108_same_refuted.
Example C108_bytes_ex : header_bytes [("pet", ["{""kind"":""cat""}"]); ("trace", [" t-1"]); ("my header", ["x"])] =
  "NATS/1.0" +:+ CRLF +:+ "pet: {""kind"":""cat""}" +:+ CRLF +:+ "trace: t-1" +:+ CRLF +:+ CRLF.
Proof. vm_compute. reflexivity. Qed.
Lemma token_ok k : valid_name k = true -> token k.
Proof. apply valid_ok. Qed.
Lemma kept_ok k v : valid_name k = true -> clean v = v -> kept k v.
Proof. intros K C. split; [by apply valid_ok|by apply clean_same]. Qed.
Example C108_same_ex h' : carries Nats ada_headers h' -> h' = ada_headers.
Proof.
  intros C. apply (C108_same _ _ C). intros k v. unfold ada_headers. destruct (decide (k = "pet")) as [->|N1].
  - rewrite lookup_insert. intros [= <-]. apply kept_ok; vm_compute; reflexivity.
  - rewrite lookup_insert_ne by done. destruct (decide (k = "trace")) as [->|N2].
    + rewrite lookup_insert. intros [= <-]. apply kept_ok; vm_compute; reflexivity.
    + by rewrite lookup_insert_ne, lookup_empty.
Qed.
Example C108_json_ex : kept "pet" (print cat_json).
Proof. apply C108_json; [by apply token_ok|]. all_utf8. Qed.

Section C109.
  Context {T E : Type}.
  Context (wenv : string -> option wdef) (fuel : nat) (float32 float64 : num -> option num) (date time : string -> option string).
  Context (any : json -> json) (date0 time0 : string) (err_write err_read : E).
  Context (tformat : T -> string) (tparse : string -> T + E) (err_nil err_unmarshal : E).
  Context (v3 dates force : bool) (m : message).
  Notation env := (package wenv fuel).
  Notation types := (Conversion.field_type dates force m).
  Notation marshal := (Typed.marshal (T := T) wenv fuel err_write).
  Notation unmarshal := (Typed.unmarshal (T := T) wenv fuel float32 float64 date time any date0 time0 err_read).
  Notation to_broker σ := (gives marshal unmarshal tformat tparse err_nil err_unmarshal env types "" [] σ (encoder dates force m)).
  Notation from_broker x b zero := (fills marshal unmarshal tformat tparse err_nil err_unmarshal env types x b zero (decoder v3 dates force m)).
  Notation sendable := (TypedSpec.sendable wenv float32 float64 date time any tformat tparse (encode wenv fuel) force types m).

  Lemma headers_kept σ h x : exports env -> message_ok env dates m -> both_compile env v3 dates force m -> well_typed env types σ ->
    sendable σ -> light tformat m σ -> to_broker σ = Next (h, x) -> forall k y, h !! k = Some y -> kept k y.
  Proof using.
    intros He Hm Hc Hw [_ _ So Sr] L Hg k y Hk. apply (C90_exact_partial _ _ _ _ _ He Hm) in Hc.
    pose proof (run_encoder marshal unmarshal tformat tparse err_nil err_unmarshal env v3 dates force He m Hm Hc "" [] σ Hw) as Q. rewrite Hg in Q.
    destruct Q as (_ & Q & N). destruct (decide (k ∈ map h_key (hdrs m))) as [Hin|Hn]; [|rewrite (N k Hn) in Hk; discriminate].
    apply elem_of_list_In, in_map_iff in Hin as (h0 & <- & Hin%elem_of_list_In). specialize (Q h0 Hin). rewrite Hk in Q.
    unfold hdrs in Hin. destruct (m_headers m) as [hs|] eqn:Ehs; [|by apply elem_of_nil in Hin]. cbn in Hin.
    destruct (L hs h0 Ehs Hin) as [Tk Ht]. unfold hbytes in Q. destruct (String.eqb_spec (g_type (own (h_part h0))) "object") as [Eo|No].
    - destruct (So hs h0 eq_refl Hin Eo) as (_ & _ & t & _ & w & Ew & _ & P). rewrite Ew in Q. cbn in Q.
      destruct (encode wenv fuel w t) as [j|] eqn:Ej; [|discriminate]. injection Q as <-. destruct (P j eq_refl) as [U _]. apply C108_json; [exact Tk|].
      clear -U. revert U. induction j as [|b|z|s|l IH|kvs IH] using json_induction; intros H; inversion H; subst; try (by constructor).
      + constructor. rewrite Forall_forall in *. auto.
      + constructor. rewrite Forall_forall in *. intros z Hz. split; [done|]. apply IH; [done|]. match goal with F : forall y, y ∈ kvs -> _ |- _ => by destruct (F z Hz) end.
    - assert (X : header_text tformat (σ (Header (h_key h0))) = Some y); [|by apply Ht].
      destruct (σ (Header (h_key h0))) as [ | | | | | | | |[ | | | | | | | | ]]; cbn in Q |- *; try congruence.
      destruct (h_flag h0); discriminate.
  Qed.

  Theorem C109_through b cfg ver σ zero :
    good_env wenv -> ranked wenv fuel -> all_known wenv -> exports env -> message_ok env dates m -> both_compile env v3 dates force m ->
    well_typed env types σ -> zero_values env types zero -> sendable σ ->
    (b = Nats -> light tformat m σ) -> (forall v, ver = Some v -> types (Header (vkey cfg)) = None /\ (b = Nats -> kept (vkey cfg) v)) ->
    exists h x h1, to_broker σ = Next (h, x) /\ w_publish cfg ver (mkBmsg (Some h) (Some x)) = Some (mkBmsg (Some h1) (Some x)) /\
      (exists h2, carries b h1 h2) /\
      forall h2, carries b h1 h2 ->
        (forall v d, ver = Some v -> v <> "" -> addressed (vkey cfg) d (mkBmsg (Some h2) (Some x)) v) /\
        forall l, l ≡ₚ map_to_list h2 -> exists σ', from_broker x l zero = Next σ' /\ same_message types σ σ'.
  Proof using.
    intros G R K He Hm Hc Hw Hz Hs Hl Hv.
    destruct (C107_through wenv fuel float32 float64 date time any date0 time0 err_write err_read tformat tparse err_nil err_unmarshal v3 dates force m σ zero
      G R K He Hm Hc Hw Hz Hs) as (h & x & Hg & _ & Hb).
    set (h1 := match ver with Some v => <[vkey cfg := v]> h | None => h end).
    exists h, x, h1. split; [exact Hg|]. split; [by destruct ver|].
    assert (S : forall h2, carries b h1 h2 -> h2 = h1).
    { intros h2 C. destruct b; [by apply kafka_way|]. apply (C108_same h1 h2 C). intros k y. unfold h1.
      pose proof (headers_kept σ h x He Hm Hc Hw Hs (Hl eq_refl) Hg) as Kp.
      destruct ver as [v|]; [|apply Kp]. destruct (decide (vkey cfg = k)) as [<-|N]; [|rewrite lookup_insert_ne by exact N; apply Kp].
      rewrite lookup_insert. intros [= <-]. by apply (Hv v). }
    split; [destruct b; [exists h1; by apply kafka_way|apply nats_total]|]. intros h2 C. apply S in C. subst h2. split.
    - intros v d -> Hn. destruct (w_publish_tag cfg v h (Some x) Hn) as (m0 & E0 & _ & _ & _ & A & _). cbn in E0. injection E0 as <-. apply A.
    - intros l Hp. destruct (Hb (map_to_list h) ltac:(done)) as (σ1 & R1 & S1).
      destruct (C97_undeclared marshal unmarshal tformat tparse err_nil err_unmarshal env v3 dates force m x (map_to_list h) l zero σ1 He Hm Hc Hz) as (σ2 & R2 & S2).
      + apply (NoDup_fst_map_to_list h).
      + apply (NoDup_Permutation_proper _ _ (Permutation_map fst Hp)). apply (NoDup_fst_map_to_list h1).
      + intros k t y Ht. rewrite Hp, !elem_of_map_to_list. unfold h1. destruct ver as [v|]; [|done].
        rewrite lookup_insert_ne; [done|]. intros <-. destruct (Hv v eq_refl) as [Nt _]. congruence.
      + exact R1.
      + exists σ2. split; [exact R2|]. intros f t Ht. rewrite S2. by apply (S1 f t).
  Qed.
End C109.
Print Assumptions C109_through.

(** ** Examples: the message of C107 *)
Notation sendable_hello σ := (sendable people_types Some Some Some Some (fun j => j) (fun t : string => t) (fun t => inl t : string + string) (encode people_types 2) false fields_of hello σ).
Lemma sends s : sendable_hello (hello_value ada cat (GoRun.VPtr (GoRun.VStr s))).
Proof.
  destruct hello_sendable as [S1 S2 S3 S4]. split; [exact S1|exact S2| |].
  - intros hs h E Hin. specialize (S3 hs h E Hin). injection E as <-. apply elem_of_cons in Hin as [->|Hin]; [discriminate|]. apply elem_of_list_singleton in Hin as ->. exact S3.
  - intros hs h [= <-] Hin. apply elem_of_cons in Hin as [->|Hin]; [intros _; by split|]. apply elem_of_list_singleton in Hin as ->. by intros [].
Qed.
Example C109_through_ex b : exists h x h1, send_hello ada_message = Next (h, x) /\
  w_publish (mkCfg "version" None) (Some "2.0") (mkBmsg (Some h) (Some x)) = Some (mkBmsg (Some h1) (Some x)) /\ (exists h2, carries b h1 h2) /\
  forall h2, carries b h1 h2 -> (forall v d, Some "2.0" = Some v -> v <> "" -> addressed "version" d (mkBmsg (Some h2) (Some x)) v) /\
    forall l, l ≡ₚ map_to_list h2 -> exists σ', get_hello x l = Next σ' /\ same_message fields_of ada_message σ'.
Proof.
  apply (C109_through people_types 2 Some Some Some Some (fun j => j) "0000-00-00" "0001-01-01T00:00:00Z" "unsupported" "invalid" (fun t => t) (fun t => inl t) "nil" "not a pointer"
    true true false hello b (mkCfg "version" None) (Some "2.0") ada_message no_message people_good people_ranked people_known people_exports hello_ok hello_compiles).
  - apply hello_typed. reflexivity.
  - exact hello_zero.
  - apply hello_sendable.
  - intros _ hs h [= <-] Hin. apply elem_of_cons in Hin as [->|Hin]; [|apply elem_of_list_singleton in Hin as ->].
    + split; [by apply token_ok|]. intros s [= <-]. apply kept_ok; vm_compute; reflexivity.
    + split; [by apply token_ok|]. intros s. discriminate.
  - intros v [= <-]. split; [vm_compute; reflexivity|]. intros _. apply kept_ok; vm_compute; reflexivity.
Qed.
Lemma sent_trace s : send_hello (hello_value ada cat (GoRun.VPtr (GoRun.VStr s))) =
  Next (<["pet" := "{""kind"":""cat"",""colour"":""black""}"]> (<["trace" := s]> ∅), ada_text).
Proof. vm_compute. reflexivity. Qed.
Lemma got_trace s : exists σ', get_hello ada_text [("pet", "{""kind"":""cat"",""colour"":""black""}"); ("trace", s)] = Next σ' /\ σ' (Header "trace") = GoRun.VPtr (GoRun.VStr s).
Proof. eexists. split; [vm_compute; reflexivity|]. vm_compute. reflexivity. Qed.

(** Without the condition on the texts of headers: " t" arrives as "t". *)
Theorem C109_nats_refuted : ~ (forall σ h x h2 l, well_typed people_env fields_of σ -> sendable_hello σ -> send_hello σ = Next (h, x) -> carries Nats h h2 ->
  l ≡ₚ map_to_list h2 -> exists σ', get_hello x l = Next σ' /\ same_message fields_of σ σ').
Proof.
  intros H. pose proof (sent_trace " t") as Sent. set (h := <["pet" := "{""kind"":""cat"",""colour"":""black""}"]> (<["trace" := " t"]> (∅ : gmap string string))) in *.
  set (h2 := <["pet" := "{""kind"":""cat"",""colour"":""black""}"]> (<["trace" := "t"]> (∅ : gmap string string))).
  destruct (H (hello_value ada cat (GoRun.VPtr (GoRun.VStr " t"))) h ada_text h2 [("pet", "{""kind"":""cat"",""colour"":""black""}"); ("trace", "t")]) as (σ' & R & S).
  - apply hello_typed. reflexivity.
  - apply sends.
  - exact Sent.
  - destruct (nats_total h) as [h' C]. assert (E : h' = h2); [|by rewrite E in C].
    apply map_eq. intros k. apply option_eq. intros w. rewrite (nats_way _ _ C k w), <- valid_ok. unfold h, h2.
    destruct (decide (k = "pet")) as [->|N1].
    { rewrite !lookup_insert. split; [intros (_ & v & [= <-] & ->%clean_ok); vm_compute; reflexivity|]. intros [= <-]. split; [vm_compute; reflexivity|].
      eexists. split; [reflexivity|]. apply clean_ok. vm_compute. reflexivity. }
    rewrite !(lookup_insert_ne _ "pet") by done. destruct (decide (k = "trace")) as [->|N2].
    { rewrite !lookup_insert. split; [intros (_ & v & [= <-] & ->%clean_ok); vm_compute; reflexivity|]. intros [= <-]. split; [vm_compute; reflexivity|].
      eexists. split; [reflexivity|]. apply clean_ok. vm_compute. reflexivity. }
    rewrite !lookup_insert_ne, !lookup_empty by done. split; [by intros (_ & v & ? & _)|done].
  - unfold h2. rewrite map_to_list_insert by by rewrite lookup_insert_ne, lookup_empty. by rewrite map_to_list_insert, map_to_list_empty by by rewrite lookup_empty.
  - destruct (got_trace "t") as (σ'' & R' & E). rewrite R in R'. injection R' as <-. specialize (S (Header "trace") _ eq_refl). rewrite E in S. discriminate S.
Qed.
Print Assumptions C109_nats_refuted.

(** Without the condition on the name of the version header: a header of the message that has it is replaced, with every broker. *)
Theorem C109_version_refuted b : ~ (forall cfg v σ h x h1 h2 l, well_typed people_env fields_of σ -> sendable_hello σ -> send_hello σ = Next (h, x) ->
  w_publish cfg (Some v) (mkBmsg (Some h) (Some x)) = Some (mkBmsg (Some h1) (Some x)) -> carries b h1 h2 ->
  l ≡ₚ map_to_list h2 -> exists σ', get_hello x l = Next σ' /\ same_message fields_of σ σ').
Proof.
  intros H. pose proof (sent_trace "t") as Sent. set (h := <["pet" := "{""kind"":""cat"",""colour"":""black""}"]> (<["trace" := "t"]> (∅ : gmap string string))) in *.
  set (h1 := <["pet" := "{""kind"":""cat"",""colour"":""black""}"]> (<["trace" := "1"]> (∅ : gmap string string))).
  destruct (H (mkCfg "trace" None) "1" (hello_value ada cat (GoRun.VPtr (GoRun.VStr "t"))) h ada_text h1 h1 [("pet", "{""kind"":""cat"",""colour"":""black""}"); ("trace", "1")]) as (σ' & R & S).
  - apply hello_typed. reflexivity.
  - apply sends.
  - exact Sent.
  - cbn. unfold h, h1. by rewrite insert_commute, insert_insert.
  - destruct b; [by apply kafka_way|]. destruct (nats_total h1) as [h' C]. pose proof (C108_same h1 h' C) as [_ E]. rewrite E in C; [exact C|].
    intros k v. unfold h1. destruct (decide (k = "pet")) as [->|N1]; [rewrite lookup_insert; intros [= <-]; apply kept_ok; vm_compute; reflexivity|].
    rewrite lookup_insert_ne by done. destruct (decide (k = "trace")) as [->|N2]; [rewrite lookup_insert; intros [= <-]; apply kept_ok; vm_compute; reflexivity|].
    by rewrite lookup_insert_ne, lookup_empty.
  - unfold h1. rewrite map_to_list_insert by by rewrite lookup_insert_ne, lookup_empty. by rewrite map_to_list_insert, map_to_list_empty by by rewrite lookup_empty.
  - destruct (got_trace "1") as (σ'' & R' & E). rewrite R in R'. injection R' as <-. specialize (S (Header "trace") _ eq_refl). rewrite E in S. discriminate S.
Qed.
Print Assumptions C109_version_refuted.
