(** C118: messages of other producers, whole: headers and payloads in JSON and RFC 3339 as any other program writes them.
    Full statement: every message whose payload and headers are the JSON that the schemas admit is given to the application as what they say. That is false: integers
    are read as bytes and not as JSON (C118_integers_refuted), strings are not read as JSON either (C118_strings_refuted), and objects in headers that may be left out
    are never read (C118_objects_refuted). C118_document proves it for all others; C118_accepted says exactly which messages are read. *)
From stdpp Require Import gmap list strings.
From Coq Require Import ZArith NArith Lia Ascii String.
From Verif.Model Require Import Codec Decoding Types Wire JsonText Conversion Typed.
From Verif.Model Require Dates.
From Verif.Proof Require Import DecodingProof.
From Verif.Spec Require Import ConversionSpec GoRun SurviveSpec WireSpec JsonTextSpec TypedSpec JsonGrammar ForeignSpec.
From Verif.Spec Require DatesSpec.
From Verif.Proof Require Import ConversionProof GoRunProof WireProof JsonTextProof GrammarWrittenProof.
From Verif.Properties Require Import C90_Conversion C97_Survive C103_Wire C106_Text C107_Typed C117_Grammar.
From Verif.Properties Require C116_Dates.
Local Open Scope string_scope.

Lemma tparse_loose y tm : Dates.tparse y = inl tm <-> is_loose_stamp y tm.
Proof.
  unfold Dates.tparse, is_loose_stamp. rewrite <- C116_Dates.C116_read. destruct (Dates.parse _) as [t|]; split; congruence.
Qed.
Lemma tparse_stamp y tm : is_stamp y tm -> Dates.tparse y = inl tm.
Proof. intros H. unfold Dates.tparse. by rewrite (C116_Dates.C116_rfc3339 _ _ H). Qed.

Section C118.
  Context (wenv : string -> option wdef) (fuel : nat) (float32 float64 : num -> option num) (date time : string -> option string).
  Context (any : json -> json) (date0 time0 : string) (v3 dates force : bool) (m : message).
  Notation env := (package wenv fuel).
  Notation types := (Conversion.field_type dates force m).
  Notation marshal := (Typed.marshal (T := Dates.time) wenv fuel tt).
  Notation unmarshal := (Typed.unmarshal (T := Dates.time) wenv fuel float32 float64 date time any date0 time0 tt).
  Notation from_broker x b zero := (fills marshal unmarshal Dates.tformat Dates.tparse tt tt env types x b zero (decoder v3 dates force m)).
  Notation payload_readable := (payload_readable wenv float32 float64 date time dates).
  Notation header_readable := (header_readable wenv float32 float64 date time dates force).
  Notation json_for := (json_for wenv float32 float64 date time).
  Notation json_means := (json_means wenv float32 float64 date time any date0 time0).
  Notation payload_proper := (payload_proper dates).
  Notation header_proper := (header_proper dates).
  Notation payload_means := (payload_means wenv float32 float64 date time any date0 time0 dates).
  Notation header_means := (header_means wenv float32 float64 date time any date0 time0 dates).
  Notation decode := (decode wenv fuel float32 float64 date time any date0 time0).
  Context (G : good_env wenv) (R : ranked wenv fuel) (K : all_known wenv).

  Lemma text_of_parse j x : text_of True j x <-> parse x = Some j.
  Proof using. unfold text_of. by rewrite C117_exact. Qed.
  Lemma json_read t x : known wenv t -> json_for True (fun _ _ => True) t x <-> exists j w, parse x = Some j /\ decode j t = Some w.
  Proof using G R K.
    intros Kt. split.
    - intros (j & T & F). apply text_of_parse in T. apply (C103_read wenv fuel float32 float64 date time any date0 time0 G R K t j Kt) in F as [w D]. by exists j, w.
    - intros (j & w & P & D). exists j. split; [by apply text_of_parse|]. apply (C103_read wenv fuel float32 float64 date time any date0 time0 G R K t j Kt). by exists w.
  Qed.
  Lemma unmarshal_value t x : known wenv t -> (exists v, unmarshal (X t) x = inl v) <-> json_for True (fun _ _ => True) t x.
  Proof using G R K.
    intros Kt. rewrite (json_read t x Kt). unfold Typed.unmarshal. destruct (parse x) as [j|] eqn:P.
    - destruct (decode j t) as [w|] eqn:D; split.
      + intros _. by exists j, w.
      + intros _. eauto.
      + intros [v [=]].
      + intros (j' & w & [= <-] & D'). congruence.
    - split; [intros [v [=]]|]. intros (j' & w & [=] & _).
  Qed.
  Lemma unmarshal_pointer t x : known wenv t -> (exists v, unmarshal (XPointer (X t)) x = inl v) <-> json_for True (fun _ _ => True) t x.
  Proof using G R K.
    intros Kt. rewrite (json_read t x Kt). unfold Typed.unmarshal. destruct (parse x) as [j|] eqn:P; [|split; [intros [v [=]]|]; intros (j' & w & [=] & _)].
    assert (N : exists w, decode JNull t = Some w).
    { destruct (proj2 (C103_read wenv fuel float32 float64 date time any date0 time0 G R K t JNull Kt)) as [w D]; [by constructor|by exists w]. }
    destruct N as [w0 N]. destruct j as [|c|n|s|l|kvs]; [split; [intros _; by exists JNull, w0|eauto]|..].
    all: match goal with |- context [Wire.decode _ _ _ _ _ _ _ _ _ ?j ?t] => destruct (decode j t) as [w|] eqn:D end; split;
      [intros _; eauto|eauto|intros [v [=]]|intros (j' & w & [= <-] & D'); congruence].
  Qed.

  Lemma package_known n u : env n = Some u -> known wenv (TNamed n).
  Proof using.
    clear R. intros H. apply known_name. unfold package in H. destruct fuel as [|k]; [discriminate H|]. cbn in H. destruct (wenv n) as [d|]; [by eexists|discriminate H].
  Qed.
  Lemma kind_known h t : kind env v3 dates force h t -> known wenv t.
  Proof using.
    unfold kind. cbv zeta. destruct (String.eqb _ "object").
    - intros (U & -> & _). cbn in U. destruct (env (g_name (own (h_part h)))) eqn:E; [by apply package_known in E|discriminate U].
    - intros [_ H]. destruct (is_date_generated _ _).
      + destruct H as [-> _]. apply known_basic. apply (bool_decide_unpack _). vm_compute. exact I.
      + destruct H as [U _]. destruct t; try discriminate U; [|apply known_basic; apply (bool_decide_unpack _); vm_compute; exact I].
        cbn in U. destruct (env n) eqn:E; [by apply package_known in E|discriminate U].
  Qed.
  Notation pread := (pread unmarshal Dates.tparse dates).
  Notation hread := (hread unmarshal Dates.tparse tt dates force).
  Lemma payload_read p t x : known wenv t -> (exists v, pread p (X t) x = Next v) <-> payload_readable p t x.
  Proof using G R K.
    intros Kt. unfold GoRunProof.pread, ForeignSpec.payload_readable, date_schema. cbv zeta.
    destruct (String.eqb_spec (g_type (followed p)) "string") as [Es|Ns].
    { destruct (is_date_generated dates (g_format (followed p))).
      - destruct (Dates.tparse x) as [tm|e] eqn:Et.
        + apply tparse_loose in Et. split; [intros _|eauto]. split; [congruence|]. split; [eauto|congruence].
        + split; [intros [v [=]]|]. intros (_ & H & _). destruct (H Es eq_refl) as [tm L]. apply tparse_loose in L. congruence.
      - split; [intros _|eauto]. split; [congruence|]. split; [done|congruence]. }
    destruct (String.eqb_spec (g_type (followed p)) "integer") as [Ei|Ni].
    { unfold too_short. cbv zeta.
      assert (W : Codec.width (String.eqb (g_format (followed p)) "int32") = (if String.eqb (g_format (followed p)) "int32" then 4 else 8)%nat) by (by destruct (String.eqb _ _)).
      rewrite W. destruct (Nat.ltb_spec (String.length x) (if String.eqb (g_format (followed p)) "int32" then 4 else 8)%nat) as [L|L]; split.
      - intros [v [=]].
      - intros (H & _). exfalso. by apply H.
      - intros _. split; [intros _ [_ H]; lia|]. split; congruence.
      - intros _. eauto. }
    rewrite <- (unmarshal_value t x Kt). destruct (unmarshal (X t) x) as [v|e]; split.
    - intros _. split; [congruence|]. split; [congruence|]. eauto.
    - eauto.
    - intros [v [=]].
    - intros (_ & _ & H). destruct (H Ni Ns) as [v [=]].
  Qed.
  Lemma header_read h t y : known wenv t -> (exists v, hread h (htype force h t) y = Next v) <-> header_readable h t y.
  Proof using G R K.
    intros Kt. unfold GoRunProof.hread, ForeignSpec.header_readable, date_schema. cbv zeta.
    destruct (String.eqb_spec (g_type (own (h_part h))) "object") as [Eo|No].
    - destruct (is_field_pointer force (h_listed h || h_flag h) (own (h_part h))).
      + split; [intros [v [=]]|]. intros [H _]. by destruct (H Eo).
      + assert (U : (exists v, unmarshal (htype force h t) y = inl v) <-> json_for True (fun _ _ => True) t y).
        { unfold htype. destruct (is_field_pointer _ _ _); [by apply unmarshal_pointer|by apply unmarshal_value]. }
        rewrite <- U. destruct (unmarshal (htype force h t) y) as [v|e]; split.
        * intros _. split; [intros _; split; [done|eauto]|done].
        * eauto.
        * intros [v [=]].
        * intros [H _]. destruct (H Eo) as [_ [v [=]]].
    - destruct (is_date_generated dates (g_format (own (h_part h)))).
      + destruct (Dates.tparse y) as [tm|e] eqn:Et.
        * apply tparse_loose in Et. split; [intros _|eauto]. split; [done|eauto].
        * split; [intros [v [=]]|]. intros [_ H]. destruct (H No eq_refl) as [tm L]. apply tparse_loose in L. congruence.
      + split; [intros _|eauto]. by split.
  Qed.

  (** Exactly the messages that are read. *)
  Theorem C118_accepted x b zero :
    exports env -> message_ok env dates m -> both_compile env v3 dates force m -> zero_values env types zero -> NoDup (map fst b) ->
    (forall t, schema_name dates (own (m_payload m)) = Some t -> known wenv t) ->
    (exists σ, from_broker x b zero = Next σ) <->
    (forall t, schema_name dates (own (m_payload m)) = Some t -> payload_readable (m_payload m) t x) /\
    (forall hs h t y, m_headers m = Some hs -> h ∈ hs -> (h_key h, y) ∈ b -> schema_name dates (own (h_part h)) = Some t -> header_readable h t y).
  Proof using G R K.
    intros He Hm Hc Hz Hd Hkn. apply (C90_exact_partial _ _ _ _ _ He Hm) in Hc.
    pose proof (run_decoder marshal unmarshal Dates.tformat Dates.tparse tt tt env v3 dates force He m Hm Hc x b zero Hz Hd) as Q.
    pose proof Hm as ((_ & (tp & Hn & _) & _) & _ & Hh). pose proof (Hkn tp Hn) as Hw.
    assert (Hp : types Payload = Some (X tp)) by (cbn; by rewrite Hn).
    assert (HK : forall h, h ∈ hdrs m -> exists t, schema_name dates (own (h_part h)) = Some t /\ known wenv t /\ types (Header (h_key h)) = Some (htype force h t)).
    { intros h Hin. pose proof Hin as Hin'. destruct (good_in env v3 dates force He m Hm Hc h Hin') as (t & Kd & _ & Ht). unfold hdrs in Hin.
      destruct (m_headers m) as [hs|] eqn:Eh; [|by apply elem_of_nil in Hin]. cbn [default] in Hin.
      destruct (Hh hs eq_refl) as [_ F]. rewrite Forall_forall in F. destruct (F h Hin) as (_ & (t' & Et & _) & _).
      pose proof (type_header env dates force m Hm h t' Hin' Et) as Ht'. rewrite Ht in Ht'. assert (t = t') as -> by (unfold htype in Ht'; destruct (is_field_pointer _ _ _); congruence).
      exists t'. split; [exact Et|]. split; [by eapply kind_known|exact Ht]. }
    split.
    - intros [σ Hs]. rewrite Hs in Q. destruct Q as (t & Ht & P & H & _). rewrite Hp in Ht. injection Ht as <-. split.
      + intros t Ht. rewrite Hn in Ht. injection Ht as <-. apply (payload_read _ _ _ Hw). eauto.
      + intros hs h t y Ehs Hin Hb Et. assert (Hin' : h ∈ hdrs m) by (unfold hdrs; by rewrite Ehs). destruct (HK h Hin') as (t' & Et' & Kt & Hty). rewrite Et' in Et. injection Et as <-.
        apply (header_read _ _ _ Kt). exists (σ (Header (h_key h))). by eapply H.
    - intros [P H]. apply (payload_read _ _ _ Hw) in P as [v P]; [|exact Hn].
      destruct (from_broker x b zero) as [σ|e| |]; [eauto| | |contradiction].
      + destruct Q as (t & Ht & Q). rewrite Hp in Ht. injection Ht as <-. destruct Q as [Q|(v' & h & t' & y & _ & Hin & Hb & Ht' & Q)]; [congruence|].
        destruct (HK h Hin) as (t & Et & Kt & Hty). rewrite Hty in Ht'. injection Ht' as <-. unfold hdrs in Hin. destruct (m_headers m) as [hs|] eqn:Eh; [|by apply elem_of_nil in Hin].
        destruct (proj2 (header_read h t y Kt) (H hs h t y eq_refl Hin Hb Et)) as [w Hr]. congruence.
      + destruct Q as (t & Ht & Q). rewrite Hp in Ht. injection Ht as <-. congruence.
  Qed.

  Lemma json_meant t x : json_for False clear_keys t x -> exists j w, parse x = Some j /\ decode j t = Some w /\ json_text False x j /\ json_means t x w.
  Proof using G R K.
    intros (j & [T N] & F). destruct (C103_arrives wenv fuel float32 float64 date time any date0 time0 G R K t j F) as (w & D & A).
    exists j, w. split; [by apply C117_standard|]. split; [exact D|]. split; [exact T|]. by exists j.
  Qed.
  Lemma payload_meant p t x : payload_proper (json_for False clear_keys t) (followed p) x -> exists v, pread p (X t) x = Next v /\ payload_means (followed p) t x v.
  Proof using G R K.
    unfold GoRunProof.pread. cbv zeta. intros [Hk J|tm Hs Hd Ht|Hs Hd].
    - assert (N1 : String.eqb (g_type (followed p)) "string" = false) by (apply String.eqb_neq; destruct Hk; congruence).
      assert (N2 : String.eqb (g_type (followed p)) "integer" = false) by (apply String.eqb_neq; destruct Hk; congruence).
      rewrite N1, N2. destruct (json_meant t x J) as (j & w & P & D & _ & M). unfold Typed.unmarshal. rewrite P, D.
      eexists. split; [reflexivity|]. by constructor.
    - rewrite Hs. change (String.eqb "string" "string") with true. cbn iota. unfold date_schema in Hd. rewrite Hd. rewrite (tparse_stamp _ _ Ht).
      eexists. split; [reflexivity|]. by constructor.
    - rewrite Hs. change (String.eqb "string" "string") with true. cbn iota. pose proof Hd as Hd'. unfold date_schema in Hd'. destruct (is_date_generated _ _); [done|].
      eexists. split; [reflexivity|]. by constructor.
  Qed.
  Lemma header_meant h t y : kind env v3 dates force h t -> header_proper (json_for False clear_keys t) (own (h_part h)) y ->
    (g_type (own (h_part h)) = "object" -> is_field_pointer force (h_listed h || h_flag h) (own (h_part h)) = false) ->
    exists v, hread h (htype force h t) y = Next v /\ header_means (own (h_part h)) y (htype force h t) v.
  Proof using G R K.
    intros Kd Hp Hf. unfold GoRunProof.hread, htype. cbv zeta. unfold kind in Kd. cbv zeta in Kd. destruct Hp as [Ho J|tm Ho Hd Ht|Ho Hd].
    - rewrite (Hf Ho), Ho. change (String.eqb "object" "object") with true. cbn iota.
      destruct (json_meant t y J) as (j & w & P & D & T & M). destruct (is_field_pointer force (h_declared h || h_flag h) (own (h_part h))).
      + unfold Typed.unmarshal. rewrite P.
        assert (N : j <> JNull -> ~ json_text False y JNull).
        { intros N T'. apply N. eapply C117_one; by apply standard_lenient. }
        destruct j as [|c|n|s|l|kvs]; [eexists; split; [reflexivity|by constructor]|..]; rewrite D; (eexists; split; [reflexivity|]); (apply means_pointer; [done|by apply N|done]).
      + unfold Typed.unmarshal. rewrite P, D. eexists. split; [reflexivity|]. by constructor.
    - apply String.eqb_neq in Ho as Ho'. rewrite Ho' in *. destruct Kd as [Ed _]. rewrite Ed. clear Ed. pose proof Hd as Hd'. unfold date_schema in Hd'. rewrite Hd'. rewrite (tparse_stamp _ _ Ht).
      destruct (is_field_pointer _ _ _); (eexists; split; [reflexivity|]); by constructor.
    - apply String.eqb_neq in Ho as Ho'. rewrite Ho' in *. destruct Kd as [Ed _]. rewrite Ed. clear Ed. pose proof Hd as Hd'. unfold date_schema in Hd'. destruct (is_date_generated _ _); [done|].
      destruct (is_field_pointer _ _ _); (eexists; split; [reflexivity|]); by constructor.
  Qed.

  (** What is written for the types is read, as what it means. Headers that are not there are those of the empty message, and others make no difference. *)
  Theorem C118_meant x b zero :
    exports env -> message_ok env dates m -> both_compile env v3 dates force m -> zero_values env types zero -> NoDup (map fst b) ->
    (forall t, schema_name dates (own (m_payload m)) = Some t -> payload_proper (json_for False clear_keys t) (followed (m_payload m)) x) ->
    (forall hs h t y, m_headers m = Some hs -> h ∈ hs -> (h_key h, y) ∈ b -> schema_name dates (own (h_part h)) = Some t ->
       header_proper (json_for False clear_keys t) (own (h_part h)) y /\
       (g_type (own (h_part h)) = "object" -> is_field_pointer force (h_listed h || h_flag h) (own (h_part h)) = false)) ->
    exists σ, from_broker x b zero = Next σ /\
      (exists t, types Payload = Some (X t) /\ payload_means (followed (m_payload m)) t x (σ Payload)) /\
      (forall hs h y, m_headers m = Some hs -> h ∈ hs -> (h_key h, y) ∈ b ->
         exists t, types (Header (h_key h)) = Some t /\ header_means (own (h_part h)) y t (σ (Header (h_key h)))) /\
      (forall k, k ∉ map fst b -> σ (Header k) = zero (Header k)).
  Proof using G R K.
    intros He Hm Hc Hz Hd Pp Ph. apply (C90_exact_partial _ _ _ _ _ He Hm) in Hc.
    pose proof (run_decoder marshal unmarshal Dates.tformat Dates.tparse tt tt env v3 dates force He m Hm Hc x b zero Hz Hd) as Q.
    pose proof Hm as ((_ & (tp & Hn & _) & _) & _ & Hh).
    assert (Hp : types Payload = Some (X tp)) by (cbn; by rewrite Hn).
    assert (HK : forall h, h ∈ hdrs m -> exists t, schema_name dates (own (h_part h)) = Some t /\ kind env v3 dates force h t /\ types (Header (h_key h)) = Some (htype force h t)).
    { intros h Hin. pose proof Hin as Hin'. destruct (good_in env v3 dates force He m Hm Hc h Hin') as (t & Kd & _ & Ht). unfold hdrs in Hin.
      destruct (m_headers m) as [hs|] eqn:Eh; [|by apply elem_of_nil in Hin]. cbn [default] in Hin.
      destruct (Hh hs eq_refl) as [_ F]. rewrite Forall_forall in F. destruct (F h Hin) as (_ & (t' & Et & _) & _).
      pose proof (type_header env dates force m Hm h t' Hin' Et) as Ht'. rewrite Ht in Ht'. assert (t = t') as -> by (unfold htype in Ht'; destruct (is_field_pointer _ _ _); congruence).
      exists t'. by split. }
    destruct (payload_meant (m_payload m) tp x (Pp tp Hn)) as (v & Pv & Mv).
    assert (HR : forall h y, h ∈ hdrs m -> (h_key h, y) ∈ b ->
      exists t w, types (Header (h_key h)) = Some t /\ hread h t y = Next w /\ header_means (own (h_part h)) y t w).
    { intros h y Hin Hb. destruct (HK h Hin) as (t & Et & Kd & Ht). unfold hdrs in Hin. destruct (m_headers m) as [hs|] eqn:Eh; [|by apply elem_of_nil in Hin].
      destruct (Ph hs h t y eq_refl Hin Hb Et) as [Hpr Hf]. destruct (header_meant h t y Kd Hpr Hf) as (w & Hr & Hw). by exists (htype force h t), w. }
    destruct (from_broker x b zero) as [σ|e| |]; [| | |contradiction].
    - destruct Q as (t & Ht & P & H & O). rewrite Hp in Ht. injection Ht as <-. exists σ. split; [reflexivity|]. split; [|split].
      + exists tp. split; [exact Hp|]. rewrite Pv in P. by injection P as <-.
      + intros hs h y Eh Hin Hb. assert (Hin' : h ∈ hdrs m) by (unfold hdrs; by rewrite Eh). destruct (HR h y Hin' Hb) as (t & w & Ht & Hr & Hw). exists t. split; [exact Ht|].
        rewrite (H h t y Hin' Hb Ht) in Hr. by injection Hr as <-.
      + intros k Hk. apply O. by right.
    - destruct Q as (t & Ht & [Q|(v' & h & t' & y & _ & Hin & Hb & Ht' & Q)]); rewrite Hp in Ht; injection Ht as <-; [congruence|].
      destruct (HR h y Hin Hb) as (t & w & Ht & Hr & _). congruence.
    - destruct Q as (t & Ht & Q). rewrite Hp in Ht. injection Ht as <-. congruence.
  Qed.
End C118.
Print Assumptions C118_accepted.
Print Assumptions C118_meant.

(** ** Whole documents *)
(** Times and dates in JSON are those of C116; how numbers are rounded and what is held by an interface stay arbitrary. *)
Section document.
  Context (wenv : string -> option wdef) (fuel : nat) (float32 float64 : num -> option num) (any : json -> json) (date0 time0 : string) (v3 dates force : bool) (m : message).
  Context (convert namify : string -> string) (omitempty : gschema -> option bool) (nodes : gschema -> Prop) (defs : string -> option gschema).
  Notation env := (package wenv fuel).
  Notation types := (Conversion.field_type dates force m).
  Notation from_broker x b zero := (fills (Typed.marshal wenv fuel tt) (Typed.unmarshal wenv fuel float32 float64 Dates.jsonDate Dates.jsonTime any date0 time0 tt)
    Dates.tformat Dates.tparse tt tt env types x b zero (decoder v3 dates force m)).
  Notation json_of := (json_of float32 float64 Dates.jsonDate Dates.jsonTime dates defs).

  (** A producer that follows the document, in any language and with any library, is understood: what its JSON and its times denote is what the application is given. *)
  Theorem C118_document x b zero :
    good_env wenv -> ranked wenv fuel -> types_of convert namify omitempty dates force nodes defs wenv ->
    exports env -> message_ok env dates m -> both_compile env v3 dates force m -> zero_values env types zero -> NoDup (map fst b) ->
    nodes (own (m_payload m)) -> payload_proper dates (json_of (own (m_payload m))) (followed (m_payload m)) x ->
    (forall hs h y, m_headers m = Some hs -> h ∈ hs -> (h_key h, y) ∈ b ->
       header_proper dates (json_of (own (h_part h))) (own (h_part h)) y /\
       (g_type (own (h_part h)) = "object" -> nodes (own (h_part h)) /\ is_field_pointer force (h_listed h || h_flag h) (own (h_part h)) = false)) ->
    exists σ, from_broker x b zero = Next σ /\
      (exists t, types Payload = Some (X t) /\
         payload_means wenv float32 float64 Dates.jsonDate Dates.jsonTime any date0 time0 dates (followed (m_payload m)) t x (σ Payload)) /\
      (forall hs h y, m_headers m = Some hs -> h ∈ hs -> (h_key h, y) ∈ b -> exists t, types (Header (h_key h)) = Some t /\
         header_means wenv float32 float64 Dates.jsonDate Dates.jsonTime any date0 time0 dates (own (h_part h)) y t (σ (Header (h_key h)))) /\
      (forall k, k ∉ map fst b -> σ (Header k) = zero (Header k)).
  Proof using.
    intros G R T He Hm Hc Hz Hd Np Pp Ph. pose proof (types_known wenv fuel Dates.jsonDate Dates.jsonTime G R convert namify omitempty dates force nodes defs T) as K.
    assert (J : forall s t x, nodes s -> schema_name dates s = Some t -> json_of s x -> json_for wenv float32 float64 Dates.jsonDate Dates.jsonTime False clear_keys t x).
    { intros s t y N Et (j & Tx & A). exists j. split; [exact Tx|].
      exact (admitted_fits wenv fuel float32 float64 Dates.jsonDate Dates.jsonTime G R convert namify omitempty dates force nodes defs T s j A t N Et). }
    apply (C118_meant wenv fuel float32 float64 Dates.jsonDate Dates.jsonTime any date0 time0 v3 dates force m G R K x b zero He Hm Hc Hz Hd).
    - intros t Et. destruct Pp as [Hk Jx|tm Hs Ht Hx|Hs Hx]; [apply proper_json; [done|by eapply J]|by eapply proper_stamp|by apply proper_bytes].
    - intros hs h t y Eh Hin Hb Et. destruct (Ph hs h y Eh Hin Hb) as [Hp Hf]. split; [|intros Ho; by apply Hf].
      destruct Hp as [Ho Jy|tm Ho Ht Hy|Ho Hy]; [apply proper_object; [done|]|by eapply proper_time|by apply proper_text].
      destruct (Hf Ho) as [N _]. by eapply J.
  Qed.
End document.
Print Assumptions C118_document.

(** The times that a schema admits in JSON are all those of RFC 3339, and they are held as the same instant. *)
Theorem C118_times : forall x tm, is_stamp x tm -> exists x', Dates.jsonTime x = Some x' /\ is_stamp x' tm.
Proof.
  intros x tm H. pose proof (C116_Dates.C116_rfc3339 _ _ H) as P. destruct (C116_Dates.C116_json_stamp _ _ H) as (s & M & S).
  exists (string_of_list_ascii s). unfold Dates.jsonTime. rewrite P. cbn [mbind option_bind]. rewrite M. split; [reflexivity|].
  unfold is_stamp. by rewrite list_ascii_of_string_of_list_ascii.
Qed.
Print Assumptions C118_times.
Theorem C118_dates : forall x d, DatesSpec.day_text d (list_ascii_of_string x) -> DatesSpec.in_calendar d -> Dates.jsonDate x = Some x.
Proof.
  intros x d H C. assert (P : Dates.parseCivil (list_ascii_of_string x) = Some d) by (by apply C116_Dates.C116_civil_read).
  destruct (Dates.jsonDate x) as [x'|] eqn:E; [by rewrite (C116_Dates.C116_civil_text _ _ E)|]. unfold Dates.jsonDate in E. by rewrite P in E.
Qed.
Print Assumptions C118_dates.

(** ** Examples *)
(** The schemas of C103: a pet as the payload, a person, a text and a time as headers. *)
Definition at_schema : gschema := GSchema "At" "string" "date-time" "" [] None None None.
Definition who : header := mkHeader "who" true true true (mkPart person None).
Definition at_header : header := mkHeader "at" false false false (mkPart at_schema None).
Definition visit_with (h : header) : message := mkMessage (mkPart pet_property (Some pet)) (Some [trace; h; at_header]).
Notation visit := (visit_with who).
Definition nobody : gv := Wire.VStruct [Wire.VInt 0; Wire.VNil; Wire.VNil] [].
Definition visit_zero (w : GoRun.value (gotype * gv) Dates.time) : place -> GoRun.value (gotype * gv) Dates.time := fun f =>
  match f with Payload => GoRun.VJson (TNamed "PetSchema", Wire.VStruct [Wire.VStr ""] []) | Header k => if String.eqb k "who" then w else GoRun.VNil end.
Lemma visit_ok h : h ∈ [who; mkHeader "who" false false false (mkPart person None)] -> message_ok people_env true (visit_with h).
Proof.
  intros Hh. split; [split; [done|]; split; [by exists (TNamed "PetSchema")|done]|]. split; [done|]. intros hs [= <-].
  assert (h_key h = "who" /\ h_part h = mkPart person None) as [E1 E2] by (cases_of Hh; by subst).
  split; [cbn [map]; rewrite E1; apply (bool_decide_unpack _); vm_compute; exact I|]. apply Forall_cons_2; [|apply Forall_cons_2; [|apply Forall_cons_2; [|apply Forall_nil_2]]].
  - split; [done|]. split; [by exists TString|done].
  - rewrite E2. split; [done|]. split; [by exists (TNamed "PersonSchema")|done].
  - split; [done|]. split; [by exists TTime|done].
Qed.
Lemma visit_compiles h : h ∈ [who; mkHeader "who" false false false (mkPart person None)] -> both_compile people_env true true false (visit_with h).
Proof. intros Hh. cases_of Hh; subst; split; vm_compute; reflexivity. Qed.
Lemma visit_types h f t : Conversion.field_type true false (visit_with h) f = Some t -> h_key h = "who" -> schema_name true (own (h_part h)) = Some (TNamed "PersonSchema") ->
  f = Payload /\ t = X (TNamed "PetSchema") \/ f = Header "trace" /\ t = XPointer (X TString) \/
  f = Header "who" /\ t = (if is_field_pointer false (h_declared h || h_flag h) (own (h_part h)) then XPointer (X (TNamed "PersonSchema")) else X (TNamed "PersonSchema")) \/
  f = Header "at" /\ t = XPointer (X TTime).
Proof.
  intros H Ek Es. destruct f as [|k]; cbn in H; [injection H as <-; auto|].
  destruct (decide ("trace" = k)) as [<-|N1]; [cbn in H; injection H as <-; auto|].
  destruct (decide (h_key h = k)) as [<-|N2]; [cbn in H; rewrite Es in H; cbn in H; injection H as <-; rewrite Ek; auto|].
  destruct (decide ("at" = k)) as [<-|N3]; [cbn in H; injection H as <-; auto 6|]. discriminate H.
Qed.
Lemma visit_zeros : zero_values people_env (Conversion.field_type true false visit) (visit_zero (GoRun.VJson (TNamed "PersonSchema", nobody))).
Proof.
  split; intros f t H; destruct (visit_types _ _ _ H eq_refl eq_refl) as [[-> E]|[[-> E]|[[-> E]|[-> E]]]]; try discriminate E; try reflexivity; subst t.
  - exists (TNamed "PetSchema"). by split.
  - by eexists.
  - exists (TNamed "PersonSchema"). by split.
  - by eexists.
Qed.
(** As any program may write them: with other white space, and a time with parts of a second. *)
Definition spaced (j : json) : string := " " +:+ print j +:+ line_feed.
Lemma spaced_text j : sound utf8 j -> (depth j <= 5)%nat -> text_of False j (spaced j).
Proof.
  intros U D. split; [apply (text_strip False " " (print j) line_feed); [exact blank|exact fed|]; by apply C117_written_same|]. apply nested_depth. lia.
Qed.
Definition visit_at : string := "2023-11-14T23:13:20.25+01:00".
Definition visit_headers : list (string * string) := [("who", spaced ada_json); ("more", "?"); ("at", visit_at)].
Lemma visit_at_stamp : is_stamp visit_at (Dates.mkTime 1700000000 250000000 3600).
Proof.
  unfold is_stamp.
  assert (E : exists s, Dates.marshal (Dates.mkTime 1700000000 250000000 3600) = Some s /\ list_ascii_of_string visit_at = s) by (eexists; split; [vm_compute; reflexivity|reflexivity]).
  destruct E as (s & M & ->). assert (I : DatesSpec.is_time (Dates.mkTime 1700000000 250000000 3600)) by (vm_compute; split; congruence).
  destruct (C116_Dates.C116_json_exact _ s I M) as (t' & S & _ & _ & _ & _ & E).
  assert (t' = Dates.mkTime 1700000000 250000000 3600) as <-; [apply E; exists 60%Z; reflexivity|exact S].
Qed.
Lemma pet_admitted date time : admits people_defs Some Some date time true sized apart_from pet cat_json.
Proof.
  constructor.
  - apply (bool_decide_unpack _). vm_compute. exact I.
  - intros k p Hin. cases_of Hin. injection Hin as -> _. left.
  - intros k b p x Hp Hx. cases_of Hp; injection Hp as -> -> ->; cases_of Hx; try discriminate; injection Hx as ->; constructor; discriminate.
  - intros k x a Hx _ [= <-]. cases_of Hx; injection Hx as -> ->; constructor; discriminate.
  - intros k Hk Nk. cases_of Hk; subst; [destruct Nk; left|]. repeat constructor. discriminate.
Qed.
Lemma person_admitted date time : admits people_defs Some Some date time true sized apart_from person ada_json.
Proof.
  constructor.
  - apply (bool_decide_unpack _). vm_compute. exact I.
  - intros k p Hin. cases_of Hin; try discriminate. injection Hin as -> _. left.
  - intros k b p x Hp Hx. cases_of Hp; injection Hp as -> -> ->; cases_of Hx; try discriminate; injection Hx as ->.
    + constructor. cbv. split; [discriminate|reflexivity].
    + constructor. intros x Hx. cases_of Hx; subst; constructor; discriminate.
    + eapply admits_reference; [done|reflexivity|]. apply pet_admitted.
  - discriminate.
  - intros k Hk Nk. destruct Nk. cases_of Hk; subst; apply (elem_of_list_In _ _); cbn; tauto.
Qed.
Notation json_in s := (json_of Some Some Dates.jsonDate Dates.jsonTime true people_defs s).
Lemma cat_text : json_in pet_property (spaced cat_json).
Proof.
  exists cat_json. split; [apply spaced_text; [all_utf8|vm_compute; lia]|]. eapply admits_reference; [done|reflexivity|]. apply pet_admitted.
Qed.
Lemma ada_is_text : json_in person (spaced ada_json).
Proof. exists ada_json. split; [apply spaced_text; [all_utf8|vm_compute; lia]|]. apply person_admitted. Qed.
Lemma visit_payload : payload_proper true (json_in pet_property) pet (spaced cat_json).
Proof. apply proper_json; [by left|exact cat_text]. Qed.
Lemma visit_proper w (h : header) y : h_key w = "who" -> h_part w = mkPart person None -> h ∈ [trace; w; at_header] -> (h_key h, y) ∈ visit_headers ->
  header_proper true (json_in (own (h_part h))) (own (h_part h)) y.
Proof.
  intros Ek Ep Hin Hb. cases_of Hin; subst h; [..|]; cases_of Hb; try discriminate Hb; try (rewrite Ek in Hb; discriminate Hb); injection Hb as Hb; subst y.
  - rewrite Ep. apply proper_object; [done|exact ada_is_text].
  - eapply proper_time; [done|reflexivity|exact visit_at_stamp].
Qed.
Notation get_visit h x b z := (fills (Typed.marshal people_types 2 tt) (Typed.unmarshal people_types 2 Some Some Dates.jsonDate Dates.jsonTime (fun j => j) "0000-00-00" "0001-01-01T00:00:00Z" tt)
  Dates.tformat Dates.tparse tt tt people_env (Conversion.field_type true false (visit_with h)) x b z (decoder true true false (visit_with h))).
Example C118_document_ex : exists σ, get_visit who (spaced cat_json) visit_headers (visit_zero (GoRun.VJson (TNamed "PersonSchema", nobody))) = Next σ /\
  σ Payload = GoRun.VJson (TNamed "PetSchema", cat) /\ σ (Header "who") = GoRun.VJson (TNamed "PersonSchema", ada) /\
  σ (Header "at") = GoRun.VPtr (GoRun.VTime (Dates.mkTime 1700000000 250000000 3600)) /\ σ (Header "trace") = GoRun.VNil.
Proof.
  destruct (C118_document people_types 2 Some Some (fun j => j) "0000-00-00" "0001-01-01T00:00:00Z" true true false visit (fun k => k) titled (fun _ => None) people people_defs
    (spaced cat_json) visit_headers (visit_zero (GoRun.VJson (TNamed "PersonSchema", nobody))) people_good people_ranked people_of people_exports) as (σ & E & _).
  - apply visit_ok. left.
  - apply visit_compiles. left.
  - exact visit_zeros.
  - apply (bool_decide_unpack _). vm_compute. exact I.
  - apply (elem_of_list_In _ _). cbn. tauto.
  - exact visit_payload.
  - intros hs h y [= <-] Hin Hb. split; [by apply (visit_proper who)|]. intros Ho. cases_of Hin; subst h; try discriminate Ho.
    split; [apply (elem_of_list_In _ _); cbn; tauto|reflexivity].
  - exists σ. split; [exact E|]. assert (F : forall f, Some (σ f) = match get_visit who (spaced cat_json) visit_headers (visit_zero (GoRun.VJson (TNamed "PersonSchema", nobody))) with
      | Next s => Some (s f) | _ => None end) by (intros f; by rewrite E).
    assert (F1 := F Payload). assert (F2 := F (Header "who")). assert (F3 := F (Header "at")). assert (F4 := F (Header "trace")). clear F E.
    vm_compute in F1. vm_compute in F2. vm_compute in F3. vm_compute in F4. injection F1 as F1. injection F2 as F2. injection F3 as F3. injection F4 as F4.
    split; [exact F1|]. split; [exact F2|]. split; [exact F3|exact F4].
Qed.
Example C118_meant_ex : payload_proper true (json_for people_types Some Some Dates.jsonDate Dates.jsonTime False clear_keys (TNamed "PetSchema")) pet (spaced cat_json) /\
  header_proper true (json_for people_types Some Some Dates.jsonDate Dates.jsonTime False clear_keys (TNamed "PersonSchema")) person (spaced ada_json) /\
  header_proper true (json_for people_types Some Some Dates.jsonDate Dates.jsonTime False clear_keys TTime) at_schema visit_at.
Proof.
  split; [|split].
  - apply proper_json; [by left|]. exists cat_json. split; [apply spaced_text; [all_utf8|vm_compute; lia]|].
    apply (admitted_fits people_types 2 Some Some Dates.jsonDate Dates.jsonTime people_good people_ranked _ _ _ _ _ _ _ people_of pet cat_json (pet_admitted _ _)); [|reflexivity].
    apply (elem_of_list_In _ _). cbn. tauto.
  - apply proper_object; [done|]. exists ada_json. split; [apply spaced_text; [all_utf8|vm_compute; lia]|].
    apply (admitted_fits people_types 2 Some Some Dates.jsonDate Dates.jsonTime people_good people_ranked _ _ _ _ _ _ _ people_of person ada_json (person_admitted _ _)); [|reflexivity].
    apply (elem_of_list_In _ _). cbn. tauto.
  - eapply proper_time; [done|reflexivity|exact visit_at_stamp].
Qed.
(** Duplicates, other cases, bytes that are not UTF-8: read as well. Other types, and texts that are not JSON: not. *)
Notation visit_read x := (exists σ, get_visit who x [] (visit_zero (GoRun.VJson (TNamed "PersonSchema", nobody))) = Next σ).
Example C118_accepted_ex : visit_read "{""kind"":""cat"",""KIND"":""dog"",""kind"":null}" /\ ~ visit_read "{""kind"":7}" /\ ~ visit_read "{""kind"":""cat""" /\
  payload_readable people_types Some Some Dates.jsonDate Dates.jsonTime true (mkPart pet_property (Some pet)) (TNamed "PetSchema") "{""kind"":""cat"",""KIND"":""dog"",""kind"":null}" /\
  ~ payload_readable people_types Some Some Dates.jsonDate Dates.jsonTime true (mkPart pet_property (Some pet)) (TNamed "PetSchema") "{""kind"":7}".
Proof.
  assert (Q : forall x, visit_read x <-> payload_readable people_types Some Some Dates.jsonDate Dates.jsonTime true (mkPart pet_property (Some pet)) (TNamed "PetSchema") x).
  { intros x. destruct (C118_accepted people_types 2 Some Some Dates.jsonDate Dates.jsonTime (fun j => j) "0000-00-00" "0001-01-01T00:00:00Z" true true false visit people_good people_ranked people_known
      x [] (visit_zero (GoRun.VJson (TNamed "PersonSchema", nobody))) people_exports (visit_ok who ltac:(left)) (visit_compiles who ltac:(left)) visit_zeros) as [L R].
    - constructor.
    - intros t [= <-]. apply known_name. by eexists.
    - split; [intros H; by apply (proj1 (L H))|]. intros H. apply R. split; [intros t [= <-]; exact H|]. intros hs h t y _ _ Hb. by apply elem_of_nil in Hb. }
  rewrite <- !Q. assert (A : visit_read "{""kind"":""cat"",""KIND"":""dog"",""kind"":null}") by (eexists; vm_compute; reflexivity).
  assert (B : ~ visit_read "{""kind"":7}") by (intros [σ H]; vm_compute in H; discriminate H).
  assert (C : ~ visit_read "{""kind"":""cat""") by (intros [σ H]; vm_compute in H; discriminate H). by repeat (split; [assumption|]).
Qed.
Example C118_times_ex : is_stamp visit_at (Dates.mkTime 1700000000 250000000 3600) /\ Dates.jsonTime visit_at = Some visit_at /\ Dates.jsonTime "2023-11-14T22:13:20.250Z" = Some "2023-11-14T22:13:20.25Z" /\
  Dates.jsonDate "2024-02-29" = Some "2024-02-29" /\ Dates.jsonDate "2023-02-29" = None.
Proof. split; [exact visit_at_stamp|]. repeat (split; [vm_compute; reflexivity|]). vm_compute; reflexivity. Qed.

(** ** What is not understood *)
(** The same message with the person in a header that may be left out is an error. *)
Definition may_who : header := mkHeader "who" false false false (mkPart person None).
Theorem C118_objects_refuted : ~ (forall m x b zero, message_ok people_env true m -> both_compile people_env true true false m -> zero_values people_env (Conversion.field_type true false m) zero ->
  NoDup (map fst b) -> payload_proper true (json_in (own (m_payload m))) (followed (m_payload m)) x ->
  (forall hs h y, m_headers m = Some hs -> h ∈ hs -> (h_key h, y) ∈ b -> header_proper true (json_in (own (h_part h))) (own (h_part h)) y) ->
  exists σ, fills (Typed.marshal people_types 2 tt) (Typed.unmarshal people_types 2 Some Some Dates.jsonDate Dates.jsonTime (fun j => j) "0000-00-00" "0001-01-01T00:00:00Z" tt)
    Dates.tformat Dates.tparse tt tt people_env (Conversion.field_type true false m) x b zero (decoder true true false m) = Next σ).
Proof.
  intros H. destruct (H (visit_with may_who) (spaced cat_json) visit_headers (visit_zero GoRun.VNil)) as [σ E].
  - apply visit_ok. right. left.
  - apply visit_compiles. right. left.
  - split; intros f t Ht; destruct (visit_types _ _ _ Ht eq_refl eq_refl) as [[-> Et]|[[-> Et]|[[-> Et]|[-> Et]]]]; try discriminate Et; try reflexivity; subst t; try (by eexists).
  - apply (bool_decide_unpack _). vm_compute. exact I.
  - exact visit_payload.
  - intros hs h y [= <-] Hin Hb. by apply (visit_proper may_who).
  - vm_compute in E. discriminate E.
Qed.
Print Assumptions C118_objects_refuted.

(** Payloads that are integers or strings, with nothing else declared. *)
Definition nothing (n : string) : option wdef := None.
Definition simple_message (type : string) : message := mkMessage (mkPart (GSchema "P" type "" "" [] None None None) None) None.
Notation simple_json m x := (json_of Some Some Dates.jsonDate Dates.jsonTime true (fun _ => None) (own (m_payload m)) x).
Notation get_simple m x zero := (fills (Typed.marshal nothing 1 tt) (Typed.unmarshal nothing 1 Some Some Dates.jsonDate Dates.jsonTime (fun j => j) "0000-00-00" "0001-01-01T00:00:00Z" tt)
  Dates.tformat Dates.tparse tt tt (package nothing 1) (Conversion.field_type true false m) x [] zero (decoder true true false m)).
Definition simple_zero (v : GoRun.value (gotype * gv) Dates.time) : place -> GoRun.value (gotype * gv) Dates.time := fun f => match f with Payload => v | _ => GoRun.VNil end.
Lemma simple_ok t u : t ∈ [("integer", TInt64); ("string", TString)] -> u = simple_message t.1 ->
  message_ok (package nothing 1) true u /\ both_compile (package nothing 1) true true false u /\
  zero_values (package nothing 1) (Conversion.field_type true false u) (simple_zero (if String.eqb t.1 "integer" then GoRun.VInt 64 0 else GoRun.VStr "")).
Proof.
  intros Ht ->. cases_of Ht; subst t; cbn [fst].
  all: split; [split; [split; [done|]; split; [by eexists|done]|]; split; [done|]; discriminate|]. all: split; [split; vm_compute; reflexivity|].
  all: split; intros [|k] t H; try discriminate H; injection H as <-; vm_compute; try reflexivity. split; [auto|]. split; [discriminate|reflexivity].
Qed.
(** The integer 7 in JSON makes the decoder panic; 12345678 is read as another number. *)
Theorem C118_integers_refuted : ~ (forall m x zero, message_ok (package nothing 1) true m -> both_compile (package nothing 1) true true false m ->
  zero_values (package nothing 1) (Conversion.field_type true false m) zero -> simple_json m x -> get_simple m x zero <> Panic).
Proof.
  intros H. destruct (simple_ok ("integer", TInt64) _ ltac:(left) eq_refl) as (O & C & Z). apply (H _ "7" _ O C Z); [|vm_compute; reflexivity].
  exists (JNum (Int 7)). split; [|constructor; cbv; split; [discriminate|reflexivity]]. split; [by apply (C117_written_same (JNum (Int 7))); constructor|constructor].
Qed.
Print Assumptions C118_integers_refuted.
Example C118_integers_ex : match get_simple (simple_message "integer") "12345678" (simple_zero (GoRun.VInt 64 0)) with Next σ => σ Payload = GoRun.VInt 64 4050765991979987505 | _ => False end.
Proof. vm_compute. reflexivity. Qed.
(** A string in JSON arrives with its quotes. *)
Theorem C118_strings_refuted : ~ (forall m x zero s σ, message_ok (package nothing 1) true m -> both_compile (package nothing 1) true true false m ->
  zero_values (package nothing 1) (Conversion.field_type true false m) zero -> simple_json m x -> json_text False x (JStr s) -> get_simple m x zero = Next σ -> σ Payload = GoRun.VStr s).
Proof.
  intros H. destruct (simple_ok ("string", TString) _ ltac:(right; left) eq_refl) as (O & C & Z).
  assert (T : json_text False """a""" (JStr "a")) by (apply (C117_written_same (JStr "a")); constructor; apply is_utf8_ok; reflexivity).
  destruct (get_simple (simple_message "string") """a""" (simple_zero (GoRun.VStr ""))) as [σ|e| |] eqn:E; try (vm_compute in E; discriminate E).
  assert (J : simple_json (simple_message "string") """a""") by (exists (JStr "a"); split; [split; [exact T|constructor]|constructor; discriminate]).
  pose proof (H _ _ _ "a" σ O C Z J T E) as P.
  assert (F : Some (σ Payload) = match get_simple (simple_message "string") """a""" (simple_zero (GoRun.VStr "")) with Next s => Some (s Payload) | _ => None end) by (by rewrite E).
  rewrite P in F. vm_compute in F. discriminate F.
Qed.
Print Assumptions C118_strings_refuted.
