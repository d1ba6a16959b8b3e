(** C107: what is sent is what arrives.
    Full statement: for every message whose conversion functions compile, the message that an application sends is the one that its peer is given. That is false for
    integers (C97) and for what JSON cannot tell apart (C103) or write (C106); C107_through proves it for all other objects and arrays with their headers. *)
From stdpp Require Import gmap list strings.
From Coq Require Import ZArith NArith Lia Ascii String.
From Verif.Model Require Import Decoding Types Wire JsonText Conversion Typed.
From Verif.Spec Require Import ConversionSpec GoRun SurviveSpec WireSpec JsonTextSpec TypedSpec.
From Verif.Proof Require Import DecodingProof ConversionProof GoRunProof WireProof JsonTextProof.
From Verif.Properties Require Import C90_Conversion C97_Survive C103_Wire C106_Text.
Local Open Scope string_scope.

Section C107.
  Context {T E : Type}.
  Context (wenv : string -> option wdef) (fuel : nat) (float32 float64 : num -> option num) (date time : string -> option string).
  Context (any : json -> json) (date0 time0 : string) (err_write err_read : E).
  Context (tformat : T -> string) (tparse : string -> T + E) (err_nil err_unmarshal : E).
  Context (v3 dates force : bool) (m : message).
  Notation env := (package wenv fuel).
  Notation types := (Conversion.field_type dates force m).
  Notation marshal := (Typed.marshal (T := T) wenv fuel err_write).
  Notation unmarshal := (Typed.unmarshal (T := T) wenv fuel float32 float64 date time any date0 time0 err_read).
  Notation to_broker σ := (gives marshal unmarshal tformat tparse err_nil err_unmarshal env types "" [] σ (encoder dates force m)).
  Notation from_broker x b zero := (fills marshal unmarshal tformat tparse err_nil err_unmarshal env types x b zero (decoder v3 dates force m)).
  Notation typed := (TypedSpec.typed (T := T) wenv float32 float64 date time any (encode wenv fuel)).
  Notation sendable := (TypedSpec.sendable wenv float32 float64 date time any tformat tparse (encode wenv fuel) force types m).

  Lemma typed_survives t v : good_env wenv -> ranked wenv fuel -> all_known wenv -> typed t v -> json_survives marshal unmarshal (X t) v v.
  Proof using.
    intros G R K (w & -> & H & P). destruct (C103_back wenv fuel float32 float64 date time any date0 time0 G R K t w H) as (j & Ej & Dj).
    destruct (P j Ej) as [U N]. exists (print j). unfold Typed.marshal, Typed.unmarshal. rewrite Ej. split; [reflexivity|].
    assert (S : sound any_string j).
    { clear -U. revert U. induction j as [|b|x|s|l IH|kvs IH] using json_induction; intros H; inversion H; subst; try (by constructor).
      - constructor. rewrite Forall_forall in *. auto.
      - constructor. rewrite Forall_forall in *. intros x Hx. split; [done|]. apply IH; [done|]. match goal with F : forall y, y ∈ kvs -> _ |- _ => by destruct (F x Hx) end. }
    assert (B : parse (print j) = Some j) by (apply (C106_back j S); split; [exact U|exact N]). rewrite B, Dj. reflexivity.
  Qed.

  (** The payload is written as the JSON of its type, and the message comes back whatever the order of its headers. *)
  Theorem C107_through σ zero :
    good_env wenv -> ranked wenv fuel -> all_known wenv -> exports env -> message_ok env dates m -> both_compile env v3 dates force m ->
    well_typed env types σ -> zero_values env types zero -> sendable σ ->
    exists h x, to_broker σ = Next (h, x) /\
      (exists t w j, σ Payload = GoRun.VJson (t, w) /\ encode wenv fuel w t = Some j /\ x = print j) /\
      forall b, b ≡ₚ map_to_list h -> exists σ', from_broker x b zero = Next σ' /\ same_message types σ σ'.
  Proof using.
    intros G R K He Hm Hc Hw Hz [Sk Sp So Sr].
    assert (W : writable marshal m σ).
    { split.
      - intros _. destruct Sp as (t & _ & Ht). destruct (typed_survives t _ G R K Ht) as (b & Hb & _). by exists b.
      - intros hs h Ehs Hin. destruct (decide (g_type (own (h_part h)) = "object")) as [Eo|No].
        + destruct (So hs h Ehs Hin Eo) as (_ & _ & t & _ & Ht). destruct (typed_survives t _ G R K Ht) as (b & Hb & _).
          destruct Ht as (w & Ew & _). split; [intros _; by rewrite Ew|]. intros _. right. exists b. by rewrite Ew in *.
        + destruct (Sr hs h Ehs Hin No) as [Hn _]. split; [exact Hn|]. intros Eo%String.eqb_eq. done. }
    destruct (C97_encoder marshal unmarshal tformat tparse err_nil err_unmarshal env v3 dates force m σ He Hm Hc Hw) as [[_ X] _].
    destruct (X W) as [[h x] Hg]. exists h, x. split; [exact Hg|]. split.
    - destruct Sp as (t & Et & Ht). pose proof Ht as (w & Ew & Hty & _).
      destruct (C103_back wenv fuel float32 float64 date time any date0 time0 G R K t w Hty) as (j & Ej & _). exists t, w, j. split; [exact Ew|]. split; [exact Ej|].
      pose proof Hc as Hc'. apply (C90_exact_partial _ _ _ _ _ He Hm) in Hc'.
      pose proof (run_encoder marshal unmarshal tformat tparse err_nil err_unmarshal env v3 dates force He m Hm Hc' "" [] σ Hw) as Q. rewrite Hg in Q.
      destruct Q as (Q & _). unfold pbytes in Q. cbv zeta in Q. rewrite Ew in Q. cbn [Typed.marshal] in Q. rewrite Ej in Q.
      destruct Sk as [Sk|Sk]; rewrite Sk in Q; [change (String.eqb "object" "object") with true in Q|change (String.eqb "array" "object" || String.eqb "array" "array") with true in Q];
        cbn [orb] in Q; by injection Q as <-.
    - intros b Hb. apply (C97_survives marshal unmarshal tformat tparse err_nil err_unmarshal env v3 dates force m σ h x b zero He Hm Hc Hw Hz Hg Hb). split.
      + intros t Et. destruct Sp as (t' & Et' & Ht). rewrite Et' in Et. injection Et as <-. unfold payload_survives. cbv zeta.
        destruct Sk as [-> | ->]; cbn [orb]; [change (String.eqb "object" "object") with true|change (String.eqb "array" "object" || String.eqb "array" "array") with true];
          by apply typed_survives.
      + intros hs h0 t Ehs Hin Et. unfold header_survives. destruct (decide (g_type (own (h_part h0)) = "object")) as [Eo|No].
        * destruct (So hs h0 Ehs Hin Eo) as (Ef & El & t' & Et' & Ht). rewrite Et' in Et. injection Et as <-.
          pose proof (typed_survives t' _ G R K Ht) as J. destruct Ht as (w & Ew & _). rewrite Ew in *. rewrite Eo. change (String.eqb "object" "object") with true. cbn iota.
          split; [|exact J]. unfold is_field_pointer. rewrite El, Ef, orb_true_r. reflexivity.
        * destruct (Sr hs h0 Ehs Hin No) as [_ Ht]. apply String.eqb_neq in No. rewrite No. unfold exact_time in Ht. unfold time_survives.
          destruct (σ (Header (h_key h0))) as [ | | | | | | | |v]; try exact I; try exact Ht.
  Qed.
End C107.
Print Assumptions C107_through.

(** The types of the package are those declared, made of what they are declared as. *)
Theorem C107_package wenv fuel x t : ranked wenv fuel -> package wenv fuel x = Some t <-> underlying wenv (TNamed x) t.
Proof.
  intros (rank & Hf & Ht & _). unfold package. split.
  - clear Hf. generalize (TNamed x) as u. induction fuel as [|n IH]; intros u; (destruct u; cbn [made_of]; try (intros [= <-]; by apply underlying_other)).
    destruct (wenv _) as [[fs a|t' m]|] eqn:Ew; [|intros H|done].
    + intros [= <-]. by eapply underlying_struct.
    + eapply underlying_type; [done|]. by apply IH.
  - intros H. remember (TNamed x) as u eqn:Eu. assert (L : match u with TNamed y => rank y < fuel | _ => True end) by (subst u; apply Hf). clear x Eu Hf.
    revert fuel L. induction H as [n fs a E|n t u m E H IH|t N]; intros fuel L.
    + destruct fuel as [|k]; [lia|]. cbn [made_of]. by rewrite E.
    + destruct fuel as [|k]; [lia|]. cbn [made_of]. rewrite E. apply IH. destruct t; try done. pose proof (Ht _ _ _ E). lia.
    + destruct t; try (by destruct fuel). exfalso. by eapply N.
Qed.
Print Assumptions C107_package.
Definition pets_types (n : string) : option wdef :=
  if String.eqb n "PetsSchema" then Some (WType (TNamed "PetListSchema") false)
  else if String.eqb n "PetListSchema" then Some (WType (TSlice (TNamed "PetSchema")) false) else if String.eqb n "PetSchema" then Some pet_type else None.
Example C107_package_ex : ranked pets_types 3 /\ underlying pets_types (TNamed "PetsSchema") (TSlice (TNamed "PetSchema")) /\
  package pets_types 3 "PetsSchema" = Some (TSlice (TNamed "PetSchema")) /\ package pets_types 3 "PetSchema" = Some (TNamed "PetSchema") /\ package pets_types 3 "Other" = None.
Proof.
  split; [|split; [|split; [|split]; vm_compute; reflexivity]].
  - exists (fun n => if String.eqb n "PetsSchema" then 2 else if String.eqb n "PetListSchema" then 1 else 0). unfold pets_types. split; [|split].
    + intros n. destruct (String.eqb n "PetsSchema"), (String.eqb n "PetListSchema"); lia.
    + intros n b m. destruct (String.eqb_spec n "PetsSchema") as [->|]; [intros [= <- <-]; vm_compute; lia|]. destruct (String.eqb n "PetListSchema"), (String.eqb n "PetSchema"); done.
    + intros n fs a f b. destruct (String.eqb n "PetsSchema"); [done|]. destruct (String.eqb n "PetListSchema"); [done|]. destruct (String.eqb n "PetSchema"); [|done].
      intros [= <- <-] Hf. cases_of Hf. by subst.
  - eapply underlying_type; [reflexivity|]. eapply underlying_type; [reflexivity|]. by apply underlying_other.
Qed.

(** ** Examples *)
(** The people of C103: a person, with a mandatory pet and an optional text as headers. *)
Definition to_person : part := mkPart (GSchema "Payload" "" "" "" [] None None (Some "PersonSchema")) (Some person).
Definition trace : header := mkHeader "trace" false false false (mkPart text None).
Definition companion : header := mkHeader "pet" true true true (mkPart pet None).
Definition hello : message := mkMessage to_person (Some [trace; companion]).
Notation people_env := (package people_types 2).
Notation fields_of := (Conversion.field_type true false hello).
Lemma people_exports : exports people_env.
Proof.
  intros s u H. unfold package in H. cbn in H. unfold people_types in H.
  destruct (String.eqb_spec s "PersonSchema") as [->|]; [exists "P"%char, "ersonSchema"; split; [done|vm_compute; lia]|].
  destruct (String.eqb_spec s "PetSchema") as [->|]; [exists "P"%char, "etSchema"; split; [done|vm_compute; lia]|discriminate].
Qed.
Lemma hello_ok : message_ok people_env true hello.
Proof.
  split; [split; [done|]; split; [by exists (TNamed "PersonSchema")|done]|]. split; [done|]. intros hs [= <-].
  split; [apply (bool_decide_unpack _); vm_compute; exact I|]. apply Forall_cons_2; [|apply Forall_cons_2; [|apply Forall_nil_2]].
  - split; [done|]. split; [by exists TString|done].
  - split; [done|]. split; [by exists (TNamed "PetSchema")|done].
Qed.
Lemma hello_compiles : both_compile people_env true true false hello.
Proof. split; vm_compute; reflexivity. Qed.
Lemma hello_types f t : fields_of f = Some t ->
  f = Payload /\ t = X (TNamed "PersonSchema") \/ f = Header "trace" /\ t = XPointer (X TString) \/ f = Header "pet" /\ t = X (TNamed "PetSchema").
Proof.
  destruct f as [|k]; cbn; [intros [= <-]; auto|].
  destruct (decide ("trace" = k)) as [<-|N1]; [cbn; intros [= <-]; auto|].
  destruct (decide ("pet" = k)) as [<-|N2]; [cbn; intros [= <-]; auto|]. discriminate.
Qed.
Definition hello_value (w : gv) (c : gv) (v : GoRun.value (gotype * gv) string) : place -> GoRun.value (gotype * gv) string := fun f =>
  match f with Payload => GoRun.VJson (TNamed "PersonSchema", w) | Header k => if String.eqb k "pet" then GoRun.VJson (TNamed "PetSchema", c) else v end.
Definition cat : gv := Wire.VStruct [Wire.VStr "cat"] [("colour", Wire.VStr "black")].
Definition cat_json : json := JObj [("kind", JStr "cat"); ("colour", JStr "black")].
Definition ada_message := hello_value ada cat (GoRun.VPtr (GoRun.VStr "t-1")).
Definition no_message := hello_value (Wire.VStruct [Wire.VInt 0; Wire.VNil; Wire.VNil] []) (Wire.VStruct [Wire.VStr ""] []) GoRun.VNil.
Lemma hello_typed w c v : holds people_env (XPointer (X TString)) v -> well_typed people_env fields_of (hello_value w c v).
Proof.
  intros Hv f t H. apply hello_types in H as [[-> ->]|[[-> ->]|[-> ->]]]; [|exact Hv|].
  - exists (TNamed "PersonSchema"). split; [reflexivity|]. done.
  - exists (TNamed "PetSchema"). split; [reflexivity|]. done.
Qed.
Lemma hello_zero : zero_values people_env fields_of no_message.
Proof.
  split; [apply hello_typed; by eexists|].
  intros f t H. apply hello_types in H as [[-> ?]|[[-> ?]|[-> ?]]]; try discriminate; reflexivity.
Qed.
Lemma cat_type : has_type people_types Some Some Some Some (fun j => j) kept_field (fun _ => True) kept_extra (TNamed "PetSchema") cat.
Proof.
  eapply ht_struct; [reflexivity| |discriminate| |apply (bool_decide_unpack _); vm_compute; exact I].
  - constructor; [|constructor]. split; [|by split]. apply ft_value; [reflexivity|constructor].
  - intros ta [= <-]. constructor; [|constructor]. split; [constructor|]. split; [done|]. repeat constructor. discriminate.
Qed.
Lemma plain_words j : depth j = 1%nat \/ depth j = 2%nat -> sound utf8 j -> plain j.
Proof. intros D U. split; [exact U|]. apply nested_depth. lia. Qed.
Ltac all_utf8 := repeat first [apply Forall_nil_2 | apply Forall_cons_2 | split | constructor; fail | apply is_utf8_ok; vm_compute; reflexivity | constructor].
Lemma hello_sendable : sendable people_types Some Some Some Some (fun j => j) (fun t : string => t) (fun t => inl t : string + string) (encode people_types 2) false fields_of hello ada_message.
Proof.
  split.
  - by left.
  - exists (TNamed "PersonSchema"). split; [reflexivity|]. exists ada. split; [reflexivity|]. split.
    + apply ada_type; [|done]. intros f v _ Hp Hs. by split.
    + intros j [= <-]. apply plain_words; [by right|]. all_utf8.
  - intros hs h [= <-] Hin. apply elem_of_cons in Hin as [->|Hin]; [discriminate|]. apply elem_of_list_singleton in Hin as ->. intros _.
    split; [done|]. split; [done|]. exists (TNamed "PetSchema"). split; [reflexivity|]. exists cat. split; [reflexivity|]. split; [exact cat_type|].
    intros j [= <-]. apply plain_words; [by left|]. all_utf8.
  - intros hs h [= <-] Hin. apply elem_of_cons in Hin as [->|Hin]; [intros _; by split|]. apply elem_of_list_singleton in Hin as ->. by intros [].
Qed.
Notation send_hello σ := (gives (Typed.marshal people_types 2 "unsupported") (Typed.unmarshal people_types 2 Some Some Some Some (fun j => j) "0000-00-00" "0001-01-01T00:00:00Z" "invalid")
  (fun t : string => t) (fun t => inl t) "nil" "not a pointer" people_env fields_of "" [] σ (encoder true false hello)).
Notation get_hello x b := (fills (Typed.marshal people_types 2 "unsupported") (Typed.unmarshal people_types 2 Some Some Some Some (fun j => j) "0000-00-00" "0001-01-01T00:00:00Z" "invalid")
  (fun t : string => t) (fun t => inl t) "nil" "not a pointer" people_env fields_of x b no_message (decoder true true false hello)).
Definition ada_text : string := "{""id"":7,""names"":[""Ada"",""Lovelace""],""pet"":{""kind"":""cat"",""colour"":""black""}}".
Definition ada_headers : gmap string string := <["pet" := "{""kind"":""cat"",""colour"":""black""}"]> (<["trace" := "t-1"]> ∅).
Example C107_through_ex : exists h x, send_hello ada_message = Next (h, x) /\
  (exists t w j, ada_message Payload = GoRun.VJson (t, w) /\ encode people_types 2 w t = Some j /\ x = print j) /\
  forall b, b ≡ₚ map_to_list h -> exists σ', get_hello x b = Next σ' /\ same_message fields_of ada_message σ'.
Proof.
  apply (C107_through people_types 2 Some Some Some Some (fun j => j) "0000-00-00" "0001-01-01T00:00:00Z" "unsupported" "invalid" (fun t => t) (fun t => inl t) "nil" "not a pointer"
    true true false hello ada_message no_message people_good people_ranked people_known people_exports hello_ok hello_compiles).
  - apply hello_typed. reflexivity.
  - exact hello_zero.
  - exact hello_sendable.
Qed.
Example C107_text_ex : send_hello ada_message = Next (ada_headers, ada_text).
Proof. vm_compute. reflexivity. Qed.

(** Not every message of the right type comes back: without the condition on strings, that on empty slices, that on pointers and so on, another one arrives. *)
Definition rene : gv := Wire.VStruct [Wire.VInt 7; Wire.VSlice [Wire.VStr (String.append "Ren" (String "233" ""))]; Wire.VNil] [].
Theorem C107_all_refuted : ~ (forall w, has_type people_types Some Some Some Some (fun j => j) (fun _ _ => True) (fun _ => True) kept_extra (TNamed "PersonSchema") w ->
  let σ := hello_value w cat GoRun.VNil in forall h x b, send_hello σ = Next (h, x) -> b ≡ₚ map_to_list h -> exists σ', get_hello x b = Next σ' /\ same_message fields_of σ σ').
Proof.
  intros H. specialize (H rene). cbv zeta in H.
  destruct (H) with (h := <["pet" := "{""kind"":""cat"",""colour"":""black""}"]> (∅ : gmap string string))
    (x := print (JObj [("id", JNum (Int 7)); ("names", JArr [JStr (String.append "Ren" (String "233" ""))])])) (b := [("pet", "{""kind"":""cat"",""colour"":""black""}")]) as (σ' & R & S).
  - eapply ht_struct; [reflexivity| |reflexivity|discriminate|constructor]. constructor; [|constructor; [|constructor; [|constructor]]].
    + split; [|done]. apply ft_value; [reflexivity|]. constructor. cbn. lia.
    + split; [|done]. apply ft_value; [reflexivity|]. constructor. repeat (constructor; [split; [constructor|done]|]). constructor.
    + split; [|done]. by apply ft_nil.
  - vm_compute. reflexivity.
  - change (<["pet" := "{""kind"":""cat"",""colour"":""black""}"]> (∅ : gmap string string)) with ({["pet" := "{""kind"":""cat"",""colour"":""black""}"]} : gmap string string).
    by rewrite map_to_list_singleton.
  - specialize (S Payload _ eq_refl).
    assert (R' : match get_hello (print (JObj [("id", JNum (Int 7)); ("names", JArr [JStr (String.append "Ren" (String "233" ""))])])) [("pet", "{""kind"":""cat"",""colour"":""black""}")] with
                 | Next σ => σ Payload | _ => GoRun.VNil end = GoRun.VJson (TNamed "PersonSchema", rene)) by (rewrite R; by rewrite <- S).
    vm_compute in R'. discriminate R'.
Qed.
Print Assumptions C107_all_refuted.
