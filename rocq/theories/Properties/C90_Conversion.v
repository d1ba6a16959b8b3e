(** C90: the conversion functions of a message compile.
    Full statement: for every message, the functions brokerMessageToX and toBrokerMessage that are generated for it are accepted by the Go compiler. It is
    false: C90_exact says for which messages it holds, under the hypotheses that a reference stands alone and that no custom Go type is used. *)
From stdpp Require Import list strings.
From Coq Require Import Ascii String Lia.
From Verif.Model Require Import Types Conversion.
From Verif.Spec Require Import ConversionSpec.
From Verif.Proof Require Import ConversionProof.
Local Open Scope string_scope.

(** Both functions of the message compile. *)
Definition both_compile (env : package_types) (v3 dates force : bool) (m : message) : Prop :=
  compiles env (field_type dates force m) (decoder v3 dates force m) = true /\ compiles env (field_type dates force m) (encoder dates force m) = true.

Theorem C90_exact_partial env v3 dates force m :
  exports env -> message_ok env dates m ->
  both_compile env v3 dates force m <-> message_supported env v3 dates force m = true.
Proof.
  intros He Hm. rewrite (message_exact env v3 dates force He m Hm). unfold both_compile. symmetry. apply andb_true_iff.
Qed.

(** What is most common is accepted, in both versions and with every option: an object, an array, an integer or a string that is not a date, and headers
    that are strings and not dates, whose requirement is written where they are. *)
Definition plain_header (dates : bool) (h : header) : Prop :=
  g_type (own (h_part h)) = "string" /\ is_date_generated dates (g_format (own (h_part h))) = false /\ h_declared h = h_flag h /\ h_listed h = h_flag h.
Definition plain_payload (dates : bool) (s : gschema) : Prop :=
  g_type s = "object" \/ g_type s = "array" \/ g_type s = "integer" \/ (g_type s = "string" /\ is_date_generated dates (g_format s) = false).
Theorem C90_plain env v3 dates force m :
  exports env -> message_ok env dates m -> plain_payload dates (followed (m_payload m)) ->
  (forall hs, m_headers m = Some hs -> hs <> [] /\ Forall (plain_header dates) hs) -> both_compile env v3 dates force m.
Proof.
  intros He Hm Hp Hh. apply C90_exact_partial; [done..|]. unfold message_supported. apply andb_true_iff. split.
  { unfold payload_supported. destruct Hp as [->|[->|[->|[-> ->]]]]; reflexivity. }
  destruct (m_headers m) as [hs|]; [|done]. destruct (Hh _ eq_refl) as [Hne Hf].
  assert (forallb (header_supported env v3 dates force) hs = true /\ List.filter required_object hs = []) as [Hb1 Hb2];
    [|rewrite Hb1, Hb2; by destruct hs].
  clear -Hf. induction Hf as [|h hs (Ht & Hd & H1 & H2) _ [IH1 IH2]]; [done|]. cbn [forallb List.filter]. rewrite IH1, IH2.
  unfold header_supported, required_object. rewrite Ht. cbn. rewrite Hd, H1, H2. cbn. rewrite andb_false_r.
  split; [|done]. rewrite orb_diag, Bool.eqb_reflx. unfold is_field_pointer. rewrite Ht. cbn. by destruct force, (h_flag h).
Qed.

(** No message with a payload that is a number or a boolean, or that has neither type nor reference, has functions that compile. *)
Theorem C90_payload_never env v3 dates force m :
  exports env -> message_ok env dates m ->
  g_type (followed (m_payload m)) = "number" \/ g_type (followed (m_payload m)) = "boolean" \/
    (g_type (own (m_payload m)) = "" /\ target (m_payload m) = None) ->
  ~ both_compile env v3 dates force m.
Proof.
  intros He Hm Hc. rewrite (C90_exact_partial _ _ _ _ _ He Hm). unfold message_supported, payload_supported, followed in *.
  destruct Hc as [Hc|[Hc|[Hc Hn]]]; [destruct (target (m_payload m)); rewrite Hc; discriminate..|].
  rewrite Hn, Hc. discriminate.
Qed.
(** Nor one with a date, or a date and time by reference. *)
Theorem C90_date_never env v3 force m :
  exports env -> message_ok env true m -> g_type (followed (m_payload m)) = "string" ->
  g_format (followed (m_payload m)) = "date" \/ (g_format (followed (m_payload m)) = "date-time" /\ target (m_payload m) <> None) ->
  ~ both_compile env v3 true force m.
Proof.
  intros He Hm Ht Hc. rewrite (C90_exact_partial _ _ _ _ _ He Hm). unfold message_supported, payload_supported. rewrite Ht. cbn [String.eqb].
  destruct Hc as [->|[-> Hn]]; cbn; [by rewrite andb_false_r|]. by destruct (target (m_payload m)).
Qed.
(** Nor one with a header whose type is not string or object, unless it is a reference. *)
Theorem C90_header_never env v3 dates force m hs h :
  exports env -> message_ok env dates m -> m_headers m = Some hs -> h ∈ hs ->
  g_type (own (h_part h)) <> "string" -> g_type (own (h_part h)) <> "object" -> target (h_part h) = None ->
  ~ both_compile env v3 dates force m.
Proof.
  intros He Hm Hh Hin Hs Ho Ht. rewrite (C90_exact_partial _ _ _ _ _ He Hm). unfold message_supported. rewrite Hh.
  intros [_ [[_ Hf]%andb_true_iff _]%andb_true_iff]%andb_true_iff. rewrite forallb_forall in Hf.
  specialize (Hf h (proj1 (elem_of_list_In _ _) Hin)). unfold header_supported in Hf. rewrite Ht in Hf.
  rewrite (proj2 (String.eqb_neq _ _) Hs), (proj2 (String.eqb_neq _ _) Ho), andb_false_r in Hf. discriminate.
Qed.
(** In version 2 no header may be a reference; in version 3 it must lead to a string. *)
Theorem C90_header_reference env v3 dates force m hs h t :
  exports env -> message_ok env dates m -> m_headers m = Some hs -> h ∈ hs -> target (h_part h) = Some t ->
  both_compile env v3 dates force m -> v3 = true /\ env (g_name t) = Some TString.
Proof.
  intros He Hm Hh Hin Ht. rewrite (C90_exact_partial _ _ _ _ _ He Hm). unfold message_supported. rewrite Hh.
  intros [_ [[_ Hf]%andb_true_iff _]%andb_true_iff]%andb_true_iff. rewrite forallb_forall in Hf.
  specialize (Hf h (proj1 (elem_of_list_In _ _) Hin)).
  destruct Hm as (_ & _ & Hm). destruct (Hm _ Hh) as [_ Hok]. rewrite Forall_forall in Hok. destruct (Hok _ Hin) as (_ & _ & Hp).
  rewrite Ht in Hp. destruct Hp as (Hty & _). unfold header_supported in Hf. rewrite Ht, Hty in Hf. cbn in Hf.
  apply andb_true_iff in Hf as [_ Hf]. apply andb_true_iff in Hf as [Hf Hf'%bool_decide_eq_true]. apply andb_true_iff in Hf as [Hf _]. done.
Qed.
(** Headers without properties, and two mandatory headers that are objects, are refused. *)
Theorem C90_no_header_never env v3 dates force m :
  exports env -> message_ok env dates m -> m_headers m = Some [] -> ~ both_compile env v3 dates force m.
Proof.
  intros He Hm Hh. rewrite (C90_exact_partial _ _ _ _ _ He Hm). unfold message_supported. rewrite Hh. by rewrite andb_false_r.
Qed.
Theorem C90_two_objects_never env v3 dates force m hs h h' :
  exports env -> message_ok env dates m -> m_headers m = Some hs -> h ∈ hs -> h' ∈ hs -> h_key h <> h_key h' ->
  required_object h = true -> required_object h' = true -> ~ both_compile env v3 dates force m.
Proof.
  intros He Hm Hh Hin Hin' Hk Hr Hr'. rewrite (C90_exact_partial _ _ _ _ _ He Hm). unfold message_supported. rewrite Hh.
  intros [_ [_ Hl%Nat.leb_le]%andb_true_iff]%andb_true_iff.
  assert (H1 : In h (List.filter required_object hs)) by (apply filter_In; split; [by apply elem_of_list_In|done]).
  assert (H2 : In h' (List.filter required_object hs)) by (apply filter_In; split; [by apply elem_of_list_In|done]).
  destruct (List.filter required_object hs) as [|a [|b l]]; cbn in H1, H2, Hl; [done| |lia].
  destruct H1 as [<-|[]], H2 as [<-|[]]. by apply Hk.
Qed.
(** A header that is listed as required without the flag being set (the list comes from one part of a composition, the header from another one) is
    refused, whatever it is. *)
Theorem C90_listed_never env v3 dates m hs h :
  exports env -> message_ok env dates m -> m_headers m = Some hs -> h ∈ hs -> h_declared h = true -> h_flag h = false ->
  ~ both_compile env v3 dates false m.
Proof.
  intros He Hm Hh Hin Hd Hfl. rewrite (C90_exact_partial _ _ _ _ _ He Hm). unfold message_supported. rewrite Hh.
  intros [_ [[_ Hf]%andb_true_iff _]%andb_true_iff]%andb_true_iff. rewrite forallb_forall in Hf.
  specialize (Hf h (proj1 (elem_of_list_In _ _) Hin)). unfold header_supported in Hf. rewrite Hd, Hfl in Hf. cbn in Hf.
  rewrite andb_false_r in Hf. by destruct (String.eqb _ _).
Qed.
(** With pointers forced, a mandatory header that is a date and time is refused: the star applies to what Format gives. *)
Theorem C90_forced_date_never env v3 m hs h :
  exports env -> message_ok env true m -> m_headers m = Some hs -> h ∈ hs ->
  g_type (own (h_part h)) = "string" -> g_format (own (h_part h)) = "date-time" -> h_flag h = true -> ~ both_compile env v3 true true m.
Proof.
  intros He Hm Hh Hin Ht Hd Hfl. rewrite (C90_exact_partial _ _ _ _ _ He Hm). unfold message_supported. rewrite Hh.
  intros [_ [[_ Hf]%andb_true_iff _]%andb_true_iff]%andb_true_iff. rewrite forallb_forall in Hf.
  specialize (Hf h (proj1 (elem_of_list_In _ _) Hin)). unfold header_supported in Hf. rewrite Ht, Hd, Hfl in Hf. unfold is_field_pointer in Hf.
  rewrite Ht in Hf. discriminate.
Qed.

(** ** Examples *)
Definition env0 : package_types := fun s =>
  if String.eqb s "Body" then Some (TNamed "Body") else if String.eqb s "Key" then Some TString else if String.eqb s "Count" then Some TInt64 else None.
Lemma exports0 : exports env0.
Proof.
  intros s u H. unfold env0 in H.
  destruct (String.eqb_spec s "Body") as [->|]; [exists "B"%char, "ody"; split; [done|vm_compute; lia]|].
  destruct (String.eqb_spec s "Key") as [->|]; [exists "K"%char, "ey"; split; [done|vm_compute; lia]|].
  destruct (String.eqb_spec s "Count") as [->|]; [exists "C"%char, "ount"; split; [done|vm_compute; lia]|]. discriminate.
Qed.
Definition body : gschema := GSchema "Body" "object" "" "" [] None None None.
Definition simple (ty f : string) : gschema := GSchema "Body" ty f "" [] None None None.
Definition key : gschema := GSchema "Key" "string" "" "" [] None None None.
Definition to_key : part := mkPart (GSchema "KProperty" "" "" "" [] None None (Some "Key")) (Some key).
Definition to_body : part := mkPart (GSchema "Payload" "" "" "" [] None None (Some "Body")) (Some body).
Definition h1 : header := mkHeader "id" false false false (mkPart (simple "string" "") None).
Definition h2 : header := mkHeader "key" true true true to_key.
Definition h3 : header := mkHeader "meta" true true true (mkPart body None).
Definition h4 : header := mkHeader "at" false false false (mkPart (simple "string" "date-time") None).
Definition m0 : message := mkMessage to_body (Some [h1; h2; h3; h4]).

Lemma plain_ok dates ty f : ty <> "object" -> (exists t, schema_name dates (simple ty f) = Some t /\ written env0 t = true) ->
  part_ok env0 dates (mkPart (simple ty f) None).
Proof. intros H E. split; [done|]. split; [exact E|]. intros E'. by destruct H. Qed.
Lemma to_key_ok dates : part_ok env0 dates to_key.
Proof.
  split; [done|]. split; [by exists (TNamed "Key")|]. split; [done|]. split; [done|]. split; [done|].
  unfold declared. cbn. exists TString, TString. by rewrite andb_false_r.
Qed.
Lemma body_ok dates : part_ok env0 dates (mkPart body None).
Proof. split; [done|]. split; [by exists (TNamed "Body")|]. done. Qed.
Lemma to_body_ok dates : part_ok env0 dates to_body.
Proof. split; [done|]. split; [by exists (TNamed "Body")|]. done. Qed.

(** An object by reference, with a string, a reference to a string, a mandatory object and a date: the hypotheses are met, version 3 compiles, version 2
    does not because of the reference. *)
Example C90_example : message_ok env0 true m0 /\ both_compile env0 true true false m0 /\ ~ both_compile env0 false true false m0.
Proof.
  assert (Hm : message_ok env0 true m0).
  { split; [apply to_body_ok|]. split; [done|]. intros hs [= <-]. split; [apply (bool_decide_unpack _); vm_compute; exact I|].
    repeat (apply Forall_cons; split); [apply plain_ok; [done|by exists TString] | apply to_key_ok | apply body_ok
      | apply plain_ok; [done|by exists TTime] | apply Forall_nil; exact I]. }
  split; [exact Hm|]. split; [split; vm_compute; reflexivity|].
  intros H.
  destruct (C90_header_reference env0 false true false m0 [h1; h2; h3; h4] h2 key exports0 Hm eq_refl (elem_of_list_further _ _ _ (elem_of_list_here _ _))
              eq_refl H) as [E _]. discriminate E.
Qed.
Definition number : message := mkMessage (mkPart (simple "number" "float") None) None.
Theorem C90_all_refuted :
  ~ (forall env v3 dates force m, exports env -> message_ok env dates m -> both_compile env v3 dates force m).
Proof.
  intros H. assert (Hm : message_ok env0 true number).
  { split; [apply plain_ok; [done|by exists TFloat32]|]. split; [done|]. discriminate. }
  refine (C90_payload_never env0 true true false number exports0 Hm (or_introl eq_refl) (H _ _ _ _ _ exports0 Hm)).
Qed.
(** The other refusals, on messages that meet the hypotheses. *)
Definition one (h : header) : message := mkMessage to_body (Some [h]).
Lemma one_ok dates h : part_ok env0 dates (h_part h) -> message_ok env0 dates (one h).
Proof.
  intros H. split; [apply to_body_ok|]. split; [done|]. intros hs [= <-]. split; [apply NoDup_singleton|]. by apply Forall_singleton.
Qed.
Definition count : header := mkHeader "n" false false false (mkPart (simple "integer" "int32") None).
Example C90_integer_header_example : message_ok env0 true (one count) /\ ~ both_compile env0 true true false (one count).
Proof.
  assert (Hm : message_ok env0 true (one count)) by (apply one_ok, plain_ok; [done|by exists TInt32]).
  split; [exact Hm|]. eapply C90_header_never; [apply exports0 | exact Hm | done | apply elem_of_list_here | done..].
Qed.
Definition listed : header := mkHeader "n" true true false (mkPart (simple "string" "") None).
Example C90_listed_example : message_ok env0 true (one listed) /\ ~ both_compile env0 true true false (one listed).
Proof.
  assert (Hm : message_ok env0 true (one listed)) by (apply one_ok, plain_ok; [done|by exists TString]).
  split; [exact Hm|]. eapply C90_listed_never; [apply exports0 | exact Hm | done | apply elem_of_list_here | done..].
Qed.
Definition at_ : header := mkHeader "at" true true true (mkPart (simple "string" "date-time") None).
Example C90_forced_example : message_ok env0 true (one at_) /\ both_compile env0 true true false (one at_) /\ ~ both_compile env0 true true true (one at_).
Proof.
  assert (Hm : message_ok env0 true (one at_)) by (apply one_ok, plain_ok; [done|by exists TTime]).
  split; [exact Hm|]. split; [split; vm_compute; reflexivity|].
  eapply C90_forced_date_never; [apply exports0 | exact Hm | done | apply elem_of_list_here | done..].
Qed.
Definition h3' : header := mkHeader "other" true true true (mkPart body None).
Example C90_two_objects_example :
  both_compile env0 true true false (mkMessage to_body (Some [h3])) /\ ~ both_compile env0 true true false (mkMessage to_body (Some [h3; h3'])).
Proof.
  split; [split; vm_compute; reflexivity|].
  assert (Hm : message_ok env0 true (mkMessage to_body (Some [h3; h3']))).
  { split; [apply to_body_ok|]. split; [done|]. intros hs [= <-]. split; [apply (bool_decide_unpack _); vm_compute; exact I|].
    repeat (apply Forall_cons; split); [apply body_ok | apply body_ok | apply Forall_nil; exact I]. }
  eapply (C90_two_objects_never _ _ _ _ _ _ h3 h3'); [apply exports0 | exact Hm | done | apply elem_of_list_here
    | apply elem_of_list_further, elem_of_list_here | done..].
Qed.
Example C90_no_header_example : message_ok env0 true (mkMessage to_body (Some [])) /\ ~ both_compile env0 true true false (mkMessage to_body (Some [])).
Proof.
  assert (Hm : message_ok env0 true (mkMessage to_body (Some []))).
  { split; [apply to_body_ok|]. split; [done|]. intros hs [= <-]. split; [constructor | constructor]. }
  split; [exact Hm|]. by apply C90_no_header_never; [apply exports0 | exact Hm |].
Qed.
Definition day : message := mkMessage (mkPart (simple "string" "date") None) None.
Example C90_date_example : message_ok env0 true day /\ ~ both_compile env0 true true false day.
Proof.
  assert (Hm : message_ok env0 true day) by (split; [apply plain_ok; [done|by exists TDate]|split; [done|discriminate]]).
  split; [exact Hm|]. apply C90_date_never; [apply exports0 | exact Hm | done | by left].
Qed.
Example C90_plain_example : plain_payload true (followed to_body) /\ plain_header true h1 /\ both_compile env0 false true true (one h1).
Proof.
  split; [by left|]. assert (Hp : plain_header true h1) by done. split; [exact Hp|].
  apply C90_plain; [apply exports0 | apply one_ok, plain_ok; [done|by exists TString] | by left |].
  intros hs [= <-]. split; [done|]. by apply Forall_singleton.
Qed.

Print Assumptions C90_exact_partial.
Print Assumptions C90_plain.
Print Assumptions C90_payload_never.
Print Assumptions C90_date_never.
Print Assumptions C90_header_never.
Print Assumptions C90_header_reference.
Print Assumptions C90_no_header_never.
Print Assumptions C90_two_objects_never.
Print Assumptions C90_listed_never.
Print Assumptions C90_forced_date_never.
Print Assumptions C90_all_refuted.
