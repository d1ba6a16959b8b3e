(** C91: the code that reads and writes the correlation identifier and the reply address compiles.
    C92: it reads what was written, changes nothing else and does not crash. *)
From stdpp Require Import list strings.
From Coq Require Import String Lia.
From Verif.Model Require Import Types Accessors.
From Verif.Spec Require Import AccessorsSpec.
From Verif.Proof Require Import AccessorsProof.
Local Open Scope string_scope.

(** ** C91 *)
(** It compiles exactly when the location leads to a string, which is a pointer if and only if it is not required. *)
Theorem C91_exact defs name path required :
  compiles defs name (write path required) /\ compiles defs name (read path required) <->
  exists through, leads defs name path through (negb required) TString.
Proof.
  split; [by intros [_ H%read_exact]|]. intros H%read_exact. split; [by apply read_write|done].
Qed.
(** The field of a property is a pointer according to is_field_pointer, the flag of the template says whether the parent requires it. Both agree unless
    pointers are forced and the property is required. *)
Theorem C91_flags defs name path through dates force required s t :
  g_type s = "string" -> schema_name dates s = Some t ->
  leads defs name path through (is_field_pointer force required s) t ->
  compiles defs name (write path required) /\ compiles defs name (read path required) <-> t = TString /\ (force = false \/ required = false).
Proof.
  intros Hs Ht Hl. rewrite C91_exact. unfold is_field_pointer in Hl. rewrite Hs in Hl. cbn in Hl. split.
  - intros [th H]. destruct (leads_unique _ _ _ _ _ _ _ _ _ Hl H) as (_ & E & ->). split; [done|]. destruct force, required; auto.
  - intros [-> [->| ->]]; exists through; [by rewrite andb_true_r in Hl|]. by destruct force.
Qed.
(** With forced pointers no message with a required correlation identifier compiles; nor does one whose identifier is not a string. *)
Theorem C91_forced_never defs name path through s t dates :
  g_type s = "string" -> schema_name dates s = Some t -> leads defs name path through (is_field_pointer true true s) t ->
  ~ compiles defs name (read path true).
Proof.
  intros Hs Ht Hl Hr. assert (Hw := read_write _ _ _ _ Hr). destruct (proj1 (C91_flags _ _ _ _ _ _ _ _ _ Hs Ht Hl) (conj Hw Hr)) as (_ & [?|?]); done.
Qed.
Theorem C91_type_never defs name path through p t required :
  leads defs name path through p t -> t <> TString -> ~ compiles defs name (read path required).
Proof. intros Hl Ht [th H]%read_exact. by destruct (leads_unique _ _ _ _ _ _ _ _ _ Hl H) as (_ & _ & ->). Qed.

(** A message whose headers hold an identifier, required and not, an object that is required and one that is not, each with an identifier. *)
Definition headers : gdef := DStruct [mkField "id" false TString; mkField "other" true TString; mkField "count" true TInt64;
  mkField "trace" false (TNamed "Trace"); mkField "origin" true (TNamed "Trace")] None.
Definition ex_defs (forced : bool) (n : string) : option gdef :=
  if String.eqb n "Message" then Some (DStruct [mkField "Headers" false (TNamed "Headers"); mkField "Payload" false TString] None)
  else if String.eqb n "Headers" then
    Some (if forced then DStruct [mkField "id" true TString] None else headers)
  else if String.eqb n "Trace" then Some (DStruct [mkField "span" false TString; mkField "id" true TString] None)
  else None.
Definition id_schema : gschema := GSchema "Id" "string" "" "" [] None None None.

Lemma step defs name fs a k f name' r through through' p t :
  defs name = Some (DStruct fs a) -> find_field fs k = Some f -> f_type f = TNamed name' -> leads defs name' r through p t ->
  through' = f_pointer f || through -> leads defs name (k :: r) through' p t.
Proof. intros. subst. eapply leads_step; eauto using leads_nonempty. Qed.
Lemma last defs name fs a k f p t : defs name = Some (DStruct fs a) -> find_field fs k = Some f -> p = f_pointer f -> t = f_type f -> leads defs name [k] false p t.
Proof. intros. subst. by eapply leads_last. Qed.
Lemma ex_id forced : leads (ex_defs forced) "Message" ["Headers"; "id"] false (is_field_pointer forced true id_schema) TString.
Proof. eapply step; [reflexivity..| |reflexivity]. destruct forced; by eapply last. Qed.
Lemma ex_nested k through : (k = "trace" /\ through = false) \/ (k = "origin" /\ through = true) ->
  leads (ex_defs false) "Message" ["Headers"; k; "id"] through true TString.
Proof.
  intros [[-> ->]|[-> ->]]; (eapply step; [reflexivity..| |reflexivity]); (eapply step; [reflexivity..| |reflexivity]); by eapply last.
Qed.
Example C91_example : compiles (ex_defs false) "Message" (read ["Headers"; "id"] true) /\ compiles (ex_defs false) "Message" (read ["Headers"; "origin"; "id"] false).
Proof.
  split.
  - apply (C91_flags (ex_defs false) "Message" ["Headers"; "id"] false true false true id_schema TString eq_refl eq_refl (ex_id false)). split; [done|by left].
  - apply read_exact. exists true. apply ex_nested. by right.
Qed.
Theorem C91_forced_refuted :
  ~ (forall defs name path through force required s t dates, g_type s = "string" -> schema_name dates s = Some t ->
       leads defs name path through (is_field_pointer force required s) t -> t = TString -> compiles defs name (read path required)).
Proof.
  intros H. refine (C91_forced_never (ex_defs true) "Message" ["Headers"; "id"] false id_schema TString true eq_refl eq_refl (ex_id true) _).
  exact (H (ex_defs true) "Message" ["Headers"; "id"] false true true id_schema TString true eq_refl eq_refl (ex_id true) eq_refl).
Qed.
Example C91_type_example : ~ compiles (ex_defs false) "Message" (read ["Headers"; "count"] false).
Proof.
  apply (C91_type_never (ex_defs false) "Message" ["Headers"; "count"] false true TInt64); [|done].
  eapply step; [reflexivity..| |reflexivity]. by eapply last.
Qed.

(** ** C92 *)
(** What is written is read, and nothing else changes. *)
Theorem C92_written defs name path through required id msg msg' :
  leads defs name path through (negb required) TString -> typed defs false (TNamed name) msg -> set_id path required id msg = Some msg' ->
  get_id path required msg' = Some id /\ get_address path required msg' = Some (inr id) /\ typed defs false (TNamed name) msg' /\
  forall other, apart path other -> get other msg' = get other msg.
Proof.
  intros Hl Ht Hs. unfold set_id in Hs. destruct (put_spec _ _ _ _ _ _ _ Hl (written_value _ required id) _ _ Ht) as [H _]. rewrite Hs in H.
  destruct H as (Ht' & Hg & Ha). unfold get_id, get_address. rewrite Hg. cbn. by destruct required.
Qed.
(** Writing crashes exactly when there is a nil pointer on the way; it never does when the way has no pointer. *)
Theorem C92_total defs name path required id msg :
  leads defs name path false (negb required) TString -> typed defs false (TNamed name) msg ->
  set_id path required id msg <> None /\ get_id path required msg <> None.
Proof.
  intros Hl Ht. destruct (put_spec _ _ _ _ _ _ _ Hl (written_value _ required id) _ _ Ht) as [_ H]. split; [by apply H|].
  pose proof (get_spec _ _ _ _ _ _ Hl _ _ Ht) as Hg. unfold get_id. destruct (get path msg) as [x|]; [|by destruct Hg].
  cbn. apply string_value in Hg. destruct required; cbn in Hg; [by destruct Hg as [s ->]|]. by destruct Hg as [->|[s ->]].
Qed.
(** A new message: the function that makes it crashes, always, when a field on the way is a pointer; otherwise the message has the identifier. *)
Theorem C92_new defs name path through required uuid n :
  leads defs name path through (negb required) TString -> (List.length path <= n)%nat ->
  match new_message defs n name path required uuid with
  | Some msg => through = false /\ get_id path required msg = Some uuid
  | None => through = true
  end.
Proof.
  intros Hl Hn. unfold new_message. pose proof (zero_put _ _ _ _ _ _ (if required then Text uuid else Pointer (Text uuid)) Hl n Hn) as Hz.
  unfold set_id. destruct (put path _ (zero defs n false (TNamed name))) as [msg|] eqn:E; [|by apply Hz].
  split; [destruct through; [|done]; discriminate (proj2 Hz eq_refl)|]. unfold get_id. rewrite (put_get _ _ _ _ E). by destruct required.
Qed.
(** The other fields of a new message are empty: pointers are nil, strings have no character. *)
Theorem C92_new_others defs name path required uuid n msg other p t :
  new_message defs n name path required uuid = Some msg -> apart path other -> leads defs name other false p t -> (List.length other <= n)%nat ->
  (p = true -> get other msg = Some Nil) /\ (p = false -> t = TString -> get other msg = Some (Text "")).
Proof.
  intros Hn Ha Hl Hs. unfold new_message, set_id in Hn. rewrite (put_apart _ _ _ Ha _ _ Hn).
  destruct (zero_get _ _ _ _ _ Hl n Hs) as [n' ->]. split; [intros ->|intros -> ->]; by destruct n'.
Qed.
(** A response has the identifier of its request, whatever the places of the two. *)
Theorem C92_response defs name path through required rdefs rname rpath rrequired rthrough req msg msg' :
  leads defs name path through (negb required) TString -> typed defs false (TNamed name) msg ->
  leads rdefs rname rpath rthrough (negb rrequired) TString -> typed rdefs false (TNamed rname) req ->
  set_as_response path required (get_id rpath rrequired req) msg = Some msg' ->
  get_id path required msg' = get_id rpath rrequired req.
Proof.
  intros Hl Ht _ _ H. unfold set_as_response in H. apply bind_Some in H as (id & -> & H). by eapply C92_written in H as (-> & _).
Qed.
(** The address of a reply: an error or the text of the field, never a crash when no pointer is on the way. *)
Theorem C92_address defs name path required msg :
  leads defs name path false (negb required) TString -> typed defs false (TNamed name) msg ->
  get_address path required msg = match get path msg with
                                  | Some (Text s) | Some (Pointer (Text s)) => Some (inr s)
                                  | _ => Some (inl tt)
                                  end /\ (required = true -> get_address path required msg <> Some (inl tt)).
Proof.
  intros Hl Ht. pose proof (get_spec _ _ _ _ _ _ Hl _ _ Ht) as Hg. unfold get_address. destruct (get path msg) as [x|]; [|by destruct Hg].
  cbn. apply string_value in Hg. destruct required; cbn in Hg; [by destruct Hg as [s ->]|]. by destruct Hg as [->|[s ->]].
Qed.
(** An identifier inside of an optional object: the generated code compiles and no message can be made with its constructor. *)
Theorem C92_new_refuted :
  ~ (forall defs name path through required uuid n, leads defs name path through (negb required) TString -> (List.length path <= n)%nat ->
       new_message defs n name path required uuid <> None).
Proof.
  intros H. pose proof (ex_nested "origin" true (or_intror (conj eq_refl eq_refl))) as Hl.
  apply (H (ex_defs false) "Message" ["Headers"; "origin"; "id"] true false "uuid" 3%nat Hl); [cbn; lia|].
  pose proof (C92_new (ex_defs false) "Message" ["Headers"; "origin"; "id"] true false "uuid" 3%nat Hl ltac:(cbn; lia)) as Hn.
  destruct (new_message _ _ _ _ _ _); [|done]. by destruct Hn.
Qed.
Example C92_example : exists msg, new_message (ex_defs false) 3%nat "Message" ["Headers"; "trace"; "id"] false "uuid" = Some msg /\
  get_id ["Headers"; "trace"; "id"] false msg = Some "uuid" /\ get ["Headers"; "origin"] msg = Some Nil.
Proof. eexists. split; [vm_compute; reflexivity|]. split; reflexivity. Qed.
Example C92_new_others_example : exists msg, new_message (ex_defs false) 3%nat "Message" ["Headers"; "trace"; "id"] false "uuid" = Some msg /\
  get ["Headers"; "other"] msg = Some Nil /\ get ["Headers"; "trace"; "span"] msg = Some (Text "").
Proof.
  eexists. split; [vm_compute; reflexivity|]. split.
  - refine (proj1 (C92_new_others (ex_defs false) "Message" ["Headers"; "trace"; "id"] false "uuid" 3%nat _ ["Headers"; "other"] true TString eq_refl _ _ _) eq_refl).
    + by apply apart_next, apart_here.
    + eapply step; [reflexivity..| |reflexivity]. by eapply last.
    + cbn. lia.
  - refine (proj2 (C92_new_others (ex_defs false) "Message" ["Headers"; "trace"; "id"] false "uuid" 3%nat _ ["Headers"; "trace"; "span"] false TString eq_refl _ _ _) eq_refl eq_refl).
    + by apply apart_next, apart_next, apart_here.
    + eapply step; [reflexivity..| |reflexivity]. eapply step; [reflexivity..| |reflexivity]. by eapply last.
    + cbn. lia.
Qed.
Definition ex_trace (id : value) : value := Struct (fun k => if String.eqb k "span" then Text "s" else if String.eqb k "id" then id else Other).
Definition ex_msg : value := Struct (fun k => if String.eqb k "Headers" then
    Struct (fun k => if String.eqb k "id" then Text "a" else if String.eqb k "other" then Nil else if String.eqb k "count" then Nil
      else if String.eqb k "trace" then ex_trace Nil else if String.eqb k "origin" then Pointer (ex_trace (Pointer (Text "b"))) else Other)
  else if String.eqb k "Payload" then Text "body" else Other).
Lemma ex_trace_typed id : typed (ex_defs false) true TString id -> typed (ex_defs false) false (TNamed "Trace") (ex_trace id).
Proof.
  intros H. eapply typed_struct; [reflexivity|]. intros k f F. unfold find_field in F. cbn [List.find f_key] in F.
  destruct (String.eqb_spec "span" k) as [<-|]; [injection F as <-; constructor|].
  destruct (String.eqb_spec "id" k) as [<-|]; [injection F as <-; exact H|discriminate].
Qed.
Example C92_written_example : typed (ex_defs false) false (TNamed "Message") ex_msg /\
  exists msg', set_id ["Headers"; "origin"; "id"] false "new" ex_msg = Some msg' /\ get_id ["Headers"; "origin"; "id"] false msg' = Some "new" /\
    get_id ["Headers"; "trace"; "id"] false msg' = Some "" /\ get ["Headers"; "origin"; "span"] msg' = Some (Text "s").
Proof.
  split; [|eexists; split; [vm_compute; reflexivity|]; repeat split].
  eapply typed_struct; [reflexivity|]. intros k f F. unfold find_field in F. cbn [List.find f_key] in F.
  destruct (String.eqb_spec "Headers" k) as [<-|]; [injection F as <-; cbn [f_pointer f_type]|destruct (String.eqb_spec "Payload" k) as [<-|]; [injection F as <-; constructor|discriminate]].
  eapply typed_struct; [reflexivity|]. intros k f F. unfold find_field in F. cbn [List.find f_key] in F.
  destruct (String.eqb_spec "id" k) as [<-|]; [injection F as <-; constructor|].
  destruct (String.eqb_spec "other" k) as [<-|]; [injection F as <-; constructor|].
  destruct (String.eqb_spec "count" k) as [<-|]; [injection F as <-; constructor|].
  destruct (String.eqb_spec "trace" k) as [<-|]; [injection F as <-; apply ex_trace_typed; constructor|].
  destruct (String.eqb_spec "origin" k) as [<-|]; [injection F as <-|discriminate]. apply typed_pointer, ex_trace_typed. repeat constructor.
Qed.

Print Assumptions C91_exact.
Print Assumptions C91_flags.
Print Assumptions C91_forced_never.
Print Assumptions C91_type_never.
Print Assumptions C91_forced_refuted.
Print Assumptions C92_written.
Print Assumptions C92_total.
Print Assumptions C92_new.
Print Assumptions C92_new_others.
Print Assumptions C92_response.
Print Assumptions C92_address.
Print Assumptions C92_new_refuted.
