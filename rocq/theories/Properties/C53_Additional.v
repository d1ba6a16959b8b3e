(** C53: marshalling of additional properties. *)
From stdpp Require Import list.
From Coq Require Import NArith String.
From Verif.Model Require Import Additional.
From Verif.Spec Require Import JsonSpec.
From Verif.Proof Require Import AdditionalProof.
Local Open Scope N_scope.

(** C53: marshalling gives a JSON object with the declared properties and every additional property.
    In v3 this is so when the names of the additional properties have no characters that %q writes
    in a way JSON does not know; [ms] are the members of the structure without additional properties,
    [vals] the JSON values of the additional properties. *)
Theorem C53_v3_partial printable b ms adds vals : jval b (JObj ms) ->
  Forall2 (fun kv v => jval kv.2 v) adds vals ->
  Forall (fun kv => clean printable kv.1 /\ well_formed kv.1) adds ->
  jval (marshal_v3 printable b adds) (JObj (ms ++ zip (map (fun kv => runes kv.1) adds) vals)).
Proof. exact (marshal_v3_valid printable b ms adds vals). Qed.

(** Otherwise the result is not JSON at all. *)
Theorem C53_v3_only_clean printable b ms adds vals : jval b (JObj ms) ->
  Forall2 (fun kv v => jval kv.2 v) adds vals -> Forall (fun kv => well_formed kv.1) adds ->
  (exists j, jval (marshal_v3 printable b adds) j) <-> Forall (fun kv => clean printable kv.1) adds.
Proof.
  intros J F W. split.
  - intros [j V]. exact (marshal_v3_only printable b ms adds vals j J F W V).
  - intros C. eexists. apply (marshal_v3_valid printable b ms adds vals J F). apply Forall_forall. intros kv M.
    rewrite Forall_forall in C, W. auto.
Qed.
Definition ascii_only (r : N) : bool := false.
Definition go (s : string) : gostring := map Rune (txt s).
Example C53_v3_ex :
  let b := txt "{""n"":1}" in let adds := [(go "a""\b", txt "[null]"); ([Rune 10; Rune 233], txt "2")] in
  jval b (JObj [(txt "n", JNum (txt "1"))]) /\ Forall (fun kv => clean ascii_only kv.1 /\ well_formed kv.1) adds /\
  marshal_v3 ascii_only b adds = txt "{""n"":1,""a\""\\b"":[null],""\n\u00e9"":2}" /\
  marshal_v3 ascii_only (txt "{}") adds = txt "{""a\""\\b"":[null],""\n\u00e9"":2}".
Proof.
  cbv zeta. split; [|split; [|split; vm_compute; reflexivity]].
  - change (txt "{""n"":1}") with ([123] ++ ((txt """n""") ++ [58] ++ txt "1") ++ [125])%list. apply jv_obj, jm_one.
    + exists (txt "n"). split; [reflexivity|]. apply jc_plain; [discriminate|discriminate|discriminate|constructor].
    + apply jv_num. split; [discriminate|]. repeat constructor.
  - constructor; [split|constructor; [split|constructor]]; repeat (apply Forall_cons; split); try apply Forall_nil_2;
      cbn; unfold surrogate; (split;
        [first [left; split; discriminate|right; apply (bool_decide_unpack _); vm_compute; exact I|intros [A _]; exact (A eq_refl)]
        |first [discriminate|intros A; destruct (A eq_refl)]]).
Qed.

(** Refuted in general: a name with the character 7. *)
Theorem C53_v3_refuted : exists adds vals, forall printable,
  jval (txt "{}") (JObj []) /\ Forall2 (fun (kv : gostring * text) v => jval kv.2 v) adds vals /\
  ~ exists j, jval (marshal_v3 printable (txt "{}") adds) j.
Proof.
  exists [([Rune 97; Rune 7], txt "null")], [JNull]. intros printable.
  assert (F : Forall2 (fun (kv : gostring * text) v => jval kv.2 v) [([Rune 97; Rune 7], txt "null")] [JNull])
    by (constructor; [apply jv_null|constructor]).
  split; [apply jv_obj_nil|]. split; [exact F|].
  rewrite (C53_v3_only_clean printable _ [] _ _ jv_obj_nil F).
  - intros [[_ [[[H|H] _] _]%Forall_cons]%Forall_cons _]%Forall_cons.
    + destruct H as [H _]. now apply H.
    + apply (bool_decide_pack _) in H. vm_compute in H. destruct H.
  - constructor; [|constructor]. repeat (apply Forall_cons; split); try apply Forall_nil_2; cbn; unfold surrogate;
      (split; [intros [A B]; now apply A|discriminate]).
Qed.

(** No name occurs twice, provided no additional property has the name of a declared one. *)
Theorem C53_once (ms : list (list N * json)) (adds : list (gostring * text)) vals :
  NoDup (map fst ms) -> NoDup (map (fun kv => runes kv.1) adds) -> List.length adds = List.length vals ->
  NoDup (map fst (ms ++ zip (map (fun kv => runes kv.1) adds) vals)) <->
  forall kv, kv ∈ adds -> runes kv.1 ∉ map fst ms.
Proof.
  intros N1 N2 L. rewrite map_app.
  assert (E : map fst (zip (map (fun kv : gostring * text => runes kv.1) adds) vals) = map (fun kv => runes kv.1) adds).
  { apply (fst_zip (map (fun kv : gostring * text => runes kv.1) adds) vals). rewrite map_length. now rewrite L. }
  rewrite E, NoDup_app. split.
  - intros (_ & D & _) kv M H. apply (D _ H). apply elem_of_list_fmap. now exists kv.
  - intros D. split; [exact N1|]. split; [|exact N2]. intros k H M. apply elem_of_list_fmap in M as (kv & -> & M). exact (D _ M H).
Qed.
Example C53_once_ex : marshal_v3 ascii_only (txt "{""n"":1}") [(go "n", txt "2")] = txt "{""n"":1,""n"":2}".
Proof. vm_compute. reflexivity. Qed.

(** In v2 the result is JSON exactly when a property was there before the additional ones and these
    are strings, names and values being clean. *)
Theorem C53_v2_partial printable b ms adds : jval b (JObj ms) -> ms <> [] ->
  Forall (fun kv => (clean printable kv.1 /\ well_formed kv.1) /\ v2_good printable kv.2 /\ v2_wf kv.2) adds ->
  jval (marshal_v2 printable b adds) (JObj (ms ++ map (fun kv => (runes kv.1, v2_json kv.2)) adds)).
Proof. exact (marshal_v2_valid printable b ms adds). Qed.
Theorem C53_v2_only printable b ms adds : jval b (JObj ms) -> Forall (fun kv => well_formed kv.1 /\ v2_wf kv.2) adds ->
  (exists j, jval (marshal_v2 printable b adds) j) <->
  (ms <> [] \/ adds = []) /\ Forall (fun kv => clean printable kv.1 /\ v2_good printable kv.2) adds.
Proof.
  intros J W. split.
  - intros [j V]. exact (marshal_v2_only printable b ms adds j J W V).
  - intros [[N| ->] C].
    + eexists. apply (marshal_v2_valid printable b ms adds J N). apply Forall_forall. intros kv M. rewrite Forall_forall in C, W.
      destruct (C _ M), (W _ M). auto.
    + exists (JObj ms). rewrite marshal_v2_eq. cbn. destruct (jobj_inv _ _ J) as [[-> ->]|(t & -> & _)]; [exact J|].
      change (123 :: t ++ [125])%list with ((123 :: t) ++ [125])%list in *. now rewrite removelast_last.
Qed.
Example C53_v2_ex :
  marshal_v2 ascii_only (txt "{""n"":1}") [(go "a", V2String (go "b")); (go "c", V2String (go "d"))] = txt "{""n"":1,""a"":""b"",""c"":""d""}" /\
  marshal_v2 ascii_only (txt "{}") [(go "a", V2String (go "b"))] = txt "{,""a"":""b""}" /\
  marshal_v2 ascii_only (txt "{""n"":1}") [(go "a", V2Int (txt "b")); (go "c", V2Other (txt "bool=true"))] = txt "{""n"":1,""a"":'b',""c"":%!q(bool=true)}".
Proof. repeat split; vm_compute; reflexivity. Qed.

(** Refuted in general: one string, nothing else. *)
Theorem C53_v2_refuted : exists adds, forall printable,
  jval (txt "{}") (JObj []) /\ Forall (fun kv => clean printable kv.1 /\ v2_good printable kv.2) adds /\
  ~ exists j, jval (marshal_v2 printable (txt "{}") adds) j.
Proof.
  exists [(go "a", V2String (go "b"))]. intros printable. split; [apply jv_obj_nil|]. split.
  - constructor; [|constructor]. split; cbn; (constructor; [|constructor]); cbn; (split; [left; split; discriminate|intros A; now destruct (A eq_refl)]).
  - intros [j V]. vm_compute in V. now apply jval_comma in V.
Qed.

Print Assumptions C53_v3_partial.
Print Assumptions C53_v3_only_clean.
Print Assumptions C53_v3_refuted.
Print Assumptions C53_once.
Print Assumptions C53_v2_partial.
Print Assumptions C53_v2_only.
Print Assumptions C53_v2_refuted.
