(** C32-C36: names, channel addresses and comments in the generated code. *)
From stdpp Require Import list strings.
From Coq Require Import NArith Ascii String.
From Verif.Model Require Import Naming Address.
From Verif.Spec Require Import NamingSpec.
From Verif.Proof Require Import NamingProof.

Definition str (s : string) : bytes := list_ascii_of_string s.

(** The Unicode tables, as used in the examples: é (233) and 日 (26085) are letters; É is the upper
    case of é, 日 is its own. Nothing else outside ASCII occurs in the examples. *)
Definition ex_letter (r : N) : bool := N.eqb r 233 || N.eqb r 26085.
Definition ex_digit (r : N) : bool := false.
Definition ex_upper (r : N) : bytes :=
  if N.eqb r 233 then ["195"; "137"]%char
  else if N.eqb r 26085 then ["230"; "151"; "165"]%char
  else ["239"; "191"; "189"]%char.
Definition ex_namify := namify ex_letter ex_digit ex_upper.

(** ** C32 *)

(** For every string and whatever the Unicode tables (as long as no upper-case form is empty): the
    naming function does not panic, and gives "" or an exported identifier; naming again changes
    nothing. *)
Theorem C32_exported ul ud uu s :
  (forall r, uu r <> []) ->
  exists n, namify ul ud uu s = Some n /\ (n = [] \/ exported n) /\ namify ul ud uu n = Some n.
Proof. exact (namify_idempotent ul ud uu s). Qed.
Print Assumptions C32_exported.

(** An ASCII string gets the empty name exactly when it has no letter. *)
Theorem C32_empty_exactly ul ud uu s :
  Forall is_ascii s ->
  (namify ul ud uu s = Some [] <-> Forall (fun c => ~ (c ∈ lowers \/ c ∈ uppers)) s).
Proof.
  intros HA. rewrite namify_ascii by exact HA. rewrite <- name_of_nil. split; congruence.
Qed.
Print Assumptions C32_empty_exactly.

Example C32_example :
  ex_namify (str "my-channel/v2_Item") = Some (str "MyChannelV2Item") /\
  ex_namify (str "42_answers") = Some (str "Answers") /\
  ex_namify (str "12-34") = Some [] /\
  ex_namify ["255"; "a"; "195"; "b"]%char = Some (str "ABb") /\
  ex_namify ["230"; "151"; "165"]%char = Some [].
Proof. vm_compute. repeat split. Qed.

(** ** C33 *)

(** Every string has characters, at certain places, and they are those over which the loop goes: what UTF-8 says of the bytes, and U+FFFD for each byte
    which begins no encoding. *)
Theorem C33_characters s l : characters 0 s l <-> l = runes s.
Proof. split; [apply characters_runes; reflexivity|intros ->; apply runes_characters]. Qed.
Print Assumptions C33_characters.

Example C33_characters_ex : characters 0 (["a"; "195"; "169"; "195"; "b"; "244"; "143"; "191"; "191"; "244"; "144"; "128"; "128"]%char)
  [(0%nat, 97%N); (1%nat, 233%N); (3%nat, 65533%N); (4%nat, 98%N); (5%nat, 1114111%N); (9%nat, 65533%N); (10%nat, 65533%N); (11%nat, 65533%N); (12%nat, 65533%N)].
Proof. apply C33_characters. vm_compute. reflexivity. Qed.

(** ASCII strings: the letters and digits in order, those starting a word in upper case, without
    leading digits, the first letter in upper case. *)
Theorem C33_ascii_partial ul ud uu s :
  Forall is_ascii s -> namify ul ud uu s = Some (name_of s).
Proof. exact (namify_ascii ul ud uu s). Qed.
Print Assumptions C33_ascii_partial.

(** More generally, when only ASCII characters start words: case apart, the letters and digits of
    the string in order, without leading digits. *)
Theorem C33_letters_kept_partial ul ud uu s l :
  characters 0 s l -> starts_ascii (fun r => is_letter ul r || is_digit ud r) l 95 ->
  exists n, namify ul ud uu s = Some n /\
            map uppercase n = map uppercase (drop_digits (word_chars s)).
Proof. intros H. rewrite (characters_runes (List.length s) 0 s l (le_n _) H). exact (namify_case ul ud uu s). Qed.
Print Assumptions C33_letters_kept_partial.

(** Missing: words starting with another character, where it is false. In "é_ab" the "a" is
    duplicated; in "日ab-c" the "b" is replaced by a "C". *)
Theorem C33_refuted :
  exists s n, ex_namify s = Some n /\
              map uppercase n <> map uppercase (drop_digits (word_chars s)).
Proof.
  exists (["195"; "169"; "_"; "a"; "b"]%char), (str "Aab").
  split; [vm_compute; reflexivity|vm_compute; congruence].
Qed.
Print Assumptions C33_refuted.

Example C33_example :
  name_of (str "my-channel/v2_Item") = str "MyChannelV2Item" /\
  ex_namify ["230"; "151"; "165"; "a"; "b"; "-"; "c"]%char = Some (str "ACc") /\
  (let s := str "caf" ++ ["195"; "169"]%char ++ str "s_2x" in
   characters 0 s (runes s) /\ starts_ascii (fun r => is_letter ex_letter r || is_digit ex_digit r) (runes s) 95 /\
   ex_namify s = Some (str "Cafs2x")).
Proof.
  split; [vm_compute; reflexivity|]. split; [vm_compute; reflexivity|]. intros s. split; [by apply C33_characters|].
  vm_compute. repeat split; congruence.
Qed.

(** ** C34 *)

(** False: "user_id" and "userId" both become "UserId", "a" and "A" become "A". *)
Theorem C34_distinct_refuted ul ud uu :
  exists s1 s2 n, s1 <> s2 /\ namify ul ud uu s1 = Some n /\ namify ul ud uu s2 = Some n /\ exported n.
Proof.
  exists (str "user_id"), (str "userId"), (str "UserId").
  refine (conj _ (conj _ (conj _ _))).
  - vm_compute. congruence.
  - rewrite namify_ascii; [vm_compute; reflexivity|]. repeat constructor.
  - rewrite namify_ascii; [vm_compute; reflexivity|]. repeat constructor.
  - exists "U"%char, (str "serId"). refine (conj eq_refl (conj _ _)).
    + apply (bool_decide_unpack _). vm_compute. exact I.
    + apply (bool_decide_unpack _). vm_compute. exact I.
Qed.
Print Assumptions C34_distinct_refuted.

(** Two words of letters and digits starting with a letter collide only when they differ in the
    case of the first letter. *)
Theorem C34_words_partial ul ud uu c1 r1 c2 r2 :
  (c1 ∈ lowers \/ c1 ∈ uppers) -> (c2 ∈ lowers \/ c2 ∈ uppers) ->
  Forall word_char r1 -> Forall word_char r2 ->
  (namify ul ud uu (c1 :: r1) = namify ul ud uu (c2 :: r2) <->
   uppercase c1 = uppercase c2 /\ r1 = r2).
Proof.
  intros H1 H2 F1 F2. rewrite !namify_word by assumption. split; [|intros [-> ->]; reflexivity].
  intros [= ? ?]. auto.
Qed.
Print Assumptions C34_words_partial.

(** Exported identifiers (what most specifications use as component names) never collide. *)
Theorem C34_exported_partial ul ud uu s1 s2 :
  exported s1 -> exported s2 -> namify ul ud uu s1 = namify ul ud uu s2 -> s1 = s2.
Proof. intros H1 H2. rewrite !namify_exported by assumption. congruence. Qed.
Print Assumptions C34_exported_partial.

(** Channel names: removing the parameters removes everything from the first "{" to the last "}"
    when there is no parenthesis in between, not only the parameters. *)
Theorem C34_params_span_partial ul ud uu a b c :
  "{"%char ∉ a -> ("("%char ∉ b /\ ")"%char ∉ b) -> "}"%char ∉ c ->
  namify_without_params ul ud uu (a ++ "{"%char :: b ++ "}"%char :: c) =
  namify ul ud uu (a ++ "_"%char :: c).
Proof.
  intros Ha Hb Hc. unfold namify_without_params. now rewrite remove_params_span.
Qed.
Print Assumptions C34_params_span_partial.

(** So channels that differ outside their parameters can get the same name (and the generated
    code declares the same constant twice). *)
Theorem C34_channels_refuted ul ud uu :
  exists s1 s2 n,
    s1 <> s2 /\
    namify_without_params ul ud uu s1 = Some n /\ namify_without_params ul ud uu s2 = Some n /\
    exported n.
Proof.
  exists (str "user/{id}/created/{kind}"), (str "user/{id}/deleted/{kind}"), (str "User").
  unfold namify_without_params.
  replace (remove_params (str "user/{id}/created/{kind}")) with (str "user/_") by (vm_compute; reflexivity).
  replace (remove_params (str "user/{id}/deleted/{kind}")) with (str "user/_") by (vm_compute; reflexivity).
  refine (conj _ (conj _ (conj _ _))).
  - vm_compute. congruence.
  - rewrite namify_ascii; [vm_compute; reflexivity|]. repeat constructor.
  - rewrite namify_ascii; [vm_compute; reflexivity|]. repeat constructor.
  - exists "U"%char, (str "ser"). refine (conj eq_refl (conj _ _)).
    + apply (bool_decide_unpack _). vm_compute. exact I.
    + apply (bool_decide_unpack _). vm_compute. exact I.
Qed.
Print Assumptions C34_channels_refuted.

Example C34_example :
  ex_namify (str "a") = ex_namify (str "A") /\
  namify_without_params ex_letter ex_digit ex_upper (str "user.{id}.name") = Some (str "UserName") /\
  namify_without_params ex_letter ex_digit ex_upper (str "a{b(c}d") = Some (str "ABCD").
Proof. vm_compute. auto. Qed.

(** ** C35 *)

(** ASCII addresses made of literal text without braces and "%" and of parameters: the generated
    expression evaluates to the address with every parameter replaced by the value of the field
    named after it; for the verbs of v2 ("v") and v3 ("s"). *)
Theorem C35_substitution_partial ul ud uu v sgs params :
  v = "s"%char \/ v = "v"%char ->
  Forall is_ascii (render sgs) -> Forall wf_segment sgs -> Forall no_percent sgs ->
  exists e, generate_address ul ud uu v true (render sgs) = Some e /\
            eval params e = Some (subst (fun p => params (name_of p)) sgs).
Proof. exact (address_eval ul ud uu v sgs params). Qed.
Print Assumptions C35_substitution_partial.

(** The same for any braces: the parameters are found from the left, and a brace that is not part of one is
    literal text. *)
Theorem C35_any_braces_partial ul ud uu v s params :
  v = "s"%char \/ v = "v"%char ->
  Forall is_ascii s -> "%"%char ∉ s ->
  exists sgs e, pieces s sgs /\ render sgs = s /\ generate_address ul ud uu v true s = Some e /\
            eval params e = Some (subst (fun p => params (name_of p)) sgs).
Proof.
  intros Hv HA HP. destruct (pieces_total s) as (sgs & Hs). exists sgs.
  destruct (address_eval_pieces ul ud uu v s sgs params Hv HA Hs) as (e & He1 & He2).
  - induction Hs as [|p r sgs Hp Hs IH|c r sgs Hc Hs IH]; constructor.
    + exact I.
    + apply IH; [|intros Hin; apply HP; rewrite elem_of_app; right; right; exact Hin]. apply Forall_app in HA as [_ HA]. now inversion HA.
    + cbn. intros Hc'. apply elem_of_list_singleton in Hc'. apply HP. rewrite Hc'. left.
    + rewrite elem_of_cons in HP. apply IH; [|tauto]. now inversion HA.
  - exists e. split; [exact Hs|]. split; [now apply pieces_render|]. split; assumption.
Qed.
Print Assumptions C35_any_braces_partial.
Example C35_any_braces_ex :
  let s := str "a}{b{id}" in
  Forall is_ascii s /\ "%"%char ∉ s /\ pieces s [Text (str "a"); Text (str "}"); Text (str "{"); Text (str "b"); Param (str "id")].
Proof.
  cbn zeta. split; [|split].
  - repeat constructor.
  - apply (bool_decide_unpack _). vm_compute. exact I.
  - change (str "a}{b{id}") with ("a" :: "}" :: "{" :: "b" :: ("{" :: ["i"; "d"]) ++ "}" :: [])%char.
    apply (pieces_text "a"%char); [intros p r' _ E; discriminate|].
    apply (pieces_text "}"%char); [intros p r' _ E; discriminate|].
    apply (pieces_text "{"%char).
    { intros p r' [H1 H2] E. destruct p as [|x1 [|x2 p]]; cbn in E; try discriminate. injection E as <- <- _. apply H1. right. left. }
    apply (pieces_text "b"%char); [intros p r' _ E; discriminate|].
    apply pieces_param; [|constructor]. split; apply (bool_decide_unpack _); vm_compute; exact I.
Qed.

(** Exactly: the expression has the value the specification asks for, whatever the parameters, if and only if there is no "%" in the literal
    text of the address (in the names of the parameters there may be). *)
Theorem C35_exact ul ud uu v s sgs :
  v = "s"%char \/ v = "v"%char -> Forall is_ascii s -> pieces s sgs ->
  exists e, generate_address ul ud uu v true s = Some e /\
    ((forall params, eval params e = Some (subst (fun p => params (name_of p)) sgs)) <-> Forall no_percent sgs).
Proof. exact (address_exact ul ud uu v s sgs). Qed.
Print Assumptions C35_exact.

(** Without parameters object, the address is used as it is. *)
Theorem C35_no_parameters ul ud uu v address params :
  exists e, generate_address ul ud uu v false address = Some e /\ eval params e = Some address.
Proof. exists (ELit address). split; reflexivity. Qed.
Print Assumptions C35_no_parameters.

(** Missing: a "%" in the address is interpreted by fmt.Sprintf: "100%%/{id}" loses one. *)
Theorem C35_percent_refuted ul ud uu :
  exists sgs e params out,
    Forall is_ascii (render sgs) /\ Forall wf_segment sgs /\
    generate_address ul ud uu "s" true (render sgs) = Some e /\
    eval params e = Some out /\ out <> subst (fun p => params (name_of p)) sgs.
Proof.
  exists [Text (str "100%%/"); Param (str "id")],
         (ESprintf (str "100%%/%s") [str "Id"]), (fun _ => str "7"), (str "100%/7").
  refine (conj _ (conj _ (conj _ (conj _ _)))).
  - repeat constructor.
  - repeat constructor; apply (bool_decide_unpack _); vm_compute; exact I.
  - unfold generate_address. cbn [negb]. 
    replace (scan _ _ _) with (str "100%%/%s", [str "{id}"]) by reflexivity.
    rewrite mapM_namify by (repeat constructor). reflexivity.
  - reflexivity.
  - vm_compute. congruence.
Qed.
Print Assumptions C35_percent_refuted.

(** Nor, outside ASCII, is the field used in the expression always the one declared for the
    parameter: for the parameter "日a-", the field is declared as "A" but used with the empty name. *)
Theorem C35_field_name_refuted :
  exists p n1 n2, ex_namify p = Some n1 /\ ex_namify ("{"%char :: p ++ ["}"%char]) = Some n2 /\ n1 <> n2.
Proof.
  exists (["230"; "151"; "165"; "a"; "-"]%char), (str "A"), []. vm_compute.
  refine (conj eq_refl (conj eq_refl _)). congruence.
Qed.
Print Assumptions C35_field_name_refuted.

Example C35_example :
  let sgs := [Text (str "user/"); Param (str "user_id"); Text (str "/"); Param (str "kind")] in
  Forall is_ascii (render sgs) /\ Forall wf_segment sgs /\ Forall no_percent sgs /\
  render sgs = str "user/{user_id}/{kind}" /\
  generate_address ex_letter ex_digit ex_upper "s" true (render sgs) =
    Some (ESprintf (str "user/%s/%s") [str "UserId"; str "Kind"]) /\
  eval (fun f => if decide (f = str "UserId") then str "u7" else str "new")
       (ESprintf (str "user/%s/%s") [str "UserId"; str "Kind"]) = Some (str "user/u7/new").
Proof.
  cbn zeta. refine (conj _ (conj _ (conj _ (conj _ (conj _ _))))).
  - repeat constructor.
  - repeat constructor; apply (bool_decide_unpack _); vm_compute; exact I.
  - repeat constructor; apply (bool_decide_unpack _); vm_compute; exact I.
  - vm_compute. reflexivity.
  - vm_compute. reflexivity.
  - vm_compute. reflexivity.
Qed.

(** ** C36 *)

(** Every line of a rendered description is a comment line holding the corresponding line of the
    description; a final newline, if any, is dropped. *)
Theorem C36_comment_lines d :
  exists d',
    (d' = d /\ last d <> Some newline \/ d = d' ++ [newline]) /\
    lines_of (comment_prefix ++ multi_line_comment d) = map (app comment_prefix) (lines_of d').
Proof.
  unfold multi_line_comment. destruct (decide (last d = Some newline)) as [H|H].
  - apply last_Some in H as [d' ->]. exists d'. rewrite trim_newline_last, lines_comment. auto.
  - exists d. rewrite trim_newline_none by exact H. rewrite lines_comment. auto.
Qed.
Print Assumptions C36_comment_lines.

(** So removing the prefixes gives the description back, if it does not end with a newline. *)
Theorem C36_text_back_partial d :
  last d <> Some newline ->
  unlines (map (drop 3) (lines_of (comment_prefix ++ multi_line_comment d))) = d.
Proof.
  intros H. unfold multi_line_comment. rewrite trim_newline_none by exact H. rewrite lines_comment.
  rewrite map_map. rewrite (map_ext _ id), map_id; [apply unlines_lines|]. intros l. reflexivity.
Qed.
Print Assumptions C36_text_back_partial.

(** Missing: a final newline cannot be recovered. *)
Theorem C36_text_back_refuted :
  exists d1 d2, d1 <> d2 /\ multi_line_comment d1 = multi_line_comment d2.
Proof. exists (str "a"), (str "a" ++ [newline]). split; [vm_compute; congruence|reflexivity]. Qed.
Print Assumptions C36_text_back_refuted.

(** Exactly: two descriptions give the same comment if and only if they are equal but for one newline, the only one at the end of one of them. *)
Theorem C36_text_exact d1 d2 :
  multi_line_comment d1 = multi_line_comment d2 <->
  d1 = d2 \/ (last d2 <> Some newline /\ d1 = d2 ++ [newline]) \/ (last d1 <> Some newline /\ d2 = d1 ++ [newline]).
Proof.
  assert (I : forall a b, lines_of (comment_prefix ++ a) = lines_of (comment_prefix ++ b) -> a = b).
  { intros a b E. apply (f_equal unlines) in E. rewrite !unlines_lines in E. by apply app_inv_head in E. }
  assert (J : forall a b : list ascii, map (app comment_prefix) (lines_of a) = map (app comment_prefix) (lines_of b) -> a = b).
  { intros a b E. rewrite <- (unlines_lines a), <- (unlines_lines b). f_equal. apply (f_equal (map (drop 3))) in E. rewrite !map_map in E.
    rewrite (map_ext _ id), map_id in E by (intros l; reflexivity). rewrite E, (map_ext _ id), map_id by (intros l; reflexivity). reflexivity. }
  destruct (C36_comment_lines d1) as (e1 & H1 & E1), (C36_comment_lines d2) as (e2 & H2 & E2).
  assert (K : multi_line_comment d1 = multi_line_comment d2 <-> e1 = e2).
  { split; [intros E; apply J; rewrite <- E1, <- E2, E; reflexivity|]. intros ->. apply I. by rewrite E1, E2. }
  rewrite K. destruct H1 as [[-> N1]| ->], H2 as [[-> N2]| ->].
  - split; [auto|]. intros [?|[[_ ->]|[_ ->]]]; [done| |]; exfalso; [apply N1|apply N2]; apply last_snoc.
  - split; [intros ->; right; right; auto|]. intros [->|[[N _]|[_ E]]]; [destruct N1; apply last_snoc|destruct N; apply last_snoc|]. by apply app_inj_tail in E as [-> _].
  - split; [intros ->; right; left; auto|]. intros [<-|[[_ E]|[N _]]]; [destruct N2; apply last_snoc| |destruct N; apply last_snoc]. by apply app_inj_tail in E as [-> _].
  - split; [intros ->; auto|]. intros [E|[[N _]|[N _]]]; [by apply app_inj_tail in E as [-> _]| |]; destruct N; apply last_snoc.
Qed.
Print Assumptions C36_text_exact.

Example C36_example :
  comment_prefix ++ multi_line_comment (str "one" ++ newline :: newline :: str "two" ++ [newline; newline]) =
  str "// one" ++ newline :: str "// " ++ newline :: str "// two" ++ newline :: str "// ".
Proof. reflexivity. Qed.
