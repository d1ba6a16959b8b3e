From stdpp Require Import list list_numbers strings pretty.
From Coq Require Import NArith Ascii String Lia.
From Verif.Model Require Import Naming Names.
From Verif.Spec Require Import NamingSpec NamesSpec.
From Verif.Proof Require Import NamingProof.
From Verif.Proof Require LogsProof.

Local Notation lit := list_ascii_of_string.

(** * Texts *)
Lemma upper_word c : c ∈ uppers -> word_char c.
Proof. unfold word_char. auto. Qed.

Lemma camel_sep iw a b : camel iw (a ++ "_"%char :: b) = camel iw a ++ camel false b.
Proof.
  revert iw. induction a as [|c a IH]; intros iw; cbn [app camel].
  - rewrite decide_False; [done|]. intros H. vm_compute in H. by apply (bool_decide_pack _) in H.
  - destruct (decide (word_char c)); cbn [app]; by rewrite IH.
Qed.

Lemma camel_exported e : exported e -> camel false e = e.
Proof.
  intros (c & r & -> & Hc & F). cbn [camel]. rewrite decide_True by by apply upper_word.
  by rewrite camel_true, upper_fixed.
Qed.

Lemma upper_not_digit c : c ∈ uppers -> c ∉ digits.
Proof. intros H. apply letter_not_digit. auto. Qed.

Lemma digit_fixed c : c ∈ digits -> uppercase c = c.
Proof.
  intros H. rewrite <- upcase_spec. assert (X : forall a, implb (digit_b a) (Ascii.eqb (upcase a) a) = true) by bytes256.
  specialize (X c). rewrite digit_spec, (bool_decide_true _ H) in X. cbn in X. by apply Ascii.eqb_eq in X.
Qed.
Lemma digit_word c : c ∈ digits -> word_char c.
Proof. unfold word_char. auto. Qed.
Lemma camel_digits s : Forall (fun c => c ∈ digits) s -> camel false s = s.
Proof.
  intros F. destruct s as [|c s]; [done|]. apply Forall_cons in F as [Hc F]. cbn [camel].
  rewrite decide_True by by apply digit_word. rewrite digit_fixed by done. f_equal. apply camel_true.
  eapply Forall_impl; [exact F|]. apply digit_word.
Qed.

Lemma name_of_camel x y : camel false x = y -> exported y -> name_of x = y.
Proof.
  intros E (c & r & -> & Hc & F). unfold name_of. rewrite E. cbn [drop_digits].
  rewrite decide_False by by apply upper_not_digit. cbn [capitalise]. by rewrite upper_fixed.
Qed.

Lemma drop_digits_app x e : exported e -> drop_digits (x ++ e) = drop_digits x ++ e.
Proof.
  intros He. induction x as [|c x IH]; cbn [app drop_digits].
  - destruct He as (c & r & -> & Hc & F). cbn [drop_digits]. by rewrite decide_False by by apply upper_not_digit.
  - by destruct (decide (c ∈ digits)).
Qed.
Lemma capitalise_app x e : exported e -> capitalise (x ++ e) = capitalise x ++ e.
Proof.
  intros (c & r & -> & Hc & F). destruct x as [|d x]; [|done]. cbn [app capitalise]. by rewrite upper_fixed.
Qed.
Lemma name_of_sep_camel a b e : camel false b = e -> exported e -> name_of (a ++ "_"%char :: b) = name_of a ++ e.
Proof.
  intros E He. unfold name_of. rewrite camel_sep, E, drop_digits_app by done. by apply capitalise_app.
Qed.
Lemma name_of_sep a e : exported e -> name_of (a ++ "_"%char :: e) = name_of a ++ e.
Proof. intros He. apply name_of_sep_camel; [|done]. by apply camel_exported. Qed.

Lemma exported_app e w : exported e -> Forall word_char w -> exported (e ++ w).
Proof. intros (c & r & -> & Hc & F) Hw. exists c, (r ++ w). split; [done|]. split; [done|]. by apply Forall_app. Qed.
Lemma exported_words e : exported e -> Forall word_char e.
Proof. intros (c & r & -> & Hc & F). constructor; [by apply upper_word|done]. Qed.

Lemma camel_words iw s : Forall word_char (camel iw s).
Proof.
  revert iw. induction s as [|c s IH]; intros iw; cbn [camel]; [constructor|].
  destruct (decide (word_char c)) as [Hc|]; [|apply IH]. constructor; [|apply IH].
  destruct iw; [done|]. pose proof (upcase_alnum c) as U. rewrite !alnum_spec, (bool_decide_true _ Hc), upcase_spec in U.
  by apply bool_decide_eq_true in U.
Qed.
Lemma drop_digits_head s : drop_digits s = [] \/ exists c r, drop_digits s = c :: r /\ c ∉ digits.
Proof.
  induction s as [|c s IH]; cbn [drop_digits]; [auto|]. destruct (decide (c ∈ digits)); [done|].
  right. eauto.
Qed.
Lemma drop_digits_words s : Forall word_char s -> Forall word_char (drop_digits s).
Proof.
  induction s as [|c s IH]; cbn [drop_digits]; [done|]. intros F. destruct (decide (c ∈ digits)); [|done].
  apply Forall_cons in F as [_ F]. by apply IH.
Qed.
Lemma name_of_exported s : name_of s = [] \/ exported (name_of s).
Proof.
  unfold name_of. pose proof (drop_digits_words _ (camel_words false s)) as F.
  destruct (drop_digits_head (camel false s)) as [->|(c & r & E & Hc)]; [by left|right].
  rewrite E in *. apply Forall_cons in F as [Hw F]. cbn [capitalise]. exists (uppercase c), r. split; [done|]. split; [|done].
  apply upper_of_letter. destruct Hw as [?|[?|?]]; [auto|auto|done].
Qed.

(** * Numbers *)
Lemma pretty_char_digit x : pretty_N_char x ∈ digits.
Proof. unfold pretty_N_char. repeat case_match; apply (bool_decide_unpack _); vm_compute; exact I. Qed.
Lemma pretty_go_digits x s : Forall (fun c => c ∈ digits) (lit s) -> Forall (fun c => c ∈ digits) (lit (pretty_N_go x s)).
Proof.
  revert s. induction (N.lt_wf_0 x) as [x _ IH]; intros s F. destruct (decide (x = 0)%N) as [->|Hx]; [by rewrite pretty_N_go_0|].
  rewrite pretty_N_go_step by lia. apply IH; [apply N.div_lt; lia|]. cbn. constructor; [apply pretty_char_digit|done].
Qed.
Lemma itoa_digits i : Forall (fun c => c ∈ digits) (itoa i).
Proof.
  unfold itoa, pretty, pretty_nat, pretty, pretty_N. destruct (decide (N.of_nat i = 0)%N).
  - constructor; [|constructor]. apply (bool_decide_unpack _); vm_compute; exact I.
  - apply pretty_go_digits. constructor.
Qed.
Lemma lit_inj a b : lit a = lit b -> a = b.
Proof. intros H. rewrite <- (string_of_list_ascii_of_string a), <- (string_of_list_ascii_of_string b). by rewrite H. Qed.
Lemma itoa_inj i j : itoa i = itoa j -> i = j.
Proof. intros H. apply lit_inj in H. by apply (inj pretty) in H. Qed.

(** * Words joined by "From" *)
Definition from : list ascii := lit "From".
Fixpoint join (ws : list (list ascii)) : list ascii :=
  match ws with [] => [] | [w] => w | w :: ws' => w ++ from ++ join ws' end.

Lemma from_split a b x y : ~ has_from a -> ~ has_from b -> a ++ from ++ x = b ++ from ++ y -> a = b /\ x = y.
Proof.
  assert (Aux : forall a b x y, ~ has_from a -> forall l, a = b ++ l -> from ++ y = l ++ from ++ x -> a = b /\ x = y).
  { intros a' b' x' y' Ha l -> E. destruct l as [|c1 l]; [rewrite app_nil_r; split; [done|]; cbn [app] in E; by apply app_inv_head in E|]. exfalso.
    unfold from in E. cbn in E. injection E as <- E. destruct l as [|c2 l]; [cbn in E; discriminate E|]. cbn in E. injection E as <- E.
    destruct l as [|c3 l]; [cbn in E; discriminate E|]. cbn in E. injection E as <- E. destruct l as [|c4 l]; [cbn in E; discriminate E|]. cbn in E. injection E as <- E.
    apply Ha. exists b', l. done. }
  intros Ha Hb E. apply app_eq_inv in E as [(l & El & Er)|(l & El & Er)].
  - by apply (Aux a b x y Ha l).
  - destruct (Aux b a y x Hb l El Er) as [-> ->]. done.
Qed.

Lemma join_cons w ws : ws <> [] -> join (w :: ws) = w ++ from ++ join ws.
Proof. by destruct ws. Qed.
Lemma join_inj ws1 ws2 : Forall (fun w => ~ has_from w) ws1 -> Forall (fun w => ~ has_from w) ws2 -> ws1 <> [] -> ws2 <> [] ->
  join ws1 = join ws2 -> ws1 = ws2.
Proof.
  revert ws2. induction ws1 as [|w1 ws1 IH]; intros ws2 F1 F2 N1 N2 E; [done|]. destruct ws2 as [|w2 ws2]; [done|].
  apply Forall_cons in F1 as [H1 F1]. apply Forall_cons in F2 as [H2 F2].
  destruct (decide (ws1 = [])) as [->|D1], (decide (ws2 = [])) as [->|D2].
  - cbn in E. by subst.
  - rewrite (join_cons w2) in E by done. exfalso. apply H1. exists w2, (join ws2). exact E.
  - rewrite (join_cons w1) in E by done. exfalso. apply H2. exists w1, (join ws1). symmetry. exact E.
  - rewrite !join_cons in E by done. apply from_split in E as [-> E]; [|done..]. f_equal. by apply IH.
Qed.

Lemma no_from_app a e : ~ has_from a -> ~ has_from e -> exported e -> ~ has_from (a ++ e).
Proof.
  intros Ha He (c & r & -> & Hc & F) (x & y & E).
  assert (Hlow : forall d, d ∈ lit "rom" -> c <> d).
  { intros d Hd ->. assert (X : forall a, implb (upper_b a) (negb (bool_decide (a ∈ lit "rom"))) = true) by bytes256.
    specialize (X d). rewrite upper_spec, (bool_decide_true _ Hc), (bool_decide_true _ Hd) in X. done. }
  apply app_eq_inv in E as [(l & -> & El)|(l & -> & El)].
  - change (lit "From") with (["F"; "r"; "o"; "m"]%char) in El. cbn in El.
    destruct l as [|d1 l]; [apply He; exists [], y; cbn in El |- *; done|]. cbn in El. injection El as <- El.
    destruct l as [|d2 l]; [cbn in El; injection El as <- _; by apply (Hlow "r"%char); [left|]|]. cbn in El. injection El as <- El.
    destruct l as [|d3 l]; [cbn in El; injection El as <- _; by apply (Hlow "o"%char); [right; left|]|]. cbn in El. injection El as <- El.
    destruct l as [|d4 l]; [cbn in El; injection El as <- _; by apply (Hlow "m"%char); [right; right; left|]|]. cbn in El. injection El as <- El.
    apply Ha. exists x, l. done.
  - apply He. exists l, y. done.
Qed.
Fixpoint from_b (s : list ascii) : bool :=
  match s with
  | [] => false
  | _ :: r => bool_decide (take 4 s = from) || from_b r
  end.
Lemma from_b_spec s : from_b s = false -> ~ has_from s.
Proof.
  induction s as [|c s IH]; intros H (a & b & E); [by destruct a|].
  cbn [from_b] in H. apply orb_false_iff in H as [H1 H2]. apply bool_decide_eq_false in H1.
  destruct a as [|d a]; cbn [app] in E.
  - apply H1. rewrite E. done.
  - injection E as -> ->. apply IH; [done|]. by exists a, b.
Qed.
Lemma no_from_digits s : Forall (fun c => c ∈ digits) s -> ~ has_from s.
Proof.
  intros F (a & b & ->). apply Forall_app in F as [_ F]. apply Forall_app in F as [F _]. apply Forall_cons in F as [F _].
  assert (~ ("F"%char ∈ digits)); [|done]. apply (bool_decide_unpack _); vm_compute; exact I.
Qed.
Lemma no_from_digits_app a s : ~ has_from a -> Forall (fun c => c ∈ digits) s -> ~ has_from (a ++ s).
Proof.
  intros Ha F (x & y & E). apply app_eq_inv in E as [(l & -> & El)|(l & -> & El)].
  - change (lit "From") with (["F"; "r"; "o"; "m"]%char) in El.
    assert (Hd : forall d, d ∈ s -> d ∉ lit "From").
    { intros d Hd Hin. rewrite Forall_forall in F. specialize (F d Hd).
      assert (X : forall a, implb (digit_b a) (negb (bool_decide (a ∈ lit "From"))) = true) by bytes256.
      specialize (X d). rewrite digit_spec, (bool_decide_true _ F), (bool_decide_true _ Hin) in X. done. }
    destruct (decide (4 <= List.length l)%nat) as [Hl|Hl].
    + apply Ha. exists x, (drop 4 l). f_equal. rewrite <- (take_drop 4 l) at 1. f_equal.
      apply (f_equal (take 4)) in El. rewrite (take_app_le l) in El by done. symmetry. exact El.
    + do 4 (destruct l as [|? l]; [cbn in El; eapply Hd; [rewrite <- El; left|]; apply (bool_decide_unpack _); vm_compute; exact I|
        cbn in El; injection El as <- El]). cbn in Hl. lia.
  - apply (no_from_digits _ F). by exists l, y.
Qed.

(** * Names *)
Definition number_text (number : option nat) : list ascii := match number with Some i => itoa i | None => [] end.
Definition from_text (parent : list ascii) : list ascii := match parent with [] => [] | _ => from ++ parent end.
Definition empty_or (s : list ascii) : Prop := s = [] \/ exported s.

Lemma empty_or_words s : empty_or s -> Forall word_char s.
Proof. intros [->|H]; [constructor|by apply exported_words]. Qed.
Lemma empty_or_camel s : empty_or s -> camel false s = s.
Proof. intros [->|H]; [done|by apply camel_exported]. Qed.
Lemma exported_ascii s : exported s -> Forall is_ascii s.
Proof. intros H. apply words_ascii. by apply exported_words. Qed.
Lemma number_words number : Forall word_char (number_text number).
Proof. destruct number; [|constructor]. eapply Forall_impl; [apply itoa_digits|]. apply digit_word. Qed.
Lemma from_exported : exported from.
Proof. exists "F"%char, (lit "rom"). split; [done|]. split; apply (bool_decide_unpack _); vm_compute; exact I. Qed.
Lemma from_text_exported p : empty_or p -> empty_or (from_text p).
Proof.
  intros [->|H]; [by left|right]. destruct p as [|c r]; [by destruct H as (? & ? & ? & _)|].
  apply exported_app; [apply from_exported|by apply exported_words].
Qed.

Section full.
  Variable ul ud : N -> bool.
  Variable uu : N -> bytes.
  Local Notation full_name := (full_name ul ud uu).
  Local Notation schema_names := (schema_names ul ud uu).
  Local Notation message_names := (message_names ul ud uu).
  Local Notation document_names := (document_names ul ud uu).

  Lemma full_name_eq parent name type number :
    Forall is_ascii parent -> Forall is_ascii name -> Forall is_ascii type ->
    exported (name_of name ++ name_of type ++ number_text number ++ from_text (name_of parent)) ->
    full_name parent name type number = Some (name_of name ++ name_of type ++ number_text number ++ from_text (name_of parent)).
  Proof.
    intros Ap An At He. unfold Names.full_name. rewrite !namify_ascii by done. cbn [mbind option_bind].
    pose proof (name_of_exported parent) as Hp. pose proof (name_of_exported name) as Hn. pose proof (name_of_exported type) as Ht.
    set (P := name_of parent) in *. set (N := name_of name) in *. set (T := name_of type) in *.
    set (T' := match number with Some i => T ++ "_"%char :: itoa i | None => T end).
    assert (HT : camel false T' = T ++ number_text number).
    { subst T'. destruct number as [i|]; cbn [number_text].
      - rewrite camel_sep, empty_or_camel by done. by rewrite camel_digits by apply itoa_digits.
      - rewrite app_nil_r. by apply empty_or_camel. }
    set (P' := match P with [] => [] | _ => lit "From_" ++ P end).
    assert (HP : camel false P' = from_text P).
    { subst P'. destruct P as [|c r]; [done|]. change (lit "From_" ++ c :: r) with (from ++ "_"%char :: (c :: r)).
      rewrite camel_sep, camel_exported, empty_or_camel by (done || apply from_exported). done. }
    assert (Aw : forall l, Forall word_char l -> Forall is_ascii l) by apply words_ascii.
    assert (AT : Forall is_ascii T').
    { subst T'. destruct number as [i|]; [|by apply Aw, empty_or_words].
      apply Forall_app. split; [by apply Aw, empty_or_words|]. constructor; [done|]. apply Aw.
      eapply Forall_impl; [apply itoa_digits|]. apply digit_word. }
    assert (AP : Forall is_ascii P').
    { subst P'. destruct P as [|c r]; [constructor|]. apply Forall_app. split; [|by apply Aw, empty_or_words].
      apply (bool_decide_unpack _); vm_compute; exact I. }
    rewrite namify_ascii.
    - f_equal. apply name_of_camel; [|done]. rewrite !camel_sep, HT, HP, empty_or_camel by done. by rewrite <- app_assoc.
    - apply Forall_app. split; [by apply Aw, empty_or_words|]. constructor; [done|]. apply Forall_app. split; [done|].
      constructor; [done|done].
  Qed.

  (** ** Families of names *)
  Definition word_ok (w : list ascii) : Prop := exported w /\ ~ has_from w.
  Definition words_ok (ws : list (list ascii)) : Prop := ws <> [] /\ Forall word_ok ws.

  Lemma join_exported ws : words_ok ws -> exported (join ws).
  Proof.
    intros [N F]. destruct ws as [|w ws]; [done|]. clear N. apply Forall_cons in F as [[Hw _] F].
    revert w Hw. induction ws as [|w' ws IH]; intros w Hw; [done|]. apply Forall_cons in F as [[Hw' _] F].
    rewrite join_cons by done. apply exported_app; [done|]. apply Forall_app. split; [apply exported_words, from_exported|].
    apply exported_words. by apply IH.
  Qed.
  Lemma exported_nonempty e : exported e -> e <> [].
  Proof. by intros (c & r & -> & _). Qed.
  Lemma name_of_join ws : words_ok ws -> name_of (join ws) = join ws.
  Proof. intros H. apply name_of_camel; [|by apply join_exported]. by apply camel_exported, join_exported. Qed.
  Lemma from_text_join ws : words_ok ws -> from_text (join ws) = from ++ join ws.
  Proof. intros H. pose proof (exported_nonempty _ (join_exported _ H)). unfold from_text. by destruct (join ws). Qed.
  Lemma words_ok_cons w ws : word_ok w -> words_ok ws -> words_ok (w :: ws).
  Proof. intros Hw [N F]. split; [done|]. by constructor. Qed.

  Lemma full_name_child R name type number w : words_ok R -> Forall is_ascii name -> Forall is_ascii type -> word_ok w ->
    name_of name ++ name_of type ++ number_text number = w ->
    full_name (join R) name type number = Some (join (w :: R)).
  Proof.
    intros HR An At Hw E. rewrite full_name_eq.
    - rewrite join_cons by apply HR. rewrite name_of_join, from_text_join by done. rewrite <- E. by rewrite <- !app_assoc.
    - by apply exported_ascii, join_exported.
    - done.
    - done.
    - rewrite name_of_join, from_text_join by done. rewrite !app_assoc, <- (app_assoc (name_of name)), E, <- app_assoc.
      apply exported_app; [apply Hw|]. apply Forall_app. split; [apply exported_words, from_exported|]. by apply exported_words, join_exported.
  Qed.
  Lemma full_name_root name type number : Forall is_ascii name -> Forall is_ascii type ->
    exported (name_of name ++ name_of type ++ number_text number) ->
    full_name [] name type number = Some (name_of name ++ name_of type ++ number_text number).
  Proof.
    intros An At He. assert (E : from_text (name_of []) = []) by done.
    rewrite full_name_eq; rewrite ?E, ?app_nil_r; done || constructor.
  Qed.

  (** Names that are those of [ws], all of them with a word of [gs] before [R]. *)
  Definition fam (R : list (list ascii)) (gs : list (list ascii)) (ws : list (list (list ascii))) : Prop :=
    NoDup ws /\ Forall words_ok ws /\ (forall e, e ∈ ws -> exists l w, w ∈ gs /\ e = l ++ w :: R).
  Definition names_are {A} (o : option (list (A * list ascii))) (ws : list (list (list ascii))) : Prop :=
    exists l, o = Some l /\ l.*2 = map join ws.

  Lemma tail_eq {A} (l1 l2 R : list A) w1 w2 : l1 ++ w1 :: R = l2 ++ w2 :: R -> w1 = w2 /\ l1 = l2.
  Proof. intros E. apply app_inj_2 in E as [-> E]; [|done]. by injection E. Qed.

  Lemma fam_nil R : fam R [] [].
  Proof. split; [constructor|]. split; [constructor|]. intros e He. by apply elem_of_nil in He. Qed.
  Lemma fam_app R gs1 gs2 ws1 ws2 : fam R gs1 ws1 -> fam R gs2 ws2 -> NoDup (gs1 ++ gs2) -> fam R (gs1 ++ gs2) (ws1 ++ ws2).
  Proof.
    intros (N1 & F1 & H1) (N2 & F2 & H2) N. apply NoDup_app in N as (_ & N & _). split; [|split].
    - apply NoDup_app. split; [done|]. split; [|done]. intros e He1 He2.
      destruct (H1 _ He1) as (l1 & w1 & Hw1 & ->). destruct (H2 _ He2) as (l2 & w2 & Hw2 & E). apply tail_eq in E as [-> _]. by apply (N w2).
    - by apply Forall_app.
    - intros e He. apply elem_of_app in He as [He|He].
      + destruct (H1 _ He) as (l & w & Hw & ->). exists l, w. split; [|done]. apply elem_of_app. auto.
      + destruct (H2 _ He) as (l & w & Hw & ->). exists l, w. split; [|done]. apply elem_of_app. auto.
  Qed.

  Lemma fam_each {A B} (f : nat -> A -> option (list (B * list ascii))) R l : forall n gs,
    List.length gs = List.length l -> NoDup gs ->
    (forall i a w, l !! i = Some a -> gs !! i = Some w -> exists ws, names_are (f (n + i)%nat a) ws /\ fam R [w] ws) ->
    exists ws, names_are (each f n l) ws /\ fam R gs ws.
  Proof.
    induction l as [|a l IH]; intros n gs HL N H; destruct gs as [|w gs]; try done.
    - exists []. split; [by exists []|apply fam_nil].
    - destruct (H 0%nat a w) as (ws1 & (l1 & E1 & M1) & F1); [done|done|]. rewrite Nat.add_0_r in E1.
      destruct (IH (S n) gs) as (ws2 & (l2 & E2 & M2) & F2).
      + cbn in HL. lia.
      + by apply NoDup_cons in N as [_ N].
      + intros i a' w' Hi Hw. destruct (H (S i) a' w' Hi Hw) as (ws & Hn & Hf). exists ws. split; [|done].
        by replace (S n + i)%nat with (n + S i)%nat by lia.
      + exists (ws1 ++ ws2). split.
        * exists (l1 ++ l2). split; [|by rewrite fmap_app, map_app, M1, M2]. cbn [each]. by rewrite E1; cbn; rewrite E2.
        * by apply (fam_app R [w] gs).
  Qed.
  Lemma fam_one {A B} (f : A -> option (list (B * list ascii))) R o w :
    (forall a, o = Some a -> exists ws, names_are (f a) ws /\ fam R [w] ws) ->
    exists ws, names_are (one f o) ws /\ fam R (match o with Some _ => [w] | None => [] end) ws.
  Proof. intros H. destruct o as [a|]; [by apply H|]. exists []. split; [by exists []|apply fam_nil]. Qed.

  (** ** Schemas *)
  Definition steps_of (props patterns : list (list ascii)) : list (list ascii) :=
    map (fun k => name_of k ++ lit "Property") props ++ map (fun k => name_of k ++ lit "PatternProperty") patterns.
  Definition item_words (n : nat) : list (list ascii) := map (fun i => lit "AdditionalItem" ++ itoa i) (seq 0 n).
  (** What can come before the name of a schema in that of one of its parts. *)
  Definition step_word (w : list ascii) : Prop :=
    last w = Some "y"%char \/ w ∈ map lit ["AdditionalProperties"; "Item"; "AnyOf"; "OneOf"; "AllOf"; "NotSchema"]%string \/
    exists i, w = lit "AdditionalItem" ++ itoa i.

  Definition opt {A} (o : option A) (w : string) : list (list ascii) := match o with Some _ => [lit w] | None => [] end.
  Definition fixed_words (addl : option tree) (n : nat) (items : option tree) (a o l : nat) (not_ : option tree) : list (list ascii) :=
    opt addl "AdditionalProperties" ++ item_words n ++ opt items "Item" ++ replicate a (lit "AnyOf") ++ replicate o (lit "OneOf")
    ++ replicate l (lit "AllOf") ++ opt not_ "NotSchema".

  Lemma item_words_nodup n : NoDup (item_words n).
  Proof.
    apply NoDup_fmap_2_strong; [|apply NoDup_ListNoDup, seq_NoDup]. intros i j _ _ E. apply app_inv_head in E. by apply itoa_inj.
  Qed.
  Lemma item_words_elem n w : w ∈ item_words n -> exists i, w = lit "AdditionalItem" ++ itoa i.
  Proof. intros H. apply elem_of_list_fmap in H as (i & -> & _). eauto. Qed.

  Lemma sublist_replicate {A} (x : A) n : (n <= 1)%nat -> sublist (replicate n x) [x].
  Proof. destruct n as [|[|n]]; intros H; [apply sublist_nil_l|done|lia]. Qed.
  Lemma sublist_opt {A} (o : option A) w : sublist (opt o w) [lit w].
  Proof. destruct o; [done|apply sublist_nil_l]. Qed.
  Lemma fixed_nodup addl n items a o l not_ : (a <= 1)%nat -> (o <= 1)%nat -> (l <= 1)%nat -> NoDup (fixed_words addl n items a o l not_).
  Proof.
    intros Ha Ho Hl. eapply LogsProof.sublist_nodup.
    - unfold fixed_words. apply sublist_app; [apply sublist_opt|]. apply sublist_app; [reflexivity|]. apply sublist_app; [apply sublist_opt|].
      apply sublist_app; [by apply sublist_replicate|]. apply sublist_app; [by apply sublist_replicate|].
      apply sublist_app; [by apply sublist_replicate|]. apply sublist_opt.
    - apply NoDup_app. split; [apply NoDup_singleton|]. split.
      + intros x Hx Hin. apply elem_of_list_singleton in Hx as ->. apply elem_of_app in Hin as [Hin|Hin].
        * apply item_words_elem in Hin as (i & E). cbn in E. discriminate E.
        * revert Hin. apply (bool_decide_unpack _). vm_compute. exact I.
      + apply NoDup_app. split; [apply item_words_nodup|]. split.
        * intros x Hx Hin. apply item_words_elem in Hx as (i & ->). cbn in Hin.
          repeat (apply elem_of_cons in Hin as [Hin|Hin]; [discriminate Hin|]). by apply elem_of_nil in Hin.
        * apply (bool_decide_unpack _). vm_compute. exact I.
  Qed.

  Lemma last_property x y : last (x ++ lit y) = last (lit y) \/ y = ""%string.
  Proof. destruct y as [|c y]; [by right|left]. cbn [list_ascii_of_string]. by rewrite last_app_cons. Qed.
  Lemma steps_last ks ps w : w ∈ steps_of ks ps -> last w = Some "y"%char.
  Proof.
    intros H. apply elem_of_app in H as [H|H]; apply elem_of_list_fmap in H as (k & -> & _).
    - by destruct (last_property (name_of k) "Property") as [->|?].
    - by destruct (last_property (name_of k) "PatternProperty") as [->|?].
  Qed.
  Lemma last_item i : last (lit "AdditionalItem" ++ itoa i) <> Some "y"%char.
  Proof.
    pose proof (itoa_digits i) as F. destruct (itoa i) as [|c r] eqn:E; [by rewrite app_nil_r|].
    rewrite last_app_cons. intros H. apply last_Some_elem_of in H. rewrite Forall_forall in F. specialize (F _ H). revert F.
    apply (bool_decide_unpack _). vm_compute. exact I.
  Qed.
  Lemma fixed_word addl n items a o l not_ w : w ∈ fixed_words addl n items a o l not_ ->
    w ∈ map lit ["AdditionalProperties"; "Item"; "AnyOf"; "OneOf"; "AllOf"; "NotSchema"]%string \/ exists i, w = lit "AdditionalItem" ++ itoa i.
  Proof.
    unfold fixed_words. rewrite !elem_of_app. intros H.
    assert (Ho : forall {A} (o : option A) x, w ∈ opt o x -> w = lit x) by (intros A [] x Hx; [by apply elem_of_list_singleton in Hx|by apply elem_of_nil in Hx]).
    assert (Hr : forall n x, w ∈ replicate n (lit x) -> w = lit x) by (intros k x Hx; by apply elem_of_replicate in Hx as [? _]).
    destruct H as [H|[H|[H|[H|[H|[H|H]]]]]].
    - apply Ho in H as ->. left. apply (bool_decide_unpack _). vm_compute. exact I.
    - right. by apply item_words_elem in H.
    - apply Ho in H as ->. left. apply (bool_decide_unpack _). vm_compute. exact I.
    - apply Hr in H as ->. left. apply (bool_decide_unpack _). vm_compute. exact I.
    - apply Hr in H as ->. left. apply (bool_decide_unpack _). vm_compute. exact I.
    - apply Hr in H as ->. left. apply (bool_decide_unpack _). vm_compute. exact I.
    - apply Ho in H as ->. left. apply (bool_decide_unpack _). vm_compute. exact I.
  Qed.
  Lemma steps_fixed_disjoint ks ps addl n items a o l not_ w :
    w ∈ steps_of ks ps -> w ∉ fixed_words addl n items a o l not_.
  Proof.
    intros Hs Hf. apply steps_last in Hs. apply fixed_word in Hf as [H|(i & ->)]; [|by apply last_item in Hs].
    cbn in H. repeat (apply elem_of_cons in H as [->|H]; [discriminate Hs|]). by apply elem_of_nil in H.
  Qed.

  Lemma lit_ascii_b s : forallb (fun c => (bval c <? 128)%N) (lit s) = true -> Forall is_ascii (lit s).
  Proof. intros H. rewrite forallb_forall in H. apply Forall_forall. intros c Hc. apply elem_of_list_In in Hc. by apply N.ltb_lt, H. Qed.
  Ltac ascii := apply lit_ascii_b; vm_compute; reflexivity.
  Ltac exported_lit := match goal with |- exported ?x => let y := eval vm_compute in x in
    match y with ?c :: ?r => exists c, r; split; [reflexivity|]; split; apply (bool_decide_unpack _); vm_compute; exact I end end.
  Ltac word_lit := split; [exported_lit|apply from_b_spec; vm_compute; reflexivity].
  Ltac concrete := apply (bool_decide_unpack _); vm_compute; exact I.

  Lemma readable_elem ks k : readable ks -> k ∈ ks -> Forall is_ascii k /\ ~ has_from (name_of k).
  Proof. intros [H1 H2] Hk. rewrite Forall_forall in H1, H2. auto. Qed.
  Lemma name_app_exported k e : exported e -> exported (name_of k ++ e).
  Proof.
    intros He. destruct (name_of_exported k) as [->|H]; [done|]. apply exported_app; [done|]. by apply exported_words.
  Qed.
  Lemma name_app_ok k e : ~ has_from (name_of k) -> word_ok e -> word_ok (name_of k ++ e).
  Proof. intros Hk [He Hf]. split; [by apply name_app_exported|]. by apply no_from_app. Qed.
  Lemma item_ok i : word_ok (lit "AdditionalItem" ++ itoa i).
  Proof.
    split; [apply exported_app; [exported_lit|]|].
    - eapply Forall_impl; [apply itoa_digits|]. apply digit_word.
    - apply no_from_digits_app; [apply from_b_spec; vm_compute; reflexivity|apply itoa_digits].
  Qed.

  Lemma kind_names_property ks : kind_names "Property" ks = map (fun k => name_of k ++ lit "Property") ks.
  Proof. unfold kind_names. apply map_ext. intros k. apply name_of_sep. exported_lit. Qed.
  Lemma kind_names_pattern ks : kind_names "Pattern_Property" ks = map (fun k => name_of k ++ lit "PatternProperty") ks.
  Proof. unfold kind_names. apply map_ext. intros k. apply name_of_sep_camel; [vm_compute; reflexivity|]. exported_lit. Qed.

  (** The names of a schema called [join R]. *)
  Definition schema_fam (R : list (list ascii)) (ws : list (list (list ascii))) : Prop :=
    NoDup ws /\ Forall words_ok ws /\ (forall e, e ∈ ws -> e = R \/ exists l w, step_word w /\ e = l ++ w :: R).
  Lemma schema_fam_fam w R ws : schema_fam (w :: R) ws -> fam R [w] ws.
  Proof.
    intros (N & F & H). split; [done|]. split; [done|]. intros e He. destruct (H e He) as [->|(l & w' & _ & ->)].
    - exists [], w. split; [by left|done].
    - exists (l ++ [w']), w. split; [by left|]. by rewrite <- app_assoc.
  Qed.

  Lemma schema_names_spec t : clear t -> forall parent name number at_ R, words_ok R ->
    full_name parent name [] number = Some (join R) ->
    exists ws, names_are (schema_names parent name number at_ t) ws /\ schema_fam R ws.
  Proof.
    induction 1 as [props patterns addl additems items anyof oneof allof not_ Rp Rq Nk La Lo Ll Hc IH].
    intros parent name number at_ R HR Hme.
    assert (Child : forall t' w name' number' at', clear t' /\ (forall parent name number at_ R, words_ok R ->
        full_name parent name [] number = Some (join R) -> exists ws, names_are (schema_names parent name number at_ t') ws /\ schema_fam R ws) ->
        Forall is_ascii name' -> word_ok w -> name_of name' ++ number_text number' = w ->
        exists ws, names_are (schema_names (join R) name' number' at' t') ws /\ fam R [w] ws).
    { intros t' w name' number' at' [_ IH'] Ha Hw E. destruct (IH' (join R) name' number' at' (w :: R)) as (ws & Hn & Hf).
      - by apply words_ok_cons.
      - apply full_name_child; [done|done|constructor|done|]. exact E.
      - exists ws. split; [done|]. by apply schema_fam_fam. }
    rewrite kind_names_property, kind_names_pattern in Nk. pose proof Nk as Nk'. apply NoDup_app in Nk' as (Np & _ & Nq).
    destruct (fam_each (fun _ kp => schema_names (join R) (kp.1 ++ lit "_Property") None (at_ ++ [SProperty kp.1]) kp.2) R props 0
      (map (fun k => name_of k ++ lit "Property") (props.*1))) as (ws1 & (l1 & E1 & M1) & F1).
    { by rewrite map_length, fmap_length. }
    { done. }
    { intros i [k c] w Hi Hw. rewrite list_lookup_fmap, list_lookup_fmap, Hi in Hw. injection Hw as <-. apply elem_of_list_lookup_2 in Hi.
      assert (Hk : k ∈ props.*1) by (apply elem_of_list_fmap; by exists (k, c)). destruct (readable_elem _ _ Rp Hk) as [Ak Fk].
      apply Child; cbn [fst snd].
      - split; [apply Hc|apply IH]; left; exists k; apply elem_of_app; by left.
      - apply Forall_app. split; [done|ascii].
      - apply name_app_ok; [done|word_lit].
      - cbn [number_text]. rewrite app_nil_r. change (k ++ lit "_Property") with (k ++ "_"%char :: lit "Property"). apply name_of_sep. exported_lit. }
    destruct (fam_each (fun _ kp => schema_names (join R) (kp.1 ++ lit "_Pattern_Property") None (at_ ++ [SPattern kp.1]) kp.2) R patterns 0
      (map (fun k => name_of k ++ lit "PatternProperty") (patterns.*1))) as (ws2 & (l2 & E2 & M2) & F2).
    { by rewrite map_length, fmap_length. }
    { done. }
    { intros i [k c] w Hi Hw. rewrite list_lookup_fmap, list_lookup_fmap, Hi in Hw. injection Hw as <-. apply elem_of_list_lookup_2 in Hi.
      assert (Hk : k ∈ patterns.*1) by (apply elem_of_list_fmap; by exists (k, c)). destruct (readable_elem _ _ Rq Hk) as [Ak Fk].
      apply Child; cbn [fst snd].
      - split; [apply Hc|apply IH]; left; exists k; apply elem_of_app; by right.
      - apply Forall_app. split; [done|ascii].
      - apply name_app_ok; [done|word_lit].
      - cbn [number_text]. rewrite app_nil_r. change (k ++ lit "_Pattern_Property") with (k ++ "_"%char :: lit "Pattern_Property").
        apply name_of_sep_camel; [vm_compute; reflexivity|]. exported_lit. }
    destruct (fam_one (schema_names (join R) (lit "Additional_Properties") None (at_ ++ [SAddl])) R addl (lit "AdditionalProperties"))
      as (ws3 & (l3 & E3 & M3) & F3).
    { intros c ->. apply Child; [split; [apply Hc|apply IH]; auto|ascii|word_lit|vm_compute; reflexivity]. }
    destruct (fam_each (fun i => schema_names (join R) (lit "Additional_Item") (Some i) (at_ ++ [SAddItem i])) R additems 0
      (item_words (List.length additems))) as (ws4 & (l4 & E4 & M4) & F4).
    { unfold item_words. by rewrite map_length, seq_length. }
    { apply item_words_nodup. }
    { intros i c w Hi Hw. apply list_lookup_fmap_inv in Hw as (j & -> & Hj). apply lookup_seq in Hj as [-> _]. cbn [Nat.add] in *.
      apply elem_of_list_lookup_2 in Hi. apply Child; [|ascii|apply item_ok|vm_compute; reflexivity].
      split; [apply Hc|apply IH]; right; left; apply elem_of_app; by left. }
    destruct (fam_one (schema_names [] (lit "Item_From_" ++ join R) None (at_ ++ [SItems])) R items (lit "Item"))
      as (ws5 & (l5 & E5 & M5) & F5).
    { intros c ->. destruct (IH c) with (parent := @nil ascii) (name := lit "Item_From_" ++ join R) (number := @None nat) (at_ := at_ ++ [SItems])
        (R := lit "Item" :: R) as (ws & Hn & Hf).
      - auto.
      - apply words_ok_cons; [word_lit|done].
      - pose proof (join_exported _ HR) as Hj.
        assert (E : name_of (lit "Item_From_" ++ join R) = join (lit "Item" :: R)).
        { change (lit "Item_From_" ++ join R) with (lit "Item" ++ "_"%char :: (from ++ "_"%char :: join R)).
          rewrite join_cons by apply HR. apply name_of_camel.
          - rewrite !camel_sep, (camel_exported (join R)) by done. reflexivity.
          - apply exported_app; [exported_lit|]. apply Forall_app. split; [apply exported_words, from_exported|]. by apply exported_words. }
        pose proof (join_exported (lit "Item" :: R)) as He.
        rewrite full_name_root; rewrite ?E; cbn [number_text]; change (name_of []) with (@nil ascii); rewrite ?app_nil_r; [done| |constructor|].
        + apply Forall_app. split; [ascii|]. by apply exported_ascii.
        + apply He. apply words_ok_cons; [word_lit|done].
      - exists ws. split; [done|]. by apply schema_fam_fam. }
    assert (Rep : forall (mk : nat -> step) (lbl : string) (w : list ascii) (cs : list tree), (List.length cs <= 1)%nat ->
        (forall c, c ∈ cs -> c ∈ additems ++ anyof ++ oneof ++ allof) ->
        Forall is_ascii (lit lbl) -> word_ok w -> name_of (lit lbl) = w ->
        exists ws l, each (fun i => schema_names (join R) (lit lbl) None (at_ ++ [mk i])) 0 cs = Some l /\ l.*2 = map join ws /\
          fam R (replicate (List.length cs) w) ws).
    { intros mk lbl w cs Hl Hin Ha Hw E.
      destruct (fam_each (fun i => schema_names (join R) (lit lbl) None (at_ ++ [mk i])) R cs 0 (replicate (List.length cs) w))
        as (ws & (l & El & Ml) & Fl).
      - by rewrite replicate_length.
      - destruct cs as [|? [|]]; [constructor|apply NoDup_singleton|cbn in Hl; lia].
      - intros i c w' Hi Hw'. apply lookup_replicate in Hw' as [-> _]. apply elem_of_list_lookup_2 in Hi.
        apply Child; [split; [apply Hc|apply IH]; right; left; by apply Hin|done|done|]. cbn [number_text]. by rewrite app_nil_r.
      - by exists ws, l. }
    destruct (Rep SAnyOf "Any_Of"%string (lit "AnyOf") anyof La) as (ws7 & l7 & E7 & M7 & F7).
    { intros c H. apply elem_of_app; right; apply elem_of_app; by left. } { ascii. } { word_lit. } { vm_compute; reflexivity. }
    destruct (Rep SOneOf "One_Of"%string (lit "OneOf") oneof Lo) as (ws8 & l8 & E8 & M8 & F8).
    { intros c H. apply elem_of_app; right; apply elem_of_app; right; apply elem_of_app; by left. } { ascii. } { word_lit. } { vm_compute; reflexivity. }
    destruct (Rep SAllOf "All_Of"%string (lit "AllOf") allof Ll) as (ws9 & l9 & E9 & M9 & F9).
    { intros c H. apply elem_of_app; right; apply elem_of_app; right; apply elem_of_app; by right. } { ascii. } { word_lit. } { vm_compute; reflexivity. }
    destruct (fam_one (schema_names (join R) (lit "Not_Schema") None (at_ ++ [SNot])) R not_ (lit "NotSchema"))
      as (ws10 & (l10 & E10 & M10) & F10).
    { intros c ->. apply Child; [split; [apply Hc|apply IH]; auto|ascii|word_lit|vm_compute; reflexivity]. }
    assert (All : fam R (steps_of (props.*1) (patterns.*1) ++
        fixed_words addl (List.length additems) items (List.length anyof) (List.length oneof) (List.length allof) not_)
      ((ws1 ++ ws2) ++ ws3 ++ ws4 ++ ws5 ++ ws7 ++ ws8 ++ ws9 ++ ws10)).
    { pose proof (fixed_nodup addl (List.length additems) items _ _ _ not_ La Lo Ll) as Nf.
      apply fam_app; [by apply fam_app| |].
      - unfold fixed_words in *. pose proof Nf as N3. apply NoDup_app in N3 as (_ & _ & N4). pose proof N4 as N5. apply NoDup_app in N5 as (_ & _ & N5).
        pose proof N5 as N6. apply NoDup_app in N6 as (_ & _ & N6). pose proof N6 as N7. apply NoDup_app in N7 as (_ & _ & N7).
        pose proof N7 as N8. apply NoDup_app in N8 as (_ & _ & N8).
        apply fam_app; [done| |done]. apply fam_app; [done| |done]. apply fam_app; [done| |done]. apply fam_app; [done| |done].
        apply fam_app; [done| |done]. by apply fam_app.
      - apply NoDup_app. split; [done|]. split; [|done]. intros w Hs. by eapply steps_fixed_disjoint. }
    exists (R :: (ws1 ++ ws2) ++ ws3 ++ ws4 ++ ws5 ++ ws7 ++ ws8 ++ ws9 ++ ws10). split; [|].
    - eexists. cbn [Names.schema_names]. rewrite Hme. cbn [mbind option_bind].
      rewrite E1. cbn [mbind option_bind]. rewrite E2. cbn [mbind option_bind]. rewrite E3. cbn [mbind option_bind]. rewrite E4. cbn [mbind option_bind].
      rewrite E5. cbn [mbind option_bind each]. rewrite E7. cbn [mbind option_bind]. rewrite E8. cbn [mbind option_bind]. rewrite E9. cbn [mbind option_bind].
      rewrite E10. cbn [mbind option_bind]. split; [reflexivity|].
      cbn [fmap list_fmap map snd app]. f_equal. rewrite <- !app_assoc, ?fmap_app, ?map_app, M1, M2, M3, M4, M5, M7, M8, M9, M10. reflexivity.
    - destruct All as (N & F & H). split; [|split].
      + apply NoDup_cons. split; [|done]. intros Hin. apply H in Hin as (l & w & _ & E).
        apply (f_equal List.length) in E. rewrite app_length in E. cbn in E. lia.
      + by constructor.
      + intros e He. apply elem_of_cons in He as [->|He]; [by left|right]. apply H in He as (l & w & Hw & ->).
        exists l, w. split; [|done]. apply elem_of_app in Hw as [Hw|Hw].
        * left. by apply steps_last in Hw.
        * right. by apply fixed_word in Hw.
  Qed.

  (** ** Messages *)
  Definition good (ws : list (list (list ascii))) : Prop := NoDup ws /\ Forall words_ok ws.

  Lemma good_app ws1 ws2 : good ws1 -> good ws2 -> (forall e, e ∈ ws1 -> e ∈ ws2 -> False) -> good (ws1 ++ ws2).
  Proof. intros [N1 F1] [N2 F2] H. split; [by apply NoDup_app|by apply Forall_app]. Qed.
  Lemma good_nil : good [].
  Proof. split; constructor. Qed.

  Lemma each_gen {A B} (f : nat -> A -> option (list (B * list ascii))) l : forall n (Q : nat -> A -> list (list ascii) -> Prop),
    (forall i a, l !! i = Some a -> exists ws, names_are (f (n + i)%nat a) ws /\ good ws /\ forall e, e ∈ ws -> Q i a e) ->
    (forall i j a b e, l !! i = Some a -> l !! j = Some b -> Q i a e -> Q j b e -> i = j) ->
    exists ws, names_are (each f n l) ws /\ good ws /\ forall e, e ∈ ws -> exists i a, l !! i = Some a /\ Q i a e.
  Proof.
    induction l as [|a l IH]; intros n Q H D.
    - exists []. split; [by exists []|]. split; [apply good_nil|]. intros e He. by apply elem_of_nil in He.
    - destruct (H 0%nat a) as (ws1 & (l1 & E1 & M1) & G1 & Q1); [done|]. rewrite Nat.add_0_r in E1.
      destruct (IH (S n) (fun i => Q (S i))) as (ws2 & (l2 & E2 & M2) & G2 & Q2).
      + intros i b Hi. destruct (H (S i) b Hi) as (ws & Hn & Hg). exists ws. split; [|done].
        by replace (S n + i)%nat with (n + S i)%nat by lia.
      + intros i j b c e Hi Hj Qi Qj. specialize (D (S i) (S j) b c e Hi Hj Qi Qj). lia.
      + exists (ws1 ++ ws2). split; [|split].
        * exists (l1 ++ l2). split; [cbn [each]; by rewrite E1; cbn; rewrite E2|]. rewrite fmap_app, M1, M2, ?fmap_app, ?map_app. reflexivity.
        * apply good_app; [done|done|]. intros e He1 He2. apply Q1 in He1. apply Q2 in He2 as (i & b & Hi & Hb).
          discriminate (D 0%nat (S i) a b e eq_refl Hi He1 Hb).
        * intros e He. apply elem_of_app in He as [He|He]; [exists 0%nat, a; auto|]. apply Q2 in He as (i & b & Hi & Hb). by exists (S i), b.
  Qed.

  Fixpoint add_last (R : list (list ascii)) (x : list ascii) : list (list ascii) :=
    match R with [] => [] | [w] => [w ++ x] | w :: R' => w :: add_last R' x end.
  Lemma add_last_cons w R x : R <> [] -> add_last (w :: R) x = w :: add_last R x.
  Proof. by destruct R. Qed.
  Lemma add_last_nonempty R x : R <> [] -> add_last R x <> [].
  Proof. destruct R as [|w [|w' R]]; done. Qed.
  Lemma add_last_length R x : List.length (add_last R x) = List.length R.
  Proof. induction R as [|w [|w' R] IH]; [done|done|]. rewrite add_last_cons by done. cbn in *. by rewrite IH. Qed.
  Lemma join_add_last R x : R <> [] -> join (add_last R x) = join R ++ x.
  Proof.
    induction R as [|w R IH]; intros N; [done|]. destruct (decide (R = [])) as [->|D]; [done|].
    rewrite add_last_cons, !join_cons by (done || by apply add_last_nonempty). rewrite IH by done. by rewrite <- !app_assoc.
  Qed.
  Lemma add_last_ok R x : words_ok R -> word_ok x -> words_ok (add_last R x).
  Proof.
    intros [N F] [Hx Hf]. split; [by apply add_last_nonempty|]. induction R as [|w R IH]; [done|].
    apply Forall_cons in F as [[Hw Hwf] F]. destruct (decide (R = [])) as [->|D].
    - constructor; [|constructor]. split; [|by apply no_from_app]. apply exported_app; [done|by apply exported_words].
    - rewrite add_last_cons by done. constructor; [done|by apply IH].
  Qed.
  Definition payload : list ascii := lit "Payload".
  Lemma payload_ok : word_ok payload.
  Proof. unfold payload. word_lit. Qed.
  Lemma not_payload l l' R : R <> [] -> l ++ R = l' ++ add_last R payload -> False.
  Proof.
    intros N E. apply app_inj_2 in E as [_ E]; [|by rewrite add_last_length]. apply (f_equal join) in E.
    rewrite join_add_last in E by done. apply (f_equal List.length) in E. rewrite app_length in E. cbn in E. lia.
  Qed.

  Definition alt_word (i : nat) : list ascii := lit "Message" ++ itoa i.
  Lemma alt_word_ok i : word_ok (alt_word i).
  Proof.
    split; [apply exported_app; [exported_lit|]|].
    - eapply Forall_impl; [apply itoa_digits|]. apply digit_word.
    - apply no_from_digits_app; [apply from_b_spec; vm_compute; reflexivity|apply itoa_digits].
  Qed.
  Lemma alt_word_step i : ~ step_word (alt_word i).
  Proof.
    unfold alt_word. intros [H|[H|(j & H)]].
    - pose proof (itoa_digits i) as F. destruct (itoa i) as [|c r] eqn:E; [by rewrite app_nil_r in H|].
      rewrite last_app_cons in H. apply last_Some_elem_of in H. rewrite Forall_forall in F. specialize (F _ H). revert F. concrete.
    - cbn in H. repeat (apply elem_of_cons in H as [H|H]; [discriminate H|]). by apply elem_of_nil in H.
    - cbn in H. discriminate H.
  Qed.

  Definition msg_fam (R : list (list ascii)) (ws : list (list (list ascii))) : Prop :=
    good ws /\ (forall e, e ∈ ws -> (exists l, e = l ++ R) \/ (exists l, e = l ++ add_last R payload)).

  Lemma names_are_map {A B} (o : option (list (A * list ascii))) (g : A -> B) ws : names_are o ws ->
    names_are (l ← o; Some (map (fun x => (g x.1, x.2)) l)) ws.
  Proof.
    intros (l & -> & M). cbn. eexists. split; [reflexivity|]. rewrite <- M. clear. induction l as [|x l IH]; [done|]. cbn. by rewrite <- IH.
  Qed.

  Lemma message_names_spec m : clear_message m -> forall parent name number b alt R, words_ok R ->
    full_name parent name (lit "Message") number = Some (join R) ->
    exists ws, names_are (message_names parent name number b alt m) ws /\ msg_fam R ws.
  Proof.
    induction 1 as [pl hd oneof corr Hs Hm IH Ch Cp]. intros parent name number b alt R HR Hme.
    pose proof (add_last_ok R payload HR payload_ok) as HRp. pose proof (join_exported _ HR) as Hj. pose proof (proj1 HR) as NR.
    assert (P : exists ws, names_are (one (fun t => l ← schema_names [] (join R ++ lit "_Payload") None [] t; Some (map (fun x => (PPayload b alt x.1, x.2)) l)) pl) ws
      /\ good ws /\ forall e, e ∈ ws -> e = add_last R payload \/ exists l w, step_word w /\ e = l ++ w :: add_last R payload).
    { destruct pl as [t|]; [|exists []; split; [by exists []|]; split; [apply good_nil|]; intros e He; by apply elem_of_nil in He].
      destruct (schema_names_spec t) with (parent := @nil ascii) (name := join R ++ lit "_Payload") (number := @None nat) (at_ := @nil step)
        (R := add_last R payload) as (ws & Hn & N & F & H); [by apply Hs; left|done| |].
      - assert (E : name_of (join R ++ lit "_Payload") = join (add_last R payload)).
        { rewrite join_add_last by done. change (lit "_Payload") with ("_"%char :: payload). rewrite name_of_sep by apply payload_ok. by rewrite name_of_join. }
        rewrite full_name_root; rewrite ?E; cbn [number_text]; change (name_of []) with (@nil ascii); rewrite ?app_nil_r; [done| |constructor|by apply join_exported].
        apply Forall_app. split; [by apply exported_ascii|ascii].
      - exists ws. split; [by apply (names_are_map _ (PPayload b alt))|]. split; [by split|done]. }
    assert (H : exists ws, names_are (one (fun t => l ← schema_names (join R) (lit "Headers") None [] t; Some (map (fun x => (PHeaders b alt x.1, x.2)) l)) hd) ws
      /\ good ws /\ forall e, e ∈ ws -> exists l, e = l ++ lit "Headers" :: R).
    { destruct hd as [t|]; [|exists []; split; [by exists []|]; split; [apply good_nil|]; intros e He; by apply elem_of_nil in He].
      destruct (schema_names_spec t) with (parent := join R) (name := lit "Headers") (number := @None nat) (at_ := @nil step)
        (R := lit "Headers" :: R) as (ws & Hn & N & F & H); [by apply Hs; right|apply words_ok_cons; [word_lit|done]| |].
      - apply full_name_child; [done|ascii|constructor|word_lit|vm_compute; reflexivity].
      - exists ws. split; [by apply (names_are_map _ (PHeaders b alt))|]. split; [by split|].
        intros e He. destruct (H e He) as [->|(l & w & _ & ->)]; [by exists []|]. exists (l ++ [w]). by rewrite <- app_assoc. }
    assert (O : exists ws, names_are (each (fun i => message_names (join R) [] (Some i) b (alt ++ [i])) 0 oneof) ws /\ good ws /\
      forall e, e ∈ ws -> exists i a, oneof !! i = Some a /\ ((exists l, e = l ++ alt_word i :: R) \/ (exists l, e = l ++ alt_word i :: add_last R payload))).
    { apply (each_gen _ oneof 0 (fun i a e => (exists l, e = l ++ alt_word i :: R) \/ (exists l, e = l ++ alt_word i :: add_last R payload))).
      - intros i a Hi. cbn [Nat.add]. apply elem_of_list_lookup_2 in Hi.
        destruct (IH a Hi (join R) [] (Some i) b (alt ++ [i]) (alt_word i :: R)) as (ws & Hn & Hg & Hf).
        + apply words_ok_cons; [apply alt_word_ok|done].
        + apply full_name_child; [done|constructor|ascii|apply alt_word_ok|vm_compute; reflexivity].
        + exists ws. split; [done|]. split; [done|]. intros e He. destruct (Hf e He) as [?|(l & ->)]; [by left|right].
          exists l. by rewrite add_last_cons.
      - intros i j a c e _ _ [(l1 & ->)|(l1 & ->)] [(l2 & E)|(l2 & E)].
        + apply tail_eq in E as [E _]. apply app_inv_head in E. by apply itoa_inj.
        + exfalso. change (l1 ++ alt_word i :: R) with (l1 ++ [alt_word i] ++ R) in E. change (l2 ++ alt_word j :: add_last R payload) with (l2 ++ [alt_word j] ++ add_last R payload) in E.
          rewrite !app_assoc in E. by apply not_payload in E.
        + exfalso. symmetry in E. change (l2 ++ alt_word j :: R) with (l2 ++ [alt_word j] ++ R) in E.
          change (l1 ++ alt_word i :: add_last R payload) with (l1 ++ [alt_word i] ++ add_last R payload) in E. rewrite !app_assoc in E. by apply not_payload in E.
        + apply tail_eq in E as [E _]. apply app_inv_head in E. by apply itoa_inj. }
    destruct P as (wp & (lp & Ep & Mp) & Gp & Qp). destruct H as (wh & (lh & Eh & Mh) & Gh & Qh). destruct O as (wo & (lo & Eo & Mo) & Go & Qo).
    assert (X : forall w l, l ++ w :: R = (l ++ [w]) ++ R) by (intros; by rewrite <- app_assoc).
    assert (Y : forall w l, l ++ w :: add_last R payload = (l ++ [w]) ++ add_last R payload) by (intros; by rewrite <- app_assoc).
    assert (Qp' : forall e, e ∈ wp -> exists l, e = l ++ add_last R payload).
    { intros e He. destruct (Qp e He) as [->|(l & w & _ & ->)]; [by exists []|]. exists (l ++ [w]). apply Y. }
    exists ([R] ++ wp ++ wh ++ wo). split; [|split].
    - eexists. cbn [Names.message_names]. rewrite Hme. cbn [mbind option_bind]. rewrite Ep. cbn [mbind option_bind]. rewrite Eh. cbn [mbind option_bind].
      rewrite Eo. cbn [mbind option_bind]. rewrite namify_ascii by ascii. cbn [mbind option_bind]. split; [reflexivity|].
      assert (Hcr : match corr, hd, pl with Some true, None, _ => [(PHeaders b alt [], name_of (lit "header"))]
        | Some false, _, None => [(PPayload b alt [], name_of (lit "header"))] | _, _, _ => [] end = []).
      { destruct corr as [[]|]; [|destruct hd; (destruct pl; [done|]; by exfalso; apply Cp)|done]. destruct hd; [done|]. by exfalso; apply Ch. }
      rewrite Hcr, app_nil_r. cbn [fmap list_fmap map snd app]. f_equal. rewrite ?fmap_app, ?map_app, Mp, Mh, Mo. reflexivity.
    - apply good_app; [split; [apply NoDup_singleton|by repeat constructor; destruct HR]| |].
      + apply good_app; [done| |].
        * apply good_app; [done|done|]. intros e Hh Ho. apply Qh in Hh as (l & ->). apply Qo in Ho as (i & a & _ & [(l2 & E)|(l2 & E)]).
          -- apply tail_eq in E as [E _]. unfold alt_word in E. cbn in E. discriminate E.
          -- rewrite X, Y in E. by apply not_payload in E.
        * intros e Hp Hho. destruct (Qp e Hp) as [->|(l & w & Hw & ->)].
          -- apply elem_of_app in Hho as [Hh|Ho].
             ++ apply Qh in Hh as (l & E). rewrite X in E. symmetry in E. by apply (not_payload _ []) in E.
             ++ apply Qo in Ho as (i & a & _ & [(l & E)|(l & E)]).
                ** rewrite X in E. symmetry in E. by apply (not_payload _ []) in E.
                ** apply (f_equal List.length) in E. rewrite app_length in E. cbn in E. lia.
          -- apply elem_of_app in Hho as [Hh|Ho].
             ++ apply Qh in Hh as (l2 & E). rewrite X, Y in E. symmetry in E. by apply not_payload in E.
             ++ apply Qo in Ho as (i & a & _ & [(l2 & E)|(l2 & E)]).
                ** rewrite X, Y in E. symmetry in E. by apply not_payload in E.
                ** apply tail_eq in E as [-> _]. by apply alt_word_step in Hw.
      + intros e He Hr. apply elem_of_list_singleton in He as ->. apply elem_of_app in Hr as [Hp|Hr].
        * apply Qp' in Hp as (l & E). by apply (not_payload []) in E.
        * apply elem_of_app in Hr as [Hh|Ho].
          -- apply Qh in Hh as (l & E). apply (f_equal List.length) in E. rewrite app_length in E. cbn in E. lia.
          -- apply Qo in Ho as (i & a & _ & [(l & E)|(l & E)]).
             ++ apply (f_equal List.length) in E. rewrite app_length in E. cbn in E. lia.
             ++ rewrite Y in E. by apply (not_payload []) in E.
    - intros e He. apply elem_of_app in He as [He|He]; [apply elem_of_list_singleton in He as ->; left; by exists []|].
      apply elem_of_app in He as [He|He]; [right; by apply Qp'|]. apply elem_of_app in He as [He|He].
      + apply Qh in He as (l & ->). left. exists (l ++ [lit "Headers"]). apply X.
      + apply Qo in He as (i & a & _ & [(l & ->)|(l & ->)]); [left|right]; exists (l ++ [alt_word i]); [apply X|apply Y].
  Qed.

  (** ** Documents *)
  Definition kind_word (kind : string) (k : list ascii) : list ascii := name_of k ++ lit kind.
  Lemma kind_names_word kind ks : exported (lit kind) -> kind_names kind ks = map (kind_word kind) ks.
  Proof. intros He. unfold kind_names. apply map_ext. intros k. by apply name_of_sep. Qed.
  Lemma kind_inj {A} kind (l : list (list ascii * A)) i j a b : exported (lit kind) -> NoDup (kind_names kind (l.*1)) ->
    l !! i = Some a -> l !! j = Some b -> kind_word kind a.1 = kind_word kind b.1 -> i = j.
  Proof.
    intros He N Hi Hj E. rewrite kind_names_word in N by done. eapply NoDup_lookup; [exact N| |].
    - rewrite list_lookup_fmap, list_lookup_fmap, Hi. reflexivity.
    - rewrite list_lookup_fmap, list_lookup_fmap, Hj. cbn. by rewrite E.
  Qed.
  Lemma ends (x y : list ascii) a b : x ++ lit a = y ++ lit b -> a <> ""%string -> b <> ""%string -> last (lit a) = last (lit b).
  Proof.
    intros E Ha Hb. destruct (last_property x a) as [Ea|?]; [|done]. destruct (last_property y b) as [Eb|?]; [|done]. by rewrite <- Ea, <- Eb, E.
  Qed.
  Ltac ends_diff E := let X := fresh in pose proof E as X; apply ends in X; [discriminate X|discriminate|discriminate].

  Definition message_last (w : list ascii) (e : list (list ascii)) : Prop := exists l, e = l ++ [w] \/ e = l ++ [w ++ payload].

  (** The messages of one map, [R] being what follows the name of a message. *)
  Lemma messages_spec parent R ms (mk : list ascii -> base) : clear_messages ms -> (R = [] \/ words_ok R) -> parent = join R ->
    exists ws, names_are (each (fun _ kp => message_names parent kp.1 None (mk kp.1) [] kp.2) 0 ms) ws /\ good ws /\
      forall e, e ∈ ws -> exists k m, (k, m) ∈ ms /\ exists l, e = l ++ kind_word "Message" k :: R \/ e = l ++ add_last (kind_word "Message" k :: R) payload.
  Proof.
    intros (Hr & N & Hm) HR ->. assert (He : exported (lit "Message")) by exported_lit.
    destruct (each_gen (fun _ kp => message_names (join R) kp.1 None (mk kp.1) [] kp.2) ms 0
      (fun i a e => exists l, e = l ++ kind_word "Message" a.1 :: R \/ e = l ++ add_last (kind_word "Message" a.1 :: R) payload)) as (ws & Hn & Hg & Hq).
    - intros i [k m] Hi. apply elem_of_list_lookup_2 in Hi.
      assert (Hk : k ∈ ms.*1) by (apply elem_of_list_fmap; by exists (k, m)). destruct (readable_elem _ _ Hr Hk) as [Ak Fk].
      assert (Hw : word_ok (kind_word "Message" k)) by (apply name_app_ok; [done|word_lit]).
      assert (HR' : words_ok (kind_word "Message" k :: R)).
      { destruct HR as [->|HR]; [|by apply words_ok_cons]. split; [done|]. constructor; [done|constructor]. }
      destruct (message_names_spec m (Hm k m Hi) (join R) k None (mk k) [] (kind_word "Message" k :: R) HR') as (ws & Hn & Hg & Hf).
      + destruct HR as [->|HR].
        * cbn [join]. rewrite full_name_root; cbn [number_text]; rewrite ?app_nil_r; [done|done|ascii|].
          change (name_of (lit "Message")) with (lit "Message"). apply Hw.
        * apply full_name_child; [done|done|ascii|done|]. cbn [number_text]. rewrite app_nil_r. reflexivity.
      + exists ws. split; [done|]. split; [done|]. intros e Hin. destruct (Hf e Hin) as [(l & ->)|(l & ->)]; exists l; auto.
    - intros i j [k1 m1] [k2 m2] e Hi Hj (l1 & H1) (l2 & H2). cbn [fst] in *. eapply (kind_inj "Message"); [done|done|exact Hi|exact Hj|]. cbn [fst].
      assert (Same : forall w1 w2 l1 l2, l1 ++ w1 :: R = l2 ++ add_last (w2 :: R) payload -> R = [] -> w1 = w2 ++ payload).
      { intros w1 w2 l l' E ->. cbn in E. apply app_inj_tail in E as [_ E]. done. }
      assert (Diff : forall w1 w2 l1 l2, l1 ++ w1 :: R = l2 ++ add_last (w2 :: R) payload -> R <> [] -> False).
      { intros w1 w2 l l' E D. rewrite add_last_cons in E by done.
        change (l ++ w1 :: R) with (l ++ [w1] ++ R) in E. change (l' ++ w2 :: add_last R payload) with (l' ++ [w2] ++ add_last R payload) in E.
        rewrite !app_assoc in E. by apply not_payload in E. }
      assert (Bad : forall l1 l2 k1 k2, l1 ++ kind_word "Message" k1 :: R = l2 ++ add_last (kind_word "Message" k2 :: R) payload -> False).
      { intros l l' k k' E. destruct (decide (R = [])) as [D|D]; [|by apply Diff in E]. apply Same in E; [|done].
        unfold kind_word, payload in E. ends_diff E. }
      destruct H1 as [->| ->], H2 as [E|E].
      + by apply tail_eq in E as [E _].
      + by apply Bad in E.
      + symmetry in E. by apply Bad in E.
      + destruct (decide (R = [])) as [->|D].
        * cbn in E. apply app_inj_tail in E as [_ E]. by apply app_inv_tail in E.
        * rewrite !add_last_cons in E by done. by apply tail_eq in E as [E _].
    - exists ws. split; [done|]. split; [done|]. intros e Hin. destruct (Hq e Hin) as (i & [k m] & Hi & Hl). apply elem_of_list_lookup_2 in Hi. eauto.
  Qed.

  Definition last_kind (e : list (list ascii)) : Prop :=
    exists l w kind, kind ∈ ["Message"; "Channel"; "Schema"; "Payload"]%string /\ e = l ++ [w ++ lit kind].
  Lemma document_names_shape d : clear_document d -> exists ws, names_are (document_names d) ws /\ good ws /\ forall e, e ∈ ws -> last_kind e.
  Proof.
    intros [Rc Nc Hc Hms Rs Ns Hs].
    assert (HeC : exported (lit "Channel")) by exported_lit. assert (HeS : exported (lit "Schema")) by exported_lit.
    assert (C : exists ws, names_are (each (fun _ c => channel_names ul ud uu c.1 c.2) 0 (d_channels d)) ws /\ good ws /\
      forall e, e ∈ ws -> exists i a, d_channels d !! i = Some a /\ message_last (kind_word "Channel" a.1) e).
    { apply (each_gen _ _ _ (fun i (a : bytes * list (bytes * mtree)) e => message_last (kind_word "Channel" a.1) e)).
      - intros i [c ms] Hi. cbn [fst snd]. apply elem_of_list_lookup_2 in Hi.
        assert (Hk : c ∈ (d_channels d).*1) by (apply elem_of_list_fmap; by exists (c, ms)). destruct (readable_elem _ _ Rc Hk) as [Ak Fk].
        assert (Hw : word_ok (kind_word "Channel" c)) by (apply name_app_ok; [done|word_lit]).
        unfold channel_names. rewrite full_name_root; cbn [number_text]; rewrite ?app_nil_r; [|done|ascii|apply Hw].
        cbn [mbind option_bind]. change (name_of (lit "Channel")) with (lit "Channel"). fold (kind_word "Channel" c).
        destruct (messages_spec (kind_word "Channel" c) [kind_word "Channel" c] ms (BChannel c)) as (ws & Hn & Hg & Hq).
        + by apply (Hc c).
        + right. split; [done|]. constructor; [done|constructor].
        + done.
        + exists ws. split; [done|]. split; [done|]. intros e Hin. destruct (Hq e Hin) as (k & m & _ & l & [->| ->]).
          * exists (l ++ [kind_word "Message" k]). left. by rewrite <- app_assoc.
          * exists (l ++ [kind_word "Message" k]). right. cbn. by rewrite <- app_assoc.
      - intros i j [c1 ms1] [c2 ms2] e Hi Hj (l1 & H1) (l2 & H2). cbn [fst] in *. eapply (kind_inj "Channel"); [done|done|exact Hi|exact Hj|]. cbn [fst].
        unfold kind_word, payload in *. destruct H1 as [->| ->], H2 as [E|E]; apply app_inj_tail in E as [_ E]; [done| | |by apply app_inv_tail in E].
        + ends_diff E.
        + ends_diff E. }
    assert (M : exists ws, names_are (each (fun _ kp => message_names [] kp.1 None (BComponent kp.1) [] kp.2) 0 (d_messages d)) ws /\ good ws /\
      forall e, e ∈ ws -> exists k, message_last (kind_word "Message" k) e).
    { destruct (messages_spec [] [] (d_messages d) BComponent) as (ws & Hn & Hg & Hq); [done|by left|done|].
      exists ws. split; [done|]. split; [done|]. intros e Hin. destruct (Hq e Hin) as (k & m & _ & l & E). exists k, l. exact E. }
    assert (S : exists ws, names_are (each (fun _ kp => l ← schema_names [] (kp.1 ++ lit "_Schema") None [] kp.2;
        Some (map (fun x => (PSchema kp.1 x.1, x.2)) l)) 0 (d_schemas d)) ws /\ good ws /\
      forall e, e ∈ ws -> exists i a, d_schemas d !! i = Some a /\ exists l, e = l ++ [kind_word "Schema" a.1]).
    { apply (each_gen _ _ _ (fun i (a : bytes * tree) e => exists l, e = l ++ [kind_word "Schema" a.1])).
      - intros i [k t] Hi. cbn [fst snd]. apply elem_of_list_lookup_2 in Hi.
        assert (Hk : k ∈ (d_schemas d).*1) by (apply elem_of_list_fmap; by exists (k, t)). destruct (readable_elem _ _ Rs Hk) as [Ak Fk].
        assert (Hw : word_ok (kind_word "Schema" k)) by (apply name_app_ok; [done|word_lit]).
        destruct (schema_names_spec t (Hs k t Hi)) with (parent := @nil ascii) (name := k ++ lit "_Schema") (number := @None nat) (at_ := @nil step)
          (R := [kind_word "Schema" k]) as (ws & Hn & N & F & H).
        + split; [done|]. constructor; [done|constructor].
        + assert (E : name_of (k ++ lit "_Schema") = kind_word "Schema" k) by by apply name_of_sep.
          rewrite full_name_root; rewrite ?E; cbn [number_text]; change (name_of []) with (@nil ascii); rewrite ?app_nil_r; [done| |constructor|apply Hw].
          apply Forall_app. split; [done|ascii].
        + exists ws. split; [by apply (names_are_map _ (PSchema k))|]. split; [by split|]. intros e Hin.
          destruct (H e Hin) as [->|(l & w & _ & ->)]; [by exists []|]. exists (l ++ [w]). by rewrite <- app_assoc.
      - intros i j [k1 t1] [k2 t2] e Hi Hj (l1 & ->) (l2 & E). cbn [fst] in *. apply app_inj_tail in E as [_ E].
        by eapply (kind_inj "Schema"); [done|done|exact Hi|exact Hj|]. }
    destruct C as (wc & (lc & Ec & Mc) & Gc & Qc). destruct M as (wm & (lm & Em & Mm) & Gm & Qm). destruct S as (ws & (ls & Es & Ms) & Gs & Qs).
    exists (wc ++ wm ++ ws). split.
    - eexists. unfold Names.document_names. rewrite Ec. cbn [mbind option_bind]. rewrite Em. cbn [mbind option_bind]. rewrite Es. cbn [mbind option_bind].
      split; [reflexivity|]. rewrite ?fmap_app, ?map_app, Mc, Mm, Ms. reflexivity.
    - split; cycle 1.
      { intros e He. apply elem_of_app in He as [He|He]; [|apply elem_of_app in He as [He|He]].
        - apply Qc in He as (i & a & _ & l & [->| ->]); [exists l, (name_of a.1), "Channel"%string|exists l, (kind_word "Channel" a.1), "Payload"%string]; (split; [|done]); repeat (first [apply elem_of_list_here|apply elem_of_list_further]).
        - apply Qm in He as (k & l & [->| ->]); [exists l, (name_of k), "Message"%string|exists l, (kind_word "Message" k), "Payload"%string]; (split; [|done]); repeat (first [apply elem_of_list_here|apply elem_of_list_further]).
        - apply Qs in He as (i & a & _ & l & ->). exists l, (name_of a.1), "Schema"%string. split; [|done]. repeat (first [apply elem_of_list_here|apply elem_of_list_further]). }
      apply good_app; [done| |].
      + apply good_app; [done|done|]. intros e H1 H2. apply Qm in H1 as (k & l1 & H1). apply Qs in H2 as (i & a & _ & l2 & ->).
        unfold kind_word, payload in *. destruct H1 as [E|E]; apply app_inj_tail in E as [_ E]; ends_diff E.
      + intros e H1 H2. apply Qc in H1 as (i & a & _ & l1 & H1). apply elem_of_app in H2 as [H2|H2].
        * apply Qm in H2 as (k & l2 & H2). unfold kind_word, payload in *.
          destruct H1 as [->| ->], H2 as [E|E]; apply app_inj_tail in E as [_ E]; try (ends_diff E). apply app_inv_tail in E. ends_diff E.
        * apply Qs in H2 as (j & b & _ & l2 & ->). unfold kind_word, payload in *.
          destruct H1 as [E|E]; apply app_inj_tail in E as [_ E]; ends_diff E.
  Qed.

  Lemma document_names_spec d : clear_document d -> exists ws, names_are (document_names d) ws /\ good ws.
  Proof. intros H. destruct (document_names_shape d H) as (ws & ? & ? & _). eauto. Qed.

  (** A name ends as its last word does. *)
  Lemma join_last l w : exists p, join (l ++ [w]) = p ++ w.
  Proof.
    induction l as [|x l (p & IH)]; [by exists []|]. exists (x ++ from ++ p). cbn [app]. rewrite join_cons by by destruct l. rewrite IH. by rewrite <- !app_assoc.
  Qed.

  Lemma join_nodup ws : good ws -> NoDup (map join ws).
  Proof.
    intros [N F]. apply NoDup_fmap_2_strong; [|done]. intros a b Ha Hb E. rewrite Forall_forall in F. destruct (F _ Ha) as [Na Fa]. destruct (F _ Hb) as [Nb Fb].
    apply join_inj in E; [done| | |done|done].
    - eapply Forall_impl; [exact Fa|]. by intros ? [_ ?].
    - eapply Forall_impl; [exact Fb|]. by intros ? [_ ?].
  Qed.
  Lemma good_exported ws : good ws -> Forall exported (map join ws).
  Proof. intros [_ F]. apply Forall_fmap. eapply Forall_impl; [exact F|]. intros e He. by apply join_exported. Qed.

  (** ** Everything has a name *)
  Lemma bind_some {A B} (o : option A) (f : A -> option B) y : (x ← o; f x) = Some y -> exists x, o = Some x /\ f x = Some y.
  Proof. destruct o; [|done]. eauto. Qed.
  Lemma each_elem {A B} (f : nat -> A -> option (list B)) l : forall n r i a, each f n l = Some r -> l !! i = Some a ->
    exists x, f (n + i)%nat a = Some x /\ (forall b, b ∈ x -> b ∈ r).
  Proof.
    induction l as [|a' l IH]; intros n r i a E Hi; [done|]. cbn [each] in E. apply bind_some in E as (x & Ex & E). apply bind_some in E as (y & Ey & E).
    injection E as <-. destruct i as [|i].
    - injection Hi as ->. exists x. rewrite Nat.add_0_r. split; [done|]. intros b Hb. apply elem_of_app. by left.
    - destruct (IH (S n) y i a Ey Hi) as (z & Ez & Hz). exists z. replace (n + S i)%nat with (S n + i)%nat by lia. split; [done|].
      intros b Hb. apply elem_of_app. right. by apply Hz.
  Qed.
  Lemma each_elem_in {A B} (f : nat -> A -> option (list B)) l n r a : each f n l = Some r -> a ∈ l ->
    exists i x, f i a = Some x /\ (forall b, b ∈ x -> b ∈ r).
  Proof. intros E Ha. apply elem_of_list_lookup in Ha as (i & Hi). destruct (each_elem _ _ _ _ _ _ E Hi) as (x & Ex & Hx). eauto. Qed.

  Lemma schema_names_next parent name number at_ t l s c : schema_names parent name number at_ t = Some l -> next t s c ->
    exists parent' name' number' l', schema_names parent' name' number' (at_ ++ [s]) c = Some l' /\ (forall x, x ∈ l' -> x ∈ l).
  Proof.
    intros E H.
    destruct H; cbn [Names.schema_names] in E;
      apply bind_some in E as (me & _ & E); apply bind_some in E as (l1 & E1 & E); apply bind_some in E as (l2 & E2 & E);
      apply bind_some in E as (l3 & E3 & E); apply bind_some in E as (l4 & E4 & E); apply bind_some in E as (l5 & E5 & E);
      apply bind_some in E as (l6 & E6 & E); apply bind_some in E as (l7 & E7 & E); apply bind_some in E as (l8 & E8 & E);
      apply bind_some in E as (l9 & E9 & E); apply bind_some in E as (l10 & E10 & E); injection E as <-.
    - destruct (each_elem_in _ _ _ _ _ E1 H) as (i' & x & Ex & Hx). cbn [fst snd] in Ex. do 4 eexists. split; [exact Ex|].
      intros y Hy. apply elem_of_cons. right. rewrite !elem_of_app. auto 12.
    - destruct (each_elem_in _ _ _ _ _ E2 H) as (i' & x & Ex & Hx). cbn [fst snd] in Ex. do 4 eexists. split; [exact Ex|].
      intros y Hy. apply elem_of_cons. right. rewrite !elem_of_app. auto 12.
    - cbn [one] in E3. do 4 eexists. split; [exact E3|]. intros y Hy. apply elem_of_cons. right. rewrite !elem_of_app. auto 12.
    - destruct (each_elem _ _ _ _ _ _ E4 H) as (x & Ex & Hx). cbn [Nat.add] in Ex. do 4 eexists. split; [exact Ex|].
      intros y Hy. apply elem_of_cons. right. rewrite !elem_of_app. auto 12.
    - cbn [one] in E5. do 4 eexists. split; [exact E5|]. intros y Hy. apply elem_of_cons. right. rewrite !elem_of_app. auto 12.
    - destruct (each_elem _ _ _ _ _ _ E6 H) as (x & Ex & Hx). cbn [Nat.add] in Ex. do 4 eexists. split; [exact Ex|].
      intros y Hy. apply elem_of_cons. right. rewrite !elem_of_app. auto 12.
    - destruct (each_elem _ _ _ _ _ _ E7 H) as (x & Ex & Hx). cbn [Nat.add] in Ex. do 4 eexists. split; [exact Ex|].
      intros y Hy. apply elem_of_cons. right. rewrite !elem_of_app. auto 12.
    - destruct (each_elem _ _ _ _ _ _ E8 H) as (x & Ex & Hx). cbn [Nat.add] in Ex. do 4 eexists. split; [exact Ex|].
      intros y Hy. apply elem_of_cons. right. rewrite !elem_of_app. auto 14.
    - destruct (each_elem _ _ _ _ _ _ E9 H) as (x & Ex & Hx). cbn [Nat.add] in Ex. do 4 eexists. split; [exact Ex|].
      intros y Hy. apply elem_of_cons. right. rewrite !elem_of_app. auto 14.
    - cbn [one] in E10. do 4 eexists. split; [exact E10|]. intros y Hy. apply elem_of_cons. right. rewrite !elem_of_app. auto 14.
  Qed.
  Lemma schema_names_part t p x : part t p x -> forall parent name number at_ l, schema_names parent name number at_ t = Some l ->
    exists n, (at_ ++ p, n) ∈ l.
  Proof.
    induction 1 as [t|t s c p x Hn Hp IH]; intros parent name number at_ l E.
    - destruct t. cbn [Names.schema_names] in E. apply bind_some in E as (me & _ & E). do 10 apply bind_some in E as (? & _ & E). injection E as <-.
      exists me. rewrite app_nil_r. left.
    - destruct (schema_names_next _ _ _ _ _ _ _ _ E Hn) as (pa & na & nu & l' & E' & Hl).
      destruct (IH _ _ _ _ _ E') as (n & Hin). exists n. apply Hl. by rewrite <- app_assoc in Hin.
  Qed.

  Lemma message_names_variant m alt x : variant m alt x -> forall parent name number b at_ l, message_names parent name number b at_ m = Some l ->
    exists parent' name' number' l', message_names parent' name' number' b (at_ ++ alt) x = Some l' /\ (forall y, y ∈ l' -> y ∈ l).
  Proof.
    induction 1 as [m|p h o c i m alt x Hi Hv IH]; intros parent name number b at_ l E.
    - rewrite app_nil_r. do 4 eexists. split; [exact E|done].
    - cbn [Names.message_names] in E. apply bind_some in E as (me & _ & E). apply bind_some in E as (? & _ & E). apply bind_some in E as (? & _ & E).
      apply bind_some in E as (os & Eo & E). apply bind_some in E as (? & _ & E). injection E as <-.
      destruct (each_elem _ _ _ _ _ _ Eo Hi) as (y & Ey & Hy). cbn [Nat.add] in Ey. destruct (IH _ _ _ _ _ _ Ey) as (pa & na & nu & l' & E' & Hl).
      exists pa, na, nu, l'. split; [by rewrite <- app_assoc in E'|]. intros z Hz. apply elem_of_cons. right. rewrite !elem_of_app. auto 8.
  Qed.
  Lemma message_of_names d b m names : document_names d = Some names -> message_of d b m ->
    exists parent name number l, message_names parent name number b [] m = Some l /\ (forall y, y ∈ l -> y ∈ names).
  Proof.
    intros E H. unfold Names.document_names in E. apply bind_some in E as (l1 & E1 & E). apply bind_some in E as (l2 & E2 & E).
    apply bind_some in E as (l3 & E3 & E). injection E as <-. destruct b as [k|c k]; cbn [message_of] in H.
    - destruct (each_elem_in _ _ _ _ _ E2 H) as (i & x & Ex & Hx). do 4 eexists. split; [exact Ex|]. intros y Hy. rewrite !elem_of_app. auto.
    - destruct H as (ms & Hc & Hk). destruct (each_elem_in _ _ _ _ _ E1 Hc) as (i & x & Ex & Hx). cbn [fst snd] in Ex. unfold channel_names in Ex.
      apply bind_some in Ex as (me & _ & Ex). destruct (each_elem_in _ _ _ _ _ Ex Hk) as (j & y & Ey & Hy). do 4 eexists. split; [exact Ey|].
      intros z Hz. rewrite !elem_of_app. auto.
  Qed.
  Lemma document_names_all d names p : document_names d = Some names -> in_document d p -> exists n, (p, n) ∈ names.
  Proof.
    intros E H. destruct H as [k t p x Ht Hp|b m alt x Hm Hv|b m alt x t p y Hm Hv Ht Hp|b m alt x t p y Hm Hv Ht Hp].
    - unfold Names.document_names in E. apply bind_some in E as (l1 & E1 & E). apply bind_some in E as (l2 & E2 & E).
      apply bind_some in E as (l3 & E3 & E). injection E as <-. destruct (each_elem_in _ _ _ _ _ E3 Ht) as (i & z & Ez & Hz). cbn [fst snd] in Ez.
      apply bind_some in Ez as (l & El & Ez). injection Ez as <-. destruct (schema_names_part _ _ _ Hp _ _ _ _ _ El) as (n & Hn).
      exists n. rewrite !elem_of_app. right. right. apply Hz. apply elem_of_list_fmap. by exists (p, n).
    - destruct (message_of_names _ _ _ _ E Hm) as (pa & na & nu & l & El & Hl). destruct (message_names_variant _ _ _ Hv _ _ _ _ _ _ El) as (pa' & na' & nu' & l' & El' & Hl').
      destruct x. cbn [Names.message_names] in El'. apply bind_some in El' as (me & _ & E'). do 4 apply bind_some in E' as (? & _ & E'). injection E' as <-.
      exists me. apply Hl, Hl'. left.
    - destruct (message_of_names _ _ _ _ E Hm) as (pa & na & nu & l & El & Hl). destruct (message_names_variant _ _ _ Hv _ _ _ _ _ _ El) as (pa' & na' & nu' & l' & El' & Hl').
      destruct x as [p' h o c]. cbn [m_payload] in Ht. subst p'. cbn [Names.message_names one] in El'. apply bind_some in El' as (me & _ & E').
      apply bind_some in E' as (l1 & E1 & E'). do 3 apply bind_some in E' as (? & _ & E'). injection E' as <-.
      apply bind_some in E1 as (l2 & E2 & E1). injection E1 as <-. destruct (schema_names_part _ _ _ Hp _ _ _ _ _ E2) as (n & Hn).
      exists n. apply Hl, Hl'. apply elem_of_cons. right. apply elem_of_app. left. apply elem_of_list_fmap. by exists (p, n).
    - destruct (message_of_names _ _ _ _ E Hm) as (pa & na & nu & l & El & Hl). destruct (message_names_variant _ _ _ Hv _ _ _ _ _ _ El) as (pa' & na' & nu' & l' & El' & Hl').
      destruct x as [p' h o c]. cbn [m_headers] in Ht. subst h. cbn [Names.message_names one] in El'. apply bind_some in El' as (me & _ & E').
      apply bind_some in E' as (l1 & _ & E'). apply bind_some in E' as (l0 & E1 & E'). do 2 apply bind_some in E' as (? & _ & E'). injection E' as <-.
      apply bind_some in E1 as (l2 & E2 & E1). injection E1 as <-. destruct (schema_names_part _ _ _ Hp _ _ _ _ _ E2) as (n & Hn).
      exists n. apply Hl, Hl'. apply elem_of_cons. right. apply elem_of_app. right. apply elem_of_app. left. apply elem_of_list_fmap. by exists (p, n).
  Qed.
End full.
