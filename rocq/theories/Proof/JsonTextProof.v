(** Proofs about the text of JSON. *)
From stdpp Require Import list strings.
From Coq Require Import ZArith Lia Ascii String DecimalString DecimalZ.
From Verif.Model Require Import Decoding JsonText.
From Verif.Spec Require Import JsonTextSpec.
From Verif.Proof Require Import DecodingProof.
Local Open Scope string_scope.

Lemma append_cons a s t : String a s +:+ t = String a (s +:+ t).
Proof. reflexivity. Qed.
Lemma append_nil s : s +:+ "" = s.
Proof. induction s; [reflexivity|]. rewrite append_cons. by f_equal. Qed.
Lemma append_assoc s t u : (s +:+ t) +:+ u = s +:+ (t +:+ u).
Proof. induction s; [reflexivity|]. rewrite !append_cons. by f_equal. Qed.
Lemma append_inj s t u : s +:+ t = s +:+ u -> t = u.
Proof. induction s as [|a s IH]; [done|]. rewrite !append_cons. intros [= E]. by apply IH. Qed.

(** ** UTF-8 *)
Lemma byte_lt a : (byte a < 256)%N.
Proof. destruct a as [[] [] [] [] [] [] [] []]; vm_compute; reflexivity. Qed.
Lemma between_spec lo hi a : between lo hi a = true <-> (lo <= N_of_ascii a <= hi)%N.
Proof. unfold between, byte. rewrite andb_true_iff, !N.leb_le. reflexivity. Qed.
Lemma two_sequence a b : two a b = true -> sequence (String a (String b "")).
Proof.
  unfold two. rewrite andb_true_iff, !between_spec. intros [? ?]. eexists. apply (encodes2 a b (N_of_ascii a - 192) (N_of_ascii b - 128)); lia.
Qed.
Lemma three_sequence a b c : three a b c = true -> sequence (String a (String b (String c ""))).
Proof.
  unfold three. rewrite andb_true_iff, !orb_true_iff, !andb_true_iff, !between_spec. intros ?. eexists.
  apply (encodes3 a b c (N_of_ascii a - 224) (N_of_ascii b - 128) (N_of_ascii c - 128)); lia.
Qed.
Lemma four_sequence a b c d : four a b c d = true -> sequence (String a (String b (String c (String d "")))).
Proof.
  unfold four. rewrite !andb_true_iff, !orb_true_iff, !andb_true_iff, !between_spec. intros ?. eexists.
  apply (encodes4 a b c d (N_of_ascii a - 240) (N_of_ascii b - 128) (N_of_ascii c - 128) (N_of_ascii d - 128)); lia.
Qed.
Lemma sequence_cases p : sequence p ->
  (exists a, p = String a "" /\ (byte a < 128)%N) \/ (exists a b, p = String a (String b "") /\ two a b = true) \/
  (exists a b c, p = String a (String b (String c "")) /\ three a b c = true) \/
  (exists a b c d, p = String a (String b (String c (String d ""))) /\ four a b c d = true).
Proof.
  intros [n H]. destruct H as [a H|a b x y Ha Hb H1 H2 H3|a b c x y z Ha Hb Hc H1 H2 H3 n H4 H5|a b c d w x y z Ha Hb Hc Hd H0 H1 H2 H3 n H4].
  - left. by exists a.
  - right; left. exists a, b. split; [done|]. unfold two. rewrite andb_true_iff, !between_spec. lia.
  - right; right; left. exists a, b, c. split; [done|].
    unfold three. rewrite andb_true_iff, !orb_true_iff, !andb_true_iff, !between_spec. unfold n in *. lia.
  - right; right; right. exists a, b, c, d. split; [done|].
    unfold four. rewrite !andb_true_iff, !orb_true_iff, !andb_true_iff, !between_spec. unfold n in *. lia.
Qed.
Lemma two_high a b : two a b = true -> (byte a <? 128)%N = false.
Proof. unfold two. rewrite andb_true_iff, !between_spec, N.ltb_ge. unfold byte. lia. Qed.
Lemma three_high a b c : three a b c = true -> (byte a <? 128)%N = false /\ forall x, two a x = false.
Proof.
  unfold three, two. rewrite andb_true_iff, !orb_true_iff, !andb_true_iff, !between_spec, N.ltb_ge. unfold byte. intros H. split; [lia|].
  intros x. apply andb_false_iff. left. apply not_true_is_false. rewrite between_spec. lia.
Qed.
Lemma four_high a b c d : four a b c d = true -> (byte a <? 128)%N = false /\ forall x y, two a x = false /\ three a x y = false.
Proof.
  unfold four. rewrite !andb_true_iff, !orb_true_iff, !andb_true_iff, !between_spec, N.ltb_ge. intros H. split; [unfold byte; lia|].
  intros x y. split; apply not_true_is_false; unfold two, three; rewrite andb_true_iff, ?orb_true_iff, ?andb_true_iff, !between_spec; lia.
Qed.

(** ** Strings *)
Lemma unquote_unit h1 h2 h3 h4 r m t :
  unit4 (String h1 (String h2 (String h3 (String h4 r)))) = Some (m, t) -> (m < 55296)%N ->
  unquote (String (char 92) (String "u" (String h1 (String h2 (String h3 (String h4 r)))))) = prefix (utf8_of m) (unquote r).
Proof.
  intros E L. cbn [unquote]. change (byte (char 92) =? 34)%N with false. change (byte (char 92) =? 92)%N with true.
  change (byte "u" =? 117)%N with true. cbn iota. rewrite E. cbv beta iota. clear E.
  assert (L' : (55296 <=? m)%N = false) by (apply N.leb_gt; lia).
  destruct r as [|p [|q [|k1 [|k2 [|k3 [|k4 r4]]]]]]; try reflexivity.
  destruct (unit4 _) as [[? ?]|]; [|reflexivity]. rewrite L'. reflexivity.
Qed.
Lemma unquote_escape a t : (byte a < 128)%N -> unquote (escape a +:+ t) = prefix (String a "") (unquote t).
Proof.
  destruct a as [[] [] [] [] [] [] [] []]; intros H; vm_compute in H; try discriminate H; clear H;
    first [ reflexivity
          | match goal with |- unquote (?e +:+ t) = _ => let e' := eval vm_compute in e in change e with e' end;
            etransitivity; [eapply unquote_unit; [reflexivity|reflexivity]|reflexivity] ].
Qed.

Lemma escaped_low a s : (byte a < 128)%N -> escaped (String a s) = escape a +:+ escaped s.
Proof. intros H. cbn [escaped]. apply N.ltb_lt in H. rewrite H. reflexivity. Qed.
Lemma escaped_two a b s : two a b = true -> escaped (String a (String b s)) = String a (String b (escaped s)).
Proof. intros H. cbn [escaped]. rewrite (two_high a b H), H. reflexivity. Qed.
Lemma escaped_three a b c s : three a b c = true -> escaped (String a (String b (String c s))) =
  (if (byte a =? 226) && (byte b =? 128) && (byte c / 2 =? 84) then "\u202" +:+ String (hexchar (byte c mod 16)) ""
   else String a (String b (String c "")))%N +:+ escaped s.
Proof. intros H. destruct (three_high a b c H) as [E1 E2]. cbn [escaped]. rewrite E1, E2, H. reflexivity. Qed.
Lemma escaped_four a b c d s : four a b c d = true ->
  escaped (String a (String b (String c (String d s)))) = String a (String b (String c (String d (escaped s)))).
Proof. intros H. destruct (four_high a b c d H) as [E1 E2]. destruct (E2 b c) as [E3 E4]. cbn [escaped]. rewrite E1, E3, E4, H. reflexivity. Qed.

Lemma high_bytes a : (byte a <? 128)%N = false -> (byte a =? 34)%N = false /\ (byte a =? 92)%N = false /\ (byte a <? 32)%N = false.
Proof. rewrite N.ltb_ge. intros H. rewrite !N.eqb_neq, N.ltb_ge. lia. Qed.
Lemma unquote_two a b t : two a b = true -> unquote (String a (String b t)) = prefix (String a (String b "")) (unquote t).
Proof.
  intros H. pose proof (two_high a b H) as E. destruct (high_bytes a E) as (E1 & E2 & E3). cbn [unquote]. rewrite E1, E2, E3, E, H. reflexivity.
Qed.
Lemma unquote_three a b c t : three a b c = true -> unquote (String a (String b (String c t))) = prefix (String a (String b (String c ""))) (unquote t).
Proof.
  intros H. destruct (three_high a b c H) as [E F]. destruct (high_bytes a E) as (E1 & E2 & E3). cbn [unquote]. rewrite E1, E2, E3, E, F, H. reflexivity.
Qed.
Lemma unquote_four a b c d t : four a b c d = true ->
  unquote (String a (String b (String c (String d t)))) = prefix (String a (String b (String c (String d "")))) (unquote t).
Proof.
  intros H. destruct (four_high a b c d H) as [E F]. destruct (F b c) as [F1 F2]. destruct (high_bytes a E) as (E1 & E2 & E3).
  cbn [unquote]. rewrite E1, E2, E3, E, F1, F2, H. reflexivity.
Qed.
Lemma unquote_line a b c t : ((byte a =? 226) && (byte b =? 128) && (byte c / 2 =? 84) = true)%N ->
  unquote (("\u202" +:+ String (hexchar (byte c mod 16)) "") +:+ t) = prefix (String a (String b (String c ""))) (unquote t).
Proof.
  rewrite !andb_true_iff, !N.eqb_eq. intros [[Ha Hb] Hc].
  assert (Ea : a = char 226) by (rewrite <- Ha; symmetry; apply ascii_N_embedding).
  assert (Eb : b = char 128) by (rewrite <- Hb; symmetry; apply ascii_N_embedding).
  assert (Ec : c = char 168 \/ c = char 169).
  { pose proof (N.div_mod (byte c) 2 ltac:(lia)) as E. rewrite Hc in E. pose proof (N.mod_lt (byte c) 2 ltac:(lia)) as M. clear Hc.
    set (m := (byte c mod 2)%N) in *. clearbody m.
    assert (H' : (byte c = 168 \/ byte c = 169)%N) by lia. destruct H' as [H'|H']; [left|right]; rewrite <- H'; symmetry; apply ascii_N_embedding. }
  rewrite Ea, Eb. destruct Ec as [->| ->].
  - match goal with |- unquote (?e +:+ t) = _ => let e' := eval vm_compute in e in change e with e' end.
    etransitivity; [eapply unquote_unit; [reflexivity|reflexivity]|reflexivity].
  - match goal with |- unquote (?e +:+ t) = _ => let e' := eval vm_compute in e in change e with e' end.
    etransitivity; [eapply unquote_unit; [reflexivity|reflexivity]|reflexivity].
Qed.
Lemma unquote_bad t : unquote ("\ufffd" +:+ t) = prefix replacement (unquote t).
Proof.
  change ("\ufffd" +:+ t) with (String (char 92) (String "u" (String "f" (String "f" (String "f" (String "d" t)))))).
  cbn [unquote]. change (byte (char 92) =? 34)%N with false. change (byte (char 92) =? 92)%N with true.
  change (byte "u" =? 117)%N with true. cbn iota. 
  change (unit4 (String "f" (String "f" (String "f" (String "d" t))))) with (Some (65533%N, t)). cbv beta iota.
  change (utf8_of 65533) with replacement.
  destruct t as [|p [|q [|k1 [|k2 [|k3 [|k4 r4]]]]]]; try reflexivity.
  destruct (unit4 (String k1 (String k2 (String k3 (String k4 ""))))) as [[? ?]|]; reflexivity.
Qed.

(** What comes next in a string: a sequence, or a byte that begins none. *)
Lemma heads s : s = "" \/ (exists p r w, s = p +:+ r /\ sequence p /\ escaped s = w +:+ escaped r /\ forall t, unquote (w +:+ t) = prefix p (unquote t)) \/
  (exists a r, s = String a r /\ (forall p u, sequence p -> String a r <> p +:+ u) /\ escaped s = "\ufffd" +:+ escaped r).
Proof.
  destruct s as [|a r1]; [by left|right].
  destruct (byte a <? 128)%N eqn:Ea.
  { left. apply N.ltb_lt in Ea. exists (String a ""), r1, (escape a). split; [done|]. split; [|split; [by apply escaped_low|intros; by apply unquote_escape]].
    exists (N_of_ascii a). by constructor. }
  assert (Hbad : (forall b r2, r1 = String b r2 -> two a b = false) -> (forall b c r3, r1 = String b (String c r3) -> three a b c = false) ->
    (forall b c d r4, r1 = String b (String c (String d r4)) -> four a b c d = false) -> forall p u, sequence p -> String a r1 <> p +:+ u).
  { intros H2 H3 H4 p u Hp E. destruct (sequence_cases p Hp) as [(a' & -> & L)|[(a' & b & -> & L)|[(a' & b & c & -> & L)|(a' & b & c & d & -> & L)]]].
    - injection E as -> _. apply N.ltb_lt in L. congruence.
    - rewrite !append_cons in E. injection E as -> E. by rewrite (H2 b u) in L.
    - rewrite !append_cons in E. injection E as -> E. by rewrite (H3 b c u) in L.
    - rewrite !append_cons in E. injection E as -> E. by rewrite (H4 b c d u) in L. }
  destruct r1 as [|b r2].
  { right. exists a, "". split; [done|]. split; [by apply Hbad|]. cbn [escaped]. rewrite Ea. reflexivity. }
  destruct (two a b) eqn:E2.
  { left. exists (String a (String b "")), r2, (String a (String b "")). split; [done|]. split; [by apply two_sequence|].
    split; [by apply escaped_two|]. intros t. by apply (unquote_two a b t). }
  destruct r2 as [|c r3].
  { right. exists a, (String b ""). split; [done|]. split; [apply Hbad; congruence|]. cbn [escaped]. rewrite Ea, E2. reflexivity. }
  destruct (three a b c) eqn:E3.
  { left. eexists (String a (String b (String c ""))), r3, _. split; [done|]. split; [by apply three_sequence|].
    split; [by apply escaped_three|]. intros t.
    destruct ((byte a =? 226) && (byte b =? 128) && (byte c / 2 =? 84))%N eqn:E; [by apply unquote_line|by apply (unquote_three a b c t)]. }
  destruct r3 as [|d r4].
  { right. exists a, (String b (String c "")). split; [done|]. split; [apply Hbad; congruence|]. cbn [escaped]. rewrite Ea, E2, E3. reflexivity. }
  destruct (four a b c d) eqn:E4.
  { left. eexists (String a (String b (String c (String d "")))), r4, (String a (String b (String c (String d "")))). split; [done|].
    split; [by apply four_sequence|]. split; [by apply escaped_four|]. intros t. by apply (unquote_four a b c d t). }
  right. exists a, (String b (String c (String d r4))). split; [done|]. split; [apply Hbad; congruence|].
  cbn [escaped]. rewrite Ea, E2, E3, E4. reflexivity.
Qed.
Lemma sequence_length p : sequence p -> (0 < String.length p)%nat.
Proof. intros [n []]; cbn; lia. Qed.
Lemma length_app s t : String.length (s +:+ t) = (String.length s + String.length t)%nat.
Proof. induction s; [done|]. rewrite append_cons. cbn. lia. Qed.

Lemma quote_back s : exists s', repairs s s' /\ forall t, unquote (escaped s +:+ String (char 34) t) = Some (s', t).
Proof.
  remember (String.length s) as n eqn:En. revert s En. induction n as [n IH] using lt_wf_ind. intros s ->.
  destruct (heads s) as [-> |[(p & r & w & E & Hp & E2 & Hw)|(a & r & E & Hb & E2)]].
  - exists "". split; [constructor|done].
  - destruct (IH (String.length r)) with (s := r) as (s' & Hr & Hs); [|done|].
    { rewrite E, length_app. pose proof (sequence_length p Hp). lia. }
    exists (p +:+ s'). split; [rewrite E; by apply repairs_sequence|].
    intros t. rewrite E2, append_assoc, Hw, Hs. reflexivity.
  - destruct (IH (String.length r)) with (s := r) as (s' & Hr & Hs); [rewrite E; cbn; lia|done|].
    exists (replacement +:+ s'). split; [rewrite E; by apply repairs_byte|].
    intros t. rewrite E2, append_assoc, unquote_bad, Hs. reflexivity.
Qed.

(** Well-formed strings are not changed, others are. *)
Lemma sequence_prefix p q r u : sequence p -> sequence q -> p +:+ r = q +:+ u -> p = q /\ r = u.
Proof.
  intros Hp Hq E.
  destruct (sequence_cases p Hp) as [(a & -> & L)|[(a & b & -> & L)|[(a & b & c & -> & L)|(a & b & c & d & -> & L)]]];
  destruct (sequence_cases q Hq) as [(a' & -> & L')|[(a' & b' & -> & L')|[(a' & b' & c' & -> & L')|(a' & b' & c' & d' & -> & L')]]];
  rewrite ?append_cons in E; change ("" +:+ r) with r in E; change ("" +:+ u) with u in E; injection E; intros; subst; try (split; reflexivity); exfalso; clear E;
  repeat match goal with
  | H : (byte ?a < 128)%N |- _ => apply N.ltb_lt in H
  | H : two ?a ?b = true |- _ => pose proof (two_high a b H); revert H
  | H : three ?a ?b ?c = true |- _ => let X := fresh in pose proof (three_high a b c H) as [? X]; pose proof (X b); revert H
  | H : four ?a ?b ?c ?d = true |- _ => let X := fresh in pose proof (four_high a b c d H) as [? X]; pose proof (X b c); revert H
  end; intros; try congruence; intuition congruence.
Qed.
Lemma repairs_utf8 s s' : repairs s s' -> utf8 s -> s' = s.
Proof.
  induction 1 as [|p s s' Hp H IH|a s s' Hb H IH]; intros U; [done| |].
  - f_equal. apply IH. inversion U as [E|q u Hq Hu E]; [|].
    + pose proof (sequence_length p Hp). apply (f_equal String.length) in E. rewrite length_app in E. cbn in E. lia.
    + destruct (sequence_prefix q p u s) as [-> ->]; done.
  - inversion U as [|q u Hq Hu E]. by destruct (Hb q u Hq).
Qed.
Lemma repairs_same s s' : repairs s s' -> s' = s -> utf8 s.
Proof.
  induction 1 as [|p s s' Hp H IH|a s s' Hb H IH]; intros E; [constructor| |].
  - apply append_inj in E. constructor; auto.
  - exfalso. apply (Hb replacement s'); [|done]. exists 65533%N. apply (encodes3 _ _ _ 15 63 61); first [reflexivity|lia].
Qed.

(** ** Numbers *)
Lemma span_app p x r : Forall (fun a => p a = true) (list_ascii_of_string x) -> match r with String a _ => p a = false | "" => True end ->
  span p (x +:+ r) = (x, r).
Proof.
  intros H Hr. induction x as [|a x IH].
  - change ("" +:+ r) with r. destruct r as [|b r]; [done|]. cbn. by rewrite Hr.
  - rewrite append_cons. cbn in *. inversion H as [|? ? Ha Hx]; subst. rewrite Ha, (IH Hx). reflexivity.
Qed.
Lemma uint_chars d : Forall (fun a => digit a = true) (list_ascii_of_string (NilZero.string_of_uint d)).
Proof.
  assert (H : forall d, Forall (fun a => digit a = true) (list_ascii_of_string (NilEmpty.string_of_uint d))).
  { clear d. induction d; cbn; [by apply Forall_nil_2|..]; (apply Forall_cons_2; [reflexivity|done]). }
  destruct d; try exact (H _). cbn. apply Forall_cons_2; [reflexivity|apply Forall_nil_2].
Qed.
Lemma uint_head d : exists a r, NilZero.string_of_uint d = String a r.
Proof. destruct d; cbn; eauto. Qed.

Lemma chars_app s t : list_ascii_of_string (s +:+ t) = (list_ascii_of_string s ++ list_ascii_of_string t)%list.
Proof. induction s as [|a s IH]; [done|]. rewrite append_cons. cbn. by rewrite IH. Qed.
Lemma existsb_false {A} (p q : A -> bool) l : Forall (fun a => p a = true) l -> (forall a, p a = true -> q a = false) -> existsb q l = false.
Proof. intros H Hq. induction H as [|a l Ha H IH]; [done|]. cbn. by rewrite (Hq a Ha), IH. Qed.
Lemma digit_plain a : digit a = true -> number_char a = true /\ existsb (Ascii.eqb a) (list_ascii_of_string ".eE") = false /\ Ascii.eqb a "-" = false /\ Ascii.eqb a "+" = false.
Proof. intros H. unfold number_char. rewrite H. split; [done|]. destruct a as [[] [] [] [] [] [] [] []]; vm_compute in H; try discriminate H; vm_compute; auto. Qed.
(** An integer is written with digits, a sign at most in front. *)
Lemma int_text z : exists g d, number (Int z) = g +:+ NilZero.string_of_uint d /\ (g = "" \/ g = "-").
Proof. unfold number. destruct (Z.to_int z) as [d|d]; [exists "", d|exists "-", d]; auto. Qed.
Lemma int_plain z : fraction (number (Int z)) = false.
Proof.
  destruct (int_text z) as (g & d & -> & Hg). unfold fraction. rewrite chars_app, existsb_app.
  rewrite (existsb_false digit _ _ (uint_chars d)); [|intros a Ha; by destruct (digit_plain a Ha) as (_ & ? & _)].
  destruct Hg as [-> | ->]; reflexivity.
Qed.
Lemma read_int z : read_number (number (Int z)) = Some (Int z).
Proof.
  assert (I : NilZero.int_of_string (number (Int z)) = Some (Z.to_int z)).
  { unfold number. apply NilZero.isi; destruct z; cbn; try congruence; intros [= E]; by apply (DecimalPos.Unsigned.to_uint_nonnil p). }
  unfold read_number. rewrite int_plain. destruct (String.eqb_spec (number (Int z)) "-0") as [E|_].
  - rewrite E in I. assert (I0 : NilZero.int_of_string "-0" = Some (Decimal.Neg (Decimal.D0 Decimal.Nil))) by reflexivity.
    rewrite I0 in I. injection I as I. rewrite <- (DecimalZ.of_to z), <- I. reflexivity.
  - rewrite I. cbv zeta. rewrite DecimalZ.of_to, String.eqb_refl. reflexivity.
Qed.

Lemma spec_digits d : digits d -> d <> "" /\ Forall (fun a => digit a = true) (list_ascii_of_string d).
Proof.
  intros [N H]. split; [done|]. eapply Forall_impl; [exact H|]. intros a Ha. apply between_spec. exact Ha.
Qed.
Lemma some_digits_app d r : digits d -> match r with String a _ => digit a = false | "" => True end -> some_digits (d +:+ r) = Some r.
Proof.
  intros H Hr. destruct (spec_digits d H) as [N F]. unfold some_digits. rewrite (span_app digit d r F Hr).
  destruct (String.eqb_spec d ""); [done|reflexivity].
Qed.
Lemma exponent_ok e : exponent_part e -> exponent e = true /\ exists a r, e = String a r /\ digit a = false /\ Ascii.eqb a "." = false /\ number_char a = true /\
  existsb (Ascii.eqb a) (list_ascii_of_string ".eE") = true /\ Forall (fun a => number_char a = true) (list_ascii_of_string r).
Proof.
  intros (x & g & d & -> & Hx & Hg & Hd). pose proof (spec_digits d Hd) as [N F]. pose proof (some_digits_app d "" Hd I) as D. rewrite append_nil in D.
  assert (G : match g +:+ d with String c r' => if Ascii.eqb c "+" || Ascii.eqb c "-" then r' else g +:+ d | _ => g +:+ d end = d).
  { apply elem_of_cons in Hg as [->|Hg].
    - change ("" +:+ d) with d. destruct d as [|a d]; [done|]. cbn in F. inversion F as [|? ? Ha _]; subst.
      destruct (digit_plain a Ha) as (_ & _ & -> & ->). reflexivity.
    - apply elem_of_cons in Hg as [->|Hg]; [reflexivity|]. apply elem_of_list_singleton in Hg as ->. reflexivity. }
  assert (Gn : Forall (fun a => number_char a = true) (list_ascii_of_string (g +:+ d))).
  { rewrite chars_app. apply Forall_app. split; [|eapply Forall_impl; [exact F|]; intros a Ha; by apply digit_plain].
    apply elem_of_cons in Hg as [->|Hg]; [apply Forall_nil_2|].
    apply elem_of_cons in Hg as [->|Hg]; [|apply elem_of_list_singleton in Hg as ->]; (apply Forall_cons_2; [reflexivity|apply Forall_nil_2]). }
  destruct Hx as [->| ->].
  - split; [|exists "e"%char, (g +:+ d); auto 10]. change ("e" +:+ g +:+ d) with (String "e" (g +:+ d)). unfold exponent. rewrite G, D. reflexivity.
  - split; [|exists "E"%char, (g +:+ d); auto 10]. change ("E" +:+ g +:+ d) with (String "E" (g +:+ d)). unfold exponent. rewrite G, D. reflexivity.
Qed.
Lemma decimal_ok lit : decimal lit -> fraction lit = true /\ Forall (fun a => number_char a = true) (list_ascii_of_string lit) /\
  exists a r, lit = String a r /\ (digit a || Ascii.eqb a "-") = true.
Proof.
  intros (g & i & f & e & -> & Hg & Hi & Hz & Hf & He & Hn). destruct (spec_digits i Hi) as [Ni Fi].
  assert (Hi0 : exists a r, i = String a r /\ digit a = true).
  { destruct i as [|a i]; [done|]. cbn in Fi. inversion Fi; subst. eauto. }
  (* what follows the integer *)
  assert (Hfe : exists a r, f +:+ e = String a r /\ digit a = false /\ existsb (Ascii.eqb a) (list_ascii_of_string ".eE") = true /\
    Forall (fun a => number_char a = true) (list_ascii_of_string (f +:+ e)) /\
    (if Ascii.eqb a "." then match some_digits r with Some x => exponent x | None => false end else exponent (f +:+ e)) = true).
  { destruct Hf as [->|(d & -> & Hd)].
    - destruct He as [->|He]; [by destruct Hn|]. change ("" +:+ e) with e.
      destruct (exponent_ok e He) as (X & a & r & -> & H1 & H2 & H3 & H4 & H5). exists a, r. rewrite H2. split; [done|]. split; [done|]. split; [done|]. split; [|done].
      cbn. by apply Forall_cons_2.
    - destruct (spec_digits d Hd) as [_ Fd].
      assert (Fd' : Forall (fun a => number_char a = true) (list_ascii_of_string d)) by (eapply Forall_impl; [exact Fd|]; intros a Ha; by apply digit_plain).
      exists "."%char, (d +:+ e). rewrite append_assoc. split; [done|]. split; [done|]. split; [done|].
      change ("." +:+ d +:+ e) with (String "." (d +:+ e)). destruct He as [->|He].
      + rewrite append_nil. split; [cbn; by apply Forall_cons_2|]. cbn iota.
        pose proof (some_digits_app d "" Hd I) as D. rewrite append_nil in D. change (Ascii.eqb "." ".") with true. cbn iota. rewrite D. reflexivity.
      + destruct (exponent_ok e He) as (X & a & r & -> & H1 & H2 & H3 & H4 & H5). split.
        * cbn [list_ascii_of_string]. apply Forall_cons_2; [reflexivity|]. rewrite chars_app. apply Forall_app. split; [done|]. cbn. by apply Forall_cons_2.
        * change (Ascii.eqb "." ".") with true. cbn iota. rewrite (some_digits_app d _ Hd); [exact X|exact H1]. }
  destruct Hfe as (a & r & Efe & Da & Ea & Fn & X). destruct Hi0 as (b & i' & Ei & Db). destruct (digit_plain b Db) as (Nb & _ & Mb & _).
  assert (Hstrip : match g +:+ i +:+ f +:+ e with String c r => if Ascii.eqb c "-" then r else g +:+ i +:+ f +:+ e | _ => g +:+ i +:+ f +:+ e end = i +:+ f +:+ e).
  { apply elem_of_cons in Hg as [->|Hg].
    - change ("" +:+ i +:+ f +:+ e) with (i +:+ f +:+ e). rewrite Ei, append_cons. rewrite Mb. reflexivity.
    - apply elem_of_list_singleton in Hg as ->. reflexivity. }
  split; [|split].
  - unfold fraction. rewrite Hstrip. rewrite (span_app digit i (f +:+ e) Fi); [|by rewrite Efe].
    rewrite !chars_app, !existsb_app. 
    assert (E1 : existsb (fun a => existsb (Ascii.eqb a) (list_ascii_of_string ".eE")) (list_ascii_of_string f) ||
                 existsb (fun a => existsb (Ascii.eqb a) (list_ascii_of_string ".eE")) (list_ascii_of_string e) = true).
    { rewrite <- existsb_app, <- chars_app, Efe. cbn [list_ascii_of_string existsb] in Ea |- *. by rewrite Ea. }
    rewrite E1, !orb_true_r. cbn [andb].
    assert (E2 : String.eqb i "" = false) by (by apply String.eqb_neq). rewrite E2.
    assert (E3 : String.eqb i "0" || negb (String.prefix "0" i) = true).
    { destruct Hz as [->|Hz]; [reflexivity|]. apply orb_true_iff. right. rewrite Ei. cbn [String.prefix].
      destruct (ascii_dec "0" b) as [<-|]; [|reflexivity]. exfalso. apply (Hz i'). by rewrite Ei. }
    rewrite E3. cbn [negb andb]. rewrite Efe in *. exact X.
  - rewrite !chars_app in *. apply Forall_app. split; [|apply Forall_app; split; [eapply Forall_impl; [exact Fi|]; intros c Hc; by apply digit_plain|done]].
    apply elem_of_cons in Hg as [->|Hg]; [apply Forall_nil_2|]. apply elem_of_list_singleton in Hg as ->. apply Forall_cons_2; [reflexivity|apply Forall_nil_2].
  - apply elem_of_cons in Hg as [->|Hg].
    + exists b, (i' +:+ f +:+ e). rewrite Ei. split; [done|]. by rewrite Db.
    + apply elem_of_list_singleton in Hg as ->. exists "-"%char, (i +:+ f +:+ e). done.
Qed.
Lemma int_chars z : Forall (fun a => number_char a = true) (list_ascii_of_string (number (Int z))) /\
  exists a r, number (Int z) = String a r /\ (digit a || Ascii.eqb a "-") = true.
Proof.
  destruct (int_text z) as (g & d & -> & Hg). pose proof (uint_chars d) as F. destruct (uint_head d) as (a & r & E). split.
  - rewrite chars_app. apply Forall_app. split; [|eapply Forall_impl; [exact F|]; intros c Hc; by apply digit_plain].
    destruct Hg as [->| ->]; [apply Forall_nil_2|]. apply Forall_cons_2; [reflexivity|apply Forall_nil_2].
  - destruct Hg as [->| ->].
    + exists a, r. split; [exact E|]. rewrite E in F. cbn in F. inversion F as [|? ? Ha _]; subst. by rewrite Ha.
    + eexists _, _. split; [reflexivity|done].
Qed.

(** ** Values *)
Definition stop (r : string) : Prop := match r with String a _ => number_char a = false | "" => True end.
Lemma print_head j : sound (fun _ => True) j -> exists a s, print j = String a s /\ a ∈ list_ascii_of_string "ntf-0123456789""[{".
Proof.
  intros [|b|z|s H|s _|l _|kvs _].
  - eexists _, _; (split; [reflexivity|apply (bool_decide_unpack _); vm_compute; exact I]).
  - destruct b; eexists _, _; (split; [reflexivity|apply (bool_decide_unpack _); vm_compute; exact I]).
  - destruct (int_chars z) as (_ & a & r & E & H). exists a, r. split; [exact E|].
    destruct a as [[] [] [] [] [] [] [] []]; vm_compute in H; try discriminate H; apply (bool_decide_unpack _); vm_compute; exact I.
  - destruct (decimal_ok s H) as (_ & _ & a & r & E & H'). exists a, r. split; [exact E|].
    destruct a as [[] [] [] [] [] [] [] []]; vm_compute in H'; try discriminate H'; apply (bool_decide_unpack _); vm_compute; exact I.
  - eexists _, _; (split; [reflexivity|apply (bool_decide_unpack _); vm_compute; exact I]).
  - eexists _, _; (split; [reflexivity|apply (bool_decide_unpack _); vm_compute; exact I]).
  - eexists _, _; (split; [reflexivity|apply (bool_decide_unpack _); vm_compute; exact I]).
Qed.
Lemma value_number n x r a y : x = String a y -> (digit a || Ascii.eqb a "-") = true -> Forall (fun a => number_char a = true) (list_ascii_of_string x) ->
  stop r -> value n (x +:+ r) = (y ← read_number x; Some (JNum y, r)).
Proof.
  intros E Ha F Hr. pose proof (span_app number_char x r F Hr) as S. rewrite E, append_cons in S. rewrite E, append_cons.
  assert (K : skip (String a (y +:+ r)) = String a (y +:+ r) /\ Ascii.eqb a """" = false /\ Ascii.eqb a "[" = false /\ Ascii.eqb a "{" = false).
  { destruct a as [[] [] [] [] [] [] [] []]; vm_compute in Ha; try discriminate Ha; auto. }
  destruct K as (K0 & K1 & K2 & K3). destruct n; unfold value; fold value; rewrite K0, K1, K2, K3, Ha, S; reflexivity.
Qed.

Section loops.
  Variable read : string -> option (json * string).
  Variable ok : json -> bool.
  Definition reads (x : json) : Prop :=
    exists x', repaired x x' /\ forall r, stop r -> read (print x +:+ r) = if ok x then Some (x', r) else None.
  Lemma elements_back l : Forall reads l -> l <> [] -> exists l', Forall2 repaired l l' /\
    forall m r, (List.length l <= m)%nat -> array_rest read m (String.concat "," (map print l) +:+ String "]" r) = if forallb ok l then Some (l', r) else None.
  Proof.
    intros H. induction H as [|x l (x' & Rx & Hx) Hl IH]; [done|]. intros _. destruct l as [|y l].
    - exists [x']. split; [by apply Forall2_cons_2; [|apply Forall2_nil_2]|]. intros [|m] r Hm; [cbn in Hm; lia|].
      cbn [map String.concat array_rest]. rewrite Hx; [|reflexivity]. cbn [forallb]. destruct (ok x); reflexivity.
    - destruct (IH ltac:(done)) as (l' & Rl & El). exists (x' :: l'). split; [by apply Forall2_cons_2|]. intros [|m] r Hm; [cbn in Hm; lia|].
      change (String.concat "," (map print (x :: y :: l))) with (print x +:+ "," +:+ String.concat "," (map print (y :: l))).
      rewrite !append_assoc. cbn [array_rest]. rewrite Hx; [|reflexivity].
      change (forallb ok (x :: y :: l)) with (ok x && forallb ok (y :: l)). destruct (ok x); [|reflexivity]. cbn [andb].
      change ("," +:+ String.concat "," (map print (y :: l)) +:+ String "]" r) with (String "," (String.concat "," (map print (y :: l)) +:+ String "]" r)).
      cbn [mbind option_bind]. change (skip (String "," ?s)) with (String "," s). cbn iota.
      rewrite El; [|cbn in Hm |- *; lia]. by destruct (forallb ok (y :: l)).
  Qed.
  Definition member (kv : string * json) : string := quoted kv.1 +:+ ":" +:+ print kv.2.
  Lemma members_back l : Forall (fun kv => reads kv.2) l -> l <> [] -> exists l', Forall2 (fun kv kv' => repairs kv.1 kv'.1 /\ repaired kv.2 kv'.2) l l' /\
    forall m r, (List.length l <= m)%nat ->
    object_rest read m (String.concat "," (map member l) +:+ String "}" r) = if forallb (fun kv => ok kv.2) l then Some (l', r) else None.
  Proof.
    assert (Hq : forall k x x', (forall r, stop r -> read (print x +:+ r) = if ok x then Some (x', r) else None) ->
      exists k', repairs k k' /\ forall m r, stop r -> object_rest read (S m) (member (k, x) +:+ r) =
        if ok x then match r with
                     | String "," r' => '(l, r) ← object_rest read m r'; Some ((k', x') :: l, r)
                     | String "}" r' => Some ([(k', x')], r')
                     | _ => match skip r with
                            | String "," r' => '(l, r) ← object_rest read m r'; Some ((k', x') :: l, r)
                            | String "}" r' => Some ([(k', x')], r')
                            | _ => None
                            end
                     end
        else None).
    { intros k x x' Hx. destruct (quote_back k) as (k' & Rk & Hk). exists k'. split; [done|]. intros m r Hr.
      unfold member, quoted. cbn [fst snd]. rewrite !append_cons, !append_assoc. cbn [object_rest].
      change (skip (String (char 34) ?s)) with (String """" s). cbn iota.
      rewrite append_cons. rewrite Hk. cbn [mbind option_bind].
      change (skip ("" +:+ String ":" ("" +:+ print x) +:+ r)) with (String ":" (print x +:+ r)). cbn iota. rewrite (Hx r Hr). destruct (ok x); [|reflexivity]. cbn [mbind option_bind].
      destruct r as [|a r]; [reflexivity|].
      destruct a as [[] [] [] [] [] [] [] []]; reflexivity. }
    intros H. induction H as [|[k x] l (x' & Rx & Hx) Hl IH]; [done|]. intros _. destruct (Hq k x x' Hx) as (k' & Rk & Ek). destruct l as [|y l].
    - exists [(k', x')]. split; [by apply Forall2_cons_2; [|apply Forall2_nil_2]|]. intros [|m] r Hm; [cbn in Hm; lia|].
      change (String.concat "," (map member [(k, x)])) with (member (k, x)). rewrite Ek; [|reflexivity]. cbn [forallb snd]. destruct (ok x); reflexivity.
    - destruct (IH ltac:(done)) as (l' & Rl & El). exists ((k', x') :: l'). split; [by apply Forall2_cons_2|]. intros [|m] r Hm; [cbn in Hm; lia|].
      change (String.concat "," (map member ((k, x) :: y :: l))) with (member (k, x) +:+ "," +:+ String.concat "," (map member (y :: l))).
      rewrite !append_assoc. rewrite Ek; [|reflexivity].
      change (forallb (fun kv : string * json => ok kv.2) ((k, x) :: y :: l)) with (ok x && forallb (fun kv : string * json => ok kv.2) (y :: l)).
      destruct (ok x); [|reflexivity]. cbn [andb].
      change ("," +:+ String.concat "," (map member (y :: l)) +:+ String "}" r) with (String "," (String.concat "," (map member (y :: l)) +:+ String "}" r)).
      cbn iota. rewrite El; [|cbn in Hm |- *; lia]. by destruct (forallb (fun kv : string * json => ok kv.2) (y :: l)).
  Qed.
End loops.

Lemma concat_length l : Forall (fun s : string => s <> "") l -> (List.length l <= String.length (String.concat "," l))%nat.
Proof.
  intros H. induction H as [|x l Hx H IH]; [cbn; lia|]. assert (1 <= String.length x)%nat by (destruct x; [done|cbn; lia]).
  destruct l as [|y l]; [cbn in *; lia|]. change (String.concat "," (x :: y :: l)) with (x +:+ "," +:+ String.concat "," (y :: l)).
  rewrite !length_app. cbn [List.length] in *. lia.
Qed.

Fixpoint depth (j : json) : nat :=
  match j with
  | JArr l => S (fold_right Nat.max O (map depth l))
  | JObj kvs => S (fold_right Nat.max O (map (fun kv => depth (snd kv)) kvs))
  | _ => O
  end.
Lemma max_forall {A} (f : A -> nat) n l : (fold_right Nat.max O (map f l) <=? n)%nat = forallb (fun a => f a <=? n)%nat l.
Proof.
  induction l as [|a l IH]; [done|]. cbn [map fold_right forallb]. rewrite <- IH. apply eq_true_iff_eq. rewrite andb_true_iff, !Nat.leb_le. lia.
Qed.
Lemma nested_depth j : forall n, nested n j <-> (depth j <= n)%nat.
Proof.
  induction j as [|b|x|s|l IH|kvs IH] using json_induction; intros n; try (split; [cbn; lia|constructor]).
  - destruct n as [|n]; [split; [inversion 1|cbn; lia]|]. cbn [depth]. rewrite <- Nat.succ_le_mono, <- Nat.leb_le, max_forall, forallb_forall.
    rewrite Forall_forall in IH. split.
    + inversion 1 as [| | | |? ? F|]; subst. rewrite Forall_forall in F. intros x Hx. apply elem_of_list_In in Hx. apply Nat.leb_le, IH; auto.
    + intros F. constructor. apply Forall_forall. intros x Hx. apply IH; [done|]. apply Nat.leb_le, F. by apply elem_of_list_In.
  - destruct n as [|n]; [split; [inversion 1|cbn; lia]|]. cbn [depth]. rewrite <- Nat.succ_le_mono, <- Nat.leb_le, max_forall, forallb_forall.
    rewrite Forall_forall in IH. split.
    + inversion 1 as [| | | | |? ? F]; subst. rewrite Forall_forall in F. intros x Hx. apply elem_of_list_In in Hx. apply Nat.leb_le, IH; auto.
    + intros F. constructor. apply Forall_forall. intros x Hx. apply IH; [done|]. apply Nat.leb_le, (F x). by apply elem_of_list_In.
Qed.

Lemma repaired_total j : exists j', repaired j j'.
Proof.
  induction j as [|b|x|s|l IH|kvs IH] using json_induction; try (eexists; by constructor).
  - destruct (quote_back s) as (s' & R & _). exists (JStr s'). by constructor.
  - assert (H : exists l', Forall2 repaired l l').
    { induction IH as [|x l [x' R] _ (l' & F)]; [by exists []|]. exists (x' :: l'). by apply Forall2_cons_2. }
    destruct H as [l' F]. exists (JArr l'). by constructor.
  - assert (H : exists l', Forall2 (fun kv kv' : string * json => repairs kv.1 kv'.1 /\ repaired kv.2 kv'.2) kvs l').
    { induction IH as [|[k x] l [x' R] _ (l' & F)]; [by exists []|]. destruct (quote_back k) as (k' & Rk & _). exists ((k', x') :: l'). by apply Forall2_cons_2. }
    destruct H as [l' F]. exists (JObj l'). by constructor.
Qed.
(** What is written is read, unless it is too deep. *)
Lemma value_back j : sound (fun _ => True) j -> forall n, reads (value n) (fun x => depth x <=? n)%nat j.
Proof.
  induction j as [|b|x|s|l IH|kvs IH] using json_induction; intros H n.
  - exists JNull. split; [constructor|]. intros r _. by destruct n.
  - exists (JBool b). split; [constructor|]. intros r _. by destruct n, b.
  - exists (JNum x). split; [constructor|]. intros r Hr. cbn [print depth]. change (0 <=? n)%nat with true. cbn iota. destruct x as [z|s].
    + destruct (int_chars z) as (F & a & y & E & Ha). rewrite (value_number n _ r a y E Ha F Hr), read_int. reflexivity.
    + inversion H as [| | |? Hd| | |]; subst. destruct (decimal_ok s Hd) as (X & F & a & y & E & Ha).
      change (number (Frac s)) with s. rewrite (value_number n s r a y E Ha F Hr). unfold read_number. rewrite X. reflexivity.
  - destruct (quote_back s) as (s' & Rs & Hs). exists (JStr s'). split; [by constructor|]. intros r _. cbn [print depth]. change (0 <=? n)%nat with true.
    unfold quoted. rewrite append_cons, append_assoc. assert (E : value n (String (char 34) (escaped s +:+ String (char 34) "" +:+ r)) =
      ('(x, r) ← unquote (escaped s +:+ String (char 34) "" +:+ r); Some (JStr x, r))) by (by destruct n).
    rewrite E, append_cons. rewrite Hs. reflexivity.
  - assert (Hs : Forall (sound (fun _ => True)) l) by (by inversion H). clear H.
    destruct n as [|n].
    { destruct (repaired_total (JArr l)) as [j' R]. exists j'. split; [exact R|]. intros r _. reflexivity. }
    destruct l as [|x l].
    { exists (JArr []). split; [do 2 constructor|]. intros r _. reflexivity. }
    assert (Hr : Forall (reads (value n) (fun x => depth x <=? n)%nat) (x :: l)).
    { rewrite Forall_forall in *. intros y Hy. apply IH; auto. }
    destruct (elements_back (value n) (fun x => depth x <=? n)%nat (x :: l) Hr) as (l' & Rl & El); [done|].
    exists (JArr l'). split; [by constructor|]. intros r _.
    cbn [print]. rewrite !append_assoc. set (s := String.concat "," (map print (x :: l))) in *.
    destruct (print_head x) as (a & y & Ea & Ha); [by inversion Hs|].
    assert (E : value (S n) ("[" +:+ s +:+ "]" +:+ r) = ('(l, r) ← array_rest (value n) (String.length (s +:+ "]" +:+ r)) (s +:+ "]" +:+ r); Some (JArr l, r))).
    { assert (Es : exists y', s = String a y').
      { unfold s. destruct l as [|x2 l]; cbn [map String.concat]; rewrite Ea; [by eexists|rewrite append_cons; by eexists]. }
      destruct Es as [y' ->]. clear -Ha.
      repeat (apply elem_of_cons in Ha as [->|Ha]; [reflexivity|]). by apply elem_of_nil in Ha. }
    rewrite E. change ("]" +:+ r) with (String "]" r). rewrite El.
    + cbn [depth]. change (S ?a <=? S n)%nat with (a <=? n)%nat. rewrite max_forall. by destruct (forallb _ (x :: l)).
    + rewrite length_app. pose proof (concat_length (map print (x :: l))) as L. rewrite map_length in L. fold s in L. cbn [String.length]. 
      enough (List.length (x :: l) <= String.length s)%nat by lia. apply L. apply Forall_forall. intros z Hz.
      apply elem_of_list_In, in_map_iff in Hz as (w & <- & Hw). apply elem_of_list_In in Hw. rewrite Forall_forall in Hs.
      destruct (print_head w (Hs w Hw)) as (? & ? & -> & _). done.
  - assert (Hs : Forall (fun kv : string * json => sound (fun _ => True) kv.2) kvs).
    { inversion H as [| | | | | |? F]; subst. eapply Forall_impl; [exact F|]. intros ? [_ ?]. done. }
    clear H. destruct n as [|n].
    { destruct (repaired_total (JObj kvs)) as [j' R]. exists j'. split; [exact R|]. intros r _. reflexivity. }
    destruct kvs as [|x l].
    { exists (JObj []). split; [do 2 constructor|]. intros r _. reflexivity. }
    assert (Hr : Forall (fun kv : string * json => reads (value n) (fun x => depth x <=? n)%nat kv.2) (x :: l)).
    { rewrite Forall_forall in *. intros y Hy. apply IH; auto. }
    destruct (members_back (value n) (fun x => depth x <=? n)%nat (x :: l) Hr) as (l' & Rl & El); [done|].
    exists (JObj l'). split; [by constructor|]. intros r _.
    cbn [print]. rewrite !append_assoc. change (map (fun kv : string * json => quoted kv.1 +:+ ":" +:+ print kv.2) (x :: l)) with (map member (x :: l)).
    set (s := String.concat "," (map member (x :: l))) in *.
    assert (E : value (S n) ("{" +:+ s +:+ "}" +:+ r) = ('(l, r) ← object_rest (value n) (String.length (s +:+ "}" +:+ r)) (s +:+ "}" +:+ r); Some (JObj l, r))).
    { assert (Es : exists y', s = String """" y') by (unfold s; destruct l as [|x2 l]; by eexists).
      destruct Es as [y' ->]. reflexivity. }
    rewrite E. change ("}" +:+ r) with (String "}" r). rewrite El.
    + cbn [depth]. change (S ?a <=? S n)%nat with (a <=? n)%nat. rewrite max_forall. by destruct (forallb _ (x :: l)).
    + rewrite length_app. pose proof (concat_length (map member (x :: l))) as L. rewrite map_length in L. fold s in L. cbn [String.length].
      enough (List.length (x :: l) <= String.length s)%nat by lia. apply L. apply Forall_forall. intros z Hz.
      apply elem_of_list_In, in_map_iff in Hz as (w & <- & Hw). done.
Qed.
Lemma parse_back j : sound (fun _ => True) j -> exists j', repaired j j' /\ parse (print j) = if (depth j <=? max_depth)%nat then Some j' else None.
Proof.
  intros H. destruct (value_back j H max_depth) as (j' & R & E). exists j'. split; [exact R|]. unfold parse.
  specialize (E "" I). rewrite append_nil in E. rewrite E. by destruct (depth j <=? max_depth)%nat.
Qed.
Lemma repaired_utf8 j : forall j', repaired j j' -> sound utf8 j -> j' = j.
Proof.
  induction j as [|b|x|s|l IH|kvs IH] using json_induction; intros j' R H; inversion R; inversion H; subst; try done.
  - f_equal. by apply repairs_utf8.
  - f_equal. match goal with F : Forall2 repaired l ?l', S : Forall _ l |- _ => revert IH S; clear -F; induction F as [|x y l l' Hx F IHF]; [done|] end.
    intros I S. inversion I; inversion S; subst. f_equal; auto.
  - f_equal. match goal with F : Forall2 _ kvs ?l', S : Forall _ kvs |- _ => revert IH S; clear -F; induction F as [|[k x] [k' y] l l' [Hk Hx] F IHF]; [done|] end.
    intros I S. inversion I; inversion S as [|? ? [? ?] ?]; subst. cbn in *. f_equal; auto. f_equal; [by apply repairs_utf8|auto].
Qed.
Lemma diagonal {A} (R : A -> A -> Prop) l : Forall2 R l l -> Forall (fun x => R x x) l.
Proof. intros F. apply Forall_lookup. intros i x Hx. exact (Forall2_lookup_lr _ _ _ _ _ _ F Hx Hx). Qed.
Lemma repaired_same j : repaired j j -> sound (fun _ => True) j -> sound utf8 j.
Proof.
  induction j as [|b|x|s|l IH|kvs IH] using json_induction; intros R H; inversion R; inversion H; subst; try (by constructor).
  - constructor. by apply (repairs_same s s).
  - constructor. match goal with F : Forall2 _ l l |- _ => apply diagonal in F end. rewrite !Forall_forall in *. auto.
  - constructor. match goal with F : Forall2 _ kvs kvs |- _ => apply diagonal in F; rename F into D end. rewrite Forall_forall in *. intros x Hx.
    destruct (D x Hx) as [Dk Dx]. split; [by apply (repairs_same x.1 x.1)|]. apply IH; auto.
    match goal with S : forall y, y ∈ kvs -> True /\ _ |- _ => by destruct (S x Hx) end.
Qed.
