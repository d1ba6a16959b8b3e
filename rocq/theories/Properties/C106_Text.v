(** C106: what is written as JSON is read as it was.
    Full statement: for every value, the text that json.Marshal writes is read by json.Unmarshal as the same value. That is false of strings that are not
    UTF-8 and of values that are nested more than 10000 deep; C106_back says that these are the only ones. *)
From stdpp Require Import list strings.
From Coq Require Import ZArith NArith Lia Ascii String.
From Verif.Model Require Import Decoding JsonText.
From Verif.Spec Require Import JsonTextSpec.
From Verif.Proof Require Import DecodingProof JsonTextProof.
Local Open Scope string_scope.

Definition any_string (s : string) : Prop := True.
Definition limit : nat := N.to_nat 10000.
Lemma limit_max : limit = max_depth.
Proof. vm_compute. reflexivity. Qed.

(** Exactly the values whose strings are UTF-8 and that are not nested too deep come back. *)
Theorem C106_back : forall j, sound any_string j -> parse (print j) = Some j <-> sound utf8 j /\ nested limit j.
Proof.
  intros j H. destruct (parse_back j H) as (j' & R & ->). rewrite nested_depth, limit_max.
  destruct (Nat.leb_spec (depth j) max_depth) as [L|L]; split.
  - intros [= ->]. split; [by apply repaired_same|exact L].
  - intros [U _]. f_equal. by apply repaired_utf8.
  - done.
  - intros [_ L']. lia.
Qed.
Print Assumptions C106_back.

(** What is not UTF-8 is read with U+FFFD for every byte that is none of a character; what is too deep is not read. *)
Theorem C106_read : forall j, sound any_string j ->
  (nested limit j -> exists j', parse (print j) = Some j' /\ repaired j j') /\ (~ nested limit j -> parse (print j) = None).
Proof.
  intros j H. destruct (parse_back j H) as (j' & R & E). rewrite nested_depth, limit_max.
  destruct (Nat.leb_spec (depth j) max_depth) as [L|L]; (split; [intros L'|intros L']; try lia); rewrite E.
  - by exists j'.
  - done.
Qed.
Print Assumptions C106_read.

(** Two values of UTF-8 strings never have the same text. *)
Theorem C106_tells : forall j j', sound utf8 j -> sound utf8 j' -> print j = print j' -> j = j'.
Proof.
  intros j j' H H' E.
  assert (W : forall j, sound utf8 j -> sound any_string j).
  { clear. intros j. induction j as [|b|x|s|l IH|kvs IH] using json_induction; intros H; inversion H; subst; try (by constructor).
    - constructor. rewrite Forall_forall in *. auto.
    - constructor. rewrite Forall_forall in *. intros x Hx. split; [done|]. apply IH; [done|]. match goal with F : forall y, y ∈ kvs -> _ |- _ => by destruct (F x Hx) end. }
  set (n := Nat.max (depth j) (depth j')).
  destruct (value_back j (W j H) n) as (k & R & Ek). destruct (value_back j' (W j' H') n) as (k' & R' & Ek').
  specialize (Ek "" I). specialize (Ek' "" I). rewrite E, Ek' in Ek.
  assert (L : (depth j <=? n)%nat = true) by (apply Nat.leb_le; unfold n; lia). assert (L' : (depth j' <=? n)%nat = true) by (apply Nat.leb_le; unfold n; lia).
  rewrite L, L' in Ek. injection Ek as Ek. rewrite <- (repaired_utf8 j k R H), <- (repaired_utf8 j' k' R' H'). by symmetry.
Qed.
Print Assumptions C106_tells.

(** ** Examples *)
(** The characters that are escaped, U+2028 among them. *)
Definition hard : string := "a""\<&>" ++ String "009" (String "010" (String "001" "é€😀")) ++ String "226" (String "128" (String "168" "")).
Lemma low_utf8 a s : (N_of_ascii a < 128)%N -> utf8 s -> utf8 (String a s).
Proof. intros H U. apply (utf8_cons (String a "")); [|exact U]. exists (N_of_ascii a). by constructor. Qed.
Fixpoint is_utf8 (s : string) : bool :=
  match s with
  | "" => true
  | String a r1 =>
      if (byte a <? 128)%N then is_utf8 r1
      else match r1 with
           | String b r2 =>
               if two a b then is_utf8 r2
               else match r2 with
                    | String c r3 =>
                        if three a b c then is_utf8 r3
                        else match r3 with String d r4 => four a b c d && is_utf8 r4 | "" => false end
                    | "" => false
                    end
           | "" => false
           end
  end.
Lemma is_utf8_ok s : is_utf8 s = true -> utf8 s.
Proof.
  remember (String.length s) as n eqn:En. revert s En. induction n as [n IH] using lt_wf_ind. intros s ->.
  destruct s as [|a r1]; [intros _; constructor|]. cbn [is_utf8]. destruct (byte a <? 128)%N eqn:Ea.
  { intros H. apply low_utf8; [by apply N.ltb_lt|]. apply (IH (String.length r1)); [cbn; lia|done|done]. }
  destruct r1 as [|b r2]; [done|]. destruct (two a b) eqn:E2.
  { intros H. apply (utf8_cons (String a (String b ""))); [by apply two_sequence|]. apply (IH (String.length r2)); [cbn; lia|done|done]. }
  destruct r2 as [|c r3]; [done|]. destruct (three a b c) eqn:E3.
  { intros H. apply (utf8_cons (String a (String b (String c "")))); [by apply three_sequence|]. apply (IH (String.length r3)); [cbn; lia|done|done]. }
  destruct r3 as [|d r4]; [done|]. intros [E4 H]%andb_true_iff.
  apply (utf8_cons (String a (String b (String c (String d ""))))); [by apply four_sequence|]. apply (IH (String.length r4)); [cbn; lia|done|done].
Qed.
Definition all_kinds : json :=
  JObj [(hard, JArr [JNull; JBool true; JBool false; JNum (Int (-12)); JNum (Frac "1.5e-7")]); ("", JObj []); ("e", JArr []); ("s", JStr hard)].
Lemma decimal_1 : decimal "1.5e-7".
Proof.
  exists "", "1", ".5", "e-7". split; [done|]. split; [by left|]. split; [split; [done|apply Forall_cons_2; [done|apply Forall_nil_2]]|].
  split; [right; intros r; discriminate|]. split; [right; exists "5"; split; [done|]; split; [done|apply Forall_cons_2; [done|apply Forall_nil_2]]|].
  split; [|intros [? _]; done]. right. exists "e", "-", "7". split; [done|]. split; [by left|].
  split; [apply (bool_decide_unpack _); vm_compute; exact I|]. split; [done|apply Forall_cons_2; [done|apply Forall_nil_2]].
Qed.
Lemma all_kinds_sound (ok : string -> Prop) : ok hard -> ok "" -> ok "e" -> ok "s" -> sound ok all_kinds.
Proof.
  intros H0 H1 H2 H3. constructor. apply Forall_cons_2; [split; [done|]|].
  { constructor. repeat (apply Forall_cons_2; [constructor; try exact decimal_1|]). apply Forall_nil_2. }
  apply Forall_cons_2; [split; [done|constructor; apply Forall_nil_2]|]. apply Forall_cons_2; [split; [done|constructor; apply Forall_nil_2]|].
  apply Forall_cons_2; [split; [done|by constructor]|]. apply Forall_nil_2.
Qed.
Lemma nested_more j n : nested n j -> nested (S n) j.
Proof. rewrite !nested_depth. lia. Qed.
Lemma all_kinds_nested : nested limit all_kinds.
Proof. apply nested_depth. rewrite limit_max. apply Nat.leb_le. vm_compute. reflexivity. Qed.
Lemma all_kinds_utf8 : sound utf8 all_kinds.
Proof. apply all_kinds_sound; apply is_utf8_ok; vm_compute; reflexivity. Qed.
Example C106_back_ex : sound any_string all_kinds /\ sound utf8 all_kinds /\ nested limit all_kinds /\ parse (print all_kinds) = Some all_kinds.
Proof.
  assert (S : sound any_string all_kinds) by (by apply all_kinds_sound). split; [exact S|]. split; [exact all_kinds_utf8|]. split; [exact all_kinds_nested|].
  apply (C106_back _ S). split; [exact all_kinds_utf8|exact all_kinds_nested].
Qed.
Example C106_text_ex : print all_kinds =
  "{""a\""\\\u003c\u0026\u003e\t\n\u0001é€😀\u2028"":[null,true,false,-12,1.5e-7],"""":{},""e"":[],""s"":""a\""\\\u003c\u0026\u003e\t\n\u0001é€😀\u2028""}".
Proof. vm_compute. reflexivity. Qed.

(** A byte that is not UTF-8: another string arrives, and two strings have the same text. *)
Definition latin1 : string := "caf" ++ String "233" "".
Example C106_read_ex : sound any_string (JStr latin1) /\ nested limit (JStr latin1) /\ parse (print (JStr latin1)) = Some (JStr ("caf" ++ replacement)).
Proof. split; [by constructor|]. split; [constructor|]. vm_compute. reflexivity. Qed.
Theorem C106_same_refuted : ~ (forall j, sound any_string j -> parse (print j) = Some j).
Proof. intros H. specialize (H (JStr latin1) ltac:(by constructor)). vm_compute in H. discriminate H. Qed.
Print Assumptions C106_same_refuted.
Theorem C106_tells_refuted : ~ (forall j j', sound any_string j -> sound any_string j' -> print j = print j' -> j = j').
Proof.
  intros H. specialize (H (JStr (String "233" "")) (JStr (String "234" "")) ltac:(by constructor) ltac:(by constructor)).
  discriminate H. vm_compute. reflexivity.
Qed.
Print Assumptions C106_tells_refuted.

(** A list in a list in a list ..., as a type that contains itself can hold: it is written, and not read. *)
Fixpoint tower (n : nat) : json := match n with O => JNull | S n => JArr [tower n] end.
Lemma tower_depth n : depth (tower n) = n.
Proof. induction n as [|n IH]; [done|]. cbn. rewrite IH. lia. Qed.
Lemma tower_sound (ok : string -> Prop) n : sound ok (tower n).
Proof. induction n as [|n IH]; constructor. apply Forall_cons_2; [exact IH|apply Forall_nil_2]. Qed.
Example C106_deep_ex : sound utf8 (tower (S limit)) /\ parse (print (tower (S limit))) = None /\ parse (print (tower limit)) = Some (tower limit).
Proof.
  split; [apply tower_sound|]. split.
  - apply C106_read; [apply tower_sound|]. rewrite nested_depth, tower_depth. lia.
  - apply C106_back; [apply tower_sound|]. split; [apply tower_sound|]. rewrite nested_depth, tower_depth. lia.
Qed.
