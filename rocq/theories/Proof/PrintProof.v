(** The text of a JSON value is one line, without white space at its ends. *)
From stdpp Require Import list strings.
From Coq Require Import ZArith NArith Ascii String Lia.
From Verif.Model Require Import Decoding JsonText.
From Verif.Spec Require Import JsonTextSpec TransportSpec.
From Verif.Proof Require Import DecodingProof JsonTextProof.
Local Open Scope string_scope.

Definition smooth (s : string) : Prop := Forall (fun a => (32 <= byte a)%N) (list_ascii_of_string s).
Lemma smooth_app s t : smooth s -> smooth t -> smooth (s +:+ t).
Proof. unfold smooth. rewrite chars_app. intros. by apply Forall_app. Qed.
Lemma smooth_cons a s : (32 <= byte a)%N -> smooth s -> smooth (String a s).
Proof. intros. by apply Forall_cons_2. Qed.
Lemma smooth_nil : smooth "".
Proof. apply Forall_nil_2. Qed.
Lemma smooth_dec s : forallb (fun a => 32 <=? byte a)%N (list_ascii_of_string s) = true -> smooth s.
Proof. intros H. apply Forall_forall. intros a Ha. rewrite forallb_forall in H. apply N.leb_le, H. by apply elem_of_list_In. Qed.
Lemma smooth_line s : smooth s -> Forall (fun a => ~ newline a) (list_ascii_of_string s).
Proof. intros H. eapply Forall_impl; [exact H|]. cbn. intros a Ha [->| ->]; vm_compute in Ha; by apply Ha. Qed.

Lemma escape_smooth a : (byte a < 128)%N -> smooth (escape a).
Proof.
  intros H. apply smooth_dec. destruct a as [[] [] [] [] [] [] [] []]; vm_compute in H; try discriminate H; vm_compute; reflexivity.
Qed.
Lemma hex_smooth n : (n < 16)%N -> (32 <= byte (hexchar n))%N.
Proof.
  intros H. assert (n ∈ [0;1;2;3;4;5;6;7;8;9;10;11;12;13;14;15]%N) as E.
  { destruct n as [|p]; [by left|]. do 4 (destruct p as [p|p|]; try lia; try (apply (bool_decide_unpack _); vm_compute; exact I)). }
  repeat (apply elem_of_cons in E as [->|E]; [vm_compute; discriminate|]). by apply elem_of_nil in E.
Qed.
Lemma escaped_smooth s : smooth (escaped s).
Proof.
  remember (String.length s) as n eqn:En. revert s En. induction n as [n IH] using lt_wf_ind. intros s ->.
  assert (I : forall t, (String.length t < String.length s)%nat -> smooth (escaped t)) by (intros t Ht; by apply (IH _ Ht t)). clear IH.
  destruct s as [|a r1]; [apply smooth_nil|]. cbn [String.length] in I. destruct (byte a <? 128)%N eqn:E1.
  { apply N.ltb_lt in E1. rewrite escaped_low by exact E1. apply smooth_app; [by apply escape_smooth|apply I; lia]. }
  assert (Ha : (32 <= byte a)%N) by (apply N.ltb_ge in E1; lia). cbn [escaped]. rewrite E1.
  assert (Bad : smooth "\ufffd") by by apply smooth_dec.
  destruct r1 as [|b r2]; [exact Bad|]. cbn [String.length] in I. destruct (two a b) eqn:E2.
  { unfold two in E2. rewrite andb_true_iff, !between_spec in E2. apply smooth_cons; [exact Ha|]. apply smooth_cons; [unfold byte; lia|]. apply I. lia. }
  assert (B1 : smooth ("\ufffd" +:+ escaped (String b r2))) by (apply smooth_app; [exact Bad|apply I; cbn; lia]).
  destruct r2 as [|c r3]; [exact B1|]. cbn [String.length] in I. destruct (three a b c) eqn:E3.
  { apply smooth_app; [|apply I; lia]. destruct ((byte a =? 226) && (byte b =? 128) && (byte c / 2 =? 84))%N.
    - apply smooth_app; [by apply smooth_dec|]. apply smooth_cons; [apply hex_smooth, N.mod_lt; lia|apply smooth_nil].
    - unfold three in E3. rewrite andb_true_iff, !orb_true_iff, !andb_true_iff, !between_spec in E3. unfold byte in *.
      repeat (apply smooth_cons; [unfold byte; lia|]). apply smooth_nil. }
  destruct r3 as [|d r4]; [exact B1|]. cbn [String.length] in I. destruct (four a b c d) eqn:E4; [|exact B1].
  unfold four in E4. rewrite !andb_true_iff, !orb_true_iff, !andb_true_iff, !between_spec in E4. unfold byte in *.
  repeat (apply smooth_cons; [unfold byte; lia|]). apply I. lia.
Qed.
Lemma quoted_smooth s : smooth (quoted s).
Proof. apply smooth_cons; [vm_compute; discriminate|]. apply smooth_app; [apply escaped_smooth|]. by apply smooth_dec. Qed.
Lemma number_smooth s : Forall (fun a => number_char a = true) (list_ascii_of_string s) -> smooth s.
Proof.
  intros H. eapply Forall_impl; [exact H|]. intros a Ha. destruct (byte a <? 32)%N eqn:E; [|by apply N.ltb_ge in E].
  destruct a as [[] [] [] [] [] [] [] []]; vm_compute in Ha, E; discriminate.
Qed.
Lemma concat_smooth l : Forall smooth l -> smooth (String.concat "," l).
Proof.
  intros H. induction H as [|x l Hx H IH]; [apply smooth_nil|]. destruct l as [|y l]; [exact Hx|].
  change (String.concat "," (x :: y :: l)) with (x +:+ "," +:+ String.concat "," (y :: l)).
  apply smooth_app; [exact Hx|]. apply smooth_app; [by apply smooth_dec|exact IH].
Qed.
Lemma print_smooth j : sound (fun _ => True) j -> smooth (print j).
Proof.
  induction j as [|b|x|s|l IH|kvs IH] using json_induction; intros H.
  - by apply smooth_dec.
  - destruct b; by apply smooth_dec.
  - inversion H as [| |z|s D| | |]; subst; apply number_smooth; [apply int_chars|]. cbn. by apply decimal_ok.
  - apply quoted_smooth.
  - inversion H as [| | | | |? F|]; subst. cbn [print]. apply smooth_app; [by apply smooth_dec|]. apply smooth_app; [|by apply smooth_dec].
    apply concat_smooth. apply Forall_forall. intros y Hy. apply elem_of_list_In, in_map_iff in Hy as (x & <- & Hx%elem_of_list_In).
    rewrite Forall_forall in IH, F. apply IH; [done|]. by apply F.
  - inversion H as [| | | | | |? F]; subst. cbn [print]. apply smooth_app; [by apply smooth_dec|]. apply smooth_app; [|by apply smooth_dec].
    apply concat_smooth. apply Forall_forall. intros y Hy. apply elem_of_list_In, in_map_iff in Hy as (x & <- & Hx%elem_of_list_In).
    apply smooth_app; [apply quoted_smooth|]. apply smooth_app; [by apply smooth_dec|]. rewrite Forall_forall in IH, F. apply IH; [done|]. by apply F.
Qed.

Lemma bare_ends a s b : ~ white a -> ~ white b -> bare (list_ascii_of_string (String a (s +:+ String b ""))).
Proof.
  intros Ha Hb. rewrite <- append_cons, chars_app. split.
  - intros x r H. cbn in H. by injection H as <- _.
  - intros x r H. cbn [list_ascii_of_string] in H. apply app_inj_tail in H as [_ <-]. exact Hb.
Qed.
Lemma bare_all s : Forall (fun a => ~ white a) (list_ascii_of_string s) -> bare (list_ascii_of_string s).
Proof.
  intros F. split; intros a r E; rewrite E in F; [by inversion F|]. apply Forall_app in F as [_ F]. by inversion F.
Qed.
Lemma not_white a : (32 <? byte a)%N = true -> ~ white a.
Proof. intros H [->|[->|[->| ->]]]; vm_compute in H; discriminate. Qed.
Lemma print_bare j : sound (fun _ => True) j -> bare (list_ascii_of_string (print j)).
Proof.
  assert (W : forall s, forallb (fun a => 32 <? byte a)%N (list_ascii_of_string s) = true -> bare (list_ascii_of_string s)).
  { intros s H. apply bare_all, Forall_forall. intros a Ha. apply not_white. rewrite forallb_forall in H. apply H. by apply elem_of_list_In. }
  assert (Num : forall s, Forall (fun a => number_char a = true) (list_ascii_of_string s) -> bare (list_ascii_of_string s)).
  { intros s F. apply bare_all. eapply Forall_impl; [exact F|]. intros a Ha. apply not_white. destruct a as [[] [] [] [] [] [] [] []]; vm_compute in Ha; try discriminate Ha; vm_compute; reflexivity. }
  intros [|b|z|s D|s _|l _|kvs _].
  - by apply W.
  - destruct b; by apply W.
  - apply Num, int_chars.
  - apply Num. cbn. by apply decimal_ok.
  - apply bare_ends; by apply not_white.
  - cbn [print]. change "[" with (String "[" ""). rewrite append_cons. apply bare_ends; by apply not_white.
  - cbn [print]. change "{" with (String "{" ""). rewrite append_cons. apply bare_ends; by apply not_white.
Qed.
