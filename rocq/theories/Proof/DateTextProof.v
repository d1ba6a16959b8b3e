(** Lemmas about the texts of dates and times. *)
From Coq Require Import ZArith Lia List Ascii String Bool.
From stdpp Require Import base option.
From Verif.Model Require Import Dates.
From Verif.Spec Require Import DatesSpec.
From Verif.Proof Require Import DatesProof.
Import ListNotations.
Local Open Scope Z_scope.
Local Open Scope list_scope.

(** ** Digits *)

Lemma ten d : 0 <= d <= 9 -> In d [0; 1; 2; 3; 4; 5; 6; 7; 8; 9].
Proof. intros H. cbn. lia. Qed.

Lemma digit_value d : 0 <= d <= 9 -> digitValue (digit d) = Some d.
Proof. intros H. apply ten in H. cbn in H. repeat destruct H as [<-|H]; try contradiction; reflexivity. Qed.

Lemma digit_char d : 0 <= d <= 9 -> String.get (Z.to_nat d) "0123456789" = Some (digit d).
Proof. intros H. apply ten in H. cbn in H. repeat destruct H as [<-|H]; try contradiction; reflexivity. Qed.

Lemma value_digit c d : digitValue c = Some d <-> 0 <= d <= 9 /\ c = digit d.
Proof.
  split.
  - unfold digitValue. set (x := nat_of_ascii c). destruct ((48 <=? Z.of_nat x) && (Z.of_nat x <=? 57)) eqn:E; [|discriminate].
    rewrite andb_true_iff, !Z.leb_le in E. intros H. injection H as <-. split; [lia|]. unfold digit.
    replace (48 + Z.to_nat (Z.of_nat x - 48))%nat with x by lia. symmetry. apply ascii_nat_embedding.
  - intros [H ->]. now apply digit_value.
Qed.

Definition is_digit (c : ascii) : Prop := exists d, 0 <= d <= 9 /\ c = digit d.

Lemma numeral_digits w x l : numeral w x l -> List.length l = w /\ Forall is_digit l /\ 0 <= x < 10 ^ Z.of_nat w.
Proof.
  induction 1 as [|w x l d c H (IH1 & IH2 & IH3) Hd Hc].
  - split; [reflexivity|]. split; [constructor|]. cbn. lia.
  - rewrite digit_char in Hc by exact Hd. injection Hc as <-. split; [rewrite app_length; cbn; lia|]. split.
    + apply Forall_app. split; [exact IH2|]. constructor; [|constructor]. exists d. auto.
    + rewrite Nat2Z.inj_succ, Z.pow_succ_r by lia. nia.
Qed.

Lemma numeral_snoc w x l d : numeral w x l -> 0 <= d <= 9 -> numeral (S w) (10 * x + d) (l ++ [digit d]).
Proof. intros H Hd. apply numeral_more; [exact H|exact Hd|]. now apply digit_char. Qed.

Lemma numeral_0 x l : numeral 0 x l <-> x = 0 /\ l = [].
Proof. split; [intros H; inversion H; auto|intros [-> ->]; constructor]. Qed.

Lemma numeral_S w x l : numeral (S w) x l <-> exists y l' d, numeral w y l' /\ 0 <= d <= 9 /\ x = 10 * y + d /\ l = l' ++ [digit d].
Proof.
  split.
  - intros H. inversion H as [|w' y l' d c Hn Hd Hc]; subst. rewrite digit_char in Hc by exact Hd. injection Hc as <-. exists y, l', d. auto.
  - intros (y & l' & d & H & Hd & -> & ->). now apply numeral_snoc.
Qed.

Lemma numeral_1 x l : numeral 1 x l <-> 0 <= x <= 9 /\ l = [digit x].
Proof.
  rewrite numeral_S. split.
  - intros (y & l' & d & H & Hd & -> & ->). apply numeral_0 in H as [-> ->]. split; [lia|reflexivity].
  - intros [H ->]. exists 0, [], x. split; [constructor|]. auto.
Qed.

Lemma numeral_2 x l : numeral 2 x l <-> exists a b, 0 <= a <= 9 /\ 0 <= b <= 9 /\ x = 10 * a + b /\ l = [digit a; digit b].
Proof.
  rewrite numeral_S. split.
  - intros (y & l' & d & H & Hd & -> & ->). apply numeral_1 in H as [Hy ->]. exists y, d. auto.
  - intros (a & b & Ha & Hb & -> & ->). exists a, [digit a], b. split; [now apply numeral_1|]. auto.
Qed.

Lemma numeral_4 x l : numeral 4 x l <->
  exists a b c d, 0 <= a <= 9 /\ 0 <= b <= 9 /\ 0 <= c <= 9 /\ 0 <= d <= 9 /\ x = 1000 * a + 100 * b + 10 * c + d /\ l = [digit a; digit b; digit c; digit d].
Proof.
  rewrite numeral_S. split.
  - intros (y & l' & d & H & Hd & -> & ->). apply numeral_S in H as (y' & l'' & c & H & Hc & -> & ->). apply numeral_2 in H as (a & b & Ha & Hb & -> & ->).
    exists a, b, c, d. repeat (split; [assumption || lia|]). reflexivity.
  - intros (a & b & c & d & Ha & Hb & Hc & Hd & -> & ->). exists (100 * a + 10 * b + c), [digit a; digit b; digit c], d. split.
    + apply numeral_S. exists (10 * a + b), [digit a; digit b], c. split; [apply numeral_2; exists a, b; auto|]. repeat (split; [assumption || lia|]). reflexivity.
    + repeat (split; [assumption || lia|]). reflexivity.
Qed.

Lemma numeral_zero w x l : numeral w x l -> numeral (S w) x ("0"%char :: l).
Proof.
  induction 1 as [|w x l d c H IH Hd Hc].
  - change (numeral 1 (10 * 0 + 0) ([] ++ ["0"%char])). apply numeral_more; [constructor|lia|reflexivity].
  - change ("0"%char :: l ++ [c]) with (("0"%char :: l) ++ [c]). apply numeral_more; assumption.
Qed.

Lemma numeral_zeros k w x l : numeral w x l -> numeral (k + w) x (repeat "0"%char k ++ l).
Proof. intros H. induction k as [|k IH]; [exact H|]. cbn. now apply numeral_zero. Qed.

Lemma digits_ok fuel : forall x acc, 0 <= x < 2 ^ Z.of_nat fuel -> (0 < fuel)%nat ->
  exists l, digits fuel x acc = l ++ acc /\ numeral (List.length l) x l /\ (1 <= x -> 10 ^ (Z.of_nat (List.length l) - 1) <= x) /\ (0 < List.length l)%nat.
Proof.
  induction fuel as [|f IH]; intros x acc Hx Hf; [lia|]. cbn [digits]. destruct (Z.ltb_spec x 10) as [H|H].
  - exists [digit x]. split; [reflexivity|]. split; [apply numeral_1; split; [lia|reflexivity]|]. cbn. split; lia.
  - rewrite Nat2Z.inj_succ, Z.pow_succ_r in Hx by lia. pose proof (Z.div_mod x 10 ltac:(lia)). pose proof (Z.mod_pos_bound x 10 ltac:(lia)).
    destruct f as [|f]; [cbn in Hx; lia|].
    destruct (IH (x / 10) (digit (x mod 10) :: acc)) as (l & E & N & B & L); [lia|lia|].
    exists (l ++ [digit (x mod 10)]). rewrite <- app_assoc. split; [exact E|]. rewrite app_length. cbn [List.length].
    replace (List.length l + 1)%nat with (S (List.length l)) by lia. split.
    + pose proof (numeral_snoc _ _ _ (x mod 10) N ltac:(lia)) as Q. rewrite <- H0 in Q. exact Q.
    + split; [|lia]. intros _. specialize (B ltac:(lia)). rewrite Nat2Z.inj_succ. replace (Z.succ (Z.of_nat (List.length l)) - 1) with (Z.succ (Z.of_nat (List.length l) - 1)) by lia.
      rewrite Z.pow_succ_r by lia. lia.
Qed.

Lemma decimal_ok x : 0 <= x ->
  numeral (List.length (decimal x)) x (decimal x) /\ (1 <= x -> 10 ^ (Z.of_nat (List.length (decimal x)) - 1) <= x) /\ (0 < List.length (decimal x))%nat.
Proof.
  intros Hx. destruct (digits_ok (S (Z.to_nat (Z.log2 x))) x []) as (l & E & N & B & L).
  - split; [exact Hx|]. pose proof (Z.log2_nonneg x). replace (Z.of_nat (S (Z.to_nat (Z.log2 x)))) with (Z.succ (Z.log2 x)) by lia.
    destruct (Z.eq_dec x 0) as [->|]; [reflexivity|]. apply (Z.log2_spec x). lia.
  - lia.
  - rewrite app_nil_r in E. unfold decimal. rewrite E. auto.
Qed.

Lemma pad_fits w x : (0 < w)%nat -> 0 <= x < 10 ^ Z.of_nat w -> numeral w x (pad w (decimal x)).
Proof.
  intros Hw [H0 Hx]. destruct (decimal_ok x H0) as (N & B & L). unfold pad. set (n := List.length (decimal x)) in *.
  assert (Hn : (n <= w)%nat).
  { destruct (Z.eq_dec x 0) as [->|]; [vm_compute in n; subst n; lia|]. specialize (B ltac:(lia)).
    destruct (Nat.le_gt_cases n w) as [|G]; [assumption|exfalso].
    assert (10 ^ Z.of_nat w <= 10 ^ (Z.of_nat n - 1)) by (apply Z.pow_le_mono_r; lia). lia. }
  replace w with ((w - n) + n)%nat at 1 by lia. now apply numeral_zeros.
Qed.

Lemma pad_exceeds w x : 10 ^ Z.of_nat w <= x -> exists l, pad w (decimal x) = l /\ Forall is_digit l /\ (w < List.length l)%nat.
Proof.
  intros Hx. assert (H0 : 0 <= x) by (pose proof (Z.pow_nonneg 10 (Z.of_nat w)); lia). destruct (decimal_ok x H0) as (N & _ & _).
  destruct (numeral_digits _ _ _ N) as (_ & D & B). exists (decimal x).
  assert (Hw : (w < List.length (decimal x))%nat).
  { destruct (Nat.le_gt_cases (List.length (decimal x)) w) as [G|G]; [exfalso|exact G].
    assert (10 ^ Z.of_nat (List.length (decimal x)) <= 10 ^ Z.of_nat w) by (apply Z.pow_le_mono_r; lia). lia. }
  split; [|auto]. unfold pad. replace (w - List.length (decimal x))%nat with 0%nat by lia. reflexivity.
Qed.

Lemma appendInt_fits w x : (0 < w)%nat -> 0 <= x < 10 ^ Z.of_nat w -> numeral w x (appendInt x w).
Proof. intros Hw Hx. unfold appendInt. destruct (Z.ltb_spec x 0); [lia|]. now apply pad_fits. Qed.

Lemma numeral_inj w x x' l : numeral w x l -> numeral w x' l -> x = x'.
Proof.
  intros H. revert x'. induction H as [|w x l d c H IH Hd Hc]; intros x' H'.
  - now apply numeral_0 in H' as [-> _].
  - apply numeral_S in H' as (y & l' & d' & H' & Hd' & -> & E). apply app_inj_tail in E as [<- ->].
    rewrite digit_char in Hc by exact Hd. injection Hc as Hc. rewrite (IH y H'). f_equal.
    assert (Some d = Some d') as [= ->]; [|reflexivity]. now rewrite <- (digit_value d Hd), <- (digit_value d' Hd'), Hc.
Qed.

(** ** Reading numbers *)

Lemma getnum_fixed s x r : getnum true s = Some (x, r) <-> exists l, s = l ++ r /\ numeral 2 x l.
Proof.
  split.
  - destruct s as [|a [|b s]]; cbn [getnum]; [discriminate|destruct (digitValue a); discriminate|].
    destruct (digitValue a) as [u|] eqn:Ea; [|discriminate]. destruct (digitValue b) as [v|] eqn:Eb; [|discriminate].
    intros H. injection H as <- <-. apply value_digit in Ea as [Hu ->], Eb as [Hv ->]. exists [digit u; digit v]. split; [reflexivity|].
    apply numeral_2. exists u, v. auto.
  - intros (l & -> & H). apply numeral_2 in H as (a & b & Ha & Hb & -> & ->). cbn [app getnum getyear]. now rewrite !digit_value.
Qed.

Lemma getnum_loose s x r c : getnum false s = Some (x, c :: r) /\ digitValue c = None <->
  exists l w, s = l ++ c :: r /\ numeral w x l /\ (w = 1%nat \/ w = 2%nat) /\ digitValue c = None.
Proof.
  split.
  - intros [H Hc]. destruct s as [|a [|b s]]; cbn [getnum] in H; [discriminate|destruct (digitValue a); discriminate|].
    destruct (digitValue a) as [u|] eqn:Ea; [|discriminate]. apply value_digit in Ea as [Hu ->]. destruct (digitValue b) as [v|] eqn:Eb.
    + injection H as <- ->. apply value_digit in Eb as [Hv ->]. exists [digit u; digit v], 2%nat. split; [reflexivity|]. split; [|auto].
      apply numeral_2. exists u, v. auto.
    + injection H as <- <- <-. exists [digit u], 1%nat. split; [reflexivity|]. split; [apply numeral_1; auto|auto].
  - intros (l & w & -> & H & [-> | ->] & Hc); (split; [|exact Hc]).
    + apply numeral_1 in H as [Hx ->]. cbn [app getnum]. now rewrite digit_value, Hc.
    + apply numeral_2 in H as (a & b & Ha & Hb & -> & ->). cbn [app getnum getyear]. now rewrite !digit_value.
Qed.

Lemma getyear_ok s x r : getyear s = Some (x, r) <-> exists l, s = l ++ r /\ numeral 4 x l.
Proof.
  split.
  - destruct s as [|a [|b [|c [|d s]]]]; cbn [getyear]; try discriminate.
    destruct (digitValue a) as [u|] eqn:Ea; [|discriminate]. destruct (digitValue b) as [v|] eqn:Eb; [|discriminate].
    destruct (digitValue c) as [w|] eqn:Ec; [|discriminate]. destruct (digitValue d) as [z|] eqn:Ed; [|discriminate].
    intros H. injection H as <- <-. apply value_digit in Ea as [Hu ->], Eb as [Hv ->], Ec as [Hw ->], Ed as [Hz ->].
    exists [digit u; digit v; digit w; digit z]. split; [reflexivity|]. apply numeral_4. exists u, v, w, z. auto 10.
  - intros (l & -> & H). apply numeral_4 in H as (a & b & c & d & Ha & Hb & Hc & Hd & -> & ->). cbn [app getnum getyear]. now rewrite !digit_value.
Qed.

Lemma skip_ok c s r : skip c s = Some r <-> s = c :: r.
Proof.
  split.
  - destruct s as [|c' s]; cbn; [discriminate|]. destruct (Ascii.eqb_spec c c') as [<-|]; [|discriminate]. intros H. now injection H as ->.
  - intros ->. cbn. now rewrite Ascii.eqb_refl.
Qed.

Lemma getnum_app x l r : numeral 2 x l -> getnum true (l ++ r) = Some (x, r).
Proof. intros H. apply getnum_fixed. eauto. Qed.
Lemma getyear_app x l r : numeral 4 x l -> getyear (l ++ r) = Some (x, r).
Proof. intros H. apply getyear_ok. eauto. Qed.
Lemma skip_cons c r : skip c (c :: r) = Some r.
Proof. now apply skip_ok. Qed.

(** The days that can be read. *)
Lemma getdate_ok s d r : getdate s = Some (d, r) <-> exists l, s = l ++ r /\ day_text d l /\ 1 <= month d <= 12.
Proof.
  unfold getdate. split.
  - destruct (getyear s) as [[y s1]|] eqn:E1; cbn [mbind option_bind]; [|discriminate].
    destruct (skip "-" s1) as [s2|] eqn:E2; cbn [mbind option_bind]; [|discriminate].
    destruct (getnum true s2) as [[m s3]|] eqn:E3; cbn [mbind option_bind]; [|discriminate].
    destruct ((m <=? 0) || (12 <? m)) eqn:Em; [discriminate|]. apply orb_false_iff in Em as [Em1 Em2]. apply Z.leb_gt in Em1. apply Z.ltb_ge in Em2.
    destruct (skip "-" s3) as [s4|] eqn:E4; cbn [mbind option_bind]; [|discriminate].
    destruct (getnum true s4) as [[x s5]|] eqn:E5; cbn [mbind option_bind]; [|discriminate]. intros H. injection H as <- <-.
    apply getyear_ok in E1 as (Y & -> & HY). apply skip_ok in E2 as ->. apply getnum_fixed in E3 as (M & -> & HM). apply skip_ok in E4 as ->.
    apply getnum_fixed in E5 as (D & -> & HD). exists (Y ++ "-"%char :: M ++ "-"%char :: D). split; [now rewrite <- !app_assoc, <- !app_comm_cons, <- !app_assoc|].
    split; [now constructor|]. cbn. lia.
  - intros (l & -> & H & Hm). inversion H as [y m x Y M D HY HM HD]; subst. cbn [month] in Hm. rewrite <- app_assoc.
    rewrite (getyear_app y) by assumption. cbn [mbind option_bind]. rewrite <- ?app_comm_cons, skip_cons. cbn [mbind option_bind].
    rewrite <- app_assoc. rewrite (getnum_app m) by assumption. cbn [mbind option_bind].
    destruct (Z.leb_spec m 0); [lia|]. destruct (Z.ltb_spec 12 m); [lia|]. cbn [orb]. rewrite <- ?app_comm_cons, skip_cons. cbn [mbind option_bind].
    rewrite (getnum_app x) by assumption. reflexivity.
Qed.

(** Two digits cannot be read in two ways, which makes the day of a text its only one. *)
Lemma existing_valid d : 1 <= month d <= 12 -> existing d = valid d.
Proof. intros H. unfold valid. destruct (Z.leb_spec 1 (month d)); [|lia]. destruct (Z.leb_spec (month d) 12); [|lia]. reflexivity. Qed.

Lemma parseCivil_ok s d : parseCivil s = Some d <-> day_text d s /\ in_calendar d.
Proof.
  unfold parseCivil. split.
  - destruct (getdate s) as [[d' [|c r]]|] eqn:E; [|discriminate|discriminate]. apply getdate_ok in E as (l & -> & H & Hm).
    destruct (existing d') eqn:Ex; [|discriminate]. intros [= <-]. rewrite app_nil_r. split; [exact H|]. apply valid_calendar. now rewrite <- existing_valid.
  - intros [H Hc]. apply valid_calendar in Hc. pose proof (valid_bounds _ Hc) as [Hm _]. rewrite (proj2 (getdate_ok s d [])).
    + now rewrite existing_valid, Hc.
    + exists s. rewrite app_nil_r. auto.
Qed.

Lemma getclock_ok s x c r : getclock s = Some (x, c :: r) /\ digitValue c = None <->
  exists w h m z H M S, s = H ++ ":"%char :: M ++ ":"%char :: S ++ c :: r /\ x = 3600 * h + 60 * m + z /\ digitValue c = None /\
    numeral w h H /\ (w = 1%nat \/ w = 2%nat) /\ h <= 23 /\ numeral 2 m M /\ m <= 59 /\ numeral 2 z S /\ z <= 59.
Proof.
  unfold getclock. split.
  - intros [E Hc]. revert E.
    destruct (getnum false s) as [[h s1]|] eqn:E1; cbn [mbind option_bind]; [|discriminate]. destruct (Z.leb_spec 24 h); [discriminate|].
    destruct (skip ":" s1) as [s2|] eqn:E2; cbn [mbind option_bind]; [|discriminate].
    destruct (getnum true s2) as [[m s3]|] eqn:E3; cbn [mbind option_bind]; [|discriminate]. destruct (Z.leb_spec 60 m); [discriminate|].
    destruct (skip ":" s3) as [s4|] eqn:E4; cbn [mbind option_bind]; [|discriminate].
    destruct (getnum true s4) as [[z s5]|] eqn:E5; cbn [mbind option_bind]; [|discriminate]. destruct (Z.leb_spec 60 z); [discriminate|].
    intros E. injection E as <- ->. apply skip_ok in E2 as ->. destruct (proj1 (getnum_loose s h s2 ":")) as (H' & w & -> & Hw & Hww & _); [auto|].
    apply getnum_fixed in E3 as (M & -> & HM). apply skip_ok in E4 as ->. apply getnum_fixed in E5 as (S & -> & HS).
    exists w, h, m, z, H', M, S. repeat (split; [reflexivity || assumption || lia|]). lia.
  - intros (w & h & m & z & H & M & S & -> & -> & Hc & Hh & Hw & Lh & HM & Lm & HS & Lz). split; [|exact Hc].
    rewrite (proj1 (proj2 (getnum_loose _ h (M ++ ":"%char :: S ++ c :: r) ":"%char) (ex_intro _ H (ex_intro _ w (conj eq_refl (conj Hh (conj Hw eq_refl))))))).
    cbn [mbind option_bind]. destruct (Z.leb_spec 24 h); [lia|]. rewrite <- ?app_comm_cons, skip_cons. cbn [mbind option_bind].
    rewrite (getnum_app m) by assumption. cbn [mbind option_bind]. destruct (Z.leb_spec 60 m); [lia|].
    rewrite <- ?app_comm_cons, skip_cons. cbn [mbind option_bind]. rewrite (getnum_app z) by assumption. cbn [mbind option_bind].
    destruct (Z.leb_spec 60 z); [lia|]. reflexivity.
Qed.

(** ** Parts of a second *)

Lemma spanDigits_ok s ds r : spanDigits s = (ds, r) ->
  s = map digit ds ++ r /\ Forall (fun d => 0 <= d <= 9) ds /\ match r with c :: _ => digitValue c = None | [] => True end.
Proof.
  revert ds r. induction s as [|c s IH]; intros ds r; cbn.
  - intros H. injection H as <- <-. split; [reflexivity|]. split; [constructor|exact I].
  - destruct (digitValue c) as [x|] eqn:E.
    + destruct (spanDigits s) as [ds' r'] eqn:E'. cbn. intros H. injection H as <- <-. destruct (IH _ _ eq_refl) as (-> & F & R).
      apply value_digit in E as [Hx ->]. split; [reflexivity|]. split; [now constructor|exact R].
    + intros H. injection H as <- <-. split; [reflexivity|]. split; [constructor|exact E].
Qed.

Lemma spanDigits_app ds r : Forall (fun d => 0 <= d <= 9) ds -> match r with c :: _ => digitValue c = None | [] => True end -> spanDigits (map digit ds ++ r) = (ds, r).
Proof.
  intros F R. induction F as [|d ds Hd F IH]; cbn [map app spanDigits].
  - destruct r as [|c r]; [reflexivity|]. cbn [spanDigits]. now rewrite R.
  - rewrite digit_value by exact Hd. now rewrite IH.
Qed.

Definition number (ds : list Z) : Z := fold_left (fun x d => 10 * x + d) ds 0.

Lemma numeral_number ds : Forall (fun d => 0 <= d <= 9) ds -> numeral (List.length ds) (number ds) (map digit ds).
Proof.
  induction ds as [|d ds IH] using rev_ind; intros F; [constructor|]. apply Forall_app in F as [F Fd]. apply Forall_inv in Fd.
  unfold number. rewrite fold_left_app, map_app, app_length. cbn [fold_left List.length map]. replace (List.length ds + 1)%nat with (S (List.length ds)) by lia.
  apply numeral_snoc; [now apply IH|exact Fd].
Qed.

Lemma numeral_values w x l : numeral w x l -> exists ds, l = map digit ds /\ List.length ds = w /\ x = number ds /\ Forall (fun d => 0 <= d <= 9) ds.
Proof.
  induction 1 as [|w x l d c H (ds & -> & L & E & F) Hd Hc].
  - exists []. auto.
  - rewrite digit_char in Hc by exact Hd. injection Hc as <-. exists (ds ++ [d]). rewrite map_app, app_length. split; [reflexivity|]. split; [cbn; lia|].
    unfold number in *. rewrite fold_left_app. cbn. split; [now rewrite E|]. apply Forall_app. auto.
Qed.

Lemma fraction_snoc k ds d : fraction k (ds ++ [d]) = fraction k ds + (if (List.length ds <? k)%nat then d * 10 ^ (Z.of_nat k - 1 - Z.of_nat (List.length ds)) else 0).
Proof.
  revert k. induction ds as [|x ds IH]; intros [|k]; try reflexivity.
  - cbn [fraction app List.length]. destruct (Nat.ltb_spec 0 (S k)); [|lia]. replace (Z.of_nat (S k) - 1 - Z.of_nat 0) with (Z.of_nat k) by lia. destruct k; cbn [fraction]; lia.
  - cbn [fraction app List.length]. rewrite IH. change (S (List.length ds) <? S k)%nat with (List.length ds <? k)%nat.
    destruct (List.length ds <? k)%nat; [|lia]. replace (Z.of_nat (S k) - 1 - Z.of_nat (S (List.length ds))) with (Z.of_nat k - 1 - Z.of_nat (List.length ds)) by lia. lia.
Qed.

Lemma number_nonneg ds : Forall (fun d => 0 <= d <= 9) ds -> 0 <= number ds.
Proof. intros F. apply (numeral_digits _ _ _ (numeral_number ds F)). Qed.

Lemma fraction_number k ds : Forall (fun d => 0 <= d <= 9) ds -> fraction k ds = number ds * 10 ^ Z.of_nat k / 10 ^ Z.of_nat (List.length ds).
Proof.
  induction ds as [|d ds IH] using rev_ind; intros F.
  - destruct k; reflexivity.
  - apply Forall_app in F as [F Fd]. apply Forall_inv in Fd. rewrite fraction_snoc, IH by exact F. pose proof (number_nonneg ds F) as P.
    unfold number. rewrite fold_left_app. cbn [fold_left]. fold (number ds). rewrite app_length. cbn [List.length]. set (n := List.length ds).
    destruct (Nat.ltb_spec n k) as [H|H].
    + assert (E : 10 ^ Z.of_nat k = 10 ^ (Z.of_nat k - 1 - Z.of_nat n) * 10 * 10 ^ Z.of_nat n).
      { rewrite <- Z.mul_assoc, <- Z.pow_succ_r, <- Z.pow_add_r by lia. f_equal. lia. }
      assert (E' : 10 ^ Z.of_nat (n + 1) = 10 * 10 ^ Z.of_nat n) by (rewrite <- Z.pow_succ_r by lia; f_equal; lia).
      assert (Q : 0 < 10 ^ Z.of_nat n) by (apply Z.pow_pos_nonneg; lia). rewrite E, E'. set (a := 10 ^ (Z.of_nat k - 1 - Z.of_nat n)). set (b := 10 ^ Z.of_nat n) in *.
      replace (number ds * (a * 10 * b)) with (number ds * a * 10 * b) by lia. rewrite Z.div_mul by lia.
      replace ((10 * number ds + d) * (a * 10 * b)) with ((10 * number ds + d) * a * (10 * b)) by lia. rewrite Z.div_mul by lia. lia.
    + assert (E : 10 ^ Z.of_nat n = 10 ^ (Z.of_nat n - Z.of_nat k) * 10 ^ Z.of_nat k) by (rewrite <- Z.pow_add_r by lia; f_equal; lia).
      assert (E' : 10 ^ Z.of_nat (n + 1) = 10 * 10 ^ (Z.of_nat n - Z.of_nat k) * 10 ^ Z.of_nat k).
      { rewrite <- Z.pow_succ_r, <- Z.pow_add_r by lia. f_equal. lia. }
      assert (Q : 0 < 10 ^ Z.of_nat k) by (apply Z.pow_pos_nonneg; lia). assert (Q' : 0 < 10 ^ (Z.of_nat n - Z.of_nat k)) by (apply Z.pow_pos_nonneg; lia).
      rewrite E, E', !Z.div_mul_cancel_r by lia. rewrite <- Z.div_div by lia. rewrite Z.add_0_r. f_equal.
      replace (10 * number ds + d) with (d + number ds * 10) by lia. rewrite Z.div_add by lia. rewrite Z.div_small by lia. lia.
Qed.

Lemma part_spec n w x : 0 < w -> n * w <= x < (n + 1) * w <-> n = x / w.
Proof.
  intros Hw. split.
  - intros H. apply (Z.div_unique _ _ _ (x - n * w)); lia.
  - intros ->. pose proof (Z.div_mod x w ltac:(lia)). pose proof (Z.mod_pos_bound x w ltac:(lia)). lia.
Qed.

Lemma getnanos_ok s n c r : digitValue c = None -> c <> "."%char -> c <> ","%char ->
  getnanos s = (n, c :: r) <-> exists P, s = P ++ c :: r /\ loose_part n P.
Proof.
  intros Hd H1 H2. split.
  - destruct s as [|a s]; cbn [getnanos]; [discriminate|]. destruct (Ascii.eqb a "." || Ascii.eqb a ",") eqn:E.
    + destruct (spanDigits s) as [[|d ds] r'] eqn:Es.
      * intros [= <- -> ->]. apply orb_true_iff in E as [E|E]; apply Ascii.eqb_eq in E; contradiction.
      * intros [= <- ->]. apply spanDigits_ok in Es as (-> & F & _). exists (a :: map digit (d :: ds)). split; [reflexivity|].
        assert (P : part (fraction 9 (d :: ds)) ("."%char :: map digit (d :: ds))).
        { eapply part_some; [exact (numeral_number _ F)|cbn; lia|]. apply part_spec; [apply Z.pow_pos_nonneg; lia|]. now apply (fraction_number 9). }
        apply orb_true_iff in E as [E|E]; apply Ascii.eqb_eq in E as ->; now constructor.
    + intros [= <- -> ->]. exists []. split; [reflexivity|]. constructor. constructor.
  - intros (P & -> & H).
    assert (K : forall a l, a = "."%char \/ a = ","%char -> part n ("."%char :: l) -> getnanos ((a :: l) ++ c :: r) = (n, c :: r)).
    { intros a l Ha Hp. inversion Hp as [|w x l' n' Hn Hw Hx]; subst. cbn [app getnanos].
      assert ((Ascii.eqb a "." || Ascii.eqb a ",") = true) as -> by (destruct Ha as [-> | ->]; reflexivity).
      apply numeral_values in Hn as (ds & -> & L & -> & F). rewrite spanDigits_app by assumption. destruct ds as [|d ds]; [cbn in L; lia|].
      rewrite (fraction_number 9 _ F). f_equal. symmetry. apply part_spec in Hx; [|apply Z.pow_pos_nonneg; lia]. rewrite Hx, L. reflexivity. }
    inversion H as [n' l Hp|n' l Hp]; subst.
    + inversion Hp as [|w x l n' Hn Hw Hx]; subst.
      * cbn. destruct (Ascii.eqb_spec c "."); [contradiction|]. destruct (Ascii.eqb_spec c ","); [contradiction|]. reflexivity.
      * apply K; auto.
    + apply K; auto.
Qed.
