(** Lemmas about dates and times. *)
From Coq Require Import ZArith Lia List Ascii String Bool.
From stdpp Require Import base option.
From Verif.Model Require Import Dates.
From Verif.Spec Require Import DatesSpec.
Import ListNotations.
Local Open Scope Z_scope.
Local Open Scope list_scope.

Fixpoint all_from (fuel : nat) (x : Z) (P : Z -> bool) : bool :=
  match fuel with
  | O => true
  | S fuel => if P x then all_from fuel (x + 1) P else false
  end.

Lemma all_from_ok P fuel : forall x, all_from fuel x P = true -> forall y, x <= y < x + Z.of_nat fuel -> P y = true.
Proof.
  induction fuel as [|f IH]; intros x H y Hy; [lia|]. cbn [all_from] in H. destruct (P x) eqn:E; [|discriminate].
  destruct (Z.eq_dec y x) as [->|]; [exact E|]. apply (IH (x + 1) H). lia.
Qed.

Lemma below n P : all_from (Z.to_nat n) 0 P = true -> forall y, 0 <= y < n -> P y = true.
Proof. intros H y Hy. apply (all_from_ok P _ 0 H). lia. Qed.

(** ** Leap years and months *)

Lemma isLeap_leap y : isLeap y = true <-> leap y.
Proof.
  unfold isLeap, leap. rewrite andb_true_iff, orb_true_iff, negb_true_iff, !Z.eqb_eq, Z.eqb_neq.
  rewrite <- !Z.mod_divide by lia. lia.
Qed.

Lemma isLeap_shift k y : isLeap (y + 400 * k) = isLeap y.
Proof.
  unfold isLeap. replace (y + 400 * k) with (y + (100 * k) * 4) at 1 by lia. replace (y + 400 * k) with (y + (4 * k) * 100) at 1 by lia.
  replace (y + 400 * k) with (y + k * 400) by lia. now rewrite !Z.mod_add by lia.
Qed.

Lemma months m : 1 <= m <= 12 -> In m [1; 2; 3; 4; 5; 6; 7; 8; 9; 10; 11; 12].
Proof. intros H. cbn. lia. Qed.

Lemma lasts_daysIn y m n : lasts y m n <-> 1 <= m <= 12 /\ n = daysIn m y.
Proof.
  split.
  - intros H. inversion H as [m' Hi|m' Hi|Hl|Hl]; subst.
    + cbn in Hi. repeat destruct Hi as [<-|Hi]; try contradiction; (split; [lia|reflexivity]).
    + cbn in Hi. repeat destruct Hi as [<-|Hi]; try contradiction; (split; [lia|reflexivity]).
    + split; [lia|]. unfold daysIn. apply isLeap_leap in Hl. now rewrite Hl.
    + split; [lia|]. unfold daysIn. destruct (isLeap y) eqn:E; [|reflexivity]. apply isLeap_leap in E. contradiction.
  - intros [Hm ->]. apply months in Hm. cbn in Hm. repeat destruct Hm as [<-|Hm]; try contradiction;
      try (apply (lasts_31 y); cbn; lia); try (apply (lasts_30 y); cbn; lia).
    unfold daysIn. cbn [Z.eqb andb]. destruct (isLeap y) eqn:E.
    + apply lasts_29. now apply isLeap_leap.
    + apply lasts_28. rewrite <- isLeap_leap. rewrite E. discriminate.
Qed.

Definition valid (d : date) : bool := (1 <=? month d) && (month d <=? 12) && existing d.

Lemma valid_calendar d : valid d = true <-> in_calendar d.
Proof.
  unfold valid, existing, in_calendar. rewrite !andb_true_iff, !Z.leb_le. split.
  - intros [[H1 H2] [H3 H4]]. exists (daysIn (month d) (year d)). split; [|lia]. apply lasts_daysIn. lia.
  - intros (n & H & H'). apply lasts_daysIn in H as [H ->]. lia.
Qed.

Definition tomorrow (d : date) : date :=
  if day d <? daysIn (month d) (year d) then mkDate (year d) (month d) (day d + 1)
  else if month d <? 12 then mkDate (year d) (month d + 1) 1 else mkDate (year d + 1) 1 1.

Lemma daysIn_bound m y : 1 <= m <= 12 -> 28 <= daysIn m y <= 31.
Proof.
  intros Hm. apply months in Hm. unfold daysIn. cbn in Hm. repeat destruct Hm as [<-|Hm]; try contradiction;
    destruct (isLeap y); vm_compute; split; discriminate.
Qed.

Lemma next_tomorrow d d' : next d d' <-> valid d = true /\ d' = tomorrow d.
Proof.
  split.
  - intros H. inversion H as [y m x n Hl Hx|y m n Hl Hm|y]; subst; unfold valid, existing, tomorrow; cbn [year month day];
      try (apply lasts_daysIn in Hl as [Hm' ->]; pose proof (daysIn_bound _ y Hm') as Hb).
    + split; [rewrite !andb_true_iff, !Z.leb_le; lia|]. destruct (Z.ltb_spec x (daysIn m y)); [reflexivity|lia].
    + split; [rewrite !andb_true_iff, !Z.leb_le; lia|]. rewrite Z.ltb_irrefl. destruct (Z.ltb_spec m 12); [reflexivity|lia].
    + split; reflexivity.
  - intros [Hv ->]. unfold valid, existing in Hv. rewrite !andb_true_iff, !Z.leb_le in Hv. destruct d as [y m x]. unfold tomorrow. cbn [year month day] in *.
    assert (Hl : lasts y m (daysIn m y)) by (apply lasts_daysIn; lia).
    destruct (Z.ltb_spec x (daysIn m y)).
    + eapply next_day; [exact Hl|lia].
    + assert (x = daysIn m y) as -> by lia. destruct (Z.ltb_spec m 12).
      * apply next_month; [exact Hl|lia].
      * assert (m = 12) as -> by lia. apply next_year.
Qed.

(** ** Days and dates *)

Lemma absDate_shift k n : absDate (n + 146097 * k) = mkDate (year (absDate n) + 400 * k) (month (absDate n)) (day (absDate n)).
Proof.
  unfold absDate. replace (n + 146097 * k + epoch) with (n + epoch + k * 146097) by lia. rewrite Z.div_add by lia.
  set (q := (n + epoch) / 146097).
  replace (n + epoch + k * 146097 - 146097 * (q + k)) with (n + epoch - 146097 * q) by lia.
  set (d1 := n + epoch - 146097 * q). set (n1 := d1 / 36524 - d1 / 36524 / 4). set (d2 := d1 - 36524 * n1).
  set (n2 := d2 / 1461). set (d3 := d2 - 1461 * n2). set (n3 := d3 / 365 - d3 / 365 / 4). set (d4 := d3 - 365 * n3).
  replace (400 * (q + k) + 100 * n1 + 4 * n2 + n3 + 1) with (400 * q + 100 * n1 + 4 * n2 + n3 + 1 + 400 * k) by lia. rewrite isLeap_shift.
  set (y := 400 * q + 100 * n1 + 4 * n2 + n3 + 1).
  destruct (isLeap y && (d4 =? 31 + 29 - 1)); [reflexivity|].
  set (d5 := if isLeap y && (31 + 29 - 1 <? d4) then d4 - 1 else d4).
  destruct (daysBefore (d5 / 31 + 1) <=? d5); reflexivity.
Qed.

Lemma daysIn_shift k m y : daysIn m (y + 400 * k) = daysIn m y.
Proof. unfold daysIn. now rewrite isLeap_shift. Qed.

Lemma dayNumber_shift k y m d : dayNumber (mkDate (y + 400 * k) m d) = dayNumber (mkDate y m d) + 146097 * k.
Proof.
  unfold dayNumber, daysSinceEpoch. cbn [year month day]. rewrite isLeap_shift.
  replace (y + 400 * k - 1) with (y - 1 + k * 400) by lia. rewrite Z.div_add by lia.
  replace (y - 1 + k * 400 - 400 * ((y - 1) / 400 + k)) with (y - 1 - 400 * ((y - 1) / 400)) by lia. lia.
Qed.

Definition same (d d' : date) : bool := (year d =? year d') && (month d =? month d') && (day d =? day d').
Lemma same_eq d d' : same d d' = true -> d = d'.
Proof. destruct d, d'. unfold same. cbn. rewrite !andb_true_iff, !Z.eqb_eq. intros [[-> ->] ->]. reflexivity. Qed.

(** The year, counted from the first of 400, and the day in it; the month and the day of it. *)
Definition long (b : bool) : Z := if b then 366 else 365.
Definition start (y : Z) : Z := daysSinceEpoch (y + 1).
Definition yearDay (d : Z) : Z * Z :=
  let n := d / 146097 in let y := 400 * n in let d := d - 146097 * n in
  let n := d / 36524 in let n := n - n / 4 in let y := y + 100 * n in let d := d - 36524 * n in
  let n := d / 1461 in let y := y + 4 * n in let d := d - 1461 * n in
  let n := d / 365 in let n := n - n / 4 in let y := y + n in let d := d - 365 * n in (y, d).
Definition monthDay (b : bool) (d : Z) : Z * Z :=
  if b && (d =? 31 + 29 - 1) then (2, 29)
  else
    let d := if b && (31 + 29 - 1 <? d) then d - 1 else d in
    let m := d / 31 in
    let last := daysBefore (m + 1) in
    if last <=? d then (m + 2, d - last + 1) else (m + 1, d - daysBefore m + 1).
Definition dated (yt : Z * Z) : date :=
  mkDate (fst yt + 1) (fst (monthDay (isLeap (fst yt + 1)) (snd yt))) (snd (monthDay (isLeap (fst yt + 1)) (snd yt))).
Lemma absDate_dated n : absDate n = dated (yearDay (n + epoch)).
Proof.
  unfold yearDay, absDate. cbv zeta.
  match goal with |- _ = dated (?y, ?d) => generalize d; generalize y end. intros y t. unfold dated, monthDay. cbn [fst snd].
  destruct (isLeap (y + 1) && (t =? 31 + 29 - 1)); [reflexivity|].
  match goal with |- (if ?c then _ else _) = _ => destruct c; reflexivity end.
Qed.
Lemma absDate_parts n y t : yearDay (n + epoch) = (y, t) -> absDate n = mkDate (y + 1) (fst (monthDay (isLeap (y + 1)) t)) (snd (monthDay (isLeap (y + 1)) t)).
Proof. intros E. rewrite absDate_dated, E. reflexivity. Qed.

Lemma quotient a b q r : a = b * q + r -> 0 <= r < b -> a / b = q.
Proof. intros E H. symmetry. apply (Z.div_unique a b q r); [now left|exact E]. Qed.

Lemma start_digits a b c : 0 <= a < 4 -> 0 <= b < 25 -> 0 <= c < 4 -> start (100 * a + 4 * b + c) = 36524 * a + 1461 * b + 365 * c.
Proof.
  intros Ha Hb Hc. unfold start, daysSinceEpoch. replace (100 * a + 4 * b + c + 1 - 1) with (100 * a + 4 * b + c) by lia.
  rewrite (quotient _ 400 0 (100 * a + 4 * b + c)) by lia. replace (100 * a + 4 * b + c - 400 * 0) with (100 * a + 4 * b + c) by lia.
  rewrite (quotient _ 100 a (4 * b + c)) by lia. replace (100 * a + 4 * b + c - 100 * a) with (4 * b + c) by lia.
  rewrite (quotient _ 4 b c) by lia. lia.
Qed.
Lemma leap_digits a b c : 0 <= a < 4 -> 0 <= b < 25 -> 0 <= c < 4 -> isLeap (100 * a + 4 * b + c + 1) = true -> c = 3 /\ (b = 24 -> a = 3).
Proof.
  intros Ha Hb Hc. unfold isLeap. rewrite andb_true_iff, orb_true_iff, negb_true_iff, !Z.eqb_eq, Z.eqb_neq. intros [H4 H].
  pose proof (Z.div_mod (100 * a + 4 * b + c + 1) 4 ltac:(lia)) as D4. rewrite H4 in D4. assert (c = 3) as -> by lia. split; [reflexivity|].
  intros ->. destruct H as [H|H].
  - destruct H. replace (100 * a + 4 * 24 + 3 + 1) with ((a + 1) * 100) by lia. apply Z.mod_mul. lia.
  - pose proof (Z.div_mod (100 * a + 4 * 24 + 3 + 1) 400 ltac:(lia)) as D. rewrite H in D. lia.
Qed.
Lemma yearDay_ok y t : 0 <= y < 400 -> 0 <= t < long (isLeap (y + 1)) -> yearDay (start y + t) = (y, t).
Proof.
  intros Hy Ht. set (a := y / 100). set (b := y mod 100 / 4). set (c := y mod 4).
  assert (E : y = 100 * a + 4 * b + c /\ 0 <= a < 4 /\ 0 <= b < 25 /\ 0 <= c < 4).
  { pose proof (Z.div_mod y 100 ltac:(lia)). pose proof (Z.mod_pos_bound y 100 ltac:(lia)). pose proof (Z.div_mod (y mod 100) 4 ltac:(lia)).
    pose proof (Z.mod_pos_bound (y mod 100) 4 ltac:(lia)). assert (c = (y mod 100) mod 4).
    { unfold c. rewrite (Z.div_mod y 100) at 1 by lia. replace (100 * (y / 100) + y mod 100) with (y mod 100 + (25 * (y / 100)) * 4) by lia. apply Z.mod_add. lia. }
    unfold a, b. lia. }
  clearbody a b c. destruct E as (-> & Ha & Hb & Hc). rewrite start_digits by assumption.
  assert (L : t = 365 -> c = 3 /\ (b = 24 -> a = 3)).
  { intros ->. apply leap_digits; try assumption. unfold long in Ht. destruct (isLeap _); [reflexivity|lia]. }
  assert (Ht' : 0 <= t <= 365) by (unfold long in Ht; destruct (isLeap _); lia). clear Ht Hy.
  unfold yearDay. set (d := 36524 * a + 1461 * b + 365 * c + t).
  rewrite (quotient d 146097 0 d) by (unfold d; lia). replace (d - 146097 * 0) with d by lia.
  assert (E1 : d / 36524 - d / 36524 / 4 = a).
  { destruct (Z.eq_dec t 365) as [Et|Et].
    - destruct (Z.eq_dec b 24) as [Eb|Eb].
      + destruct (L Et) as [Ec Ea]. rewrite (quotient d 36524 4 0) by (unfold d; lia). cbn. lia.
      + rewrite (quotient d 36524 a (1461 * b + 365 * c + t)) by (unfold d; lia). rewrite (quotient a 4 0 a) by lia. lia.
    - rewrite (quotient d 36524 a (1461 * b + 365 * c + t)) by (unfold d; lia). rewrite (quotient a 4 0 a) by lia. lia. }
  rewrite E1. replace (d - 36524 * a) with (1461 * b + 365 * c + t) by (unfold d; lia). clear d E1.
  rewrite (quotient _ 1461 b (365 * c + t)) by lia. replace (1461 * b + 365 * c + t - 1461 * b) with (365 * c + t) by lia.
  assert (E3 : (365 * c + t) / 365 - (365 * c + t) / 365 / 4 = c).
  { destruct (Z.eq_dec t 365) as [Et|Et].
    - destruct (L Et) as [Ec _]. rewrite (quotient _ 365 4 0) by lia. cbn. lia.
    - rewrite (quotient _ 365 c t) by lia. rewrite (quotient c 4 0 c) by lia. lia. }
  rewrite E3. f_equal; lia.
Qed.

Lemma long_positive b : 0 < long b.
Proof. destruct b; reflexivity. Qed.
Lemma starts : all_from 400 0 (fun y => start (y + 1) =? start y + long (isLeap (y + 1))) = true.
Proof. vm_compute. reflexivity. Qed.
Lemma next_start y : 0 <= y < 400 -> start (y + 1) = start y + long (isLeap (y + 1)).
Proof. intros H. pose proof (all_from_ok _ _ 0 starts y ltac:(lia)) as E. cbv beta in E. now apply Z.eqb_eq in E. Qed.
Lemma in_year r : 0 <= r < 146097 -> exists y t, r = start y + t /\ 0 <= y < 400 /\ 0 <= t < long (isLeap (y + 1)).
Proof.
  intros H. replace r with (Z.of_nat (Z.to_nat r)) by lia. assert (B : Z.of_nat (Z.to_nat r) < 146097) by lia. revert B. clear H.
  induction (Z.to_nat r) as [|k IH]; intros B.
  { exists 0, 0. split; [reflexivity|]. split; [lia|]. unfold long. destruct (isLeap _); lia. }
  destruct IH as (y & t & E & Hy & Ht); [lia|]. destruct (Z.eq_dec (t + 1) (long (isLeap (y + 1)))) as [El|El].
  - pose proof (next_start y Hy) as N. assert (y <> 399).
    { intros ->. assert (start (399 + 1) = 146097) by reflexivity. lia. }
    exists (y + 1), 0. split; [rewrite N; lia|]. split; [lia|]. pose proof (long_positive (isLeap (y + 1 + 1))). lia.
  - exists y, (t + 1). lia.
Qed.

Definition monthLong (b : bool) (m : Z) : Z := if (m =? 2) && b then 29 else daysBefore m - daysBefore (m - 1).
Definition inYear (b : bool) (m x : Z) : Z := daysBefore (m - 1) + (if b && (3 <=? m) then 1 else 0) + (x - 1).
Definition day_ok (b : bool) (t : Z) : bool :=
  let '(m, x) := monthDay b t in
  if t <? long b then
    (1 <=? m) && (m <=? 12) && (1 <=? x) && (x <=? monthLong b m) && (inYear b m x =? t) &&
    (let '(m', x') := monthDay b (t + 1) in
     if t + 1 <? long b then if x <? monthLong b m then (m' =? m) && (x' =? x + 1) else (m <? 12) && (m' =? m + 1) && (x' =? 1)
     else (m =? 12) && (x =? 31))
  else true.
Lemma days_ok b : all_from 366 0 (day_ok b) = true.
Proof. destruct b; vm_compute; reflexivity. Qed.
Definition back_ok (b : bool) (i : Z) : bool :=
  let m := i / 31 + 1 in let x := i mod 31 + 1 in
  if x <=? monthLong b m then (0 <=? inYear b m x) && (inYear b m x <? long b) && (fst (monthDay b (inYear b m x)) =? m) && (snd (monthDay b (inYear b m x)) =? x) else true.
Lemma backs_ok b : all_from 372 0 (back_ok b) = true.
Proof. destruct b; vm_compute; reflexivity. Qed.

Lemma tomorrow_shift k d : tomorrow (mkDate (year d + 400 * k) (month d) (day d)) = mkDate (year (tomorrow d) + 400 * k) (month (tomorrow d)) (day (tomorrow d)).
Proof.
  unfold tomorrow. cbn [year month day]. rewrite daysIn_shift. destruct (day d <? daysIn (month d) (year d)); [reflexivity|].
  destruct (month d <? 12); [reflexivity|]. cbn [year month day]. f_equal. lia.
Qed.

Lemma valid_shift k d : valid (mkDate (year d + 400 * k) (month d) (day d)) = valid d.
Proof. unfold valid, existing. cbn [year month day]. now rewrite daysIn_shift. Qed.

Lemma in_cycle n : exists k r, n = r - epoch + 146097 * k /\ 0 <= r < 146097.
Proof.
  exists ((n + epoch) / 146097), ((n + epoch) mod 146097). pose proof (Z.div_mod (n + epoch) 146097 ltac:(lia)).
  pose proof (Z.mod_pos_bound (n + epoch) 146097 ltac:(lia)). lia.
Qed.

Lemma absDate_year y t : 0 <= y < 400 -> 0 <= t < long (isLeap (y + 1)) ->
  absDate (start y + t - epoch) = mkDate (y + 1) (fst (monthDay (isLeap (y + 1)) t)) (snd (monthDay (isLeap (y + 1)) t)).
Proof. intros Hy Ht. apply absDate_parts. replace (start y + t - epoch + epoch) with (start y + t) by lia. now apply yearDay_ok. Qed.
Lemma absDate_new y : 0 <= y <= 400 -> absDate (start y - epoch) = mkDate (y + 1) 1 1.
Proof.
  intros H. destruct (Z.eq_dec y 400) as [->|N]; [reflexivity|]. replace (start y - epoch) with (start y + 0 - epoch) by lia.
  rewrite absDate_year; [|lia|pose proof (long_positive (isLeap (y + 1))); lia]. now destruct (isLeap (y + 1)).
Qed.

Lemma absDate_ok n : valid (absDate n) = true /\ dayNumber (absDate n) = n /\ absDate (n + 1) = tomorrow (absDate n).
Proof.
  destruct (in_cycle n) as (k & r & -> & Hr). destruct (in_year r Hr) as (y & t & -> & Hy & Ht).
  pose proof (absDate_year y t Hy Ht) as Ed. set (d := absDate (start y + t - epoch)) in *.
  enough (C : valid d = true /\ dayNumber d = start y + t - epoch /\ absDate (start y + t + 1 - epoch) = tomorrow d).
  { destruct C as (C1 & C2 & C3).
    replace (start y + t - epoch + 146097 * k + 1) with (start y + t + 1 - epoch + 146097 * k) by lia. rewrite !absDate_shift. fold d. rewrite C3.
    split; [now rewrite valid_shift|]. split; [rewrite dayNumber_shift; destruct d as [y0 m0 x0]; cbn [year month day] in *; lia|]. symmetry. apply tomorrow_shift. }
  rewrite Ed. clear Ed d k Hr. set (b := isLeap (y + 1)) in *.
  assert (B : t < 366) by (destruct b; cbn in Ht; lia).
  pose proof (all_from_ok _ _ 0 (days_ok b) t ltac:(lia)) as C. unfold day_ok in C.
  destruct (monthDay b t) as [m x]. destruct (Z.ltb_spec t (long b)) as [_|]; [|lia]. rewrite !andb_true_iff, !Z.leb_le, Z.eqb_eq in C.
  destruct C as [[[[[C1 C2] C3] C4] C5] C6]. cbn [fst snd]. split; [|split].
  - unfold valid, existing, daysIn. cbn [year month day]. fold b. unfold monthLong in C4. rewrite !andb_true_iff, !Z.leb_le. lia.
  - unfold dayNumber. cbn [year month day]. fold b. unfold inYear in C5. unfold start. lia.
  - unfold tomorrow, daysIn. cbn [year month day]. fold b. fold (monthLong b m).
    destruct (Z.ltb_spec (t + 1) (long b)) as [L|L].
    + replace (start y + t + 1 - epoch) with (start y + (t + 1) - epoch) by lia. rewrite absDate_year; [|lia|fold b; lia]. fold b.
      destruct (monthDay b (t + 1)) as [m' x']. cbn [fst snd]. destruct (Z.ltb_spec x (monthLong b m)).
      * rewrite andb_true_iff, !Z.eqb_eq in C6. destruct C6 as [-> ->]. reflexivity.
      * rewrite !andb_true_iff, !Z.eqb_eq in C6. destruct C6 as [[C6 ->] ->]. now rewrite C6.
    + replace (start y + t + 1 - epoch) with (start (y + 1) - epoch) by (rewrite next_start by lia; fold b; lia). rewrite absDate_new by lia.
      destruct (monthDay b (t + 1)). rewrite andb_true_iff, !Z.eqb_eq in C6. destruct C6 as [-> ->]. now destruct b.
Qed.

Lemma valid_bounds d : valid d = true -> 1 <= month d <= 12 /\ 1 <= day d <= 31.
Proof.
  unfold valid, existing. rewrite !andb_true_iff, !Z.leb_le. intros [[H1 H2] [H3 H4]]. pose proof (daysIn_bound (month d) (year d)). lia.
Qed.

Lemma dayNumber_ok d : valid d = true -> absDate (dayNumber d) = d.
Proof.
  intros Hv. destruct d as [y m x]. pose proof (valid_bounds _ Hv) as [Hm Hx]. cbn [year month day] in *.
  set (k := (y - 1) / 400). set (y0 := (y - 1) mod 400).
  assert (Hy : y = y0 + 1 + 400 * k) by (pose proof (Z.div_mod (y - 1) 400 ltac:(lia)); lia).
  assert (Hb : 0 <= y0 < 400) by (apply Z.mod_pos_bound; lia).
  rewrite Hy in *. clear Hy. clearbody k y0.
  rewrite dayNumber_shift, absDate_shift.
  replace (y0 + 1 + 400 * k) with (year (mkDate (y0 + 1) m x) + 400 * k) in Hv by reflexivity.
  change (mkDate _ m x) with (mkDate (year (mkDate (y0 + 1) m x) + 400 * k) (month (mkDate (y0 + 1) m x)) (day (mkDate (y0 + 1) m x))) in Hv. rewrite valid_shift in Hv.
  set (b := isLeap (y0 + 1)) in *.
  pose proof (all_from_ok _ _ 0 (backs_ok b) (31 * (m - 1) + (x - 1)) ltac:(lia)) as B. unfold back_ok in B.
  rewrite (quotient (31 * (m - 1) + (x - 1)) 31 (m - 1) (x - 1)) in B by lia.
  assert (E4 : (31 * (m - 1) + (x - 1)) mod 31 = x - 1) by (symmetry; apply (Z.mod_unique _ _ (m - 1)); lia).
  rewrite E4 in B. replace (m - 1 + 1) with m in B by lia. replace (x - 1 + 1) with x in B by lia.
  assert (Hl : x <= monthLong b m).
  { unfold valid, existing, daysIn in Hv. cbn [year month day] in Hv. fold b in Hv. fold (monthLong b m) in Hv. rewrite !andb_true_iff, !Z.leb_le in Hv. lia. }
  apply Z.leb_le in Hl. rewrite Hl, !andb_true_iff, Z.leb_le, Z.ltb_lt, !Z.eqb_eq in B. destruct B as [[[B1 B2] B3] B4].
  replace (dayNumber (mkDate (y0 + 1) m x)) with (start y0 + inYear b m x - epoch) by (unfold dayNumber, start, inYear; cbn [year month day]; fold b; lia).
  rewrite absDate_year; [|lia|fold b; lia]. fold b. cbn [year month day]. now rewrite B3, B4.
Qed.

Lemma tomorrow_inj d d' : valid d = true -> valid d' = true -> tomorrow d = tomorrow d' -> d = d'.
Proof.
  intros H H' E. rewrite <- (dayNumber_ok d H), <- (dayNumber_ok d' H') in *. f_equal.
  destruct (absDate_ok (dayNumber d)) as (_ & _ & E1). destruct (absDate_ok (dayNumber d')) as (_ & _ & E2).
  destruct (absDate_ok (dayNumber d + 1)) as (_ & E3 & _). destruct (absDate_ok (dayNumber d' + 1)) as (_ & E4 & _).
  rewrite E1 in E3. rewrite E2 in E4. rewrite <- E, E3 in E4. lia.
Qed.

Theorem on_day_absDate n d : on_day n d <-> absDate n = d.
Proof.
  split.
  - induction 1 as [|n d d' H IH Hn|n d d' H IH Hn]; [reflexivity| |].
    + apply next_tomorrow in Hn as [_ ->]. rewrite <- IH. apply absDate_ok.
    + apply next_tomorrow in Hn as [Hv ->]. destruct (absDate_ok (n - 1)) as (V & _ & E). replace (n - 1 + 1) with n in E by lia.
      apply tomorrow_inj; [exact V|exact Hv|]. congruence.
  - intros <-. assert (U : forall k, on_day (Z.of_nat k) (absDate (Z.of_nat k))).
    { induction k as [|k IH]; [exact on_first|]. rewrite Nat2Z.inj_succ. unfold Z.succ. eapply on_next; [exact IH|]. apply next_tomorrow.
      split; apply absDate_ok. }
    assert (D : forall k, on_day (- Z.of_nat k) (absDate (- Z.of_nat k))).
    { induction k as [|k IH]; [exact on_first|]. replace (- Z.of_nat (S k)) with (- Z.of_nat k - 1) by lia. eapply on_before; [exact IH|].
      apply next_tomorrow. split; [apply absDate_ok|]. rewrite <- (proj2 (proj2 (absDate_ok (- Z.of_nat k - 1)))). f_equal. lia. }
    destruct (Z_le_gt_dec 0 n) as [Hn|Hn].
    + rewrite <- (Z2Nat.id n Hn). apply U.
    + replace n with (- Z.of_nat (Z.to_nat (- n))) by lia. apply D.
Qed.
