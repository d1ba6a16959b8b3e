(** Lemmas about writing and reading times. *)
From Coq Require Import ZArith Lia List Ascii String Bool.
From stdpp Require Import base option.
From Verif.Model Require Import Dates.
From Verif.Spec Require Import DatesSpec.
From Verif.Proof Require Import DatesProof DateTextProof.
Import ListNotations.
Local Open Scope Z_scope.
Local Open Scope list_scope.

(** ** Zones *)

Lemma getzone_ok s o r : getzone s = Some (o, r) <-> exists l, s = l ++ r /\ loose_zone o l.
Proof.
  split.
  - destruct s as [|c s]; cbn [getzone]; [discriminate|]. destruct (Ascii.eqb_spec c "Z") as [->|_].
    + intros [= <- <-]. exists ["Z"%char]. split; [reflexivity|constructor].
    + destruct (getnum true s) as [[h s1]|] eqn:E1; [|discriminate]. destruct (skip ":" s1) as [s2|] eqn:E2; [|discriminate].
      destruct (getnum true s2) as [[m s3]|] eqn:E3; [|discriminate]. destruct ((h <=? 24) && (m <=? 60)) eqn:E4; [|discriminate].
      apply andb_true_iff in E4 as [L1 L2]. apply Z.leb_le in L1, L2. apply getnum_fixed in E1 as (H & -> & HH). apply skip_ok in E2 as ->.
      apply getnum_fixed in E3 as (M & -> & HM).
      destruct (Ascii.eqb_spec c "+") as [->|_].
      * intros [= <- <-]. exists ("+"%char :: H ++ ":"%char :: M). split; [now rewrite <- app_comm_cons, <- app_assoc|]. now constructor.
      * destruct (Ascii.eqb_spec c "-") as [->|_]; [|discriminate].
        intros [= <- <-]. exists ("-"%char :: H ++ ":"%char :: M). split; [now rewrite <- app_comm_cons, <- app_assoc|]. now constructor.
  - intros (l & -> & H). inversion H as [|h m H' M HH Lh HM Lm|h m H' M HH Lh HM Lm]; subst; [reflexivity| |];
      rewrite <- app_comm_cons, <- app_assoc; cbn [getzone Ascii.eqb eqb]; rewrite (getnum_app h) by assumption; rewrite <- app_comm_cons, skip_cons, (getnum_app m) by assumption;
      (destruct (Z.leb_spec h 24); [|lia]); (destruct (Z.leb_spec m 60); [|lia]); reflexivity.
Qed.

Lemma zone_head o l r : loose_zone o l -> exists c l', l ++ r = c :: l' /\ digitValue c = None /\ c <> "."%char /\ c <> ","%char.
Proof.
  intros H. inversion H; subst; eexists _, _; (split; [reflexivity|]); (split; [reflexivity|]); split; discriminate.
Qed.

(** ** Exactly what is read *)

Lemma text_shape (D H M S P O : list ascii) :
  (D ++ "T"%char :: H ++ ":"%char :: M ++ ":"%char :: S ++ P ++ O) = D ++ ("T"%char :: (H ++ (":"%char :: (M ++ (":"%char :: (S ++ (P ++ O))))))).
Proof. reflexivity. Qed.

Lemma parse_steps n d D w h m s H M S p P c r : on_day n d -> day_text d D ->
  numeral w h H -> w = 1%nat \/ w = 2%nat -> h <= 23 -> numeral 2 m M -> m <= 59 -> numeral 2 s S -> s <= 59 -> loose_part p P ->
  digitValue c = None -> c <> "."%char -> c <> ","%char ->
  parse (D ++ "T"%char :: H ++ ":"%char :: M ++ ":"%char :: S ++ P ++ c :: r) =
  match getzone (c :: r) with Some (o, []) => Some (mkTime (86400 * n + 3600 * h + 60 * m + s - o) p o) | _ => None end.
Proof.
  intros Hn HD HH Hw Lh HM Lm HS Ls HP C1 C2 C3. apply on_day_absDate in Hn. destruct (absDate_ok n) as (V & N & _). rewrite Hn in V, N.
  pose proof (valid_bounds _ V) as [Hm _]. unfold parse.
  rewrite (proj2 (getdate_ok _ d ("T"%char :: H ++ ":"%char :: M ++ ":"%char :: S ++ P ++ c :: r))) by eauto. cbn [mbind option_bind].
  rewrite skip_cons. cbn [mbind option_bind].
  assert (E : exists c' r', P ++ c :: r = c' :: r' /\ digitValue c' = None).
  { inversion HP as [p' l Hp|p' l Hp]; subst; [inversion Hp; subst|]; eexists _, _; (split; [reflexivity|]); auto. }
  destruct E as (c' & r' & E & E'). pose proof (proj2 (getnanos_ok (P ++ c :: r) p c r C1 C2 C3)) as G. rewrite E in *.
  rewrite (proj1 (proj2 (getclock_ok _ (3600 * h + 60 * m + s) c' r')
    (ex_intro _ w (ex_intro _ h (ex_intro _ m (ex_intro _ s (ex_intro _ H (ex_intro _ M (ex_intro _ S (conj eq_refl (conj eq_refl (conj E' (conj HH (conj Hw (conj Lh (conj HM (conj Lm (conj HS Ls)))))))))))))))))).
  cbn [mbind option_bind]. rewrite G by (exists P; rewrite E; auto).
  destruct (getzone (c :: r)) as [[o [|a l]]|]; cbn [mbind option_bind]; [|reflexivity|reflexivity].
  rewrite existing_valid, V by exact Hm. rewrite N. do 2 f_equal. lia.
Qed.

Lemma parse_ok s t : parse s = Some t <-> loose_stamp t s.
Proof.
  split.
  - unfold parse. destruct (getdate s) as [[d s1]|] eqn:E1; cbn [mbind option_bind]; [|discriminate].
    destruct (skip "T" s1) as [s2|] eqn:E2; cbn [mbind option_bind]; [|discriminate].
    destruct (getclock s2) as [[x s3]|] eqn:E3; cbn [mbind option_bind]; [|discriminate].
    destruct (getnanos s3) as [p s4] eqn:E4.
    destruct (getzone s4) as [[o s5]|] eqn:E5; cbn [mbind option_bind]; [|discriminate].
    destruct s5; [|discriminate]. destruct (existing d) eqn:E6; [|discriminate].
    intros X. assert (t = mkTime (86400 * dayNumber d + x - o) p o) as -> by congruence. clear X.
    apply getdate_ok in E1 as (D & -> & HD & Hm). rewrite existing_valid in E6 by exact Hm. apply skip_ok in E2 as ->.
    apply getzone_ok in E5 as (O & -> & HO). rewrite app_nil_r in *. destruct (zone_head _ _ [] HO) as (c & l & Ec & C1 & C2 & C3). rewrite app_nil_r in Ec. subst O.
    apply getnanos_ok in E4 as (P & -> & HP); [|assumption|assumption|assumption].
    assert (E : exists c' r', P ++ c :: l = c' :: r' /\ digitValue c' = None).
    { inversion HP as [p' l' Hp|p' l' Hp]; subst; [inversion Hp; subst|]; eexists _, _; (split; [reflexivity|]); auto. }
    destruct E as (c' & r' & E & E'). rewrite E in *.
    destruct (proj1 (getclock_ok s2 x c' r') (conj E3 E')) as (w & h & m & z & H & M & S & -> & -> & _ & HH & Hw & Lh & HM & Lm & HS & Lz).
    replace (86400 * dayNumber d + (3600 * h + 60 * m + z) - o) with (86400 * dayNumber d + 3600 * h + 60 * m + z - o) by lia. rewrite <- E.
    refine (loose_stamp_ (dayNumber d) d D w h m z H M S p P o (c :: l) _ HD HH Hw Lh HM Lm HS Lz HP HO). apply on_day_absDate. now apply dayNumber_ok.
  - intros H. inversion H as [n d D w h m z H' M S p P o O Hn HD HH Hw Lh HM Lm HS Lz HP HO]; subst.
    destruct (zone_head _ _ [] HO) as (c & l & Ec & C1 & C2 & C3). rewrite app_nil_r in Ec. subst O. erewrite parse_steps by eassumption.
    rewrite (proj2 (getzone_ok (c :: l) o [])); [reflexivity|]. exists (c :: l). rewrite app_nil_r. auto.
Qed.

Lemma stamp_loose t s : stamp t s -> loose_stamp t s.
Proof.
  intros H. inversion H as [n d D h m z H' M S p P o O Hn HD HH Lh HM Lm HS Lz HP HO]; subst.
  refine (loose_stamp_ n d D 2 h m z H' M S p P o O Hn HD HH (or_intror eq_refl) Lh HM Lm HS Lz _ _).
  - now constructor.
  - inversion HO; subst; constructor; auto; lia.
Qed.

(** ** Writing *)

Lemma clockText_ok s : 0 <= s < 86400 -> exists h m z H M S, clockText s = H ++ ":"%char :: M ++ ":"%char :: S /\ s = 3600 * h + 60 * m + z /\
  numeral 2 h H /\ h <= 23 /\ numeral 2 m M /\ m <= 59 /\ numeral 2 z S /\ z <= 59.
Proof.
  intros Hs. exists (s / 3600), (s mod 3600 / 60), (s mod 60), (appendInt (s / 3600) 2), (appendInt (s mod 3600 / 60) 2), (appendInt (s mod 60) 2).
  pose proof (Z.div_mod s 3600 ltac:(lia)). pose proof (Z.mod_pos_bound s 3600 ltac:(lia)).
  pose proof (Z.div_mod (s mod 3600) 60 ltac:(lia)). pose proof (Z.mod_pos_bound (s mod 3600) 60 ltac:(lia)).
  assert (E : s mod 60 = s mod 3600 mod 60) by (rewrite <- (Z.mod_unique s 60 (60 * (s / 3600) + s mod 3600 / 60) (s mod 3600 mod 60)); lia).
  split; [reflexivity|]. rewrite E. split; [lia|]. assert (s / 3600 <= 23) by lia. assert (0 <= s / 3600) by lia.
  split; [apply appendInt_fits; cbn; lia|]. split; [lia|]. split; [apply appendInt_fits; cbn; lia|]. split; [lia|].
  split; [apply appendInt_fits; cbn; lia|]. lia.
Qed.

Lemma dropZeros_snoc l c : dropZeros (l ++ [c]) = if Ascii.eqb c "0" then dropZeros l else l ++ [c].
Proof.
  induction l as [|a l IH]; cbn [app dropZeros].
  - destruct (Ascii.eqb c "0"); reflexivity.
  - rewrite IH. destruct (Ascii.eqb c "0"); [reflexivity|]. destruct (l ++ [c]) as [|b l'] eqn:E; [destruct l; discriminate|]. reflexivity.
Qed.

Lemma dropZeros_ok w x l : numeral w x l -> exists w' x', numeral w' x' (dropZeros l) /\ (w' <= w)%nat /\ x = x' * 10 ^ (Z.of_nat w - Z.of_nat w').
Proof.
  induction 1 as [|w x l d c H IH Hd Hc].
  - exists 0%nat, 0. split; [constructor|]. split; [lia|]. reflexivity.
  - rewrite dropZeros_snoc. destruct (Ascii.eqb_spec c "0") as [->|Hn].
    + destruct IH as (w' & x' & N & L & ->). exists w', x'. split; [exact N|]. split; [lia|].
      assert (d = 0) as ->. { rewrite digit_char in Hc by exact Hd. injection Hc as Hc. assert (Some d = Some 0) as [= ->]; [|reflexivity]. rewrite <- (digit_value d Hd), Hc. reflexivity. }
      replace (Z.of_nat (S w) - Z.of_nat w') with (Z.succ (Z.of_nat w - Z.of_nat w')) by lia. rewrite Z.pow_succ_r by lia. lia.
    + exists (S w), (10 * x + d). split; [econstructor; eassumption|]. split; [lia|]. rewrite Z.sub_diag. cbn. lia.
Qed.

Lemma nanoText_ok n : 0 <= n < 10 ^ 9 -> part n (nanoText n).
Proof.
  intros Hn. unfold nanoText. destruct (Z.eqb_spec n 0) as [->|Hz]; [constructor|].
  destruct (dropZeros_ok 9 n (appendInt n 9)) as (w & x & N & L & E); [apply appendInt_fits; [lia|exact Hn]|].
  eapply part_some; [exact N| |].
  - destruct w; [|lia]. apply numeral_0 in N as [-> _]. lia.
  - assert (Q : 0 < 10 ^ Z.of_nat w) by (apply Z.pow_pos_nonneg; lia).
    assert (F : n * 10 ^ Z.of_nat w = x * 10 ^ 9).
    { rewrite E at 1. rewrite <- Z.mul_assoc, <- Z.pow_add_r by lia. do 2 f_equal. lia. }
    lia.
Qed.

Lemma dateText_ok d : valid d = true -> 0 <= year d <= 9999 -> day_text d (dateText d).
Proof.
  intros V Hy. pose proof (valid_bounds _ V). destruct d as [y m x]. cbn [year month day] in *. unfold dateText. cbn [year month day].
  constructor; apply appendInt_fits; cbn; lia.
Qed.

Lemma quot_60 o : Z.abs (Z.quot o 60) = Z.abs o / 60.
Proof. rewrite <- Z.quot_abs by lia. change (Z.abs 60) with 60. apply Z.quot_div_nonneg; lia. Qed.

Lemma zoneText_ok o : Z.abs o < 90000 -> loose_zone (60 * Z.quot o 60) (zoneText o).
Proof.
  intros Ho. unfold zoneText. destruct (Z.eqb_spec o 0) as [->|Hz]; [constructor|].
  set (z := Z.quot o 60). assert (Hq : Z.abs z < 1500) by (unfold z; rewrite quot_60; apply Z.div_lt_upper_bound; lia).
  pose proof (Z.div_mod (Z.abs z) 60 ltac:(lia)). pose proof (Z.mod_pos_bound (Z.abs z) 60 ltac:(lia)).
  assert (B : 0 <= Z.abs z / 60 <= 24) by lia.
  assert (N1 : numeral 2 (Z.abs z / 60) (appendInt (Z.abs z / 60) 2)) by (apply appendInt_fits; cbn; lia).
  assert (N2 : numeral 2 (Z.abs z mod 60) (appendInt (Z.abs z mod 60) 2)) by (apply appendInt_fits; cbn; lia).
  destruct (Z.ltb_spec z 0).
  - replace (60 * z) with (- (60 * (60 * (Z.abs z / 60) + Z.abs z mod 60))) by lia. constructor; auto; lia.
  - replace (60 * z) with (60 * (60 * (Z.abs z / 60) + Z.abs z mod 60)) by lia. constructor; auto; lia.
Qed.

Lemma zoneText_strict o : Z.abs (Z.quot o 60) / 60 < 24 -> zone (60 * Z.quot o 60) (zoneText o).
Proof.
  intros Ho. unfold zoneText. destruct (Z.eqb_spec o 0) as [->|Hz]; [constructor|].
  set (z := Z.quot o 60) in *.
  pose proof (Z.div_mod (Z.abs z) 60 ltac:(lia)). pose proof (Z.mod_pos_bound (Z.abs z) 60 ltac:(lia)).
  assert (B : 0 <= Z.abs z / 60 <= 23) by lia.
  assert (N1 : numeral 2 (Z.abs z / 60) (appendInt (Z.abs z / 60) 2)) by (apply appendInt_fits; cbn; lia).
  assert (N2 : numeral 2 (Z.abs z mod 60) (appendInt (Z.abs z mod 60) 2)) by (apply appendInt_fits; cbn; lia).
  destruct (Z.ltb_spec z 0).
  - replace (60 * z) with (- (60 * (60 * (Z.abs z / 60) + Z.abs z mod 60))) by lia. constructor; auto; lia.
  - replace (60 * z) with (60 * (60 * (Z.abs z / 60) + Z.abs z mod 60)) by lia. constructor; auto; lia.
Qed.

Lemma zoneText_bad o : 90000 <= Z.abs o -> getzone (zoneText o) = None /\ exists c l, zoneText o = c :: l /\ digitValue c = None /\ c <> "."%char /\ c <> ","%char.
Proof.
  intros Ho. unfold zoneText. destruct (Z.eqb_spec o 0) as [->|Hz]; [cbn in Ho; lia|].
  set (z := Z.quot o 60). assert (Hq : 1500 <= Z.abs z) by (unfold z; rewrite quot_60; apply Z.div_le_lower_bound; lia).
  pose proof (Z.div_mod (Z.abs z) 60 ltac:(lia)). pose proof (Z.mod_pos_bound (Z.abs z) 60 ltac:(lia)).
  assert (B : 25 <= Z.abs z / 60) by lia. set (c := if z <? 0 then "-"%char else "+"%char). set (m := appendInt (Z.abs z mod 60) 2).
  assert (Hc : digitValue c = None /\ c <> "."%char /\ c <> ","%char /\ Ascii.eqb c "Z" = false) by (unfold c; destruct (z <? 0); (split; [reflexivity|]); split; [discriminate|split; [discriminate|reflexivity]|discriminate|split; [discriminate|reflexivity]]).
  destruct Hc as (C1 & C2 & C3 & C4). split; [|exists c; eexists; split; [reflexivity|]; auto].
  cbn [getzone]. rewrite C4. destruct (Z_lt_ge_dec (Z.abs z / 60) 100) as [L|G].
  - rewrite (getnum_app (Z.abs z / 60)) by (apply appendInt_fits; cbn; lia). rewrite skip_cons.
    assert (N2 : numeral 2 (Z.abs z mod 60) m) by (apply appendInt_fits; cbn; lia).
    rewrite <- (app_nil_r m), (getnum_app (Z.abs z mod 60)) by exact N2. destruct (Z.leb_spec (Z.abs z / 60) 24); [lia|]. reflexivity.
  - unfold appendInt at 1. destruct (Z.ltb_spec (Z.abs z / 60) 0); [lia|]. destruct (pad_exceeds 2 (Z.abs z / 60)) as (l & -> & F & Ll); [cbn; lia|].
    destruct l as [|a [|b [|e l]]]; cbn in Ll; try lia. apply Forall_cons_iff in F as [(x1 & Hx1 & ->) F]. apply Forall_cons_iff in F as [(x2 & Hx2 & ->) F].
    apply Forall_cons_iff in F as [(x3 & Hx3 & ->) _]. cbn [app getnum]. rewrite !digit_value by assumption. cbn [skip].
    destruct (Ascii.eqb_spec ":" (digit x3)) as [E|]; [|reflexivity]. pose proof (digit_value x3 Hx3) as Q. rewrite <- E in Q. discriminate Q.
Qed.

Lemma year_bad y r : y < 0 \/ 9999 < y -> getdate (appendInt y 4 ++ r) = None.
Proof.
  intros H. unfold getdate, appendInt. destruct (Z.ltb_spec y 0) as [L|L].
  - destruct (pad 4 (decimal (- y)) ++ r) as [|a [|b [|c s]]] eqn:E; cbn [app]; rewrite E; reflexivity.
  - destruct (pad_exceeds 4 y) as (l & -> & F & Ll); [cbn; lia|]. destruct l as [|a [|b [|c [|d [|e l]]]]]; cbn in Ll; try lia.
    do 4 (let u := fresh "u" in apply Forall_cons_iff in F as [(u & ? & ->) F]). apply Forall_cons_iff in F as [(x & Hx & ->) _].
    cbn [app getyear]. rewrite !digit_value by assumption. cbn [mbind option_bind skip].
    destruct (Ascii.eqb_spec "-" (digit x)) as [E|]; [|reflexivity]. pose proof (digit_value x Hx) as Q. rewrite <- E in Q. discriminate Q.
Qed.

Lemma format_parse (b : bool) t : (if b then 0 <= nanos t < 10 ^ 9 else True) ->
  parse (formatRFC3339 b t) =
  (let y := year (absDate (localDay t)) in
   if (0 <=? y) && (y <=? 9999) && (Z.abs (offset t) <? 90000)
   then Some (mkTime (unix t + offset t - 60 * Z.quot (offset t) 60) (if b then nanos t else 0) (60 * Z.quot (offset t) 60)) else None).
Proof.
  intros Hb. cbv zeta. set (y := year (absDate (localDay t))). destruct ((0 <=? y) && (y <=? 9999)) eqn:Ey; cbn [andb].
  2: { unfold formatRFC3339, dateText. fold y. unfold parse. rewrite <- app_assoc. rewrite year_bad; [reflexivity|].
       apply andb_false_iff in Ey as [Ey|Ey]; [apply Z.leb_gt in Ey|apply Z.leb_gt in Ey]; lia. }
  apply andb_true_iff in Ey as [Y1 Y2]. apply Z.leb_le in Y1, Y2.
  assert (Hd : on_day (localDay t) (absDate (localDay t))) by (now apply on_day_absDate).
  assert (Ht : day_text (absDate (localDay t)) (dateText (absDate (localDay t)))) by (apply dateText_ok; [apply absDate_ok|unfold y in *; lia]).
  assert (Hp : loose_part (if b then nanos t else 0) (if b then nanoText (nanos t) else [])).
  { constructor. destruct b; [now apply nanoText_ok|constructor]. }
  destruct (clockText_ok (localSecond t)) as (h & m & z & H & M & S & E1 & E2 & HH & Lh & HM & Lm & HS & Lz); [apply Z.mod_pos_bound; lia|].
  unfold formatRFC3339. rewrite E1.
  assert (Sh : (H ++ ":"%char :: M ++ ":"%char :: S) ++ (if b then nanoText (nanos t) else []) ++ zoneText (offset t) =
               H ++ ":"%char :: M ++ ":"%char :: S ++ (if b then nanoText (nanos t) else []) ++ zoneText (offset t)).
  { now rewrite <- !app_assoc, <- !app_comm_cons, <- !app_assoc, <- !app_comm_cons. }
  rewrite Sh. unfold localDay, localSecond in *. pose proof (Z.div_mod (unix t + offset t) 86400 ltac:(lia)) as DM.
  destruct (Z.ltb_spec (Z.abs (offset t)) 90000) as [Lo|Lo].
  - pose proof (zoneText_ok _ Lo) as HO. destruct (zone_head _ _ [] HO) as (c & l & Ec & C1 & C2 & C3). rewrite app_nil_r in Ec. rewrite Ec in *.
    erewrite parse_steps; try eassumption; [|now right]. rewrite (proj2 (getzone_ok (c :: l) (60 * Z.quot (offset t) 60) [])) by (exists (c :: l); rewrite app_nil_r; auto).
    do 2 f_equal. lia.
  - destruct (zoneText_bad _ Lo) as (G & c & l & Ec & C1 & C2 & C3). rewrite Ec in *. erewrite parse_steps; try eassumption; [|now right]. now rewrite G.
Qed.

Lemma format_stamp (b : bool) t : (if b then 0 <= nanos t < 10 ^ 9 else True) -> 0 <= year (absDate (localDay t)) <= 9999 -> Z.abs (Z.quot (offset t) 60) / 60 < 24 ->
  stamp (mkTime (unix t + offset t - 60 * Z.quot (offset t) 60) (if b then nanos t else 0) (60 * Z.quot (offset t) 60)) (formatRFC3339 b t).
Proof.
  intros Hb Hy Lo.
  assert (Hd : on_day (localDay t) (absDate (localDay t))) by (now apply on_day_absDate).
  assert (Ht : day_text (absDate (localDay t)) (dateText (absDate (localDay t)))) by (apply dateText_ok; [apply absDate_ok|lia]).
  assert (Hp : part (if b then nanos t else 0) (if b then nanoText (nanos t) else [])).
  { destruct b; [now apply nanoText_ok|constructor]. }
  destruct (clockText_ok (localSecond t)) as (h & m & z & H & M & S & E1 & E2 & HH & Lh & HM & Lm & HS & Lz); [apply Z.mod_pos_bound; lia|].
  unfold formatRFC3339. rewrite E1.
  assert (Sh : (H ++ ":"%char :: M ++ ":"%char :: S) ++ (if b then nanoText (nanos t) else []) ++ zoneText (offset t) =
               H ++ ":"%char :: M ++ ":"%char :: S ++ (if b then nanoText (nanos t) else []) ++ zoneText (offset t)).
  { now rewrite <- !app_assoc, <- !app_comm_cons, <- !app_assoc, <- !app_comm_cons. }
  rewrite Sh. unfold localDay, localSecond in *. pose proof (Z.div_mod (unix t + offset t) 86400 ltac:(lia)) as DM.
  pose proof (zoneText_strict _ Lo) as HO.
  replace (unix t + offset t - 60 * Z.quot (offset t) 60) with (86400 * ((unix t + offset t) / 86400) + 3600 * h + 60 * m + z - 60 * Z.quot (offset t) 60) by lia.
  econstructor; eassumption.
Qed.

Lemma four_digits_year t : four_digits t <-> 0 <= year (absDate (localDay t)) <= 9999.
Proof.
  unfold four_digits, localDay. split.
  - intros (d & H & Hy). apply on_day_absDate in H as ->. exact Hy.
  - intros H. exists (absDate ((unix t + offset t) / 86400)). split; [now apply on_day_absDate|exact H].
Qed.

(** ** civil.Date *)

Lemma printed_fits w x : (0 < w)%nat -> 0 <= x < 10 ^ Z.of_nat w -> numeral w x (printed x w).
Proof. intros Hw Hx. unfold printed. destruct (Z.ltb_spec x 0); [lia|]. now apply pad_fits. Qed.

Lemma civilText_ok d : in_calendar d -> 0 <= year d <= 9999 -> day_text d (civilText d).
Proof.
  intros V Hy. apply valid_calendar in V. pose proof (valid_bounds _ V). destruct d as [y m x]. cbn [year month day] in *. unfold civilText. cbn [year month day].
  constructor; apply printed_fits; cbn; lia.
Qed.

Lemma day_text_year d l : day_text d l -> 0 <= year d <= 9999.
Proof. intros H. inversion H as [y m x Y M D HY HM HD]; subst. destruct (numeral_digits _ _ _ HY) as (_ & _ & B). cbn in *. lia. Qed.

Lemma numeral_fun w x l l' : numeral w x l -> numeral w x l' -> l = l'.
Proof.
  intros H. revert l'. induction H as [|w x l d c H IH Hd Hc]; intros l' H'.
  - now apply numeral_0 in H' as [_ ->].
  - apply numeral_S in H' as (y & l2 & d' & H' & Hd' & E & ->). assert (x = y /\ d = d') as [<- <-] by lia.
    rewrite digit_char in Hc by exact Hd. injection Hc as <-. now rewrite (IH l2 H').
Qed.

Lemma day_text_unique d l l' : day_text d l -> day_text d l' -> l = l'.
Proof.
  intros H H'. inversion H as [y m x Y M D HY HM HD]; subst. inversion H' as [y' m' x' Y' M' D' HY' HM' HD']; subst.
  now rewrite (numeral_fun _ _ _ _ HY HY'), (numeral_fun _ _ _ _ HM HM'), (numeral_fun _ _ _ _ HD HD').
Qed.
