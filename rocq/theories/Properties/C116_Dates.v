(** C116: dates and times on the wire.
    Full statement: a time or a date that is sent, as a payload, a header or a part of an object, is the one that arrives. It is false: payloads and headers are
    written with time.RFC3339, which has no parts of a second (C116_seconds_refuted), no years but of four digits (C116_years_refuted), and no seconds in the
    offset of a zone (C116_zones_refuted). C116_exact says which times arrive, C116_arrives what arrives of the others. *)
From Coq Require Import ZArith Lia List Ascii String Bool.
From stdpp Require Import base option gmap list strings.
From Verif.Model Require Import Codec Dates.
From Verif.Spec Require Import CodecSpec DatesSpec.
From Verif.Proof Require Import CodecProof DatesProof DateTextProof TimeTextProof.
From Verif.Properties Require Import C22_C24_Codec.
Import ListNotations.
Local Open Scope Z_scope.
Local Open Scope list_scope.

(** Go's arithmetic on days is the calendar's. *)
Theorem C116_calendar : forall n d, on_day n d <-> absDate n = d.
Proof. exact on_day_absDate. Qed.
Print Assumptions C116_calendar.

Theorem C116_day_number : forall d, in_calendar d -> on_day (dayNumber d) d.
Proof. intros d H. apply on_day_absDate, dayNumber_ok. now apply valid_calendar. Qed.
Print Assumptions C116_day_number.

Example C116_calendar_example :
  absDate 0 = mkDate 1970 1 1 /\ absDate (-1) = mkDate 1969 12 31 /\ absDate 11016 = mkDate 2000 2 29 /\ absDate 47541 = mkDate 2100 3 1 /\ dayNumber (mkDate 0 1 1) = -719528.
Proof. repeat (split; [vm_compute; reflexivity|]). vm_compute; reflexivity. Qed.

(** ** Reading *)

(** Every text of RFC 3339 is read as the instant that it denotes; exactly what else is read. *)
Theorem C116_rfc3339 : forall t s, stamp t s -> parse s = Some t.
Proof. intros t s H. apply parse_ok. now apply stamp_loose. Qed.
Print Assumptions C116_rfc3339.

Theorem C116_read : forall t s, parse s = Some t <-> loose_stamp t s.
Proof. intros t s. apply parse_ok. Qed.
Print Assumptions C116_read.

Definition chars := list_ascii_of_string.
Example C116_read_example :
  parse (chars "2023-11-14T23:13:20.25+01:00") = Some (mkTime 1700000000 250000000 3600) /\
  parse (chars "2023-11-14T9:13:20,1234567899Z") = Some (mkTime 1699953200 123456789 0) /\
  parse (chars "2023-02-29T00:00:00Z") = None /\ parse (chars "2023-11-14T24:00:00Z") = None /\ parse (chars "2023-11-14 09:13:20Z") = None /\
  parse (chars "2023-11-14T09:13:20+24:60") = Some (mkTime 1699863200 0 90000) /\ parse (chars "2023-11-14T09:13:20+25:00") = None.
Proof. repeat (split; [vm_compute; reflexivity|]). vm_compute; reflexivity. Qed.

(** ** Payloads and headers: Format and Parse *)

(** What is written is a text of RFC 3339, for the instant without its parts of a second. *)
Theorem C116_written : forall t, four_digits t -> Z.abs (offset t) < 86400 ->
  exists o, stamp (mkTime (unix t + offset t - o) 0 o) (format t) /\ (60 | o) /\ Z.abs (offset t - o) < 60 /\ ((60 | offset t) -> o = offset t).
Proof.
  intros t H1 H2. apply four_digits_year in H1. exists (60 * Z.quot (offset t) 60). split; [|split; [|split]].
  - apply (format_stamp false t I H1). rewrite quot_60, Z.div_div by lia. apply Z.div_lt_upper_bound; lia.
  - exists (Z.quot (offset t) 60). lia.
  - pose proof (Z.quot_rem' (offset t) 60). pose proof (Z.rem_bound_abs (offset t) 60 ltac:(lia)). lia.
  - intros [z ->]. rewrite Z.quot_mul by lia. lia.
Qed.
Print Assumptions C116_written.

(** What arrives: the seconds, and the offset in minutes. *)
Theorem C116_arrives : forall t t', parse (format t) = Some t' <->
  four_digits t /\ Z.abs (offset t) < 25 * 3600 /\ offset t' = 60 * Z.quot (offset t) 60 /\ unix t' + offset t' = unix t + offset t /\ nanos t' = 0.
Proof.
  intros t t'. unfold format. rewrite (format_parse false t I), four_digits_year. cbv zeta.
  set (y := year (absDate (localDay t))). destruct (Z.leb_spec 0 y); [|split; [discriminate|lia]]. destruct (Z.leb_spec y 9999); [|split; [discriminate|lia]].
  destruct (Z.ltb_spec (Z.abs (offset t)) 90000); [|split; [discriminate|lia]]. cbn [andb]. split.
  - intros [= <-]. cbn [unix nanos offset]. lia.
  - intros (_ & _ & E1 & E2 & E3). destruct t' as [u' n' o']. cbn [unix nanos offset] in *. subst. do 2 f_equal. lia.
Qed.
Print Assumptions C116_arrives.

(** Exactly the times that arrive as they were. *)
Theorem C116_exact : forall t, parse (format t) = Some t <-> four_digits t /\ nanos t = 0 /\ (60 | offset t) /\ Z.abs (offset t) < 25 * 3600.
Proof.
  intros t. rewrite C116_arrives. split.
  - intros (H1 & H2 & H3 & _ & H5). repeat (split; [assumption|]). split; [|assumption]. exists (Z.quot (offset t) 60). lia.
  - intros (H1 & H2 & [z Hz] & H4). repeat (split; [assumption|]). split; [|auto]. rewrite Hz, Z.quot_mul by lia. lia.
Qed.
Print Assumptions C116_exact.

(** No less is needed for the instant alone. *)
Theorem C116_instant : forall t, (exists t', parse (format t) = Some t' /\ same_instant t t') <-> parse (format t) = Some t.
Proof.
  intros t. split; [|intros H; exists t; split; [exact H|split; reflexivity]]. intros (t' & H & [E1 E2]). rewrite H. f_equal.
  apply C116_arrives in H as (_ & _ & _ & H & _). destruct t as [u n o], t' as [u' n' o']. cbn [unix nanos offset] in *. f_equal; lia.
Qed.
Print Assumptions C116_instant.

(** The messages of C59, with these functions. *)
Theorem C116_headers {O} marshal unmarshal (en eu : unit) (zo : O) (zt : time) ds (m : smsg O time) h p bs :
  NoDup ds.*1 -> Forall (fun kd : string * hdecl => hcompiles kd.2 = true /\ hkd kd.2 <> HObject) ds ->
  (forall k, is_Some (sheaders m !! k) <-> k ∈ ds.*1) ->
  (forall k d f, (k, d) ∈ ds -> sheaders m !! k = Some f -> field_ok d f) ->
  to_broker marshal tformat en ds m = inl (h, p) -> bs ≡ₚ map_to_list h ->
  from_broker unmarshal tparse eu zo zt ds bs p = inl m <->
  forall k t, sheaders m !! k = Some (Some (VDate t)) -> four_digits t /\ nanos t = 0 /\ (60 | offset t) /\ Z.abs (offset t) < 25 * 3600.
Proof.
  intros Hn Hs Hd Hok He Hp. rewrite Forall_forall in Hs.
  rewrite (C59_exact marshal unmarshal tformat tparse en eu zo zt ds m h p bs Hn); try assumption.
  2: { apply Forall_forall. intros x Hx. apply (Hs x Hx). }
  assert (K : forall t, tparse (tformat t) = inl t <-> four_digits t /\ nanos t = 0 /\ (60 | offset t) /\ Z.abs (offset t) < 25 * 3600).
  { intros t. rewrite <- C116_exact. unfold tparse, tformat. rewrite list_ascii_of_string_of_list_ascii. destruct (parse (format t)); split; congruence. }
  split.
  - intros H k t Hk. apply K. assert (Hin : k ∈ ds.*1) by (apply Hd; eauto). apply elem_of_list_fmap in Hin as ([k' d] & -> & Hin). exact (H _ _ _ Hin Hk).
  - intros H k d v Hin Hv. pose proof (Hok k d _ Hin Hv) as Hf. cbn in Hf. destruct v as [x|o|t]; [exact I| |apply K; exact (H k t Hv)].
    exfalso. apply (proj2 (Hs _ Hin)). cbn. destruct (hkd d); [contradiction|reflexivity|contradiction].
Qed.
Print Assumptions C116_headers.

Lemma four_digits_dec t : (0 <=? year (absDate (localDay t))) && (year (absDate (localDay t)) <=? 9999) = true -> four_digits t.
Proof. rewrite andb_true_iff, !Z.leb_le. apply four_digits_year. Qed.

Definition noon : time := mkTime 1700046000 0 (-3600).
Example C116_exact_example : four_digits noon /\ nanos noon = 0 /\ (60 | offset noon) /\ Z.abs (offset noon) < 25 * 3600 /\
  tformat noon = "2023-11-15T10:00:00-01:00"%string /\ tparse (tformat noon) = inl noon.
Proof.
  split; [apply four_digits_dec; vm_compute; reflexivity|]. split; [reflexivity|]. split; [exists (-60); reflexivity|]. split; [reflexivity|].
  split; vm_compute; reflexivity.
Qed.

Example C116_headers_example :
  let ds := [("at", mkH HDate true false); ("id", mkH HString false true)]%string in
  let m t := mkSmsg (<["at" := Some (VDate t)]> (<["id" := None]> ∅))%string "p" : smsg unit time in
  let go t := match to_broker (fun _ => inr tt) tformat tt ds (m t) with
              | inl (h, p) => match from_broker (fun _ => inr tt) tparse tt tt (mkTime 0 0 0) ds (map_to_list h) p with
                              | inl m' => sheaders m' !! "at"%string
                              | inr _ => None
                              end
              | inr _ => None
              end in
  go noon = Some (Some (VDate noon)) /\ go (mkTime 1700046000 500000000 0) = Some (Some (VDate (mkTime 1700046000 0 0))) /\ go (mkTime 253402300800 0 0) = None.
Proof. cbv zeta. repeat (split; [vm_compute; reflexivity|]). vm_compute; reflexivity. Qed.

(** Half a second is lost, without an error. *)
Theorem C116_seconds_refuted : exists t, is_time t /\ four_digits t /\ offset t = 0 /\ exists t', parse (format t) = Some t' /\ ~ same_instant t t'.
Proof.
  exists (mkTime 1700000000 500000000 0). split; [vm_compute; split; congruence|]. split; [apply four_digits_dec; vm_compute; reflexivity|]. split; [reflexivity|].
  exists (mkTime 1700000000 0 0). split; [vm_compute; reflexivity|]. intros [_ H]. discriminate H.
Qed.
Print Assumptions C116_seconds_refuted.

(** The year 10000, and the year before 0, are written and cannot be read. *)
Theorem C116_years_refuted : exists t1 t2, offset t1 = 0 /\ offset t2 = 0 /\ nanos t1 = 0 /\ nanos t2 = 0 /\
  on_day (unix t1 / 86400) (mkDate 10000 1 1) /\ on_day (unix t2 / 86400) (mkDate (-1) 12 31) /\ parse (format t1) = None /\ parse (format t2) = None.
Proof.
  exists (mkTime 253402300800 0 0), (mkTime (-62167219201) 0 0). repeat (split; [reflexivity|]). split; [apply on_day_absDate; vm_compute; reflexivity|].
  split; [apply on_day_absDate; vm_compute; reflexivity|]. split; vm_compute; reflexivity.
Qed.
Print Assumptions C116_years_refuted.

(** A zone with seconds in its offset, as local times had before there were zones: the time arrives as another one. *)
Theorem C116_zones_refuted : exists t, is_time t /\ four_digits t /\ nanos t = 0 /\ exists t', parse (format t) = Some t' /\ unix t' = unix t + 21.
Proof.
  exists (mkTime (-2500000000) 0 561). split; [vm_compute; split; congruence|]. split; [apply four_digits_dec; vm_compute; reflexivity|]. split; [reflexivity|].
  exists (mkTime (-2499999979) 0 540). split; vm_compute; reflexivity.
Qed.
Print Assumptions C116_zones_refuted.

(** ** Times inside objects: MarshalJSON and UnmarshalJSON *)

(** Years and zones that cannot be read are refused; parts of a second are kept. *)
Theorem C116_json_written : forall t, (exists s, marshal t = Some s) <-> four_digits t /\ Z.abs (offset t) < 24 * 3600.
Proof.
  intros t. rewrite four_digits_year. unfold marshal. cbv zeta. set (y := year (absDate (localDay t))).
  rewrite quot_60, Z.div_div by lia. change (60 * 60) with 3600.
  pose proof (Z.div_mod (Z.abs (offset t)) 3600 ltac:(lia)). pose proof (Z.mod_pos_bound (Z.abs (offset t)) 3600 ltac:(lia)).
  destruct (Z.ltb_spec y 0); cbn [orb]; [split; [intros [s [=]]|lia]|]. destruct (Z.ltb_spec 9999 y); [split; [intros [s [=]]|lia]|].
  destruct (Z.leb_spec 24 (Z.abs (offset t) / 3600)); [split; [intros [s [=]]|lia]|]. split; [lia|eauto].
Qed.
Print Assumptions C116_json_written.

Theorem C116_json_exact : forall t s, is_time t -> marshal t = Some s ->
  exists t', stamp t' s /\ parse s = Some t' /\ nanos t' = nanos t /\ offset t' = 60 * Z.quot (offset t) 60 /\ unix t' + offset t' = unix t + offset t /\
    (t' = t <-> (60 | offset t)).
Proof.
  intros t s Ht H. pose proof (proj1 (C116_json_written t) (ex_intro _ s H)) as [Hy Ho]. apply four_digits_year in Hy.
  assert (s = formatRFC3339 true t) as ->.
  { unfold marshal in H. destruct (_ || _) in H; [discriminate|]. destruct (24 <=? _) in H; [discriminate|]. congruence. }
  exists (mkTime (unix t + offset t - 60 * Z.quot (offset t) 60) (nanos t) (60 * Z.quot (offset t) 60)).
  assert (St : stamp (mkTime (unix t + offset t - 60 * Z.quot (offset t) 60) (nanos t) (60 * Z.quot (offset t) 60)) (formatRFC3339 true t)).
  { apply (format_stamp true t Ht Hy). rewrite quot_60, Z.div_div by lia. apply Z.div_lt_upper_bound; lia. }
  split; [exact St|]. split; [now apply C116_rfc3339|]. cbn [unix nanos offset]. split; [reflexivity|]. split; [reflexivity|]. split; [lia|]. split.
  - intros E. apply (f_equal offset) in E. cbn [offset] in E. exists (Z.quot (offset t) 60). lia.
  - intros [z Hz]. destruct t as [u n o]. cbn [unix nanos offset] in *. rewrite Hz, Z.quot_mul by lia. f_equal; lia.
Qed.
Print Assumptions C116_json_exact.

(** What was read is written, if it is, as a text that is read the same. *)
Theorem C116_json_again : forall s t s', parse s = Some t -> marshal t = Some s' -> parse s' = Some t.
Proof.
  intros s t s' H Hm. apply parse_ok in H. inversion H as [n d D w h m z H' M S p P o O Hn HD HH Hw Lh HM Lm HS Lz HP HO]. subst s.
  assert (Hp : 0 <= p < 10 ^ 9).
  { assert (Q : forall l, part p l -> 0 <= p < 10 ^ 9).
    { intros l Hl. inversion Hl as [|w' x l' n' Hx Hw' Hb]; subst; [lia|]. destruct (numeral_digits _ _ _ Hx) as (_ & _ & B).
      assert (0 < 10 ^ Z.of_nat w') by (apply Z.pow_pos_nonneg; lia). nia. }
    inversion HP; subst; eauto. }
  assert (Ho : (60 | o)) by (inversion HO; subst; [exists 0; reflexivity|eexists; rewrite Z.mul_comm; reflexivity|eexists; rewrite <- Z.mul_opp_r, Z.mul_comm; reflexivity]).
  subst t. destruct (C116_json_exact (mkTime (86400 * n + 3600 * h + 60 * m + z - o) p o) s' Hp Hm) as (t' & _ & E & _ & _ & _ & Q). rewrite E. f_equal. apply Q. exact Ho.
Qed.
Print Assumptions C116_json_again.

(** Every time of RFC 3339 can be written again, as RFC 3339. *)
Theorem C116_json_stamp : forall t s, stamp t s -> exists s', marshal t = Some s' /\ stamp t s'.
Proof.
  intros t s St. inversion St as [n d D h m z H M S p P o O Hn HD HH Lh HM Lm HS Lz HP HO Et0]. subst s. rewrite Et0.
  destruct (numeral_digits _ _ _ HH) as (_ & _ & Bh). destruct (numeral_digits _ _ _ HM) as (_ & _ & Bm). destruct (numeral_digits _ _ _ HS) as (_ & _ & Bs).
  assert (Ho : (60 | o) /\ Z.abs o < 24 * 3600).
  { inversion HO as [|h' m' H' M' HH' Lh' HM' Lm'|h' m' H' M' HH' Lh' HM' Lm']; subst; [split; [exists 0; reflexivity|lia]|..].
    all: destruct (numeral_digits _ _ _ HH') as (_ & _ & Bh'); destruct (numeral_digits _ _ _ HM') as (_ & _ & Bm').
    - split; [exists (60 * h' + m'); lia|lia].
    - split; [exists (- (60 * h' + m')); lia|lia]. }
  assert (It : is_time t).
  { subst t. unfold is_time. cbn [nanos]. inversion HP as [|w x l n' Hx Hw Hb]; subst; [lia|]. destruct (numeral_digits _ _ _ Hx) as (_ & _ & B).
    assert (0 < 10 ^ Z.of_nat w) by (apply Z.pow_pos_nonneg; lia). nia. }
  assert (Ft : four_digits t).
  { subst t. exists d. split; [|exact (day_text_year _ _ HD)]. cbn [unix offset].
    replace (86400 * n + 3600 * h + 60 * m + z - o + o) with (3600 * h + 60 * m + z + n * 86400) by lia.
    rewrite Z.div_add by lia. rewrite (Z.div_small (3600 * h + 60 * m + z)) by lia. exact Hn. }
  assert (Et : offset t = o) by (now subst t). destruct Ho as [Ho1 Ho2]. rewrite <- Et in Ho1, Ho2.
  destruct (proj2 (C116_json_written t) (conj Ft Ho2)) as [s' M']. exists s'. split; [exact M'|].
  destruct (C116_json_exact t s' It M') as (t' & S' & _ & _ & _ & _ & E). assert (t' = t) as <- by (now apply E). exact S'.
Qed.
Print Assumptions C116_json_stamp.

(** The texts that stand for times in C103 and C107. *)
Theorem C116_json_text : forall s s', jsonTime s = Some s' -> jsonTime s' = Some s'.
Proof.
  intros s s' H. unfold jsonTime in *. destruct (parse (list_ascii_of_string s)) as [t|] eqn:E; [|discriminate]. cbn [mbind option_bind] in H.
  destruct (marshal t) as [x|] eqn:Em; [|discriminate]. cbn in H. injection H as <-. rewrite list_ascii_of_string_of_list_ascii.
  rewrite (C116_json_again _ _ _ E Em). cbn [mbind option_bind]. now rewrite Em.
Qed.
Print Assumptions C116_json_text.

Example C116_json_example :
  marshal (mkTime 1700000000 250000000 3600) = Some (chars "2023-11-14T23:13:20.25+01:00") /\
  jsonTime "2023-11-14T9:13:20,2500Z" = Some "2023-11-14T09:13:20.25Z"%string /\ marshal (mkTime 253402300800 0 0) = None /\ marshal (mkTime 0 0 86400) = None.
Proof. repeat (split; [vm_compute; reflexivity|]). vm_compute; reflexivity. Qed.

(** ** civil.Date *)

(** Exactly the texts that are read, and exactly the dates that arrive. *)
Theorem C116_civil_read : forall s d, parseCivil s = Some d <-> day_text d s /\ in_calendar d.
Proof. exact parseCivil_ok. Qed.
Print Assumptions C116_civil_read.

Theorem C116_civil_exact : forall d, parseCivil (civilText d) = Some d <-> in_calendar d /\ 0 <= year d <= 9999.
Proof.
  intros d. rewrite parseCivil_ok. split.
  - intros [H1 H2]. split; [exact H2|]. exact (day_text_year _ _ H1).
  - intros [H1 H2]. split; [now apply civilText_ok|exact H1].
Qed.
Print Assumptions C116_civil_exact.

Theorem C116_civil_text : forall s s', jsonDate s = Some s' -> s' = s.
Proof.
  intros s s' H. unfold jsonDate in H. destruct (parseCivil (list_ascii_of_string s)) as [d|] eqn:E; [|discriminate]. cbn in H. injection H as <-.
  apply parseCivil_ok in E as [H1 H2]. rewrite <- (string_of_list_ascii_of_string s). f_equal.
  pose proof (civilText_ok d H2 (day_text_year _ _ H1)) as H3. exact (day_text_unique _ _ _ H3 H1).
Qed.
Print Assumptions C116_civil_text.

Example C116_civil_example :
  parseCivil (civilText (mkDate 2024 2 29)) = Some (mkDate 2024 2 29) /\ civilText (mkDate 33 1 2) = chars "0033-01-02" /\
  parseCivil (civilText (mkDate 2023 2 29)) = None /\ civilText (mkDate (-5) 1 2) = chars "-005-01-02" /\ parseCivil (chars "2024-2-29") = None.
Proof. repeat (split; [vm_compute; reflexivity|]). vm_compute; reflexivity. Qed.
