From stdpp Require Import list strings.
From Coq Require Import NArith Ascii String Lia.
From Verif.Model Require Import Naming Address.
From Verif.Spec Require Import NamingSpec.

(** ** Bytes *)
Ltac bytes256 := intros [[] [] [] [] [] [] [] []]; vm_compute; reflexivity.

Lemma lower_spec : forall a, lower_b a = bool_decide (a ∈ lowers). Proof. bytes256. Qed.
Lemma digit_spec : forall a, digit_b a = bool_decide (a ∈ digits). Proof. bytes256. Qed.
Lemma upper_spec : forall a, upper_b a = bool_decide (a ∈ uppers). Proof. bytes256. Qed.
Lemma alnum_spec : forall a, alnum_b a = bool_decide (word_char a). Proof. bytes256. Qed.
Lemma upcase_spec : forall a, upcase a = uppercase a. Proof. bytes256. Qed.
Lemma upcase_alnum : forall a, alnum_b (upcase a) = alnum_b a. Proof. bytes256. Qed.
Lemma upcase_digit : forall a, digit_b (upcase a) = digit_b a. Proof. bytes256. Qed.
Lemma upcase_idem : forall a, upcase (upcase a) = upcase a. Proof. bytes256. Qed.
Lemma upcase_upper : forall a, (alnum_b a && negb (digit_b a))%bool = upper_b (upcase a). Proof. bytes256. Qed.
Lemma upcase_fix : forall a, implb (upper_b a) (Ascii.eqb (upcase a) a) = true. Proof. bytes256. Qed.
Lemma alnum_ascii : forall a, implb (alnum_b a) (bval a <? 128)%N = true. Proof. bytes256. Qed.
Lemma ascii_bval : forall a, ascii_of_N (bval a) = a.
Proof. intros a. apply ascii_N_embedding. Qed.
Lemma is_letter_digit_ascii ul ud : forall a, (bval a < 128)%N ->
  (is_letter ul (bval a) || is_digit ud (bval a))%bool = alnum_b a.
Proof.
  intros a H. unfold is_letter, is_digit. apply N.ltb_lt in H as ->. reflexivity.
Qed.

(** ** Runes *)
Lemma decode_width b0 r : (1 <= (decode b0 r).2 <= S (List.length r))%nat.
Proof.
  unfold decode.
  repeat (case_match; cbn; try lia).
Qed.

Lemma decode_ascii b0 r : ((decode b0 r).1 < 128)%N -> decode b0 r = (bval b0, 1%nat) /\ (bval b0 < 128)%N.
Proof.
  unfold decode. intros H.
  destruct (bval b0 <? 128)%N eqn:E0.
  { apply N.ltb_lt in E0. auto. }
  exfalso. revert H.
  repeat (case_match; cbn -[N.mul N.add N.sub]; try (unfold rune_error; lia));
    unfold cont, in_range in *;
    repeat match goal with H : (_ && _)%bool = true |- _ => apply andb_prop in H as [? ?] end;
    rewrite ?N.ltb_lt, ?N.ltb_ge, ?N.leb_le in *; intros ?;
    repeat match goal with H : (_ <? _)%N = true |- _ => apply N.ltb_lt in H
                         | H : (_ <? _)%N = false |- _ => apply N.ltb_ge in H
                         | H : (_ <=? _)%N = true |- _ => apply N.leb_le in H end;
    repeat match goal with H : (_ =? _)%N = _ |- _ => first [apply N.eqb_eq in H | apply N.eqb_neq in H] end;
    unfold cbits in *; lia.
Qed.

Lemma decode_of_ascii b0 r : (bval b0 < 128)%N -> decode b0 r = (bval b0, 1%nat).
Proof. intros H. unfold decode. apply N.ltb_lt in H as ->. reflexivity. Qed.

Ltac bounds :=
  unfold cont, in_range, cbits, bval, rune_error in *;
  repeat match goal with
         | H : (_ && _)%bool = true |- _ => apply andb_prop in H as [? ?]
         | H : (_ && _)%bool = false |- _ => apply andb_false_iff in H as [?|?]
         | H : (_ <? _)%N = true |- _ => apply N.ltb_lt in H
         | H : (_ <? _)%N = false |- _ => apply N.ltb_ge in H
         | H : (_ <=? _)%N = true |- _ => apply N.leb_le in H
         | H : (_ <=? _)%N = false |- _ => apply N.leb_gt in H
         | H : (_ =? _)%N = true |- _ => apply N.eqb_eq in H
         | H : (_ =? _)%N = false |- _ => apply N.eqb_neq in H
         end.
Ltac cases := repeat match goal with |- context [if ?b then _ else _] => destruct b eqn:? end.

(** A sequence at the head is read. *)
Lemma decode_sequence n p b0 r s : JsonTextSpec.encodes n (string_of_list_ascii p) -> b0 :: r = p ++ s -> decode b0 r = (n, List.length p).
Proof.
  intros H E. inversion H as [a Ha En Ep|a b x y Ea Eb Hx Hy Hn En Ep|a b c x y z Ea Eb Ec Hx Hy Hz m Hm Hm' En Ep|a b c d w x y z Ea Eb Ec Ed Hw Hx Hy Hz m Hm En Ep];
    apply (f_equal list_ascii_of_string) in Ep; rewrite list_ascii_of_string_of_list_ascii in Ep; cbn in Ep; subst p; cbn in E;
    injection E as -> ->; unfold decode; try subst m; cbn [List.length app].
  - unfold bval. apply N.ltb_lt in Ha as ->. reflexivity.
  - cases; bounds; first [exfalso; lia|f_equal; lia].
  - destruct (bval a =? 224)%N eqn:?, (bval a =? 237)%N eqn:?; cases; bounds; first [exfalso; lia|f_equal; lia].
  - destruct (bval a =? 240)%N eqn:?, (bval a =? 244)%N eqn:?; cases; bounds; first [exfalso; lia|f_equal; lia].
Qed.

(** What is read is a sequence at the head, or the error, one byte wide. *)
Lemma decode_cases b0 r : decode b0 r = (rune_error, 1%nat) \/
  JsonTextSpec.encodes (decode b0 r).1 (string_of_list_ascii (take (decode b0 r).2 (b0 :: r))).
Proof.
  unfold decode.
  destruct (bval b0 <? 128)%N eqn:H1.
  { right. bounds. constructor. assumption. }
  destruct (bval b0 <? 194)%N eqn:H2; [left; reflexivity|].
  destruct (bval b0 <? 224)%N eqn:H3.
  { destruct r as [|b1 r]; [left; reflexivity|]. destruct (cont 128 191 b1) eqn:C1; [|left; reflexivity]. right. bounds.
    cbn [fst snd take string_of_list_ascii]. replace ((N_of_ascii b0 - 192) * 64)%N with (64 * (N_of_ascii b0 - 192))%N by lia.
    apply JsonTextSpec.encodes2; lia. }
  destruct (bval b0 <? 240)%N eqn:H4.
  { destruct r as [|b1 [|b2 r]]; [left; reflexivity..|].
    destruct (_ && _)%bool eqn:C1; [|left; reflexivity]. right.
    destruct (bval b0 =? 224)%N eqn:?, (bval b0 =? 237)%N eqn:?; bounds; cbn [fst snd take string_of_list_ascii];
      replace ((N_of_ascii b0 - 224) * 4096 + (N_of_ascii b1 - 128) * 64)%N with (4096 * (N_of_ascii b0 - 224) + 64 * (N_of_ascii b1 - 128))%N by lia;
      apply JsonTextSpec.encodes3; lia. }
  destruct (bval b0 <? 245)%N eqn:H5; [|left; reflexivity].
  destruct r as [|b1 [|b2 [|b3 r]]]; [left; reflexivity..|].
  destruct (_ && _)%bool eqn:C1; [|left; reflexivity]. right.
  destruct (bval b0 =? 240)%N eqn:?, (bval b0 =? 244)%N eqn:?; bounds; cbn [fst snd take string_of_list_ascii];
    replace ((N_of_ascii b0 - 240) * 262144 + (N_of_ascii b1 - 128) * 4096 + (N_of_ascii b2 - 128) * 64)%N
      with (262144 * (N_of_ascii b0 - 240) + 4096 * (N_of_ascii b1 - 128) + 64 * (N_of_ascii b2 - 128))%N by lia;
    apply JsonTextSpec.encodes4; lia.
Qed.

Lemma runes_from_characters fuel off s : (List.length s <= fuel)%nat -> characters off s (runes_from fuel off s).
Proof.
  revert off s. induction fuel as [|fuel IH]; intros off [|b0 r] L; cbn in L; try lia; cbn [runes_from]; try constructor.
  pose proof (decode_width b0 r) as W. destruct (decode b0 r) as [c w] eqn:D. cbn in W.
  assert (Hd : characters (off + w) (drop (w - 1) r) (runes_from fuel (off + w) (drop (w - 1) r))).
  { apply IH. rewrite drop_length. lia. }
  pose proof (decode_cases b0 r) as [E|E]; rewrite D in E; cbn [fst snd] in E.
  - injection E as -> ->. replace (1 - 1)%nat with 0%nat in * by reflexivity. rewrite drop_0 in *. rewrite Nat.add_1_r in *.
    apply characters_bad; [|exact Hd]. intros n p s Hp Es.
    pose proof (decode_sequence n p b0 r s Hp Es) as E. rewrite D in E. injection E as En Ew. rewrite <- En in Hp.
    destruct p as [|a [|? ?]]; cbn in Ew; try discriminate Ew. cbn in Hp. inversion Hp; subst; unfold rune_error in *; lia.
  - assert (Es : b0 :: r = take w (b0 :: r) ++ drop (w - 1) r).
    { rewrite <- (take_drop w (b0 :: r)) at 1. f_equal. destruct w; [lia|]. cbn. by rewrite Nat.sub_0_r. }
    rewrite Es. apply characters_cons; [exact E|]. rewrite take_length. cbn [List.length]. by rewrite Nat.min_l by lia.
Qed.

Lemma runes_characters s : characters 0 s (runes s).
Proof. apply runes_from_characters. reflexivity. Qed.

Lemma sequence_nonempty n p : JsonTextSpec.encodes n (string_of_list_ascii p) -> p <> [].
Proof. intros H ->. inversion H. Qed.

Lemma characters_runes fuel off s l : (List.length s <= fuel)%nat -> characters off s l -> l = runes_from fuel off s.
Proof.
  intros L H. revert fuel L. induction H as [off|off n p s l Hp H IH|off a s l Hb H IH]; intros fuel L.
  - by destruct fuel.
  - pose proof (sequence_nonempty n p Hp). destruct p as [|b0 p]; [done|]. cbn in L. destruct fuel as [|fuel]; [lia|]. cbn [app runes_from].
    rewrite (decode_sequence n (b0 :: p) b0 (p ++ s) s Hp eq_refl). f_equal. rewrite app_length in L.
    replace (List.length (b0 :: p) - 1)%nat with (List.length p) by (cbn; lia). rewrite drop_app. apply IH. lia.
  - cbn in L. destruct fuel as [|fuel]; [lia|]. cbn [runes_from].
    pose proof (decode_cases a s) as [E|E].
    + rewrite E. f_equal. rewrite Nat.add_1_r. apply IH. lia.
    + exfalso. eapply Hb; [exact E|]. symmetry. apply take_drop.
Qed.

(** Every pair of [runes_from] is inside the string, and an ASCII rune is the byte at its place. *)
Lemma runes_from_spec fuel off s i r :
  (i, r) ∈ runes_from fuel off s ->
  (off <= i < off + List.length s)%nat /\
  ((r < 128)%N -> s !! (i - off)%nat = Some (ascii_of_N r)).
Proof.
  revert off s. induction fuel as [|fuel IH]; intros off s; cbn [runes_from].
  { intros H. apply elem_of_nil in H as []. }
  destruct s as [|b0 s]; [intros H; apply elem_of_nil in H as []|].
  destruct (decode b0 s) as [c w] eqn:D.
  pose proof (decode_width b0 s) as W. rewrite D in W. cbn in W.
  intros H. apply elem_of_cons in H as [[= -> ->]|H].
  - split; [cbn; lia|]. intros Hr.
    destruct (decode_ascii b0 s) as [D' _]; [rewrite D; exact Hr|].
    rewrite D in D'. injection D' as -> _.
    rewrite Nat.sub_diag, ascii_bval. reflexivity.
  - apply IH in H as [H1 H2]. rewrite drop_length in H1. cbn [List.length].
    split; [lia|]. intros Hr. rewrite <- (H2 Hr), lookup_drop.
    replace (i - off)%nat with (S (w - 1 + (i - (off + w))))%nat by lia. reflexivity.
Qed.

Lemma set_at_length i u s : (i < List.length s)%nat -> u <> [] ->
  exists s', set_at i u s = Some s' /\ (List.length s <= List.length s')%nat.
Proof.
  intros H Hu. unfold set_at. apply Nat.ltb_lt in H as Hb. rewrite Hb. eexists. split; [reflexivity|].
  rewrite !app_length, take_length, drop_length. destruct u; [congruence|]. cbn [List.length]. lia.
Qed.

Section names.
  Context (ul ud : N -> bool) (uu : N -> bytes).
  Notation namify := (namify ul ud uu).
  Notation loop := (upper_loop ul ud uu).

  Lemma loop_total rs prev s :
    (forall r, uu r <> []) ->
    (forall i r, (i, r) ∈ rs -> (i < List.length s)%nat) ->
    exists s', loop rs prev s = Some s'.
  Proof.
    intros Hu. revert prev s. induction rs as [|[i r] rs IH]; intros prev s H; cbn [upper_loop]; [eauto|].
    case_match.
    - destruct (set_at_length i (to_upper uu r) s) as (s' & -> & L).
      + apply (H i r). apply elem_of_cons; auto.
      + unfold to_upper. case_match; [congruence|apply Hu].
      + apply IH. intros i' r' H'. specialize (H i' r'). rewrite elem_of_cons in H. specialize (H (or_intror H')). lia.
    - apply IH. intros i' r' H'. apply (H i' r'). apply elem_of_cons; auto.
  Qed.

  Lemma strip_digits_spec s : strip_digits s = drop_digits s.
  Proof.
    induction s as [|c s IH]; cbn [strip_digits drop_digits]; [reflexivity|].
    rewrite digit_spec. destruct (decide (c ∈ digits)) as [H|H].
    - rewrite bool_decide_true by exact H. exact IH.
    - rewrite bool_decide_false by exact H. reflexivity.
  Qed.

  Lemma strip_digits_head s c r : strip_digits s = c :: r -> digit_b c = false /\ exists p, s = p ++ c :: r.
  Proof.
    induction s as [|d s IH]; cbn [strip_digits]; [congruence|].
    destruct (digit_b d) eqn:D.
    - intros E. destruct (IH E) as [? [p ->]]. split; [assumption|]. exists (d :: p). reflexivity.
    - intros [= -> ->]. split; [assumption|]. exists []. reflexivity.
  Qed.

  Lemma filter_word s : List.filter alnum_b s = word_chars s.
  Proof.
    induction s as [|c s IH]; cbn [List.filter word_chars]; [reflexivity|].
    rewrite alnum_spec, IH. destruct (decide (word_char c)) as [H|H].
    - rewrite bool_decide_true by exact H. reflexivity.
    - rewrite bool_decide_false by exact H. reflexivity.
  Qed.

  Lemma filter_alnum_all s : Forall word_char (List.filter alnum_b s).
  Proof.
    induction s as [|c s IH]; cbn [List.filter]; [constructor|].
    destruct (alnum_b c) eqn:A; [|exact IH]. constructor; [|exact IH].
    rewrite alnum_spec in A. apply bool_decide_eq_true in A. exact A.
  Qed.

  Lemma namify_valid s : (forall r, uu r <> []) ->
    exists n, namify s = Some n /\ (n = [] \/ exported n).
  Proof.
    intros Hu. unfold Naming.namify. destruct s as [|b s]; [eauto|].
    destruct (loop_total (runes (b :: s)) 95 (b :: s) Hu) as [s1 ->].
    { intros i r H. apply runes_from_spec in H. cbn in *. lia. }
    destruct (strip_digits (List.filter alnum_b s1)) as [|c r] eqn:E; [eauto|].
    eexists. split; [reflexivity|]. right.
    pose proof (filter_alnum_all s1) as F.
    destruct (strip_digits_head _ _ _ E) as [D [p Hp]]. rewrite Hp in F.
    apply Forall_app in F as [_ F]. apply Forall_cons in F as [Fc Fr].
    exists (upcase c), r. refine (conj eq_refl (conj _ Fr)).
    pose proof (upcase_upper c) as U. rewrite D, alnum_spec, (bool_decide_true _ Fc) in U. cbn in U.
    symmetry in U. rewrite upper_spec in U. apply bool_decide_eq_true in U. exact U.
  Qed.

  (** ASCII strings. *)
  Fixpoint mark (in_word : bool) (s : bytes) : bytes :=
    match s with
    | [] => []
    | c :: r => (if in_word then c else upcase c) :: mark (alnum_b c) r
    end.

  Lemma loop_ascii fuel off s pre prev in_word :
    Forall is_ascii s -> (List.length s <= fuel)%nat -> List.length pre = off ->
    (is_letter ul prev || is_digit ud prev)%bool = in_word ->
    loop (runes_from fuel off s) prev (pre ++ s) = Some (pre ++ mark in_word s).
  Proof.
    revert off s pre prev in_word. induction fuel as [|fuel IH]; intros off s pre prev iw HA HL HP HI.
    { destruct s; [reflexivity|cbn in HL; lia]. }
    destruct s as [|c s]; [reflexivity|]. cbn [runes_from mark].
    apply Forall_cons in HA as [Hc HA]. rewrite decode_of_ascii by exact Hc.
    cbn [upper_loop]. replace (1 - 1)%nat with 0%nat by reflexivity. rewrite drop_0.
    cbn [List.length] in HL.
    rewrite <- negb_orb, HI. destruct iw; cbn [negb].
    - specialize (IH (off + 1)%nat s (pre ++ [c]) (bval c) (alnum_b c) HA ltac:(lia)).
      rewrite <- !app_assoc in IH. cbn [app] in IH. apply IH.
      + rewrite app_length. cbn. lia.
      + apply is_letter_digit_ascii. exact Hc.
    - unfold set_at. rewrite app_length. cbn [List.length].
      destruct (off <? List.length pre + S (List.length s))%nat eqn:Hlt; [|apply Nat.ltb_ge in Hlt; lia].
      rewrite take_app_alt by auto.
      rewrite drop_app_ge by lia. replace (S off - List.length pre)%nat with 1%nat by lia. cbn [drop]. rewrite drop_0.
      unfold to_upper. change (is_ascii c) with (bval c < 128)%N in Hc. rewrite (proj2 (N.ltb_lt _ _) Hc), ascii_bval.
      specialize (IH (off + 1)%nat s (pre ++ [upcase c]) (bval c) (alnum_b c) HA ltac:(lia)).
      rewrite <- !app_assoc in IH. cbn [app] in IH. apply IH.
      + rewrite app_length. cbn. lia.
      + apply is_letter_digit_ascii. exact Hc.
  Qed.

  Lemma filter_mark iw s : List.filter alnum_b (mark iw s) = camel iw s.
  Proof.
    revert iw. induction s as [|c s IH]; intros iw; cbn [mark camel List.filter]; [reflexivity|].
    assert (A : alnum_b (if iw then c else upcase c) = alnum_b c) by (destruct iw; [reflexivity|apply upcase_alnum]).
    rewrite A, alnum_spec. destruct (decide (word_char c)) as [H|H].
    - rewrite bool_decide_true by exact H. rewrite IH, upcase_spec. reflexivity.
    - rewrite bool_decide_false by exact H. rewrite IH. reflexivity.
  Qed.

  Lemma namify_ascii s : Forall is_ascii s -> namify s = Some (name_of s).
  Proof.
    intros HA. unfold Naming.namify. destruct s as [|c s]; [reflexivity|].
    pose proof (loop_ascii (List.length (c :: s)) 0 (c :: s) [] 95 false HA ltac:(lia) eq_refl eq_refl) as L.
    cbn [app] in L. unfold runes. rewrite L, filter_mark.
    unfold name_of. rewrite strip_digits_spec.
    destruct (drop_digits (camel false (c :: s))); [reflexivity|]. cbn [capitalise]. now rewrite upcase_spec.
  Qed.

  Lemma word_ascii c : word_char c -> is_ascii c.
  Proof.
    intros H. pose proof (alnum_ascii c) as A. rewrite alnum_spec, (bool_decide_true _ H) in A.
    cbn [implb] in A. apply N.ltb_lt in A. exact A.
  Qed.

  Lemma camel_true s : Forall word_char s -> camel true s = s.
  Proof.
    induction s as [|c s IH]; cbn [camel]; [reflexivity|]. intros F. apply Forall_cons in F as [Hc F].
    rewrite decide_True by exact Hc. now rewrite IH.
  Qed.

  Lemma letter_not_digit c : c ∈ lowers \/ c ∈ uppers -> c ∉ digits.
  Proof.
    intros H Hd.
    pose proof (digit_spec c) as D. rewrite (bool_decide_true _ Hd) in D.
    pose proof (lower_spec c) as L. pose proof (upper_spec c) as U.
    assert (X : forall a, implb (digit_b a) (negb (lower_b a) && negb (upper_b a))%bool = true) by bytes256.
    specialize (X c). rewrite D in X. cbn in X. apply andb_prop in X as [X1 X2].
    destruct H as [H|H].
    - rewrite L, (bool_decide_true _ H) in X1. discriminate.
    - rewrite U, (bool_decide_true _ H) in X2. discriminate.
  Qed.

  Lemma upper_of_letter c : c ∈ lowers \/ c ∈ uppers -> uppercase c ∈ uppers.
  Proof.
    intros H. pose proof (letter_not_digit c H) as D.
    pose proof (upcase_upper c) as U. rewrite digit_spec, (bool_decide_false _ D), alnum_spec in U.
    rewrite (bool_decide_true (word_char c)) in U by (unfold word_char; tauto).
    cbn in U. symmetry in U. rewrite upper_spec, upcase_spec in U. apply bool_decide_eq_true in U. exact U.
  Qed.

  Lemma upper_fixed c : c ∈ uppers -> uppercase c = c.
  Proof.
    intros H. pose proof (upcase_fix c) as F. rewrite upper_spec, (bool_decide_true _ H) in F.
    cbn in F. apply Ascii.eqb_eq in F. now rewrite <- upcase_spec.
  Qed.

  Lemma name_of_word c r : (c ∈ lowers \/ c ∈ uppers) -> Forall word_char r -> name_of (c :: r) = uppercase c :: r.
  Proof.
    intros Hc F. unfold name_of. cbn [camel]. rewrite decide_True by (unfold word_char; tauto).
    rewrite camel_true by exact F. pose proof (upper_of_letter c Hc) as U.
    cbn [drop_digits]. rewrite decide_False by (apply letter_not_digit; auto).
    cbn [capitalise]. now rewrite upper_fixed.
  Qed.

  Lemma words_ascii s : Forall word_char s -> Forall is_ascii s.
  Proof. intros F. eapply Forall_impl; [exact F|]. apply word_ascii. Qed.

  Lemma namify_word c r : (c ∈ lowers \/ c ∈ uppers) -> Forall word_char r ->
    namify (c :: r) = Some (uppercase c :: r).
  Proof.
    intros Hc F. rewrite namify_ascii.
    - now rewrite name_of_word.
    - constructor; [apply word_ascii; unfold word_char; tauto|apply words_ascii; exact F].
  Qed.

  Lemma namify_exported s : exported s -> namify s = Some s.
  Proof.
    intros (c & r & -> & Hc & F). rewrite namify_word by auto. now rewrite upper_fixed.
  Qed.

  Lemma namify_idempotent s : (forall r, uu r <> []) ->
    exists n, namify s = Some n /\ (n = [] \/ exported n) /\ namify n = Some n.
  Proof.
    intros Hu. destruct (namify_valid s Hu) as (n & E & V). exists n. refine (conj E (conj V _)).
    destruct V as [->|V]; [reflexivity|apply namify_exported; exact V].
  Qed.

  Notation starts_ascii := (starts_ascii (fun r => is_letter ul r || is_digit ud r)%bool).

  Lemma map_insert (s o : bytes) i c :
    map upcase s = map upcase o -> o !! i = Some c ->
    map upcase (take i s ++ [upcase c] ++ drop (S i) s) = map upcase o.
  Proof.
    intros H Ho. assert (L : List.length s = List.length o).
    { rewrite <- (map_length upcase s), H. apply map_length. }
    rewrite !map_app. cbn [map]. rewrite upcase_idem.
    change (map upcase) with (fmap (M := list) upcase) in *.
    rewrite fmap_take, fmap_drop, H. cbn [fmap list_fmap].
    apply take_drop_middle. rewrite list_lookup_fmap, Ho. reflexivity.
  Qed.

  Lemma loop_case rs prev s o :
    (forall i r, (i, r) ∈ rs -> (i < List.length o)%nat /\ ((r < 128)%N -> o !! i = Some (ascii_of_N r))) ->
    starts_ascii rs prev -> map upcase s = map upcase o ->
    exists s', loop rs prev s = Some s' /\ map upcase s' = map upcase o.
  Proof.
    revert prev s. induction rs as [|[i r] rs IH]; intros prev s H HS HE; cbn [upper_loop]; [eauto|].
    cbn [NamingSpec.starts_ascii] in HS. destruct HS as [HS1 HS2].
    assert (H' : forall i r, (i, r) ∈ rs -> (i < List.length o)%nat /\ ((r < 128)%N -> o !! i = Some (ascii_of_N r))).
    { intros i' r' Hin. apply H. apply elem_of_cons; auto. }
    rewrite <- negb_orb. destruct (is_letter ul prev || is_digit ud prev)%bool eqn:P; cbn [negb]; [eauto|].
    specialize (HS1 eq_refl). destruct (H i r) as [Hi Hr]; [apply elem_of_cons; auto|]. specialize (Hr HS1).
    assert (L : List.length s = List.length o).
    { rewrite <- (map_length upcase s), HE. apply map_length. }
    unfold set_at. rewrite L, (proj2 (Nat.ltb_lt _ _) Hi). unfold to_upper. rewrite (proj2 (N.ltb_lt _ _) HS1).
    apply IH; auto. apply map_insert; auto.
  Qed.

  Lemma filter_map_upcase s : List.filter alnum_b (map upcase s) = map upcase (List.filter alnum_b s).
  Proof.
    induction s as [|c s IH]; cbn [map List.filter]; [reflexivity|].
    rewrite upcase_alnum. destruct (alnum_b c); cbn [map]; now rewrite IH.
  Qed.

  Lemma strip_map_upcase s : strip_digits (map upcase s) = map upcase (strip_digits s).
  Proof.
    induction s as [|c s IH]; cbn [map strip_digits]; [reflexivity|].
    rewrite upcase_digit. destruct (digit_b c); [exact IH|reflexivity].
  Qed.

  Lemma namify_case s : starts_ascii (runes s) 95 ->
    exists n, namify s = Some n /\
              map uppercase n = map uppercase (drop_digits (word_chars s)).
  Proof.
    intros HS. unfold Naming.namify. destruct s as [|b s]; [eauto|].
    destruct (loop_case (runes (b :: s)) 95 (b :: s) (b :: s)) as (s1 & -> & HE); auto.
    { intros i r H. apply runes_from_spec in H as [H1 H2]. rewrite Nat.sub_0_r in H2. split; [lia|exact H2]. }
    assert (X : map upcase (strip_digits (List.filter alnum_b s1)) =
                map uppercase (drop_digits (word_chars (b :: s)))).
    { rewrite <- strip_map_upcase, <- filter_map_upcase, HE, filter_map_upcase, strip_map_upcase.
      rewrite strip_digits_spec, filter_word. apply map_ext, upcase_spec. }
    destruct (strip_digits (List.filter alnum_b s1)) as [|c r]; eexists; (split; [reflexivity|]).
    - exact X.
    - rewrite <- X. cbn [map]. rewrite <- upcase_spec, upcase_idem. f_equal. apply map_ext. intros a. symmetry. apply upcase_spec.
  Qed.

  (** Empty names. *)
  Lemma camel_nil_letters iw s :
    drop_digits (camel iw s) = [] <-> Forall (fun c => ~ (c ∈ lowers \/ c ∈ uppers)) s.
  Proof.
    revert iw. induction s as [|c s IH]; intros iw; cbn [camel]; [split; [constructor|reflexivity]|].
    rewrite Forall_cons. destruct (decide (word_char c)) as [H|H].
    - cbn [drop_digits].
      assert (X : (if iw then c else uppercase c) ∈ digits <-> c ∈ digits).
      { destruct iw; [reflexivity|]. rewrite <- upcase_spec.
        pose proof (upcase_digit c) as D. rewrite !digit_spec in D.
        destruct (decide (c ∈ digits)) as [Hd|Hd]; [rewrite (bool_decide_true _ Hd) in D|rewrite (bool_decide_false _ Hd) in D].
        - apply bool_decide_eq_true in D. tauto.
        - apply bool_decide_eq_false in D. tauto. }
      destruct (decide ((if iw then c else uppercase c) ∈ digits)) as [Hd|Hd].
      + apply X in Hd. rewrite IH. split; [|tauto]. intros F. split; [|exact F].
        intros HL. exact (letter_not_digit c HL Hd).
      + split; [congruence|]. intros [HL _]. exfalso. unfold word_char in H. tauto.
    - rewrite IH. unfold word_char in H. tauto.
  Qed.

  Lemma name_of_nil s : name_of s = [] <-> Forall (fun c => ~ (c ∈ lowers \/ c ∈ uppers)) s.
  Proof.
    rewrite <- (camel_nil_letters false s). unfold name_of.
    destruct (drop_digits (camel false s)); cbn [capitalise]; split; congruence.
  Qed.

  (** Names in braces. *)
  Lemma camel_app iw s t : Forall (fun c => ~ word_char c) t -> camel iw (s ++ t) = camel iw s.
  Proof.
    intros F. revert iw. induction s as [|c s IH]; intros iw; cbn [app camel].
    - revert iw. induction F as [|c t Hc F IH]; intros iw; cbn [camel]; [reflexivity|].
      rewrite decide_False by exact Hc. apply IH.
    - case_decide; now rewrite IH.
  Qed.

  Lemma name_of_braces p : name_of ("{"%char :: p ++ ["}"%char]) = name_of p.
  Proof.
    unfold name_of. cbn [camel]. rewrite decide_False.
    - rewrite camel_app; [reflexivity|]. constructor; [|constructor].
      apply (bool_decide_unpack _). vm_compute. exact I.
    - apply (bool_decide_unpack _). vm_compute. exact I.
  Qed.

  (** ** Parameters in channel names *)
  Lemma last_close_some b c :
    ("(" ∉ b /\ ")" ∉ b)%char -> ("}" ∉ c)%char ->
    last_close (b ++ "}"%char :: c) = Some (List.length b).
  Proof.
    intros [H1 H2] Hc. induction b as [|x b IH]; cbn [app last_close List.length].
    - cbn [Ascii.eqb orb]. change (Ascii.eqb "}" "(" || Ascii.eqb "}" ")")%char%bool with false. cbn iota.
      assert (E : last_close c = None).
      { clear H1 H2. induction c as [|x c IH]; cbn [last_close]; [reflexivity|].
        apply not_elem_of_cons in Hc as [N1 N2].
        case_match; [reflexivity|]. rewrite (IH N2). destruct (Ascii.eqb_spec x "}"%char); [congruence|reflexivity]. }
      rewrite E. reflexivity.
    - apply not_elem_of_cons in H1 as [N1 H1]. apply not_elem_of_cons in H2 as [N2 H2].
      destruct (Ascii.eqb_spec x "("%char); [congruence|]. destruct (Ascii.eqb_spec x ")"%char); [congruence|].
      cbn [orb]. rewrite IH by assumption. reflexivity.
  Qed.

  Lemma remove_params_none fuel s : (List.length s <= fuel)%nat -> ("}" ∉ s)%char ->
    remove_params_from fuel s = s.
  Proof.
    revert s. induction fuel as [|fuel IH]; intros [|c s] HL Hs; cbn [remove_params_from]; try reflexivity.
    { cbn in HL. lia. }
    apply not_elem_of_cons in Hs as [N1 N2]. cbn in HL.
    rewrite (IH s) by (try assumption; lia).
    assert (E : last_close s = None).
    { clear -N2. induction s as [|x c IH]; cbn [last_close]; [reflexivity|].
      apply not_elem_of_cons in N2 as [N1 N2].
      case_match; [reflexivity|]. rewrite (IH N2). destruct (Ascii.eqb_spec x "}"%char); [congruence|reflexivity]. }
    rewrite E. case_match; reflexivity.
  Qed.

  Lemma remove_params_span a b c :
    ("{" ∉ a)%char -> ("(" ∉ b /\ ")" ∉ b)%char -> ("}" ∉ c)%char ->
    remove_params (a ++ "{"%char :: b ++ "}"%char :: c) = a ++ "_"%char :: c.
  Proof.
    intros Ha Hb Hc. unfold remove_params.
    assert (G : forall fuel, (List.length (a ++ "{"%char :: b ++ "}"%char :: c) <= fuel)%nat ->
              remove_params_from fuel (a ++ "{"%char :: b ++ "}"%char :: c) = a ++ "_"%char :: c); [|apply G; lia].
    induction a as [|x a IH]; intros [|fuel]; cbn [app List.length]; try lia; intros HL.
    - cbn [remove_params_from]. change (Ascii.eqb "{" "{")%char with true. cbn iota.
      rewrite last_close_some by assumption.
      replace (drop (S (List.length b)) (b ++ "}"%char :: c)) with c.
      + f_equal. apply remove_params_none; [|assumption]. rewrite app_length in HL. cbn in HL. lia.
      + symmetry. rewrite drop_app_ge by lia. replace (S (List.length b) - List.length b)%nat with 1%nat by lia. reflexivity.
    - apply not_elem_of_cons in Ha as [N1 Ha]. cbn [remove_params_from].
      destruct (Ascii.eqb_spec x "{"%char); [congruence|]. f_equal. apply IH; [assumption|lia].
  Qed.

  (** ** Addresses *)
  Lemma param_at_some p r : no_brace p -> param_at (p ++ "}"%char :: r) = Some (p, r).
  Proof.
    intros [H1 H2]. induction p as [|x p IH]; cbn [app param_at]; [reflexivity|].
    apply not_elem_of_cons in H1 as [N1 H1]. apply not_elem_of_cons in H2 as [N2 H2].
    destruct (Ascii.eqb_spec x "}"%char); [congruence|]. destruct (Ascii.eqb_spec x "{"%char); [congruence|].
    rewrite IH by assumption. reflexivity.
  Qed.

  Definition fmt1 (v : ascii) (sg : segment) : bytes :=
    match sg with Text t => t | Param _ => ["%"%char; v] end.
  Definition matches1 (sg : segment) : list bytes :=
    match sg with Text _ => [] | Param p => ["{"%char :: p ++ ["}"%char]] end.

  Lemma scan_text v t fuel s : no_brace t -> (List.length t <= fuel)%nat ->
    scan fuel v (t ++ s) = (t ++ (scan (fuel - List.length t) v s).1, (scan (fuel - List.length t) v s).2).
  Proof.
    intros [H1 H2]. revert fuel. induction t as [|x t IH]; intros fuel HL; cbn [app List.length].
    - rewrite Nat.sub_0_r. now destruct (scan fuel v s).
    - cbn [List.length] in HL. destruct fuel as [|fuel]; [lia|]. cbn [scan].
      apply not_elem_of_cons in H1 as [N1 H1]. apply not_elem_of_cons in H2 as [N2 H2].
      destruct (Ascii.eqb_spec x "{"%char); [congruence|].
      rewrite IH by (try assumption; lia). reflexivity.
  Qed.

  Lemma scan_segments v sgs fuel : Forall wf_segment sgs ->
    (List.length (render sgs) <= fuel)%nat ->
    scan fuel v (render sgs) = (List.concat (map (fmt1 v) sgs), List.concat (map matches1 sgs)).
  Proof.
    intros F. revert fuel. induction F as [|sg sgs Hw F IH]; intros fuel HL.
    { destruct fuel; reflexivity. }
    unfold render in *. cbn [map List.concat] in *. rewrite app_length in HL. destruct sg as [t|p]; cbn [render1 fmt1 matches1] in *.
    - rewrite scan_text by (try assumption; lia). rewrite IH by lia. reflexivity.
    - cbn [List.length] in HL. rewrite app_length in HL. cbn in HL. destruct fuel as [|fuel]; [lia|].
      cbn [app scan]. change (Ascii.eqb "{" "{")%char with true. cbn iota.
      rewrite <- app_assoc. cbn [app]. rewrite param_at_some by exact Hw.
      rewrite IH by lia. reflexivity.
  Qed.

  Lemma param_at_inv s p r : param_at s = Some (p, r) -> no_brace p /\ s = p ++ "}"%char :: r.
  Proof.
    revert p r. induction s as [|x s IH]; intros p r H; cbn [param_at] in H; [discriminate|].
    destruct (Ascii.eqb_spec x "}"%char) as [->|N1].
    { injection H as <- <-. split; [split; apply not_elem_of_nil|reflexivity]. }
    destruct (Ascii.eqb_spec x "{"%char) as [->|N2]; [discriminate|].
    destruct (param_at s) as [[p' r']|]; [|discriminate]. injection H as <- <-.
    destruct (IH p' r' eq_refl) as [[H1 H2] ->]. split; [|reflexivity].
    split; apply not_elem_of_cons; split; congruence.
  Qed.
  Lemma scan_pieces v s sgs : pieces s sgs -> forall fuel, (List.length s <= fuel)%nat ->
    scan fuel v s = (List.concat (map (fmt1 v) sgs), List.concat (map matches1 sgs)).
  Proof.
    induction 1 as [|p r sgs Hp H IH|c r sgs Hc H IH]; intros fuel HL.
    - destruct fuel; reflexivity.
    - cbn [app List.length] in HL. rewrite app_length in HL. cbn in HL. destruct fuel as [|fuel]; [lia|].
      cbn [app scan]. change (Ascii.eqb "{" "{")%char with true. cbn iota.
      rewrite param_at_some by exact Hp. rewrite IH by lia. reflexivity.
    - cbn [List.length] in HL. destruct fuel as [|fuel]; [lia|]. cbn [scan].
      assert (scan fuel v r = (List.concat (map (fmt1 v) sgs), List.concat (map matches1 sgs))) as E by (apply IH; lia).
      rewrite E. destruct (Ascii.eqb_spec c "{"%char) as [->|N]; [|reflexivity].
      destruct (param_at r) as [[p r']|] eqn:Ep; [|reflexivity].
      apply param_at_inv in Ep as [Hp ->]. exfalso. exact (Hc p r' Hp eq_refl).
  Qed.
  Lemma pieces_render s sgs : pieces s sgs -> render sgs = s.
  Proof.
    unfold render. induction 1 as [|p r sgs Hp H IH|c r sgs Hc H IH]; cbn [map List.concat render1]; [reflexivity| |].
    - rewrite IH. cbn [app]. f_equal. rewrite <- app_assoc. reflexivity.
    - rewrite IH. reflexivity.
  Qed.
  Lemma pieces_total s : exists sgs, pieces s sgs.
  Proof.
    remember (List.length s) as n eqn:En. assert (List.length s <= n)%nat as HL by lia. clear En.
    revert s HL. induction n as [|n IH]; intros s HL.
    { destruct s; [exists []; constructor|cbn in HL; lia]. }
    destruct s as [|c r]; [exists []; constructor|]. cbn in HL.
    destruct (decide (c = "{"%char)) as [->|N].
    - destruct (param_at r) as [[p r']|] eqn:E.
      + apply param_at_inv in E as [Hp ->]. destruct (IH r') as (sgs & Hs). { rewrite app_length in HL. cbn in HL. lia. }
        exists (Param p :: sgs). now constructor.
      + destruct (IH r) as (sgs & Hs); [lia|]. exists (Text ["{"%char] :: sgs). constructor; [|exact Hs].
        intros p r' Hp Eq. injection Eq as ->. now rewrite param_at_some in E.
    - destruct (IH r) as (sgs & Hs); [lia|]. exists (Text [c] :: sgs). constructor; [|exact Hs].
      intros p r' Hp Eq. injection Eq as -> _. congruence.
  Qed.

  Lemma sprintf_text t f args : ("%" ∉ t)%char ->
    sprintf (t ++ f) args = (fun r => t ++ r) <$> sprintf f args.
  Proof.
    intros H. induction t as [|x t IH]; cbn [app].
    - destruct (sprintf f args); reflexivity.
    - apply not_elem_of_cons in H as [N H]. cbn [sprintf].
      destruct (Ascii.eqb_spec x "%"%char); [congruence|]. rewrite IH by assumption.
      destruct (sprintf f args); reflexivity.
  Qed.

  Lemma eval_segments v sgs (fld : bytes -> bytes) (params : bytes -> bytes) :
    v = "s"%char \/ v = "v"%char ->
    Forall no_percent sgs ->
    sprintf (List.concat (map (fmt1 v) sgs)) (params <$> (fld <$> List.concat (map matches1 sgs)))
    = Some (subst (fun p => params (fld ("{"%char :: p ++ ["}"%char]))) sgs).
  Proof.
    intros Hv F. unfold subst. induction F as [|sg sgs Hp F IH]; [reflexivity|].
    cbn [map List.concat]. destruct sg as [t|p]; cbn [fmt1 matches1 subst1] in *.
    - cbn [app] . rewrite sprintf_text by exact Hp. rewrite IH. reflexivity.
    - cbn [app]. rewrite !fmap_cons. cbn [sprintf]. change (Ascii.eqb "%" "%")%char with true. cbn iota.
      rewrite IH. destruct Hv as [-> | ->]; reflexivity.
  Qed.

  Lemma mapM_namify ms : Forall (Forall is_ascii) ms ->
    mapM (namify' ul ud uu) ms = Some (name_of <$> ms).
  Proof.
    intros F. induction F as [|m ms Hm F IH]; [reflexivity|].
    cbn [mapM]. rewrite IH. unfold namify'. rewrite namify_ascii by exact Hm. reflexivity.
  Qed.

  Lemma matches_ascii sgs : Forall is_ascii (render sgs) -> Forall (Forall is_ascii) (List.concat (map matches1 sgs)).
  Proof.
    unfold render. induction sgs as [|sg sgs IH]; cbn [map List.concat]; [constructor|].
    rewrite Forall_app. intros [H1 H2]. rewrite Forall_app. split; [|auto].
    destruct sg as [t|p]; cbn [matches1 render1] in *; [constructor|]. constructor; [exact H1|constructor].
  Qed.

  Lemma address_eval v sgs params :
    v = "s"%char \/ v = "v"%char ->
    Forall is_ascii (render sgs) -> Forall wf_segment sgs -> Forall no_percent sgs ->
    exists e, generate_address ul ud uu v true (render sgs) = Some e /\
              eval params e = Some (subst (fun p => params (name_of p)) sgs).
  Proof.
    intros Hv HA HW HP. unfold generate_address. cbn [negb].
    rewrite scan_segments by (try assumption; lia).
    rewrite mapM_namify by (apply matches_ascii; exact HA).
    eexists. split; [reflexivity|]. cbn [eval]. rewrite eval_segments by assumption.
    f_equal. unfold subst. f_equal. apply map_ext. intros [t|p]; cbn [subst1]; [reflexivity|].
    now rewrite name_of_braces.
  Qed.

  Lemma address_eval_pieces v s sgs params :
    v = "s"%char \/ v = "v"%char ->
    Forall is_ascii s -> pieces s sgs -> Forall no_percent sgs ->
    exists e, generate_address ul ud uu v true s = Some e /\
              eval params e = Some (subst (fun p => params (name_of p)) sgs).
  Proof.
    intros Hv HA HS HP. unfold generate_address. cbn [negb].
    rewrite (scan_pieces v s sgs HS) by lia. rewrite <- (pieces_render _ _ HS) in HA.
    rewrite mapM_namify by (apply matches_ascii; exact HA).
    eexists. split; [reflexivity|]. cbn [eval]. rewrite eval_segments by assumption.
    f_equal. unfold subst. f_equal. apply map_ext. intros [t|p]; cbn [subst1]; [reflexivity|].
    now rewrite name_of_braces.
  Qed.
  Local Open Scope nat_scope.
  (** Number of "%". *)
  Fixpoint percents (s : bytes) : nat :=
    match s with [] => 0 | c :: r => (if Ascii.eqb c "%"%char then 1 else 0) + percents r end.
  Lemma percents_app a b : percents (a ++ b) = percents a + percents b.
  Proof. induction a as [|c a IH]; [reflexivity|]. cbn. rewrite IH. lia. Qed.
  Lemma percents_0 t : percents t = 0 <-> "%"%char ∉ t.
  Proof.
    induction t as [|c t IH]; cbn; [split; [intros _ H; inversion H|reflexivity]|]. rewrite not_elem_of_cons, <- IH.
    destruct (Ascii.eqb_spec c "%"%char) as [->|N]; split.
    - intros [=].
    - intros [[] _]. reflexivity.
    - intros H. split; [congruence|exact H].
    - intros [_ H]. exact H.
  Qed.

  (** What Sprintf makes of "%" when all arguments are empty: every other one is lost. *)
  Lemma sprintf_percents n : forall f args out, List.length f <= n -> Forall (eq []) args -> sprintf f args = Some out ->
    percents f = 2 * percents out + List.length args.
  Proof.
    induction n as [|n IH]; intros f args out Hn Ha H.
    { destruct f; [|cbn in Hn; lia]. destruct args; cbn in H; [|discriminate]. injection H as <-. reflexivity. }
    destruct f as [|c f]; [destruct args; cbn in H; [|discriminate]; injection H as <-; reflexivity|].
    cbn [sprintf] in H. cbn [percents]. destruct (Ascii.eqb_spec c "%"%char) as [->|N].
    - destruct f as [|v f]; [discriminate|]. cbn in Hn. destruct (Ascii.eqb_spec v "%"%char) as [->|Nv].
      + destruct (sprintf f args) as [o|] eqn:E; [|discriminate]. cbn in H. injection H as <-. specialize (IH f args o ltac:(lia) Ha E). cbn. lia.
      + destruct (Ascii.eqb v "s"%char || Ascii.eqb v "v"%char); [|discriminate]. destruct args as [|a args]; [discriminate|].
        destruct (sprintf f args) as [o|] eqn:E; [|discriminate]. cbn in H. inversion Ha as [|? ? Ha1 Ha2]; subst. cbn in H. injection H as <-.
        specialize (IH f args o ltac:(lia) Ha2 E). cbn [percents List.length]. destruct (Ascii.eqb_spec v "%"%char); [contradiction|]. lia.
    - destruct (sprintf f args) as [o|] eqn:E; [|discriminate]. cbn in H. injection H as <-. cbn in Hn. specialize (IH f args o ltac:(lia) Ha E).
      cbn [percents]. destruct (Ascii.eqb_spec c "%"%char); [contradiction|]. lia.
  Qed.

  Lemma percents_fmt v sgs : v = "s"%char \/ v = "v"%char ->
    percents (List.concat (map (fmt1 v) sgs)) = percents (subst (fun _ => []) sgs) + List.length (List.concat (map matches1 sgs)).
  Proof.
    intros Hv. unfold subst. induction sgs as [|sg sgs IH]; [reflexivity|]. cbn [map List.concat]. rewrite !percents_app, app_length, IH.
    destruct sg as [t|p]; cbn [fmt1 matches1 subst1 List.length]; [lia|]. destruct Hv as [-> | ->]; cbn; lia.
  Qed.

  Lemma percents_subst sgs : percents (subst (fun _ => []) sgs) = 0 -> Forall no_percent sgs.
  Proof.
    unfold subst. induction sgs as [|sg sgs IH]; [constructor|]. cbn [map List.concat]. rewrite percents_app. intros H.
    constructor; [|apply IH; lia]. destruct sg as [t|p]; cbn in *; [|exact I]. apply percents_0. lia.
  Qed.

  Lemma address_exact v s sgs : v = "s"%char \/ v = "v"%char -> Forall is_ascii s -> pieces s sgs ->
    exists e, generate_address ul ud uu v true s = Some e /\
      ((forall params, eval params e = Some (subst (fun p => params (name_of p)) sgs)) <-> Forall no_percent sgs).
  Proof.
    intros Hv HA HS. pose proof HA as HA'. rewrite <- (pieces_render _ _ HS) in HA'.
    assert (generate_address ul ud uu v true s = Some (ESprintf (List.concat (map (fmt1 v) sgs)) (name_of <$> List.concat (map matches1 sgs)))) as E.
    { unfold generate_address. cbn [negb]. rewrite (scan_pieces v s sgs HS) by lia. rewrite mapM_namify by (apply matches_ascii; exact HA'). reflexivity. }
    exists (ESprintf (List.concat (map (fmt1 v) sgs)) (name_of <$> List.concat (map matches1 sgs))). split; [exact E|]. split.
    - intros H. specialize (H (fun _ => [])). cbn [eval] in H. apply percents_subst.
      assert (Forall (eq []) ((fun _ : bytes => [] : bytes) <$> (name_of <$> List.concat (map matches1 sgs)))) as F.
      { apply Forall_forall. intros x Hx. apply elem_of_list_fmap in Hx. destruct Hx as (? & -> & _). reflexivity. }
      pose proof (sprintf_percents _ _ _ _ (le_n _) F H) as P. rewrite (percents_fmt v sgs Hv) in P. rewrite !fmap_length in P. lia.
    - intros HP params. destruct (address_eval_pieces v s sgs params Hv HA HS HP) as (e & He1 & He2). rewrite E in He1. injection He1 as <-. exact He2.
  Qed.
End names.

(** ** Comments *)
Lemma lines_of_nonnil s : exists l ls, lines_of s = l :: ls.
Proof.
  destruct s as [|c s]; cbn [lines_of]; [eauto|]. case_decide; [eauto|].
  destruct (lines_of s); eauto.
Qed.

Lemma lines_app_text p s l ls : newline ∉ p -> lines_of s = l :: ls -> lines_of (p ++ s) = (p ++ l) :: ls.
Proof.
  intros H E. induction p as [|x p IH]; cbn [app]; [exact E|].
  apply not_elem_of_cons in H as [N H]. cbn [lines_of]. rewrite decide_False by congruence.
  now rewrite IH.
Qed.

Lemma prefix_no_newline : newline ∉ comment_prefix.
Proof. apply (bool_decide_unpack _). vm_compute. exact I. Qed.

Lemma lines_comment s :
  lines_of (comment_prefix ++ comment_newlines s) = map (app comment_prefix) (lines_of s).
Proof.
  induction s as [|c s IH]; [reflexivity|]. cbn [comment_newlines lines_of].
  destruct (Ascii.eqb_spec c nl) as [->|N].
  - rewrite decide_True by reflexivity. cbn [map].
    rewrite (lines_app_text comment_prefix _ [] (map (app comment_prefix) (lines_of s)) prefix_no_newline); [reflexivity|].
    change (nl :: "/"%char :: "/"%char :: " "%char :: comment_newlines s)
      with (newline :: (comment_prefix ++ comment_newlines s)).
    cbn [lines_of]. rewrite decide_True by reflexivity. now rewrite IH.
  - rewrite decide_False by exact N.
    destruct (lines_of_nonnil s) as (l & ls & E). rewrite E in *. cbn [map] in *.
    destruct (lines_of_nonnil (comment_newlines s)) as (l' & ls' & E').
    rewrite (lines_app_text comment_prefix _ l' ls' prefix_no_newline E') in IH.
    injection IH as H1 H2. subst l ls'.
    rewrite (lines_app_text comment_prefix _ (c :: l') (map (app comment_prefix) ls) prefix_no_newline); [reflexivity|].
    cbn [lines_of]. rewrite decide_False by exact N. now rewrite E'.
Qed.

Lemma trim_newline_last s : trim_newline (s ++ [newline]) = s.
Proof.
  induction s as [|c s IH]; [reflexivity|]. cbn [app trim_newline].
  destruct (s ++ [newline]) eqn:E; [destruct s; discriminate|]. rewrite IH. reflexivity.
Qed.

Lemma trim_newline_none s : last s <> Some newline -> trim_newline s = s.
Proof.
  induction s as [|c s IH]; [reflexivity|]. intros H. destruct s as [|d s].
  - cbn in *. destruct (Ascii.eqb_spec c nl); [subst; exfalso; apply H; reflexivity|reflexivity].
  - change (trim_newline (c :: d :: s)) with (c :: trim_newline (d :: s)). rewrite IH; [reflexivity|exact H].
Qed.

Lemma unlines_lines s : unlines (lines_of s) = s.
Proof.
  induction s as [|c s IH]; [reflexivity|]. cbn [lines_of].
  destruct (lines_of_nonnil s) as (l & ls & E). case_decide as D.
  - subst c. rewrite E in *. change (unlines ([] :: l :: ls)) with (newline :: unlines (l :: ls)). now rewrite IH.
  - rewrite E in *. destruct ls as [|l2 ls]; cbn [unlines] in *; [now rewrite IH|].
    rewrite <- IH. reflexivity.
Qed.
