(** What the reader of JSON text accepts is the grammar. *)
From stdpp Require Import list strings.
From Coq Require Import ZArith NArith Ascii String Lia DecimalString DecimalN DecimalZ Decimal.
From Verif.Model Require Import Decoding JsonText.
From Verif.Spec Require Import JsonTextSpec JsonGrammar.
From Verif.Proof Require Import JsonTextProof.
Local Open Scope string_scope.

(** ** Strings *)
Lemma char_inj a n : N_of_ascii a = n -> char n = a.
Proof. intros <-. apply ascii_N_embedding. Qed.
Lemma div_mod_unique a b q r : (r < b -> a = b * q + r -> a / b = q /\ a mod b = r)%N.
Proof. intros H E. split; [symmetry; apply (N.div_unique a b q r); lia|symmetry; apply (N.mod_unique a b q r); lia]. Qed.
Lemma encodes_utf8 n p : encodes n p -> p = utf8_of n.
Proof.
  intros [a H|a b x y Ha Hb H1 H2 H3|a b c x y z Ha Hb Hc H1 H2 H3 m H4 H5|a b c d w x y z Ha Hb Hc Hd H0 H1 H2 H3 m H4]; unfold utf8_of.
  - apply N.ltb_lt in H. rewrite H. f_equal. symmetry. by apply char_inj.
  - destruct (N.ltb_spec (64 * x + y) 128) as [L|_]; [lia|]. destruct (N.ltb_spec (64 * x + y) 2048) as [_|L]; [|lia].
    destruct (div_mod_unique (64 * x + y) 64 x y) as [-> ->]; [lia|lia|]. by rewrite (char_inj a _ Ha), (char_inj b _ Hb).
  - destruct (N.ltb_spec m 128) as [L|_]; [lia|]. destruct (N.ltb_spec m 2048) as [L|_]; [lia|].
    destruct ((55296 <=? m) && (m <=? 57343))%N eqn:S; [apply andb_true_iff in S; rewrite !N.leb_le in S; lia|].
    destruct (N.ltb_spec m 65536) as [_|L]; [|lia].
    destruct (div_mod_unique m 4096 x (64 * y + z)) as [-> _]; [lia|lia|]. destruct (div_mod_unique m 64 (64 * x + y) z) as [-> ->]; [lia|lia|].
    destruct (div_mod_unique (64 * x + y) 64 x y) as [_ ->]; [lia|lia|].
    by rewrite (char_inj a _ Ha), (char_inj b _ Hb), (char_inj c _ Hc).
  - destruct (N.ltb_spec m 128) as [L|_]; [lia|]. destruct (N.ltb_spec m 2048) as [L|_]; [lia|].
    destruct ((55296 <=? m) && (m <=? 57343))%N eqn:S; [apply andb_true_iff in S; rewrite !N.leb_le in S; lia|].
    destruct (N.ltb_spec m 65536) as [L|_]; [lia|].
    destruct (div_mod_unique m 262144 w (4096 * x + 64 * y + z)) as [-> _]; [lia|lia|].
    destruct (div_mod_unique m 4096 (64 * w + x) (64 * y + z)) as [-> _]; [lia|lia|].
    destruct (div_mod_unique m 64 (4096 * w + 64 * x + y) z) as [-> ->]; [lia|lia|].
    destruct (div_mod_unique (64 * w + x) 64 w x) as [_ ->]; [lia|lia|].
    destruct (div_mod_unique (4096 * w + 64 * x + y) 64 (64 * w + x) y) as [_ ->]; [lia|lia|].
    by rewrite (char_inj a _ Ha), (char_inj b _ Hb), (char_inj c _ Hc), (char_inj d _ Hd).
Qed.
Lemma byte_char n : (n < 256)%N -> N_of_ascii (char n) = n.
Proof. apply N_ascii_embedding. Qed.
Lemma utf8_encodes n : (n <= 1114111)%N -> ~ (55296 <= n <= 57343)%N -> encodes n (utf8_of n).
Proof.
  intros L S. unfold utf8_of. destruct (N.ltb_spec n 128) as [L1|L1].
  { rewrite <- (byte_char n) at 1 by lia. constructor. rewrite byte_char; lia. }
  pose proof (N.div_mod n 64 ltac:(lia)) as D1. pose proof (N.mod_bound_pos n 64 ltac:(lia) ltac:(lia)) as M1.
  destruct (N.ltb_spec n 2048) as [L2|L2].
  { assert (n / 64 < 32)%N by (apply N.div_lt_upper_bound; lia).
    rewrite D1 at 1. constructor; rewrite ?byte_char; lia. }
  destruct ((55296 <=? n) && (n <=? 57343))%N eqn:E; [apply andb_true_iff in E; rewrite !N.leb_le in E; lia|clear E].
  pose proof (N.div_mod (n / 64) 64 ltac:(lia)) as D2. pose proof (N.mod_bound_pos (n / 64) 64 ltac:(lia) ltac:(lia)) as M2.
  assert (E2 : (n / 64 / 64 = n / 4096)%N) by (rewrite N.div_div by lia; reflexivity). rewrite E2 in D2.
  destruct (N.ltb_spec n 65536) as [L3|L3].
  { assert (n / 4096 < 16)%N by (apply N.div_lt_upper_bound; lia).
    assert (En : n = (4096 * (n / 4096) + 64 * (n / 64 mod 64) + n mod 64)%N) by lia.
    rewrite En at 1. apply encodes3; rewrite ?byte_char; lia. }
  pose proof (N.div_mod (n / 4096) 64 ltac:(lia)) as D3. pose proof (N.mod_bound_pos (n / 4096) 64 ltac:(lia) ltac:(lia)) as M3.
  assert (E3 : (n / 4096 / 64 = n / 262144)%N) by (rewrite N.div_div by lia; reflexivity). rewrite E3 in D3.
  assert (n / 262144 < 8)%N by (apply N.div_lt_upper_bound; lia).
  assert (En : n = (262144 * (n / 262144) + 4096 * (n / 4096 mod 64) + 64 * (n / 64 mod 64) + n mod 64)%N) by lia.
  rewrite En at 1. apply encodes4; rewrite ?byte_char; lia.
Qed.
Lemma utf8_surrogate m : (55296 <= m <= 57343)%N -> utf8_of m = replacement.
Proof.
  intros H. unfold utf8_of. destruct (N.ltb_spec m 128) as [L|_]; [lia|]. destruct (N.ltb_spec m 2048) as [L|_]; [lia|].
  destruct ((55296 <=? m) && (m <=? 57343))%N eqn:E; [reflexivity|]. apply andb_false_iff in E. rewrite !N.leb_gt in E. lia.
Qed.

Lemma hex_spec a n : hexdigit a = Some n <-> hex a n.
Proof.
  unfold hexdigit. destruct (between 48 57 a) eqn:E1; [|destruct (between 97 102 a) eqn:E2; [|destruct (between 65 70 a) eqn:E3]];
  repeat match goal with
         | E : between _ _ a = true |- _ => apply between_spec in E
         | E : between _ _ a = false |- _ => apply not_true_iff_false in E; rewrite between_spec in E
         end; unfold byte.
  - split; [intros [= <-]; by apply hex_digit|intros []; try lia; done].
  - split; [intros [= <-]; by apply hex_small|intros []; try lia; done].
  - split; [intros [= <-]; by apply hex_capital|intros []; try lia; done].
  - split; [done|intros []; lia].
Qed.
Lemma hex_lt a n : hex a n -> (n < 16)%N.
Proof. intros []; lia. Qed.
Lemma hex_no_quote a n : hex a n -> a <> quote.
Proof. intros [] ->; vm_compute in H; destruct H as [H1 H2]; contradiction. Qed.
Lemma unit4_spec a b c d r m t : unit4 (String a (String b (String c (String d r)))) = Some (m, t) <->
  t = r /\ unit_text m (String backslash (String "u" (String a (String b (String c (String d "")))))).
Proof.
  unfold unit4. split.
  - destruct (hexdigit a) as [w|] eqn:A; [|discriminate]. destruct (hexdigit b) as [x|] eqn:B; [|discriminate].
    destruct (hexdigit c) as [y|] eqn:C; [|discriminate]. destruct (hexdigit d) as [z|] eqn:D; [|discriminate].
    cbn. intros E. assert (Em : m = (w * 4096 + x * 256 + y * 16 + z)%N /\ t = r) by (split; congruence). destruct Em as [-> ->]. split; [done|].
    apply hex_spec in A, B, C, D.
    replace (w * 4096 + x * 256 + y * 16 + z)%N with (4096 * w + 256 * x + 16 * y + z)%N by lia. by constructor.
  - intros [-> U]. remember (String backslash _) as s eqn:Es. destruct U as [a' b' c' d' w x y z A B C D].
    assert (Eq : a' = a /\ b' = b /\ c' = c /\ d' = d) by (repeat split; congruence). destruct Eq as (-> & -> & -> & ->).
    apply hex_spec in A, B, C, D. rewrite A, B, C, D. cbn [mbind option_bind]. do 2 f_equal. lia.
Qed.
Lemma unit_shape m u : unit_text m u -> exists a b c d, u = String backslash (String "u" (String a (String b (String c (String d ""))))) /\
  (m < 65536)%N /\ Forall (fun x => x <> quote) (list_ascii_of_string u).
Proof.
  intros [a b c d w x y z A B C D]. exists a, b, c, d. split; [done|].
  pose proof (hex_lt _ _ A). pose proof (hex_lt _ _ B). pose proof (hex_lt _ _ C). pose proof (hex_lt _ _ D). split; [lia|].
  cbn. repeat (apply Forall_cons_2; [first [discriminate|by eapply hex_no_quote]|]). apply Forall_nil_2.
Qed.
Lemma unit_same m m' u : unit_text m u -> unit_text m' u -> m = m'.
Proof.
  intros U V. destruct (unit_shape m u U) as (a & b & c & d & -> & _).
  assert (E : Some (m, "") = Some (m', "")) by (rewrite <- (proj2 (unit4_spec a b c d "" m "") (conj eq_refl U));
    exact (proj2 (unit4_spec a b c d "" m' "") (conj eq_refl V))). congruence.
Qed.

(** What has no quote in it ends before the quote. *)
Lemma before_quote u x c r : Forall (fun a => a <> quote) (list_ascii_of_string u) -> u +:+ x = c +:+ String quote r -> exists y, c = u +:+ y.
Proof.
  revert c. induction u as [|a u IH]; intros c F E; [by exists c|]. cbn in F. apply Forall_cons_1 in F as [Fa F].
  destruct c as [|b c]; rewrite ?append_cons in E.
  - change ("" +:+ String quote r) with (String quote r) in E. congruence.
  - destruct (IH c F) as [y ->]; [congruence|]. exists y. rewrite append_cons. congruence.
Qed.
Lemma high_no_quote a p : (128 <= N_of_ascii a)%N -> sequence (String a p) -> Forall (fun a => a <> quote) (list_ascii_of_string (String a p)).
Proof.
  intros L H. assert (Q : forall x, (128 <= N_of_ascii x)%N -> x <> quote) by (intros x Hx ->; vm_compute in Hx; by apply Hx).
  destruct H as [n H]. remember (String a p) as q eqn:E. destruct H; injection E as -> <-; cbn; repeat (apply Forall_cons_2; [apply Q; lia|]); apply Forall_nil_2.
Qed.

Lemma prefix_some p o t r : prefix p o = Some (t, r) <-> exists t', o = Some (t', r) /\ t = p +:+ t'.
Proof.
  unfold prefix. destruct o as [[s x]|]; cbn; [|split; [done|by intros (? & ? & _)]]. split.
  - intros [= <- <-]. by exists s.
  - intros (t' & [= -> ->] & ->). done.
Qed.
(** Reading four digits after a backslash and u. *)
Definition unit_rest (m : N) (r : string) : option (string * string) :=
  match r with
  | String p (String q (String k1 (String k2 (String k3 (String k4 r4))))) =>
      match unit4 (String k1 (String k2 (String k3 (String k4 "")))) with
      | Some (n, _) =>
          if ((55296 <=? m) && (m <? 56320) && (byte p =? 92) && (byte q =? 117) && (56320 <=? n) && (n <=? 57343))%N
          then prefix (utf8_of (65536 + 1024 * (m - 55296) + (n - 56320))) (unquote r4)
          else prefix (utf8_of m) (unquote r)
      | None => prefix (utf8_of m) (unquote r)
      end
  | _ => prefix (utf8_of m) (unquote r)
  end.
Lemma unquote_u a b c d m r : unit_text m (String backslash (String "u" (String a (String b (String c (String d "")))))) ->
  unquote (String backslash (String "u" (String a (String b (String c (String d r)))))) = unit_rest m r.
Proof.
  intros U. cbn [unquote]. change (byte backslash =? 34)%N with false. change (byte backslash =? 92)%N with true.
  change (byte "u" =? 117)%N with true. cbn iota. rewrite (proj2 (unit4_spec a b c d r m r) (conj eq_refl U)). reflexivity.
Qed.
(** Either a second half follows, or not. *)
Lemma unit_rest_cases m r :
  (exists m' u' r4, high m /\ low m' /\ unit_text m' u' /\ r = u' +:+ r4 /\
    unit_rest m r = prefix (utf8_of (65536 + 1024 * (m - 55296) + (m' - 56320))) (unquote r4)) \/
  ((high m -> forall m' u' x, unit_text m' u' -> low m' -> r <> u' +:+ x) /\ unit_rest m r = prefix (utf8_of m) (unquote r)).
Proof.
  unfold unit_rest.
  destruct r as [|p [|q [|k1 [|k2 [|k3 [|k4 r4]]]]]];
    try (right; split; [|done]; intros _ m' u' x U _ E; destruct (unit_shape m' u' U) as (? & ? & ? & ? & -> & _); rewrite ?append_cons in E; discriminate E).
  destruct (unit4 (String k1 (String k2 (String k3 (String k4 ""))))) as [[n t]|] eqn:E4.
  2:{ right. split; [|done]. intros _ m' u' x U _ E. destruct (unit_shape m' u' U) as (a & b & c & d & -> & _). rewrite !append_cons in E.
      assert (Eq : k1 = a /\ k2 = b /\ k3 = c /\ k4 = d) by (repeat split; congruence). destruct Eq as (-> & -> & -> & ->).
      by rewrite (proj2 (unit4_spec a b c d "" m' "") (conj eq_refl U)) in E4. }
  apply unit4_spec in E4 as [_ V].
  destruct ((55296 <=? m) && (m <? 56320) && (byte p =? 92) && (byte q =? 117) && (56320 <=? n) && (n <=? 57343))%N eqn:T.
  - left. rewrite !andb_true_iff, !N.leb_le, N.ltb_lt, !N.eqb_eq in T. destruct T as (((((T1 & T2) & T3) & T4) & T5) & T6).
    assert (p = backslash) as -> by (rewrite <- (ascii_N_embedding p); unfold byte in T3; by rewrite T3).
    assert (q = "u"%char) as -> by (rewrite <- (ascii_N_embedding q); unfold byte in T4; by rewrite T4).
    exists n, (String backslash (String "u" (String k1 (String k2 (String k3 (String k4 "")))))), r4.
    split; [unfold high; lia|]. split; [unfold low; lia|]. done.
  - right. split; [|done]. intros H m' u' x U L E. destruct (unit_shape m' u' U) as (a & b & c & d & -> & _). rewrite !append_cons in E.
    assert (Eq : p = backslash /\ q = "u"%char /\ k1 = a /\ k2 = b /\ k3 = c /\ k4 = d) by (repeat split; congruence).
    destruct Eq as (-> & -> & -> & -> & -> & ->). rewrite (unit_same _ _ _ V U) in T. unfold high, low in *.
    apply not_true_iff_false in T. apply T. rewrite !andb_true_iff, !N.leb_le, N.ltb_lt. repeat split; try lia; reflexivity.
Qed.

Lemma letter_spec e c : letter e = Some c <-> (e, c) ∈ letters.
Proof.
  split.
  - intros H. destruct e as [[] [] [] [] [] [] [] []]; vm_compute in H; try discriminate H; assert (E := f_equal (from_option id " "%char) H); cbn in E; rewrite <- E;
      apply (bool_decide_unpack _); vm_compute; exact I.
  - unfold letters. rewrite !elem_of_cons, elem_of_nil. intros H. repeat destruct H as [H|H]; try done; injection H as -> ->; reflexivity.
Qed.
Lemma unquote_letter e c r : (e, c) ∈ letters -> unquote (String backslash (String e r)) = prefix (String c "") (unquote r).
Proof.
  intros H. apply letter_spec in H. cbn [unquote]. change (byte backslash =? 34)%N with false. change (byte backslash =? 92)%N with true. cbn iota.
  destruct (byte e =? 117)%N eqn:E; [|by rewrite H]. apply N.eqb_eq in E.
  assert (e = "u"%char) as -> by (rewrite <- (ascii_N_embedding e); unfold byte in E; by rewrite E). vm_compute in H. discriminate H.
Qed.
Lemma unquote_low a r : (32 <= N_of_ascii a < 128)%N -> N_of_ascii a <> 34%N -> N_of_ascii a <> 92%N ->
  unquote (String a r) = prefix (String a "") (unquote r).
Proof.
  intros L N1 N2. cbn [unquote]. unfold byte. destruct (N.eqb_spec (N_of_ascii a) 34); [done|]. destruct (N.eqb_spec (N_of_ascii a) 92); [done|].
  destruct (N.ltb_spec (N_of_ascii a) 32); [lia|]. destruct (N.ltb_spec (N_of_ascii a) 128); [done|lia].
Qed.
Lemma unquote_plain n p r : encodes n p -> (32 <= n)%N -> n <> 34%N -> n <> 92%N -> unquote (p +:+ r) = prefix p (unquote r).
Proof.
  intros H L N1 N2. destruct (sequence_cases p) as [(a & -> & La)|[(a & b & -> & T)|[(a & b & c & -> & T)|(a & b & c & d & -> & T)]]]; [by exists n|..]; rewrite !append_cons.
  - remember (String a "") as q eqn:Eq. destruct H; try discriminate Eq. assert (a0 = a) as -> by congruence. apply unquote_low; [lia|done|done].
  - by apply unquote_two.
  - by apply unquote_three.
  - by apply unquote_four.
Qed.
Lemma unquote_byte a b r : (128 <= N_of_ascii a)%N -> (forall p x, sequence p -> String a (String b r) <> p +:+ x) ->
  unquote (String a (String b r)) = prefix replacement (unquote (String b r)).
Proof.
  intros L N. assert (E : (byte a <? 128)%N = false) by (apply N.ltb_ge; exact L). destruct (high_bytes a E) as (E1 & E2 & E3).
  change replacement with (utf8_of 65533). remember (unquote (String b r)) as R eqn:ER.
  cbn [unquote]. rewrite E1, E2, E3, E.
  destruct (two a b) eqn:T2; [by destruct (N _ r (two_sequence a b T2))|].
  destruct r as [|c r]; [by rewrite ER|]. destruct (three a b c) eqn:T3; [by destruct (N _ r (three_sequence a b c T3))|].
  destruct r as [|d r]; [by rewrite ER|]. destruct (four a b c d) eqn:T4; [by destruct (N _ r (four_sequence a b c d T4))|]. by rewrite ER.
Qed.

Lemma chars_read m c t : chars m c t -> forall r, unquote (c +:+ String quote r) = Some (t, r).
Proof.
  induction 1 as [|n p s t Hp L N1 N2 H IH|e c s t He H IH|k u p s t U Hp H IH|k k' u u' p s t U Hk U' Hk' Hp H IH|k u s t _ U Hk H IH|a s t _ L Hb H IH]; intros r.
  - reflexivity.
  - rewrite append_assoc, (unquote_plain n p _ Hp L N1 N2), IH. reflexivity.
  - rewrite !append_cons, (unquote_letter e c _ He), IH. reflexivity.
  - destruct (unit_shape k u U) as (a & b & x & d & -> & L & _). rewrite append_assoc, !append_cons, (unquote_u a b x d k _ U).
    change ("" +:+ (s +:+ String quote r)) with (s +:+ String quote r).
    destruct (unit_rest_cases k (s +:+ String quote r)) as [(m' & u' & r4 & Hh & _)|[_ ->]].
    + exfalso. unfold high in Hh. destruct Hp; lia.
    + rewrite IH. by rewrite <- (encodes_utf8 k p Hp).
  - destruct (unit_shape k u U) as (a & b & x & d & -> & L & _). rewrite !append_assoc, !append_cons, (unquote_u a b x d k _ U).
    change ("" +:+ (u' +:+ (s +:+ String quote r))) with (u' +:+ (s +:+ String quote r)).
    destruct (unit_rest_cases k (u' +:+ (s +:+ String quote r))) as [(m' & v & r4 & _ & _ & V & E & ->)|[N _]].
    + destruct (unit_shape k' u' U') as (a1 & b1 & x1 & d1 & -> & _). destruct (unit_shape m' v V) as (a2 & b2 & x2 & d2 & -> & _).
      rewrite !append_cons in E. change ("" +:+ r4) with r4 in E. change ("" +:+ (s +:+ String quote r)) with (s +:+ String quote r) in E.
      assert (Eq : a2 = a1 /\ b2 = b1 /\ x2 = x1 /\ d2 = d1 /\ r4 = s +:+ String quote r) by (repeat split; congruence).
      destruct Eq as (-> & -> & -> & -> & ->). rewrite IH, (unit_same _ _ _ V U'), <- (encodes_utf8 _ p Hp). reflexivity.
    + by destruct (N Hk k' u' (s +:+ String quote r) U' Hk').
  - destruct (unit_shape k u U) as (a & b & x & d & -> & L & _). rewrite append_assoc, !append_cons, (unquote_u a b x d k _ U).
    change ("" +:+ (s +:+ String quote r)) with (s +:+ String quote r).
    destruct (unit_rest_cases k (s +:+ String quote r)) as [(m' & u' & r4 & Hh & Hl & V & E & _)|[_ ->]].
    + exfalso. destruct Hk as [[_ N]|Hk]; [|unfold high, low in *; lia]. destruct (unit_shape m' u' V) as (? & ? & ? & ? & _ & _ & F).
      destruct (before_quote u' r4 s r F) as [y ->]; [done|]. by apply (N m' u' y).
    + rewrite IH, utf8_surrogate; [done|]. destruct Hk as [[Hk _]|Hk]; unfold high, low in Hk; lia.
  - rewrite append_cons. assert (E : exists b x, s +:+ String quote r = String b x) by (destruct s as [|b s]; [by exists quote, r|by eexists _, _]).
    destruct E as (b & x & E). rewrite E, unquote_byte; [by rewrite <- E, IH|done|].
    intros p y Hp. rewrite <- E. intros E'. destruct p as [|a' p]; [pose proof (sequence_length _ Hp) as Z; cbn in Z; lia|].
    assert (a' = a) as -> by (rewrite append_cons in E'; congruence). rewrite <- append_cons in E'. symmetry in E'.
    destruct (before_quote (String a p) y (String a s) r (high_no_quote a p L Hp) E') as [z Ez]. by apply (Hb (String a p) z Hp).
Qed.

Lemma read_chars s : forall t r, unquote s = Some (t, r) -> exists c, s = c +:+ String quote r /\ chars True c t.
Proof.
  remember (String.length s) as n eqn:En. revert s En. induction n as [n IH] using lt_wf_ind. intros s -> t r.
  assert (P : forall p u, (0 < String.length p)%nat -> s = p +:+ u -> forall q, prefix q (unquote u) = Some (t, r) ->
    exists c t', u = c +:+ String quote r /\ chars True c t' /\ t = q +:+ t').
  { intros p u Hp Es q H. apply prefix_some in H as (t' & H & ->). destruct (IH (String.length u)) with (s := u) (t := t') (r := r) as (c & E & C); [|done|done|].
    - rewrite Es, length_app. lia.
    - exists c, t'. done. }
  destruct s as [|a s]; [done|].
  destruct (N.ltb_spec (N_of_ascii a) 128) as [L|L].
  - destruct (N.eqb_spec (N_of_ascii a) 34) as [E|N1].
    { assert (a = quote) as -> by (rewrite <- (ascii_N_embedding a); by rewrite E). intros [= <- <-]. exists "". split; [done|constructor]. }
    destruct (N.eqb_spec (N_of_ascii a) 92) as [E|N2].
    { assert (a = backslash) as -> by (rewrite <- (ascii_N_embedding a); by rewrite E). clear E N1 L.
      destruct s as [|e s]; [done|]. destruct (N.eqb_spec (N_of_ascii e) 117) as [E|Ne].
      - assert (e = "u"%char) as -> by (rewrite <- (ascii_N_embedding e); by rewrite E). clear E.
        destruct s as [|h1 [|h2 [|h3 [|h4 s]]]]; try done.
        destruct (unit4 (String h1 (String h2 (String h3 (String h4 s))))) as [[m x]|] eqn:U.
        2:{ cbn [unquote]. change (byte backslash =? 34)%N with false. change (byte backslash =? 92)%N with true.
            change (byte "u" =? 117)%N with true. cbn iota. by rewrite U. }
        apply unit4_spec in U as [_ U]. rewrite (unquote_u h1 h2 h3 h4 m s U). destruct (unit_shape _ _ U) as (_ & _ & _ & _ & _ & Lm & _).
        set (u := String backslash _) in U. assert (Es : String backslash (String "u" (String h1 (String h2 (String h3 (String h4 s))))) = u +:+ s) by reflexivity.
        rewrite Es. rewrite Es in P, IH. clear Es.
        destruct (unit_rest_cases m s) as [(m' & u' & r4 & Hm & Hm' & U' & E & ->)|[N ->]]; intros H.
        + destruct (P (u +:+ u') r4) with (q := utf8_of (65536 + 1024 * (m - 55296) + (m' - 56320))) as (c & t' & -> & C & ->); [rewrite length_app; cbn; lia| |done|].
          { by rewrite append_assoc, E. }
          exists (u +:+ u' +:+ c). split; [by rewrite E, !append_assoc|]. apply (chars_pair True m m'); try done. unfold high, low in *. apply utf8_encodes; lia.
        + destruct (P u s) with (q := utf8_of m) as (c & t' & -> & C & ->); [cbn; lia|done|done|].
          exists (u +:+ c). split; [by rewrite append_assoc|].
          destruct (decide (55296 <= m <= 57343)%N) as [S|S].
          * rewrite (utf8_surrogate m S). apply (chars_half True m); [done|done| |done].
            destruct (decide (m < 56320)%N) as [Hm|Hm]; [left|right; unfold low; lia]. assert (Hh : high m) by (unfold high; lia). split; [done|].
            intros m' u' z U' L' ->. apply (N Hh m' u' (z +:+ String quote r) U' L'). by rewrite append_assoc.
          * apply (chars_unit True m); [done| |done]. apply utf8_encodes; lia.
      - cbn [unquote]. change (byte backslash =? 34)%N with false. change (byte backslash =? 92)%N with true. cbn iota. apply N.eqb_neq in Ne. unfold byte. rewrite Ne.
        destruct (letter e) as [c|] eqn:El; [|done]. apply letter_spec in El. intros H.
        destruct (P (String backslash (String e "")) s) with (q := String c "") as (x & t' & -> & C & ->); [cbn; lia|done|done|].
        exists (String backslash (String e x)). split; [done|]. change (String c "" +:+ t') with (String c t'). by constructor. }
    destruct (N.ltb_spec (N_of_ascii a) 32) as [L2|L2].
    { cbn [unquote]. unfold byte. apply N.eqb_neq in N1, N2. rewrite N1, N2. apply N.ltb_lt in L2. by rewrite L2. }
    rewrite unquote_low by done. intros H. destruct (P (String a "") s) with (q := String a "") as (x & t' & -> & C & ->); [cbn; lia|done|done|].
    exists (String a "" +:+ x). split; [done|]. apply (chars_plain True (N_of_ascii a)); [by constructor|done|done|done|done].
  - destruct s as [|b s].
    { assert (E : (byte a <? 128)%N = false) by (apply N.ltb_ge; exact L). destruct (high_bytes a E) as (E1 & E2 & E3). cbn [unquote]. by rewrite E1, E2, E3, E. }
    assert (B : (exists p x, sequence p /\ String a (String b s) = p +:+ x) \/ forall p x, sequence p -> String a (String b s) <> p +:+ x).
    { destruct (two a b) eqn:T2; [left; exists (String a (String b "")), s; split; [by apply two_sequence|done]|].
      destruct s as [|c s].
      { right. intros p x Hp E. destruct (sequence_cases p Hp) as [(y & -> & Ly)|[(y & z & -> & T)|[(y & z & v & -> & T)|(y & z & v & w & -> & T)]]]; rewrite !append_cons in E.
        - unfold byte in Ly. assert (a = y) as -> by congruence. lia.
        - assert (a = y /\ b = z) as [-> ->] by (split; congruence). congruence.
        - discriminate E.
        - discriminate E. }
      destruct (three a b c) eqn:T3; [left; exists (String a (String b (String c ""))), s; split; [by apply three_sequence|done]|].
      destruct s as [|d s].
      { right. intros p x Hp E. destruct (sequence_cases p Hp) as [(y & -> & Ly)|[(y & z & -> & T)|[(y & z & v & -> & T)|(y & z & v & w & -> & T)]]]; rewrite !append_cons in E.
        - unfold byte in Ly. assert (a = y) as -> by congruence. lia.
        - assert (a = y /\ b = z) as [-> ->] by (split; congruence). congruence.
        - assert (Q : a = y /\ b = z /\ c = v) by (repeat split; congruence). destruct Q as (-> & -> & ->). congruence.
        - discriminate E. }
      destruct (four a b c d) eqn:T4; [left; exists (String a (String b (String c (String d "")))), s; split; [by apply four_sequence|done]|].
      right. intros p x Hp E. destruct (sequence_cases p Hp) as [(y & -> & Ly)|[(y & z & -> & T)|[(y & z & v & -> & T)|(y & z & v & w & -> & T)]]]; rewrite !append_cons in E.
      - unfold byte in Ly. assert (a = y) as -> by congruence. lia.
      - assert (a = y /\ b = z) as [-> ->] by (split; congruence). congruence.
      - assert (Q : a = y /\ b = z /\ c = v) by (repeat split; congruence). destruct Q as (-> & -> & ->). congruence.
      - assert (Q : a = y /\ b = z /\ c = v /\ d = w) by (repeat split; congruence). destruct Q as (-> & -> & -> & ->). congruence. }
    destruct B as [(p & x & [k Hp] & E)|B].
    + assert (Lk : (128 <= k)%N).
      { remember p as p' eqn:Ep. destruct Hp as [y Hy| | |]; try lia. rewrite append_cons in E. assert (a = y) as -> by congruence. done. }
      rewrite E. rewrite E in P. rewrite (unquote_plain k p x Hp) by lia. intros H.
      destruct (P p x) with (q := p) as (c & t' & -> & C & ->); [apply sequence_length; by exists k|done|done|].
      exists (p +:+ c). split; [by rewrite append_assoc|]. apply (chars_plain True k); [done|lia|lia|lia|done].
    + rewrite (unquote_byte a b s L B). intros H. destruct (P (String a "") (String b s)) with (q := replacement) as (c & t' & E & C & ->); [cbn; lia|done|done|].
      exists (String a c). split; [by rewrite append_cons, E|]. apply (chars_byte True); [done|done| |done].
      intros p x Hp Ep. apply (B p (x +:+ String quote r) Hp). by rewrite E, <- append_assoc, <- Ep.
Qed.
