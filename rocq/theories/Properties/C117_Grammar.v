(** C117: messages of other producers: every text of JSON (RFC 8259) is read as the value that it denotes.
    Full statement: the texts that are read are exactly those of RFC 8259 in UTF-8. That is false: bytes that are not UTF-8 and halves of surrogate pairs are
    read as U+FFFD (C117_only_refuted), and what is nested more than 10000 deep is not read (C117_all_refuted). C117_exact says that this is all. *)
From stdpp Require Import list strings.
From Coq Require Import ZArith NArith Lia Ascii String.
From Verif.Model Require Import Decoding JsonText.
From Verif.Proof Require Import DecodingProof.
From Verif.Spec Require Import JsonTextSpec JsonGrammar.
From Verif.Proof Require Import JsonTextProof GrammarProof GrammarValueProof GrammarWrittenProof.
From Verif.Properties Require Import C106_Text.
Local Open Scope string_scope.

(** The texts of RFC 8259; those with bytes and halves of pairs that stand for no character. *)
Definition standard : string -> json -> Prop := json_text False.
Definition lenient : string -> json -> Prop := json_text True.

(** Exactly what is read, and as what. *)
Theorem C117_exact : forall s j, parse s = Some j <-> lenient s j /\ nested limit j.
Proof. intros s j. rewrite limit_max. apply parse_text. Qed.
Print Assumptions C117_exact.

(** Every text of the standard is read. *)
Lemma standard_lenient s j : standard s j -> lenient s j.
Proof. intros (w & t & w' & -> & W & V & W'). exists w, t, w'. split; [done|]. split; [done|]. split; [|done]. by eapply (value_weaken False). Qed.
Theorem C117_standard : forall s j, standard s j -> nested limit j -> parse s = Some j.
Proof. intros s j H N. apply C117_exact. split; [by apply standard_lenient|done]. Qed.
Print Assumptions C117_standard.

(** A text denotes one value at most. *)
Theorem C117_one : forall s j j', lenient s j -> lenient s j' -> j = j'.
Proof. intros s j j'. apply text_unique. Qed.
Print Assumptions C117_one.

(** Texts of the standard are UTF-8, and so are the strings in them. *)
Theorem C117_utf8 : forall s j, standard s j -> utf8 s /\ sound utf8 j.
Proof. exact text_utf8. Qed.
Print Assumptions C117_utf8.

(** What is written is a text of the standard, for other readers than this one. *)
Theorem C117_written : forall j, sound any_string j -> exists j', repaired j j' /\ standard (print j) j'.
Proof.
  intros j H. destruct (written_text j H) as (j' & R & V). exists j'. split; [done|]. exists "", (print j), "". split; [by rewrite append_nil|].
  split; [exact white_nil|]. split; [done|exact white_nil].
Qed.
Print Assumptions C117_written.
Lemma sound_any j : sound utf8 j -> sound any_string j.
Proof.
  induction j as [|b|x|s|l IH|kvs IH] using json_induction; intros H; inversion H; subst; try (by constructor).
  - constructor. rewrite Forall_forall in *. auto.
  - constructor. rewrite Forall_forall in *. intros x Hx. split; [done|]. apply IH; [done|]. match goal with F : forall y, y ∈ kvs -> _ |- _ => by destruct (F x Hx) end.
Qed.
Theorem C117_written_same : forall j, sound utf8 j <-> sound any_string j /\ standard (print j) j.
Proof.
  intros j. split.
  - intros H. pose proof (sound_any j H) as A. split; [done|]. destruct (C117_written j A) as (j' & R & T). by rewrite (repaired_utf8 j j' R H) in T.
  - intros [_ T]. by apply C117_utf8 in T as [_ T].
Qed.
Print Assumptions C117_written_same.

(** Which producer wrote a value, with what white space and what escapes, makes no difference. *)
Theorem C117_producer : forall s j, standard s j -> parse s = parse (print j).
Proof.
  intros s j H. destruct (C117_utf8 s j H) as [_ U]. destruct (proj1 (C117_written_same j) U) as [_ P].
  assert (E : forall t k, standard t j -> parse t = Some k -> k = j /\ nested limit j).
  { intros t k Ht Hk. apply C117_exact in Hk as [Hk N]. assert (k = j) as -> by (eapply C117_one; [exact Hk|by apply standard_lenient]). done. }
  destruct (parse s) as [k|] eqn:E1.
  - destruct (E s k H E1) as [-> N]. symmetry. by apply C117_standard.
  - destruct (parse (print j)) as [k|] eqn:E2; [|done]. destruct (E (print j) k P E2) as [-> N]. by rewrite (C117_standard s j H N) in E1.
Qed.
Print Assumptions C117_producer.
Theorem C117_white : forall w s w', white w -> white w' -> parse (w +:+ s +:+ w') = parse s.
Proof.
  intros w s w' W W'.
  assert (I : forall j, parse (w +:+ s +:+ w') = Some j <-> parse s = Some j) by (intros j; rewrite !C117_exact; unfold lenient; by rewrite text_strip).
  destruct (parse s) as [j|]; [by apply I|]. destruct (parse (w +:+ s +:+ w')) as [j|]; [|done]. symmetry. by apply I.
Qed.
Print Assumptions C117_white.

(** ** Examples *)
(** As another producer may write it: white space, escapes of all kinds, a pair of surrogates, capital letters in numbers and escapes. *)
Definition line_feed : string := String "010" "".
Definition foreign : string := " [ ""\u00E9\/\ud83D\uDe00x"" , -0,2E3 ]" +:+ line_feed.
Definition meant : json := JArr [JStr "é/😀x"; JNum (Int 0); JNum (Frac "2E3")].
Lemma unit_ok m a b c d : unit4 (String a (String b (String c (String d "")))) = Some (m, "") ->
  unit_text m (String backslash (String "u" (String a (String b (String c (String d "")))))).
Proof. intros H. by apply unit4_spec in H as [_ H]. Qed.
Lemma blank : white " ".
Proof. apply Forall_cons_2; [apply (bool_decide_unpack _); vm_compute; exact I|apply Forall_nil_2]. Qed.
Lemma fed : white line_feed.
Proof. apply Forall_cons_2; [apply (bool_decide_unpack _); vm_compute; exact I|apply Forall_nil_2]. Qed.
Lemma digits_ok d : d <> "" -> forallb digit (list_ascii_of_string d) = true -> digits d.
Proof.
  intros N F. apply digit_spec; [done|]. apply Forall_forall. intros a Ha. rewrite forallb_forall in F. apply F. by apply elem_of_list_In.
Qed.
Lemma foreign_standard : standard foreign meant.
Proof.
  exists " ", ("[" +:+ (" " +:+ """\u00E9\/\ud83D\uDe00x""" +:+ " " +:+ "," +:+ (" " +:+ "-0" +:+ "" +:+ "," +:+ ("" +:+ "2E3" +:+ " "))) +:+ "]"), line_feed.
  split; [vm_compute; reflexivity|]. split; [exact blank|]. split; [|exact fed]. apply text_array.
  apply more_elements; [exact blank| |exact blank|apply more_elements; [exact blank| |exact white_nil|apply one_element; [exact white_nil| |exact blank]]].
  - constructor. exists "\u00E9\/\ud83D\uDe00x". split; [reflexivity|].
    apply (chars_unit False 233 "\u00E9" "é"); [apply unit_ok; reflexivity|apply (encodes2 _ _ 3 41); first [reflexivity|lia]|].
    apply (chars_letter False "/" "/"); [apply (bool_decide_unpack _); vm_compute; exact I|].
    apply (chars_pair False 55357 56832 "\ud83D" "\uDe00" "😀" "x" "x");
      [apply unit_ok; reflexivity|unfold high; lia|apply unit_ok; reflexivity|unfold low; lia|apply (encodes4 _ _ _ _ 0 31 24 0); first [reflexivity|lia]|].
    apply (chars_plain False 120 "x" "" ""); [apply (encodes1 "x"); vm_compute; reflexivity|lia|lia|lia|constructor].
  - constructor. apply (number_negative "0"); [|by left]. apply digits_ok; [done|reflexivity].
  - constructor. constructor. exists "", "2", "", "E3". split; [done|]. split; [by left|]. split; [by apply digits_ok|]. split; [right; intros r; discriminate|].
    split; [by left|]. split; [|intros [_ ?]; done]. right. exists "E", "", "3". split; [done|]. split; [by right|]. split; [by left|by apply digits_ok].
Qed.
Lemma meant_nested : nested limit meant.
Proof. apply nested_depth. rewrite limit_max. apply Nat.leb_le. vm_compute. reflexivity. Qed.
Example C117_standard_ex : standard foreign meant /\ nested limit meant /\ parse foreign = Some meant.
Proof. split; [exact foreign_standard|]. split; [exact meant_nested|]. vm_compute. reflexivity. Qed.
Example C117_producer_ex : standard foreign meant /\ print meant = "[""é/😀x"",0,2E3]" /\ parse foreign = parse (print meant).
Proof. split; [exact foreign_standard|]. split; [vm_compute; reflexivity|]. apply C117_producer, foreign_standard. Qed.
Example C117_utf8_ex : utf8 foreign /\ sound utf8 meant.
Proof. apply C117_utf8, foreign_standard. Qed.
Example C117_one_ex : lenient foreign meant.
Proof. apply standard_lenient, foreign_standard. Qed.
Example C117_written_ex : sound any_string all_kinds /\ standard (print all_kinds) all_kinds.
Proof. apply C117_written_same, all_kinds_utf8. Qed.
Example C117_white_ex : white " " /\ white line_feed /\ parse (" " +:+ "{}" +:+ line_feed) = Some (JObj []).
Proof. split; [exact blank|]. split; [exact fed|]. vm_compute. reflexivity. Qed.
(** None of these is a text of JSON, and none is read. *)
Example C117_exact_ex : Forall (fun s => parse s = None)
  [""; "01"; "-"; "1."; ".5"; "1e"; "+1"; "nul"; "nulll"; "[1,]"; "[,1]"; "{""a"":1,}"; "{a:1}"; "{""a"" 1}"; """a"; "'a'"; "1 2"; """\x"""; """\u12"""; """" +:+ line_feed +:+ """"; "[1"; "]"].
Proof. repeat (apply Forall_cons_2; [vm_compute; reflexivity|]). apply Forall_nil_2. Qed.

(** ** What is read besides: a byte of another encoding, and the first half of a pair. *)
Definition other_encoding : string := String quote (String "233" (String quote "")).
Example C117_half_ex : parse """\ud83dx""" = Some (JStr (replacement +:+ "x")) /\ parse other_encoding = Some (JStr replacement).
Proof. split; vm_compute; reflexivity. Qed.
Theorem C117_only_refuted : ~ (forall s j, parse s = Some j -> exists j', standard s j').
Proof.
  intros H. destruct (H other_encoding (JStr replacement)) as [j' T]; [vm_compute; reflexivity|]. apply C117_utf8 in T as [U _].
  unfold other_encoding in U. inversion U as [|p t Hp Ht E].
  assert (Q : sequence (String quote "")) by (exists 34%N; apply (encodes1 quote); vm_compute; reflexivity).
  destruct (sequence_prefix p (String quote "") t (String "233" (String quote "")) Hp Q E) as [-> ->].
  inversion Ht as [|q t Hq _ E']. clear -Hq E'.
  destruct (sequence_cases q Hq) as [(a & -> & L)|[(a & b & -> & L)|[(a & b & c & -> & L)|(a & b & c & d & -> & L)]]]; rewrite !append_cons in E'.
  - assert (a = "233"%char) as -> by congruence. vm_compute in L. discriminate L.
  - assert (a = "233"%char /\ b = quote) as [-> ->] by (split; congruence). vm_compute in L. discriminate L.
  - discriminate E'.
  - discriminate E'.
Qed.
Print Assumptions C117_only_refuted.
(** What is nested too deep is not read. *)
Theorem C117_all_refuted : ~ (forall s j, standard s j -> parse s = Some j).
Proof.
  intros H. destruct (proj1 (C117_written_same (tower (S limit))) (tower_sound utf8 (S limit))) as [_ T]. destruct C106_deep_ex as (_ & E & _).
  pose proof (H _ _ T) as E'. rewrite E in E'. discriminate E'.
Qed.
Print Assumptions C117_all_refuted.
