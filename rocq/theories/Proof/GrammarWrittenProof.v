(** Texts of the standard are UTF-8; what is written is a text of the standard; a text denotes one value. *)
From stdpp Require Import list strings.
From Coq Require Import ZArith NArith Ascii String Lia.
From Verif.Model Require Import Decoding JsonText.
From Verif.Proof Require Import DecodingProof.
From Verif.Spec Require Import JsonTextSpec JsonGrammar.
From Verif.Proof Require Import JsonTextProof GrammarProof GrammarValueProof.
Local Open Scope string_scope.

(** ** UTF-8 *)
Lemma utf8_app s t : utf8 s -> utf8 t -> utf8 (s +:+ t).
Proof. induction 1 as [|p s Hp H IH]; intros T; [done|]. rewrite append_assoc. constructor; auto. Qed.
Lemma low_utf8 s : Forall (fun a => (N_of_ascii a < 128)%N) (list_ascii_of_string s) -> utf8 s.
Proof.
  induction s as [|a s IH]; intros F; [constructor|]. cbn in F. apply Forall_cons_1 in F as [Fa F]. change (String a s) with (String a "" +:+ s).
  constructor; [|by apply IH]. exists (N_of_ascii a). by constructor.
Qed.
Lemma white_utf8 w : white w -> utf8 w.
Proof.
  intros W. apply low_utf8. eapply Forall_impl; [exact W|]. intros a Ha. cbn beta in Ha. rewrite !elem_of_cons, elem_of_nil in Ha. lia.
Qed.
Lemma number_utf8 s n : number_text s n -> utf8 s.
Proof.
  intros H. destruct (number_shape s n H) as [F _]. apply low_utf8. eapply Forall_impl; [exact F|]. intros a Ha. cbn beta in Ha.
  destruct a as [[] [] [] [] [] [] [] []]; vm_compute in Ha; try discriminate Ha; vm_compute; reflexivity.
Qed.
Lemma unit_utf8 m u : unit_text m u -> utf8 u.
Proof.
  intros [a b c d w x y z A B C D]. assert (H : forall a n, hex a n -> (N_of_ascii a < 128)%N) by (intros ? ? []; lia).
  apply low_utf8. cbn. repeat (apply Forall_cons_2; [first [reflexivity|by eapply H]|]). apply Forall_nil_2.
Qed.
Lemma chars_utf8 c t : chars False c t -> utf8 c /\ utf8 t.
Proof.
  induction 1 as [|n p s t Hp L N1 N2 H [I1 I2]|e c s t He H [I1 I2]|k u p s t U Hp H [I1 I2]|k k' u u' p s t U Hk U' Hk' Hp H [I1 I2]|k u s t []|a s t []].
  - split; constructor.
  - split; (constructor; [by exists n|done]).
  - assert (Le : (N_of_ascii e < 128)%N /\ (N_of_ascii c < 128)%N).
    { unfold letters in He. rewrite !elem_of_cons, elem_of_nil in He. repeat destruct He as [He|He]; try done; injection He as -> ->; split; vm_compute; reflexivity. }
    split.
    + change (String backslash (String e s)) with (String backslash (String e "") +:+ s). apply utf8_app; [|done]. apply low_utf8.
      apply Forall_cons_2; [vm_compute; reflexivity|]. apply Forall_cons_2; [apply Le|apply Forall_nil_2].
    + change (String c t) with (String c "" +:+ t). apply utf8_app; [|done]. apply low_utf8. apply Forall_cons_2; [apply Le|apply Forall_nil_2].
  - split; [apply utf8_app; [by eapply unit_utf8|done]|constructor; [by exists k|done]].
  - split; [apply utf8_app; [by eapply unit_utf8|apply utf8_app; [by eapply unit_utf8|done]]|constructor; [by eexists|done]].
Qed.
Lemma string_utf8 s t : string_text False s t -> utf8 s /\ utf8 t.
Proof.
  intros (c & -> & C). apply chars_utf8 in C as [U V]. split; [|done].
  change (String quote (c +:+ String quote "")) with (String quote "" +:+ (c +:+ String quote "")).
  assert (Q : utf8 (String quote "")) by (apply low_utf8, Forall_cons_2; [vm_compute; reflexivity|apply Forall_nil_2]).
  apply utf8_app; [done|by apply utf8_app].
Qed.
Lemma value_utf8 : forall s j, value_text False s j -> utf8 s /\ sound utf8 j.
Proof.
  assert (L : forall x, Forall (fun a => (N_of_ascii a < 128)%N) (list_ascii_of_string x) -> utf8 x) by exact low_utf8.
  assert (L1 : utf8 "[" /\ utf8 "]" /\ utf8 "{" /\ utf8 "}" /\ utf8 "," /\ utf8 ":" /\ utf8 "null" /\ utf8 "true" /\ utf8 "false").
  { repeat split; apply L; cbn; repeat (apply Forall_cons_2; [vm_compute; reflexivity|]); apply Forall_nil_2. }
  destruct L1 as (B1 & B2 & B3 & B4 & B5 & B6 & B7 & B8 & B9).
  apply (value_text_mut False (fun s j _ => utf8 s /\ sound utf8 j) (fun s l _ => utf8 s /\ Forall (sound utf8) l)
    (fun s l _ => utf8 s /\ Forall (fun kv => utf8 kv.1 /\ sound utf8 kv.2) l)).
  - split; [done|constructor].
  - split; [done|constructor].
  - split; [done|constructor].
  - intros s n H. split; [by eapply number_utf8|]. destruct n as [z|x]; [constructor|]. inversion H; subst. by constructor.
  - intros s t H. apply string_utf8 in H as [U V]. split; [done|by constructor].
  - intros w W. split; [|constructor; apply Forall_nil_2]. apply utf8_app; [done|]. apply utf8_app; [by apply white_utf8|done].
  - intros s l H [U V]. split; [|by constructor]. apply utf8_app; [done|]. by apply utf8_app.
  - intros w W. split; [|constructor; apply Forall_nil_2]. apply utf8_app; [done|]. apply utf8_app; [by apply white_utf8|done].
  - intros s l H [U V]. split; [|by constructor]. apply utf8_app; [done|]. by apply utf8_app.
  - intros w s w' j W V [U S] W'. apply white_utf8 in W, W'. split; [|by apply Forall_cons_2; [|apply Forall_nil_2]]. apply utf8_app; [done|]. by apply utf8_app.
  - intros w s w' j s' l W V [U S] W' H [U' S']. apply white_utf8 in W, W'. split; [|by apply Forall_cons_2].
    apply utf8_app; [done|]. apply utf8_app; [done|]. apply utf8_app; [done|]. by apply utf8_app.
  - intros w k key w1 w2 s w3 j W K W1 W2 V [U S] W3. apply white_utf8 in W, W1, W2, W3. apply string_utf8 in K as [K1 K2].
    split; [|by apply Forall_cons_2; [|apply Forall_nil_2]].
    apply utf8_app; [done|]. apply utf8_app; [done|]. apply utf8_app; [done|]. apply utf8_app; [done|]. apply utf8_app; [done|]. by apply utf8_app.
  - intros w k key w1 w2 s w3 j s' l W K W1 W2 V [U S] W3 H [U' S']. apply white_utf8 in W, W1, W2, W3. apply string_utf8 in K as [K1 K2].
    split; [|by apply Forall_cons_2].
    apply utf8_app; [done|]. apply utf8_app; [done|]. apply utf8_app; [done|]. apply utf8_app; [done|]. apply utf8_app; [done|]. apply utf8_app; [done|].
    apply utf8_app; [done|]. by apply utf8_app.
Qed.
Lemma text_utf8 s j : json_text False s j -> utf8 s /\ sound utf8 j.
Proof.
  intros (w & t & w' & -> & W & V & W'). apply value_utf8 in V as [U S]. apply white_utf8 in W, W'. split; [|done]. apply utf8_app; [done|by apply utf8_app].
Qed.

(** ** The grammar is weaker when halves and bytes are mended *)
Lemma chars_weaken (m n : Prop) c t : (m -> n) -> chars m c t -> chars n c t.
Proof.
  intros I. induction 1; [constructor|by eapply chars_plain|by constructor|by eapply chars_unit|by eapply (chars_pair n m0 m')|eapply (chars_half n m0); eauto|apply chars_byte; eauto].
Qed.
Lemma value_weaken (m n : Prop) : (m -> n) -> forall s j, value_text m s j -> value_text n s j.
Proof.
  intros I. assert (S : forall s t, string_text m s t -> string_text n s t) by (intros s t (c & -> & C); exists c; split; [done|by eapply chars_weaken]).
  apply (value_text_mut m (fun s j _ => value_text n s j) (fun s l _ => elements n s l) (fun s l _ => members n s l)); intros; constructor; auto.
Qed.

(** ** One value *)
Lemma text_unique m s j j' : json_text m s j -> json_text m s j' -> j = j'.
Proof.
  intros (w & t & w' & -> & W & V & W') (x & u & x' & E & X & V' & X').
  set (n := Nat.max (depth j) (depth j')).
  assert (N : nested n j) by (apply nested_depth; lia). assert (N' : nested n j') by (apply nested_depth; lia).
  assert (S : forall w, white w -> stop w) by (intros y Y; rewrite <- (append_nil y); by apply white_stop).
  pose proof (text_value m t j V n w w' N W (S w' W')) as P. rewrite E in P. rewrite (text_value m u j' V' n x x' N' X (S x' X')) in P. congruence.
Qed.

(** ** What is written *)
Lemma low_chars a s t : (N_of_ascii a < 128)%N -> chars False s t -> chars False (escape a +:+ s) (String a t).
Proof.
  intros L H. assert (E1 : encodes (N_of_ascii a) (String a "")) by (by constructor). change (String a t) with (String a "" +:+ t).
  assert (U : forall m a b c d, unit4 (String a (String b (String c (String d "")))) = Some (m, "") ->
    unit_text m (String backslash (String "u" (String a (String b (String c (String d ""))))))) by (intros ? ? ? ? ? X; by apply unit4_spec in X as [_ X]).
  destruct a as [[] [] [] [] [] [] [] []]; vm_compute in L; try discriminate L; clear L;
  match goal with |- chars False (escape ?a +:+ s) _ => let e := eval vm_compute in (escape a) in change (escape a) with e end;
  first [ apply (chars_letter False _ _ s t); [apply (bool_decide_unpack _); vm_compute; exact I|exact H]
        | eapply (chars_plain False); [exact E1|vm_compute; discriminate|vm_compute; discriminate|vm_compute; discriminate|exact H]
        | eapply (chars_unit False); [apply U; reflexivity|exact E1|exact H] ].
Qed.
Lemma three_chars a b c s t : three a b c = true -> chars False s t ->
  chars False ((if (byte a =? 226) && (byte b =? 128) && (byte c / 2 =? 84) then "\u202" +:+ String (hexchar (byte c mod 16)) ""
   else String a (String b (String c "")))%N +:+ s) (String a (String b (String c "")) +:+ t).
Proof.
  intros T H. destruct (three_sequence a b c T) as [n En].
  assert (Ln : (128 <= n)%N).
  { remember (String a (String b (String c ""))) as p eqn:Ep. destruct En as [x Hx| | |]; try lia. discriminate Ep. }
  destruct ((byte a =? 226) && (byte b =? 128) && (byte c / 2 =? 84))%N eqn:E.
  - rewrite !andb_true_iff, !N.eqb_eq in E. destruct E as [[Ea Eb] Ec]. unfold byte in Ea, Eb, Ec.
    assert (a = char 226) as -> by (symmetry; by apply char_inj). assert (b = char 128) as -> by (symmetry; by apply char_inj).
    assert (Ec' : c = char 168 \/ c = char 169).
    { pose proof (N.div_mod (N_of_ascii c) 2 ltac:(lia)) as D. pose proof (N.mod_bound_pos (N_of_ascii c) 2 ltac:(lia) ltac:(lia)) as M. rewrite Ec in D.
      assert (N_of_ascii c = 168 \/ N_of_ascii c = 169)%N as [X|X] by lia; [left|right]; symmetry; by apply char_inj. }
    destruct Ec' as [-> | ->].
    + eapply (chars_unit False 8232); [|apply (encodes3 _ _ _ 2 0 40); first [reflexivity|lia]|exact H].
      apply (proj2 (proj1 (unit4_spec "2" "0" "2" "8" "" 8232 "") eq_refl)).
    + eapply (chars_unit False 8233); [|apply (encodes3 _ _ _ 2 0 41); first [reflexivity|lia]|exact H].
      apply (proj2 (proj1 (unit4_spec "2" "0" "2" "9" "" 8233 "") eq_refl)).
  - by apply (chars_plain False n); [| lia| lia| lia|].
Qed.
Lemma bad_chars s t : chars False s t -> chars False ("\ufffd" +:+ s) (replacement +:+ t).
Proof.
  intros H. eapply (chars_unit False 65533); [|apply (encodes3 _ _ _ 15 63 61); first [reflexivity|lia]|exact H].
  apply (proj2 (proj1 (unit4_spec "f" "f" "f" "d" "" 65533 "") eq_refl)).
Qed.
Lemma sequence_plain p s t : sequence p -> (exists a b q, p = String a (String b q)) -> chars False s t -> chars False (p +:+ s) (p +:+ t).
Proof.
  intros [n En] (a & b & q & E) H.
  assert (Ln : (128 <= n)%N) by (destruct En as [x Hx| | |]; try lia; discriminate E).
  by apply (chars_plain False n); [| lia| lia| lia|].
Qed.
Lemma escaped_chars s : exists s', repairs s s' /\ chars False (escaped s) s'.
Proof.
  remember (String.length s) as n eqn:En. revert s En. induction n as [n IH] using lt_wf_ind. intros s ->.
  destruct s as [|a r1]; [exists ""; split; constructor|].
  assert (IH' : forall p r, (0 < String.length p)%nat -> String a r1 = p +:+ r -> exists s', repairs r s' /\ chars False (escaped r) s').
  { intros p r Lp E. apply (IH (String.length r)); [|done]. rewrite E, length_app. lia. }
  destruct (byte a <? 128)%N eqn:Ea.
  { apply N.ltb_lt in Ea. destruct (IH' (String a "") r1) as (s' & R & C); [cbn; lia|done|]. exists (String a "" +:+ s').
    split; [apply (repairs_sequence (String a "") r1); [exists (N_of_ascii a); by constructor|done]|]. rewrite escaped_low by done. by apply low_chars. }
  assert (B : (forall p u, sequence p -> String a r1 <> p +:+ u) -> escaped (String a r1) = "\ufffd" +:+ escaped r1 -> exists s', repairs (String a r1) s' /\ chars False (escaped (String a r1)) s').
  { intros N E. destruct (IH' (String a "") r1) as (s' & R & C); [cbn; lia|done|]. exists (replacement +:+ s'). split; [by constructor|]. rewrite E. by apply bad_chars. }
  destruct (heads (String a r1)) as [|[(p & r & w & E & Hp & E2 & Hw)|(a' & r & E & Hb & E2)]]; [done| |].
  - destruct (IH' p r (sequence_length p Hp) E) as (s' & R & C). exists (p +:+ s'). split; [rewrite E; by constructor|].
    destruct (sequence_cases p Hp) as [(x & -> & L)|[(x & y & -> & T)|[(x & y & z & -> & T)|(x & y & z & v & -> & T)]]].
    + rewrite append_cons in E. assert (x = a) as -> by congruence. apply N.ltb_lt in L. congruence.
    + rewrite E, !append_cons. change ("" +:+ r) with r. rewrite (escaped_two x y r T). apply (sequence_plain (String x (String y "")) (escaped r) s' Hp); [by eexists _, _, _|done].
    + rewrite E, !append_cons. change ("" +:+ r) with r. rewrite (escaped_three x y z r T). by apply three_chars.
    + rewrite E, !append_cons. change ("" +:+ r) with r. rewrite (escaped_four x y z v r T).
      apply (sequence_plain (String x (String y (String z (String v "")))) (escaped r) s' Hp); [by eexists _, _, _|done].
  - assert (a' = a /\ r = r1) as [-> ->] by (split; congruence). by apply B.
Qed.
Lemma quoted_text s : exists s', repairs s s' /\ string_text False (quoted s) s'.
Proof. destruct (escaped_chars s) as (s' & R & C). exists s'. split; [done|]. by exists (escaped s). Qed.
Lemma white_nil : white "".
Proof. apply Forall_nil_2. Qed.
Lemma written_text j : sound (fun _ => True) j -> exists j', repaired j j' /\ value_text False (print j) j'.
Proof.
  induction j as [|b|x|s|l IH|kvs IH] using json_induction; intros H.
  - exists JNull. split; constructor.
  - exists (JBool b). split; [constructor|]. destruct b; constructor.
  - exists (JNum x). split; [constructor|]. cbn [print]. constructor. destruct x as [z|s]; [apply integer_text; by right|]. inversion H; subst. by constructor.
  - destruct (quoted_text s) as (s' & R & C). exists (JStr s'). split; by constructor.
  - inversion H as [| | | | |? F|]; subst. destruct l as [|x l].
    { exists (JArr []). split; [constructor; constructor|]. apply (text_empty_array False ""). exact white_nil. }
    assert (K : exists l', Forall2 repaired (x :: l) l' /\ elements False (String.concat "," (map print (x :: l))) l').
    { clear H. revert x IH F. induction l as [|y l IHl]; intros x IH F; apply Forall_cons_1 in IH as [Ix IH]; apply Forall_cons_1 in F as [Fx F]; destruct (Ix Fx) as (x' & R & V).
      - exists [x']. split; [by constructor; [|constructor]|]. change (String.concat "," (map print [x])) with (print x).
        rewrite <- (append_nil (print x)). apply (one_element False "" (print x) ""); [exact white_nil|done|exact white_nil].
      - destruct (IHl y IH F) as (l' & Rl & El). exists (x' :: l'). split; [by constructor|].
        apply (more_elements False "" (print x) "" x' _ l'); [exact white_nil|done|exact white_nil|exact El]. }
    destruct K as (l' & R & E). exists (JArr l'). split; [by constructor|]. cbn [print]. by apply text_array.
  - inversion H as [| | | | | |? F]; subst. destruct kvs as [|x l].
    { exists (JObj []). split; [constructor; constructor|]. apply (text_empty_object False ""). exact white_nil. }
    assert (K : exists l', Forall2 (fun kv kv' => repairs kv.1 kv'.1 /\ repaired kv.2 kv'.2) (x :: l) l' /\
      members False (String.concat "," (map (fun kv => quoted (fst kv) +:+ ":" +:+ print (snd kv)) (x :: l))) l').
    { clear H. revert x IH F. induction l as [|y l IHl]; intros x IH F; apply Forall_cons_1 in IH as [Ix IH]; apply Forall_cons_1 in F as [[_ Fx] F]; destruct (Ix Fx) as (x' & R & V);
        destruct (quoted_text (fst x)) as (k & Rk & Ck).
      - exists [(k, x')]. split; [by constructor; [|constructor]|]. cbn [map String.concat]. rewrite <- (append_nil (print x.2)).
        apply (one_member False "" (quoted x.1) k "" "" (print x.2) "" x'); try exact white_nil; done.
      - destruct (IHl y IH F) as (l' & Rl & El). exists ((k, x') :: l'). split; [by constructor|].
        pose proof (more_members False "" (quoted x.1) k "" "" (print x.2) "" x' _ l' white_nil Ck white_nil white_nil V white_nil El) as M.
        cbn [map]. match goal with |- members _ ?t _ => match type of M with members _ ?t' _ => replace t with t'; [exact M|] end end.
        cbn [map String.concat]. rewrite !append_assoc. reflexivity. }
    destruct K as (l' & R & E). exists (JObj l'). split; [by constructor|]. cbn [print]. by apply text_object.
Qed.

(** A value does not end with white space. *)
Lemma number_last s n : number_text s n -> exists t a, s = t +:+ String a "" /\ N_of_ascii a ∉ [32; 9; 10; 13]%N.
Proof.
  intros H. destruct (number_shape s n H) as (F & b & r & E & _).
  assert (K : forall x b, Forall (fun a => number_char a = true) (list_ascii_of_string (String b x)) -> exists t a, String b x = t +:+ String a "" /\ number_char a = true).
  { induction x as [|c x IH]; intros d Fd; cbn [list_ascii_of_string] in Fd; apply Forall_cons_1 in Fd as [Fd Fx]; [by exists "", d|].
    destruct (IH c Fx) as (t & a & -> & Ha). by exists (String d t), a. }
  rewrite E in F |- *. destruct (K r b F) as (t & a & Et & Ha). exists t, a. split; [done|]. intros B. apply blank_spec in B.
  destruct a as [[] [] [] [] [] [] [] []]; vm_compute in Ha; try discriminate Ha; vm_compute in B; discriminate B.
Qed.
Lemma value_last m s j : value_text m s j -> exists t a, s = t +:+ String a "" /\ N_of_ascii a ∉ [32; 9; 10; 13]%N.
Proof.
  assert (N : forall a, existsb (N.eqb (byte a)) [32; 9; 10; 13]%N = false -> N_of_ascii a ∉ [32; 9; 10; 13]%N) by (intros a Ha B; apply blank_spec in B; congruence).
  intros [| | |x n H|x t (c & -> & _)|w H|x l H|w H|x l H].
  - exists "nul", "l"%char. split; [done|by apply N].
  - exists "tru", "e"%char. split; [done|by apply N].
  - exists "fals", "e"%char. split; [done|by apply N].
  - by eapply number_last.
  - exists (String quote c), quote. split; [done|by apply N].
  - exists ("[" +:+ w), "]"%char. split; [by rewrite append_assoc|by apply N].
  - exists ("[" +:+ x), "]"%char. split; [by rewrite append_assoc|by apply N].
  - exists ("{" +:+ w), "}"%char. split; [by rewrite append_assoc|by apply N].
  - exists ("{" +:+ x), "}"%char. split; [by rewrite append_assoc|by apply N].
Qed.

Lemma white_app w w' : white (w +:+ w') <-> white w /\ white w'.
Proof. unfold white. rewrite chars_app. apply Forall_app. Qed.
Lemma white_cons a w : white (String a w) <-> N_of_ascii a ∈ [32; 9; 10; 13]%N /\ white w.
Proof. unfold white. cbn [list_ascii_of_string]. split; [intros F; by apply Forall_cons_1 in F|intros [? ?]; by apply Forall_cons_2]. Qed.
Lemma strip_back p q a w r : white w -> white r -> N_of_ascii a ∉ [32; 9; 10; 13]%N -> p +:+ w = q +:+ String a r -> exists r', p = q +:+ String a r' /\ white r'.
Proof.
  intros W R Ha. revert p. induction q as [|c q IH]; intros p E.
  - change ("" +:+ String a r) with (String a r) in E. destruct p as [|c p].
    + change ("" +:+ w) with w in E. rewrite E in W. apply white_cons in W as [W _]. done.
    + rewrite append_cons in E. assert (Q : c = a /\ p +:+ w = r) by (split; congruence). destruct Q as [-> <-]. exists p. split; [done|]. by apply white_app in R as [R _].
  - destruct p as [|c' p].
    + change ("" +:+ w) with w in E. rewrite E in W. apply white_app in W as [_ W]. apply white_cons in W as [W _]. done.
    + rewrite !append_cons in E. destruct (IH p) as (r' & -> & R'); [congruence|]. exists r'. split; [|done]. rewrite append_cons. congruence.
Qed.
Lemma strip_front w s x a r : white w -> white x -> N_of_ascii a ∉ [32; 9; 10; 13]%N -> w +:+ s = x +:+ String a r -> exists x', s = x' +:+ String a r /\ white x'.
Proof.
  intros W X Ha. revert x X. induction w as [|c w IH]; intros x X E; [by exists x|]. apply white_cons in W as [Wc W]. rewrite append_cons in E.
  destruct x as [|c' x].
  - change ("" +:+ String a r) with (String a r) in E. congruence.
  - rewrite append_cons in E. apply white_cons in X as [_ X]. apply (IH W x X). congruence.
Qed.
Lemma text_strip m w s w' j : white w -> white w' -> json_text m (w +:+ s +:+ w') j <-> json_text m s j.
Proof.
  intros W W'. split.
  - intros (x & t & y & E & X & V & Y). destruct (value_head m t j V) as (a & u & Et & Ha).
    assert (Na : N_of_ascii a ∉ [32; 9; 10; 13]%N).
    { intros B. apply blank_spec in B. cbn [list_ascii_of_string] in Ha. repeat (apply elem_of_cons in Ha as [->|Ha]; [vm_compute in B; discriminate B|]). by apply elem_of_nil in Ha. }
    rewrite Et in E. rewrite append_cons in E. destruct (strip_front w (s +:+ w') x a (u +:+ y) W X Na E) as (x' & E' & X'). rewrite <- append_cons, <- Et in E'.
    destruct (value_last m t j V) as (t0 & b & Eb & Nb). rewrite Eb, append_assoc, <- append_assoc in E'. change (String b "" +:+ y) with (String b y) in E'.
    destruct (strip_back s (x' +:+ t0) b w' y W' Y Nb E') as (r' & -> & R'). exists x', t, r'. split; [|done]. rewrite Eb, !append_assoc. reflexivity.
  - intros (x & t & y & -> & X & V & Y). exists (w +:+ x), t, (y +:+ w'). split; [by rewrite !append_assoc|]. rewrite !white_app. done.
Qed.
