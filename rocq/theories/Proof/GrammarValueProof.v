(** What the reader of JSON text accepts is the grammar: numbers, arrays and objects. *)
From stdpp Require Import list strings.
From Coq Require Import ZArith NArith Ascii String Lia Decimal DecimalString DecimalN DecimalZ.
From Verif.Model Require Import Decoding JsonText.
From Verif.Spec Require Import JsonTextSpec JsonGrammar.
From Verif.Proof Require Import JsonTextProof GrammarProof.
Local Open Scope string_scope.

(** ** Integers *)
Lemma read_acc u : forall p, fold_left (fun x a => 10 * x + (N_of_ascii a - 48))%N (list_ascii_of_string (NilEmpty.string_of_uint u)) (Npos p) = Npos (Pos.of_uint_acc u p).
Proof.
  induction u as [|u IH|u IH|u IH|u IH|u IH|u IH|u IH|u IH|u IH|u IH]; intros p; [reflexivity|..];
    cbn [NilEmpty.string_of_uint list_ascii_of_string fold_left Pos.of_uint_acc]; rewrite <- IH; f_equal;
    match goal with |- context [N_of_ascii ?a] => let v := eval vm_compute in (N_of_ascii a) in change (N_of_ascii a) with v end; lia.
Qed.
Lemma read_uint u : read_as (NilEmpty.string_of_uint u) = N.of_uint u.
Proof.
  unfold read_as, N.of_uint. induction u as [|u IH|u IH|u IH|u IH|u IH|u IH|u IH|u IH|u IH|u IH]; [reflexivity| exact IH |..];
    cbn [NilEmpty.string_of_uint list_ascii_of_string fold_left Pos.of_uint]; rewrite <- read_acc; reflexivity.
Qed.
Lemma digits_uint i : Forall (fun a => (48 <= N_of_ascii a <= 57)%N) (list_ascii_of_string i) -> exists u, i = NilEmpty.string_of_uint u.
Proof.
  induction i as [|a i IH]; intros F; [by exists Nil|]. cbn in F. apply Forall_cons_1 in F as [Fa F]. destruct (IH F) as [u ->].
  apply (between_spec 48 57) in Fa. destruct a as [[] [] [] [] [] [] [] []]; vm_compute in Fa; try discriminate Fa; clear Fa;
  first [exists (D0 u); reflexivity|exists (D1 u); reflexivity|exists (D2 u); reflexivity|exists (D3 u); reflexivity|exists (D4 u); reflexivity|exists (D5 u); reflexivity|exists (D6 u); reflexivity|exists (D7 u); reflexivity|exists (D8 u); reflexivity|exists (D9 u); reflexivity].
Qed.
Lemma empty_zero u : u <> Nil -> NilZero.string_of_uint u = NilEmpty.string_of_uint u.
Proof. by destruct u. Qed.
(** Digits without zeros in front. *)
Lemma plain_uint i : digits i -> (i = "0" \/ forall r, i <> "0" +:+ r) -> exists u, i = NilZero.string_of_uint u /\ u <> Nil /\ unorm u = u /\ read_as i = N.of_uint u /\ (i <> "0" -> nzhead u = u).
Proof.
  intros [Ne F] Z. destruct (digits_uint i F) as [u ->]. assert (Nu : u <> Nil) by (intros ->; done).
  exists u. rewrite empty_zero by done. split; [done|]. split; [done|].
  assert (K : (NilEmpty.string_of_uint u <> "0" -> nzhead u = u) /\ unorm u = u).
  { destruct Z as [Z|Z].
    - destruct u as [|u|u|u|u|u|u|u|u|u|u]; try discriminate Z. destruct u; try discriminate Z. split; [done|reflexivity].
    - destruct u; try done. by destruct (Z (NilEmpty.string_of_uint u)). }
  split; [apply K|]. split; [apply read_uint|apply K].
Qed.
Lemma norm_plain u : unorm u = u -> digits (NilZero.string_of_uint u) /\ (NilZero.string_of_uint u = "0" \/ forall r, NilZero.string_of_uint u <> "0" +:+ r) /\
  read_as (NilZero.string_of_uint u) = N.of_uint u.
Proof.
  intros U. assert (Nu : u <> Nil) by (intros ->; discriminate U). rewrite empty_zero by done.
  split; [|split; [|apply read_uint]].
  - split; [by destruct u|]. rewrite <- empty_zero by done. eapply Forall_impl; [apply uint_chars|]. intros a Ha. by apply between_spec in Ha.
  - destruct u as [|u|u|u|u|u|u|u|u|u|u]; try (right; intros r; cbn; rewrite append_cons; discriminate).
    left. change (unorm (D0 u)) with (unorm u) in U. unfold unorm in U. destruct (nzhead u) eqn:E; try discriminate U.
    + injection U as <-. reflexivity.
    + exfalso. clear -E. assert (forall v, nzhead v <> D0 u0) by (induction v; cbn; congruence). naive_solver.
Qed.
Lemma of_N_uint u : Z.of_N (N.of_uint u) = Z.of_uint u.
Proof. reflexivity. Qed.
Lemma integer_text lit z : number_text lit (Int z) <-> lit = "-0" /\ z = 0%Z \/ lit = number (Int z).
Proof.
  split.
  - intros H. remember (Int z) as n eqn:En. destruct H as [i D Z|i D Z|]; [injection En as <-|injection En as <-|discriminate En].
    + right. destruct (plain_uint i D Z) as (u & Ei & Nu & U & -> & _). rewrite of_N_uint. unfold number.
      change (Z.of_uint u) with (Z.of_int (Pos u)). rewrite DecimalZ.to_of. cbn [norm]. rewrite U. exact Ei.
    + destruct (plain_uint i D Z) as (u & Ei & Nu & U & -> & K). destruct (String.eqb_spec i "0") as [E0|E0].
      * left. rewrite E0. split; [done|]. rewrite E0 in Ei. rewrite empty_zero in Ei by done. destruct u as [|u|u|u|u|u|u|u|u|u|u]; try discriminate Ei.
        destruct u; try discriminate Ei. reflexivity.
      * right. rewrite of_N_uint. unfold number. change (- Z.of_uint u)%Z with (Z.of_int (Neg u)). rewrite DecimalZ.to_of. cbn [norm]. rewrite (K E0), Ei.
        by destruct u.
  - intros [[-> ->]| ->].
    + apply (number_negative "0"); [|by left]. split; [done|]. apply Forall_cons_2; [vm_compute; split; discriminate|apply Forall_nil_2].
    + unfold number. pose proof (DecimalZ.to_of (Z.to_int z)) as N. rewrite DecimalZ.of_to in N. rewrite <- (DecimalZ.of_to z) at 2.
      destruct (Z.to_int z) as [u|u].
      * assert (U : unorm u = u) by (cbn [norm] in N; congruence). destruct (norm_plain u U) as (D & Z0 & R).
        change (Z.of_int (Pos u)) with (Z.of_N (N.of_uint u)). rewrite <- R. by constructor.
      * assert (U : unorm u = u).
        { cbn [norm] in N. unfold unorm. destruct (nzhead u); congruence. }
        destruct (norm_plain u U) as (D & Z0 & R). change (Z.of_int (Neg u)) with (- Z.of_N (N.of_uint u))%Z. rewrite <- R.
        change (NilZero.string_of_int (Neg u)) with ("-" +:+ NilZero.string_of_uint u). by constructor.
Qed.

(** ** Literals with a fraction or an exponent *)
Lemma span_parts p s x r : span p s = (x, r) -> s = x +:+ r /\ Forall (fun a => p a = true) (list_ascii_of_string x) /\ match r with String a _ => p a = false | "" => True end.
Proof.
  revert x. induction s as [|a s IH]; intros x; cbn [span].
  - intros [= <- <-]. split; [done|]. split; [apply Forall_nil_2|done].
  - destruct (p a) eqn:E.
    + destruct (span p s) as [y z]. intros [= <- <-]. destruct (IH y eq_refl) as (-> & F & S). split; [done|]. split; [by apply Forall_cons_2|done].
    + intros [= <- <-]. split; [done|]. split; [apply Forall_nil_2|done].
Qed.
Lemma digit_spec d : d <> "" -> Forall (fun a => digit a = true) (list_ascii_of_string d) -> digits d.
Proof. intros N F. split; [done|]. eapply Forall_impl; [exact F|]. intros a Ha. by apply between_spec in Ha. Qed.
Lemma some_digits_parts s r : some_digits s = Some r -> exists d, s = d +:+ r /\ digits d.
Proof.
  unfold some_digits. destruct (span digit s) as [d x] eqn:E. apply span_parts in E as (-> & F & _).
  destruct (String.eqb_spec d "") as [|N]; [done|]. intros [= ->]. exists d. split; [done|by apply digit_spec].
Qed.
Lemma exponent_parts s : exponent s = true -> s = "" \/ exponent_part s.
Proof.
  destruct s as [|e r]; [by left|]. intros H0. right.
  assert (X : match some_digits (match r with String c r' => if Ascii.eqb c "+" || Ascii.eqb c "-" then r' else r | _ => r end) with Some "" => true | _ => false end = true ->
    exists sign d, r = sign +:+ d /\ sign ∈ [""; "+"; "-"] /\ digits d).
  { intros H. destruct (some_digits _) as [[|? ?]|] eqn:E in H; try discriminate H. apply some_digits_parts in E as (d & E & D). rewrite append_nil in E.
    destruct r as [|c r]; [exfalso; subst d; by destruct D|].
    destruct (Ascii.eqb_spec c "+") as [->|_]; [exists "+", d; split; [by rewrite <- E|]; split; [apply (bool_decide_unpack _); vm_compute; exact I|done]|].
    destruct (Ascii.eqb_spec c "-") as [->|_]; [exists "-", d; split; [by rewrite <- E|]; split; [apply (bool_decide_unpack _); vm_compute; exact I|done]|].
    exists "", d. split; [exact E|]. split; [apply (bool_decide_unpack _); vm_compute; exact I|done]. }
  rename H0 into H. unfold exponent in H. apply orb_true_iff in H as [H|H]; apply andb_true_iff in H as [He H]; apply Ascii.eqb_eq in He as ->; destruct (X H) as (g & d & -> & Hg & Hd).
  - exists "e", g, d. split; [done|]. split; [by left|]. done.
  - exists "E", g, d. split; [done|]. split; [by right|]. done.
Qed.
Lemma fraction_decimal lit : fraction lit = true -> decimal lit.
Proof.
  unfold fraction. intros H. apply andb_true_iff in H as [M H].
  assert (S : exists g b, lit = g +:+ b /\ g ∈ [""; "-"] /\ match lit with String c r => if Ascii.eqb c "-" then r else lit | _ => lit end = b).
  { destruct lit as [|c r]; [exists "", ""; split; [done|]; split; [apply (bool_decide_unpack _); vm_compute; exact I|done]|].
    destruct (Ascii.eqb_spec c "-") as [->|_]; [exists "-", r|exists "", (String c r)]; (split; [done|]; split; [apply (bool_decide_unpack _); vm_compute; exact I|done]). }
  destruct S as (g & b & El & Hg & Eb). rewrite Eb in H. destruct (span digit b) as [i r] eqn:Ei. apply span_parts in Ei as (-> & F & _).
  apply andb_true_iff in H as [H T]. apply andb_true_iff in H as [H1 H2].
  assert (Di : digits i) by (apply digit_spec; [by intros ->|done]).
  assert (Z : i = "0" \/ forall r, i <> "0" +:+ r).
  { apply orb_true_iff in H2 as [H2|H2]; [left; by apply String.eqb_eq|right]. intros x ->. change ("0" +:+ x) with (String "0" x) in H2. by destruct x. }
  destruct r as [|c r]; [done|].
  destruct (Ascii.eqb_spec c ".") as [->|Nc].
  - destruct (some_digits r) as [x|] eqn:E; [|done]. apply some_digits_parts in E as (d & -> & Dd).
    exists g, i, (String "." d), x. split; [by rewrite El|]. split; [done|]. split; [done|]. split; [done|]. split; [right; by exists d|].
    split; [by apply exponent_parts|]. by intros [? _].
  - exists g, i, "", (String c r). split; [done|]. split; [done|]. split; [done|]. split; [done|]. split; [by left|]. split; [by apply exponent_parts|]. by intros [_ ?].
Qed.
Lemma read_number_text lit n : read_number lit = Some n <-> number_text lit n.
Proof.
  split.
  - unfold read_number. destruct (fraction lit) eqn:F; [intros [= <-]; by constructor; apply fraction_decimal|].
    destruct (String.eqb_spec lit "-0") as [->|_]; [intros [= <-]; apply integer_text; by left|].
    destruct (NilZero.int_of_string lit) as [d|]; [|done]. destruct (String.eqb_spec (number (Int (Z.of_int d))) lit) as [E|]; [|done].
    intros [= <-]. apply integer_text. by right.
  - destruct n as [z|s]; intros H.
    + apply integer_text in H as [[-> ->]| ->]; [reflexivity|apply read_int].
    + inversion H as [| |? D]; subst. unfold read_number. destruct (decimal_ok _ D) as [-> _]. reflexivity.
Qed.
Lemma number_shape lit n : number_text lit n -> Forall (fun a => number_char a = true) (list_ascii_of_string lit) /\ exists a r, lit = String a r /\ (digit a || Ascii.eqb a "-") = true.
Proof.
  destruct n as [z|s]; intros H.
  - apply integer_text in H as [[-> ->]| ->]; [|apply int_chars]. split; [|by eexists _, _]. repeat (apply Forall_cons_2; [reflexivity|]). apply Forall_nil_2.
  - inversion H as [| |? D]; subst. apply decimal_ok in D. naive_solver.
Qed.

(** ** White space *)
Lemma blank_spec a : existsb (N.eqb (byte a)) [32; 9; 10; 13]%N = true <-> N_of_ascii a ∈ [32; 9; 10; 13]%N.
Proof.
  rewrite existsb_exists. split.
  - intros (x & H & E). apply N.eqb_eq in E. unfold byte in E. rewrite E. by apply elem_of_list_In.
  - intros H. exists (N_of_ascii a). split; [by apply elem_of_list_In|apply N.eqb_refl].
Qed.
Lemma skip_white w s : white w -> skip (w +:+ s) = skip s.
Proof.
  induction w as [|a w IH]; intros W; [done|]. unfold white in W. cbn in W. apply Forall_cons_1 in W as [Wa W]. rewrite append_cons. cbn [skip].
  rewrite (proj2 (blank_spec a) Wa). by apply IH.
Qed.
Lemma skip_parts s : exists w, white w /\ s = w +:+ skip s.
Proof.
  induction s as [|a s (w & W & E)]; [exists ""; split; [apply Forall_nil_2|done]|]. cbn [skip].
  destruct (existsb (N.eqb (byte a)) [32; 9; 10; 13]%N) eqn:B.
  - exists (String a w). split; [apply Forall_cons_2; [by apply blank_spec|done]|]. by rewrite append_cons, <- E.
  - exists "". split; [apply Forall_nil_2|done].
Qed.
Lemma skip_all w : white w -> skip w = "".
Proof. intros W. rewrite <- (append_nil w), skip_white by done. reflexivity. Qed.
Lemma skip_twice s : skip (skip s) = skip s.
Proof. destruct (skip_parts s) as (w & W & E). rewrite E at 2. by rewrite skip_white. Qed.

(** ** Values *)
Section grammar.
  Context (m : Prop).
  Lemma value_head s j : value_text m s j -> exists a r, s = String a r /\ a ∈ list_ascii_of_string "ntf-0123456789""[{".
  Proof.
    assert (B : forall a r, a ∈ list_ascii_of_string "ntf-0123456789""[{" -> exists a' r', String a r = String a' r' /\ a' ∈ list_ascii_of_string "ntf-0123456789""[{")
      by (intros a r Ha; exists a, r; done).
    intros [| | |x n H|x t (c & -> & _)|w H|x l H|w H|x l H]; try (apply B; apply (bool_decide_unpack _); vm_compute; exact I).
    destruct (number_shape x n H) as (_ & a & r & -> & Ha). apply B. 
    destruct a as [[] [] [] [] [] [] [] []]; vm_compute in Ha; try discriminate Ha; apply (bool_decide_unpack _); vm_compute; exact I.
  Qed.
  Lemma head_skip a r : a ∈ list_ascii_of_string "ntf-0123456789""[{" -> skip (String a r) = String a r.
  Proof. intros H. assert (K : existsb (N.eqb (byte a)) [32; 9; 10; 13]%N = false). 
    { cbn [list_ascii_of_string] in H. repeat (apply elem_of_cons in H as [->|H]; [reflexivity|]). by apply elem_of_nil in H. }
    cbn [skip]. by rewrite K. Qed.
  (** A value is followed by white space, a comma, a bracket, or nothing. *)
  Lemma white_stop w r : white w -> stop r -> stop (w +:+ r).
  Proof.
    destruct w as [|a w]; [done|]. intros W _. unfold white in W. cbn in W. apply Forall_cons_1 in W as [Wa _]. apply blank_spec in Wa. rewrite append_cons. cbn [stop].
    destruct a as [[] [] [] [] [] [] [] []]; vm_compute in Wa; try discriminate Wa; reflexivity.
  Qed.
  Lemma elements_length s l : elements m s l -> (List.length l <= String.length s)%nat.
  Proof.
    induction 1 as [w s w' j Hw V Hw'|w s w' j s' l Hw V Hw' H IH]; destruct (value_head s j V) as (a & r & -> & _); rewrite !length_app; cbn [String.length List.length]; lia.
  Qed.
  Lemma members_length s l : members m s l -> (List.length l <= String.length s)%nat.
  Proof.
    induction 1 as [w k key w1 w2 s w3 j _ _ _ _ V _|w k key w1 w2 s w3 j s' l _ _ _ _ V _ H IH]; destruct (value_head s j V) as (a & r & -> & _); rewrite !length_app; cbn [String.length List.length]; lia.
  Qed.

  Lemma value_null n w r : white w -> value n (w +:+ "null" +:+ r) = Some (JNull, r).
  Proof. intros W. destruct n; unfold value; fold value; rewrite (skip_white w _ W); reflexivity. Qed.
  Lemma value_true n w r : white w -> value n (w +:+ "true" +:+ r) = Some (JBool true, r).
  Proof. intros W. destruct n; unfold value; fold value; rewrite (skip_white w _ W); reflexivity. Qed.
  Lemma value_false n w r : white w -> value n (w +:+ "false" +:+ r) = Some (JBool false, r).
  Proof. intros W. destruct n; unfold value; fold value; rewrite (skip_white w _ W); reflexivity. Qed.
  Lemma value_white n w s : white w -> value n (w +:+ s) = value n s.
  Proof. intros W. destruct n; unfold value; fold value; by rewrite (skip_white w s W). Qed.
  Lemma value_string n c t r : chars m c t -> value n (String quote (c +:+ String quote "") +:+ r) = Some (JStr t, r).
  Proof.
    intros C. rewrite append_cons, append_assoc. change (String quote "" +:+ r) with (String quote r).
    assert (E : forall x, value n (String quote x) = ('(y, z) ← unquote x; Some (JStr y, z))) by (intros x; destruct n; reflexivity).
    by rewrite E, (chars_read m c t C).
  Qed.
  Lemma no_close {X} (a : ascii) (A : string -> X) (B : X) r : a ∈ list_ascii_of_string "ntf-0123456789""[{" ->
    match String a r with String "]" r' => A r' | _ => B end = B /\ match String a r with String "}" r' => A r' | _ => B end = B.
  Proof.
    intros H. cbn [list_ascii_of_string] in H. repeat (apply elem_of_cons in H as [->|H]; [split; reflexivity|]). by apply elem_of_nil in H.
  Qed.
  Lemma elements_skip s l r : elements m s l -> exists a x, skip (s +:+ r) = String a x /\ a ∈ list_ascii_of_string "ntf-0123456789""[{".
  Proof.
    intros [w s' w' j Hw V Hw'|w s' w' j s'' l' Hw V Hw' H]; destruct (value_head s' j V) as (a & x & -> & Ha); rewrite !append_assoc, (skip_white w _ Hw), append_cons;
      exists a; eexists; (split; [by apply head_skip|done]).
  Qed.
  Lemma members_skip s l r : members m s l -> exists a x, skip (s +:+ r) = String a x /\ a ∈ list_ascii_of_string "ntf-0123456789""[{".
  Proof.
    intros [w k key w1 w2 s' w3 j Hw (c & -> & C) H1 H2 V H3|w k key w1 w2 s' w3 j s'' l' Hw (c & -> & C) H1 H2 V H3 H]; rewrite !append_assoc, (skip_white w _ Hw), append_cons;
      exists quote; eexists; (split; [by apply head_skip; apply (bool_decide_unpack _); vm_compute; exact I|apply (bool_decide_unpack _); vm_compute; exact I]).
  Qed.
  Lemma value_array n x : value (S n) (String "[" x) =
    match skip x with String "]" r' => Some (JArr [], r') | _ => '(l, r) ← array_rest (value n) (String.length x) x; Some (JArr l, r) end.
  Proof. reflexivity. Qed.
  Lemma value_object n x : value (S n) (String "{" x) =
    match skip x with String "}" r' => Some (JObj [], r') | _ => '(l, r) ← object_rest (value n) (String.length x) x; Some (JObj l, r) end.
  Proof. reflexivity. Qed.
  Lemma object_step read f w c k w1 w2 s r : white w -> chars m c k -> white w1 ->
    object_rest read (S f) (w +:+ String quote (c +:+ String quote "") +:+ w1 +:+ ":" +:+ w2 +:+ s +:+ r) =
    ('(x, r) ← read (w2 +:+ s +:+ r);
     match skip r with
     | String "," r' => '(l, r) ← object_rest read f r'; Some ((k, x) :: l, r)
     | String "}" r' => Some ([(k, x)], r')
     | _ => None
     end).
  Proof.
    intros W C W1. cbn [object_rest]. rewrite (skip_white w _ W), append_cons.
    rewrite (head_skip quote) by (apply (bool_decide_unpack _); vm_compute; exact I). cbv beta iota delta [quote].
    rewrite append_assoc. change (String "034" "" +:+ (w1 +:+ ":" +:+ w2 +:+ s +:+ r)) with (String quote (w1 +:+ ":" +:+ w2 +:+ s +:+ r)).
    rewrite (chars_read m c k C). cbn [mbind option_bind]. rewrite (skip_white w1 _ W1). reflexivity.
  Qed.

  Lemma skip_comma x : skip ("," +:+ x) = String "," x.
  Proof. reflexivity. Qed.
  Scheme value_text_mut := Induction for value_text Sort Prop
    with elements_mut := Induction for elements Sort Prop
    with members_mut := Induction for members Sort Prop.
  Lemma text_value : forall s j, value_text m s j -> forall n w r, nested n j -> white w -> stop r -> value n (w +:+ s +:+ r) = Some (j, r).
  Proof.
    apply (value_text_mut m
      (fun s j _ => forall n w r, nested n j -> white w -> stop r -> value n (w +:+ s +:+ r) = Some (j, r))
      (fun s l _ => forall n f r, Forall (nested n) l -> (List.length l <= f)%nat -> array_rest (value n) f (s +:+ String "]" r) = Some (l, r))
      (fun s l _ => forall n f r, Forall (fun kv => nested n kv.2) l -> (List.length l <= f)%nat -> object_rest (value n) f (s +:+ String "}" r) = Some (l, r))).
    - intros n w r _ W _. by apply value_null.
    - intros n w r _ W _. by apply value_true.
    - intros n w r _ W _. by apply value_false.
    - intros x v H n w r _ W S. rewrite value_white by done. destruct (number_shape x v H) as (F & a & y & E & Ha).
      rewrite (value_number n x r a y E Ha F S), (proj2 (read_number_text x v) H). reflexivity.
    - intros x t (c & -> & C) n w r _ W _. rewrite value_white by done. by apply value_string.
    - intros x Wx n w r N W _. rewrite value_white by done. destruct n as [|n]; [by inversion N|].
      rewrite !append_assoc, append_cons. change ("" +:+ (x +:+ ("]" +:+ r))) with (x +:+ String "]" r). rewrite value_array, (skip_white x _ Wx). reflexivity.
    - intros x l H IH n w r N W _. rewrite value_white by done. destruct n as [|n]; [by inversion N|]. inversion N as [| | | |? ? F|]; subst.
      rewrite !append_assoc, append_cons. change ("" +:+ (x +:+ ("]" +:+ r))) with (x +:+ String "]" r). rewrite value_array.
      destruct (elements_skip x l (String "]" r) H) as (a & y & -> & Ha).
      rewrite (proj1 (no_close a (fun r' => Some (JArr [], r')) _ y Ha)). rewrite IH; [done|done|]. rewrite length_app. pose proof (elements_length x l H). lia.
    - intros x Wx n w r N W _. rewrite value_white by done. destruct n as [|n]; [by inversion N|].
      rewrite !append_assoc, append_cons. change ("" +:+ (x +:+ ("}" +:+ r))) with (x +:+ String "}" r). rewrite value_object, (skip_white x _ Wx). reflexivity.
    - intros x l H IH n w r N W _. rewrite value_white by done. destruct n as [|n]; [by inversion N|]. inversion N as [| | | | |? ? F]; subst.
      rewrite !append_assoc, append_cons. change ("" +:+ (x +:+ ("}" +:+ r))) with (x +:+ String "}" r). rewrite value_object.
      destruct (members_skip x l (String "}" r) H) as (a & y & -> & Ha).
      rewrite (proj2 (no_close a (fun r' => Some (JObj [], r')) _ y Ha)). rewrite IH; [done|done|]. rewrite length_app. pose proof (members_length x l H). lia.
    - intros w x w' j W V IH W' n f r F L. destruct f as [|f]; [cbn in L; lia|]. cbn [array_rest]. apply Forall_cons_1 in F as [F _].
      rewrite !append_assoc, (IH n w _ F W) by (by apply white_stop). cbn [mbind option_bind]. by rewrite (skip_white w' _ W').
    - intros w x w' j x' l W V IH W' H IHl n f r F L. destruct f as [|f]; [cbn in L; lia|]. cbn [array_rest]. apply Forall_cons_1 in F as [Fj F].
      rewrite !append_assoc, (IH n w _ Fj W) by (by apply white_stop). cbn [mbind option_bind]. rewrite (skip_white w' _ W').
      rewrite skip_comma. cbv beta iota.
      rewrite (IHl n f r F) by (cbn in L; lia). reflexivity.
    - intros w k key w1 w2 x w3 j W (c & -> & C) W1 W2 V IH W3 n f r F L. destruct f as [|f]; [cbn in L; lia|]. apply Forall_cons_1 in F as [F _].
      rewrite !append_assoc, (object_step (value n) f w c key w1 w2 x _ W C W1), (IH n w2 _ F W2) by (by apply white_stop).
      cbn [mbind option_bind]. by rewrite (skip_white w3 _ W3).
    - intros w k key w1 w2 x w3 j x' l W (c & -> & C) W1 W2 V IH W3 H IHl n f r F L. destruct f as [|f]; [cbn in L; lia|]. apply Forall_cons_1 in F as [Fj F].
      rewrite !append_assoc, (object_step (value n) f w c key w1 w2 x _ W C W1), (IH n w2 _ Fj W2) by (by apply white_stop).
      cbn [mbind option_bind]. rewrite (skip_white w3 _ W3). rewrite skip_comma. cbv beta iota.
      rewrite (IHl n f r F) by (cbn in L; lia). reflexivity.
  Qed.
  Lemma text_parse s j : json_text m s j -> nested max_depth j -> parse s = Some j.
  Proof.
    intros (w & t & w' & -> & W & V & W') N. unfold parse. rewrite (text_value t j V max_depth w w' N W).
    - cbn [mbind option_bind]. by rewrite (skip_all w' W').
    - rewrite <- (append_nil w'). by apply white_stop.
  Qed.
End grammar.

(** ** What is read is in the grammar *)
Lemma after_parts p s r : after p s = Some r -> s = p +:+ r.
Proof.
  revert s. induction p as [|a p IH]; intros s; [by intros [= ->]|]. destruct s as [|b s]; [done|]. cbn [after].
  destruct (Ascii.eqb_spec a b) as [->|]; [|done]. intros H. by rewrite (IH s H).
Qed.
Lemma comma_or_close {X} (A B : string -> option X) s x : match s with String "," r => A r | String "]" r => B r | _ => None end = Some x ->
  exists r, s = String "," r /\ A r = Some x \/ s = String "]" r /\ B r = Some x.
Proof. destruct s as [|a r]; [done|]. exists r. destruct a as [[] [] [] [] [] [] [] []]; try discriminate; auto. Qed.
Lemma comma_or_brace {X} (A B : string -> option X) s x : match s with String "," r => A r | String "}" r => B r | _ => None end = Some x ->
  exists r, s = String "," r /\ A r = Some x \/ s = String "}" r /\ B r = Some x.
Proof. destruct s as [|a r]; [done|]. exists r. destruct a as [[] [] [] [] [] [] [] []]; try discriminate; auto. Qed.
Lemma colon_only {X} (A : string -> option X) s x : match s with String ":" r => A r | _ => None end = Some x -> exists r, s = String ":" r /\ A r = Some x.
Proof. destruct s as [|a r]; [done|]. exists r. destruct a as [[] [] [] [] [] [] [] []]; try discriminate; auto. Qed.
Lemma quote_only {X} (A : string -> option X) s x : match s with String """" r => A r | _ => None end = Some x -> exists r, s = String quote r /\ A r = Some x.
Proof. destruct s as [|a r]; [done|]. exists r. destruct a as [[] [] [] [] [] [] [] []]; try discriminate; auto. Qed.
Lemma close_or {X} (A : string -> option X) (B : option X) s x : match s with String "]" r => A r | _ => B end = Some x ->
  (exists r, s = String "]" r /\ A r = Some x) \/ B = Some x.
Proof. destruct s as [|a r]; [by right|]. destruct a as [[] [] [] [] [] [] [] []]; eauto. Qed.
Lemma brace_or {X} (A : string -> option X) (B : option X) s x : match s with String "}" r => A r | _ => B end = Some x ->
  (exists r, s = String "}" r /\ A r = Some x) \/ B = Some x.
Proof. destruct s as [|a r]; [by right|]. destruct a as [[] [] [] [] [] [] [] []]; eauto. Qed.
Lemma bind_some {A B} (o : option A) (f : A -> option B) y : (o ≫= f) = Some y -> exists x, o = Some x /\ f x = Some y.
Proof. destruct o as [x|]; [by exists x|done]. Qed.

Definition reader (n : nat) (read : string -> option (json * string)) : Prop :=
  forall s j r, read s = Some (j, r) -> exists w t, white w /\ s = w +:+ t +:+ r /\ value_text True t j /\ nested n j.
Lemma array_text n read f : reader n read -> forall s l r, array_rest read f s = Some (l, r) ->
  exists t, s = t +:+ String "]" r /\ elements True t l /\ Forall (nested n) l.
Proof.
  intros R. induction f as [|f IH]; intros s l r; [done|]. cbn [array_rest]. intros H. apply bind_some in H as ([x y] & E & H).
  destruct (R s x y E) as (w & t & W & -> & V & N). destruct (skip_parts y) as (w' & W' & Ey).
  apply comma_or_close in H as (z & [[Ez H]|[Ez H]]).
  - apply bind_some in H as ([l' r'] & E' & H). injection H as <- <-. destruct (IH _ _ _ E') as (t' & -> & El & F).
    exists (w +:+ t +:+ w' +:+ "," +:+ t'). split; [by rewrite Ey, Ez, !append_assoc|]. split; [by constructor|by apply Forall_cons_2].
  - injection H as <- <-. exists (w +:+ t +:+ w'). split; [by rewrite Ey, Ez, !append_assoc|]. split; [by constructor|]. by apply Forall_cons_2; [|apply Forall_nil_2].
Qed.
Lemma object_text n read f : reader n read -> forall s l r, object_rest read f s = Some (l, r) ->
  exists t, s = t +:+ String "}" r /\ members True t l /\ Forall (fun kv => nested n kv.2) l.
Proof.
  intros R. induction f as [|f IH]; intros s l r; [done|]. cbn [object_rest]. destruct (skip_parts s) as (w & W & Es). intros H.
  apply quote_only in H as (s1 & E1 & H). apply bind_some in H as ([k s2] & E2 & H). destruct (read_chars _ _ _ E2) as (c & Ec & C).
  destruct (skip_parts s2) as (w1 & W1 & E3). apply colon_only in H as (s3 & E4 & H). apply bind_some in H as ([x y] & E & H).
  destruct (R _ x y E) as (w2 & t & W2 & -> & V & N). destruct (skip_parts y) as (w3 & W3 & Ey).
  assert (K : string_text True (String quote (c +:+ String quote "")) k) by (by exists c).
  apply comma_or_brace in H as (z & [[Ez H]|[Ez H]]).
  - apply bind_some in H as ([l' r'] & E' & H). injection H as <- <-. destruct (IH _ _ _ E') as (t' & -> & El & F).
    exists (w +:+ String quote (c +:+ String quote "") +:+ w1 +:+ ":" +:+ w2 +:+ t +:+ w3 +:+ "," +:+ t').
    split; [|split; [by constructor|by apply Forall_cons_2]].
    rewrite Es, E1, Ec, E3, E4, Ey, Ez, !append_assoc, append_cons, !append_assoc. reflexivity.
  - injection H as <- <-. exists (w +:+ String quote (c +:+ String quote "") +:+ w1 +:+ ":" +:+ w2 +:+ t +:+ w3).
    split; [|split; [by constructor|by apply Forall_cons_2; [|apply Forall_nil_2]]].
    rewrite Es, E1, Ec, E3, E4, Ey, Ez, !append_assoc, append_cons, !append_assoc. reflexivity.
Qed.
Lemma scalar_text n s a r j x : skip s = String a r -> a <> "["%char -> a <> "{"%char -> value n s = Some (j, x) ->
  exists t, String a r = t +:+ x /\ value_text True t j /\ nested n j.
Proof.
  intros Es N1 N2 H.
  assert (H' : (if Ascii.eqb a """" then '(x, r) ← unquote r; Some (JStr x, r)
      else if digit a || Ascii.eqb a "-" then let '(x, r) := span number_char (String a r) in y ← read_number x; Some (JNum y, r)
      else match after "ull" r, after "rue" r, after "alse" r with
           | Some r', _, _ => if Ascii.eqb a "n" then Some (JNull, r') else None
           | _, Some r', _ => if Ascii.eqb a "t" then Some (JBool true, r') else None
           | _, _, Some r' => if Ascii.eqb a "f" then Some (JBool false, r') else None
           | _, _, _ => None
           end) = Some (j, x)).
  { apply Ascii.eqb_neq in N1, N2. rewrite <- H. destruct n; unfold value; fold value; rewrite Es, N1, N2; reflexivity. }
  clear H N1 N2 Es. destruct (Ascii.eqb_spec a """") as [->|_].
  { apply bind_some in H' as ([t y] & E & H). injection H as <- <-. destruct (read_chars _ _ _ E) as (c & -> & C).
    exists (String quote (c +:+ String quote "")). split; [by rewrite append_cons, append_assoc|]. split; [constructor; by exists c|constructor]. }
  destruct (digit a || Ascii.eqb a "-") eqn:D.
  { destruct (span number_char (String a r)) as [y z] eqn:S. apply span_parts in S as (E & _ & _). apply bind_some in H' as (v & Ev & H). injection H as <- <-.
    exists y. split; [done|]. split; [|constructor]. constructor. by apply read_number_text. }
  destruct (after "ull" r) as [y|] eqn:A1.
  { apply after_parts in A1 as ->. destruct (Ascii.eqb_spec a "n") as [->|]; [|done]. injection H' as <- <-. exists "null". split; [done|]. split; constructor. }
  destruct (after "rue" r) as [y|] eqn:A2.
  { apply after_parts in A2 as ->. destruct (Ascii.eqb_spec a "t") as [->|]; [|done]. injection H' as <- <-. exists "true". split; [done|]. split; constructor. }
  destruct (after "alse" r) as [y|] eqn:A3; [|done].
  apply after_parts in A3 as ->. destruct (Ascii.eqb_spec a "f") as [->|]; [|done]. injection H' as <- <-. exists "false". split; [done|]. split; constructor.
Qed.
Lemma value_reader n : reader n (value n).
Proof.
  induction n as [|n IH]; intros s j x H; destruct (skip_parts s) as (w & W & E); destruct (skip s) as [|a r] eqn:Es.
  - unfold value in H. by rewrite Es in H.
  - destruct (Ascii.eqb_spec a "[") as [->|N1]; [unfold value in H; by rewrite Es in H|].
    destruct (Ascii.eqb_spec a "{") as [->|N2]; [unfold value in H; by rewrite Es in H|].
    destruct (scalar_text O s a r j x Es N1 N2 H) as (t & Et & V & N). exists w, t. split; [done|]. split; [by rewrite <- Et|done].
  - unfold value in H. by rewrite Es in H.
  - destruct (Ascii.eqb_spec a "[") as [->|N1].
    { assert (H' : value (S n) (String "[" r) = Some (j, x)) by (rewrite <- (value_white (S n) w _ W), <- E; exact H). clear H. rename H' into H.
      rewrite value_array in H. destruct (skip_parts r) as (w' & W' & Er). apply close_or in H as [(r' & Er' & H)|H].
      - injection H as <- <-. exists w, ("[" +:+ w' +:+ "]"). split; [done|]. split; [rewrite E, Er, Er', !append_assoc; reflexivity|].
        split; [by constructor|]. constructor. apply Forall_nil_2.
      - apply bind_some in H as ([l y] & H & E'). injection E' as <- <-. destruct (array_text n (value n) _ IH _ _ _ H) as (t & -> & El & F).
        exists w, ("[" +:+ t +:+ "]"). split; [done|]. split; [rewrite E, !append_assoc; reflexivity|]. split; by constructor. }
    destruct (Ascii.eqb_spec a "{") as [->|N2].
    { assert (H' : value (S n) (String "{" r) = Some (j, x)) by (rewrite <- (value_white (S n) w _ W), <- E; exact H). clear H. rename H' into H.
      rewrite value_object in H. destruct (skip_parts r) as (w' & W' & Er). apply brace_or in H as [(r' & Er' & H)|H].
      - injection H as <- <-. exists w, ("{" +:+ w' +:+ "}"). split; [done|]. split; [rewrite E, Er, Er', !append_assoc; reflexivity|].
        split; [by constructor|]. constructor. apply Forall_nil_2.
      - apply bind_some in H as ([l y] & H & E'). injection E' as <- <-. destruct (object_text n (value n) _ IH _ _ _ H) as (t & -> & El & F).
        exists w, ("{" +:+ t +:+ "}"). split; [done|]. split; [rewrite E, !append_assoc; reflexivity|]. split; by constructor. }
    destruct (scalar_text (S n) s a r j x Es N1 N2 H) as (t & Et & V & N). exists w, t. split; [done|]. split; [by rewrite <- Et|done].
Qed.
Lemma parse_text s j : parse s = Some j <-> json_text True s j /\ nested max_depth j.
Proof.
  split; [|intros [T N]; by apply (text_parse True)].
  unfold parse. intros H. apply bind_some in H as ([x r] & E & H). destruct (value_reader max_depth s x r E) as (w & t & W & -> & V & N).
  destruct (skip_parts r) as (w' & W' & Er). destruct (skip r) as [|? ?]; [|done]. injection H as <-. split; [|done].
  exists w, t, w'. rewrite append_nil in Er. by rewrite Er.
Qed.
