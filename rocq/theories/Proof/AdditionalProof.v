From stdpp Require Import list.
From Coq Require Import NArith String Lia.
From Verif.Model Require Import Additional.
From Verif.Spec Require Import JsonSpec.
Local Open Scope N_scope.

(** ** A scanner that every JSON text passes *)
Inductive mode := Out | In | Esc | Hex (n : nat).
Definition is_hex (c : N) : bool :=
  ((48 <=? c) && (c <=? 57)) || ((97 <=? c) && (c <=? 102)) || ((65 <=? c) && (c <=? 70)).
Definition step (m : mode) (c : N) : option mode :=
  match m with
  | Out => if c =? 34 then Some In else if (c =? 39) || (c =? 37) then None else Some Out
  | In => if c =? 34 then Some Out else if c =? 92 then Some Esc else if c <? 32 then None else Some In
  | Esc => if bool_decide (c ∈ [34; 92; 47; 98; 102; 110; 114; 116]) then Some In
           else if c =? 117 then Some (Hex 3) else None
  | Hex n => if is_hex c then match n with O => Some In | S n => Some (Hex n) end else None
  end.
Fixpoint steps (m : mode) (t : text) : option mode :=
  match t with
  | [] => Some m
  | c :: t => match step m c with Some m => steps m t | None => None end
  end.
Lemma steps_app m t1 t2 : steps m (t1 ++ t2) = match steps m t1 with Some m' => steps m' t2 | None => None end.
Proof. revert m. induction t1 as [|c t1 IH]; intros m; cbn; [reflexivity|]. destruct (step m c); auto. Qed.
Lemma steps_cons m c t : steps m (c :: t) = match step m c with Some m' => steps m' t | None => None end.
Proof. reflexivity. Qed.

Lemma steps_step m c m' t : step m c = Some m' -> steps m (c :: t) = steps m' t.
Proof. cbn. now intros ->. Qed.

Lemma hexval_is_hex c n : hexval c n -> is_hex c = true.
Proof.
  unfold is_hex. intros [d H|d H|d H]; rewrite !Bool.orb_true_iff, !Bool.andb_true_iff, !N.leb_le; lia.
Qed.
Lemma hex_steps a b c d n t : four a b c d n -> steps Esc (117 :: a :: b :: c :: d :: t) = steps In t.
Proof.
  intros (w & x & y & z & H1 & H2 & H3 & H4 & _). apply hexval_is_hex in H1, H2, H3, H4.
  cbn [steps]. change (step Esc 117) with (Some (Hex 3)). cbn [steps step]. rewrite H1. cbn [steps step]. rewrite H2. cbn [steps step].
  rewrite H3. cbn [steps step]. now rewrite H4.
Qed.
Lemma jchars_steps t s r : jchars t s -> steps In (t ++ r) = steps In r.
Proof.
  induction 1 as [|c t s H1 H2 H3 J IH|e c t s E J IH|a b c d n t s F S J IH|a b c d m a' b' c' d' n t s F1 M F2 M' J IH].
  - reflexivity.
  - cbn [app steps step]. apply N.eqb_neq in H2, H3. rewrite H2, H3. destruct (c <? 32) eqn:L; [apply N.ltb_lt in L; lia|]. exact IH.
  - cbn [app]. rewrite (steps_step In 92 Esc) by reflexivity. rewrite (steps_step Esc e In); [exact IH|]. unfold step.
    rewrite bool_decide_eq_true_2; [reflexivity|]. unfold escapes in E. rewrite !elem_of_cons, elem_of_nil in E. rewrite !elem_of_cons.
    repeat (destruct E as [[= -> ->]|E]; [tauto|]). destruct E.
  - cbn [app]. rewrite (steps_step In 92 Esc) by reflexivity. rewrite (hex_steps _ _ _ _ _ _ F). exact IH.
  - cbn [app]. rewrite (steps_step In 92 Esc) by reflexivity. rewrite (hex_steps _ _ _ _ _ _ F1).
    rewrite (steps_step In 92 Esc) by reflexivity. rewrite (hex_steps _ _ _ _ _ _ F2). exact IH.
Qed.
Lemma jstring_steps t s r : jstring t s -> steps Out (t ++ r) = steps Out r.
Proof.
  intros (t' & -> & J). rewrite <- !app_assoc. cbn [app]. rewrite (steps_step Out 34 In) by reflexivity.
  rewrite (jchars_steps _ _ _ J). reflexivity.
Qed.
Lemma number_steps t r : number t -> steps Out (t ++ r) = steps Out r.
Proof.
  intros [_ F]. induction F as [|c t H F IH]; [reflexivity|]. cbn [app]. rewrite (steps_step Out c Out); [exact IH|].
  cbn in H. rewrite !elem_of_cons, elem_of_nil in H. repeat (destruct H as [->|H]; [reflexivity|]). destruct H.
Qed.

Scheme jval_mind := Induction for jval Sort Prop
  with jelems_mind := Induction for jelems Sort Prop
  with jmembers_mind := Induction for jmembers Sort Prop.
Combined Scheme json_mutind from jval_mind, jelems_mind, jmembers_mind.

Lemma json_steps :
  (forall t v, jval t v -> forall r, steps Out (t ++ r) = steps Out r) /\
  (forall t l, jelems t l -> forall r, steps Out (t ++ r) = steps Out r) /\
  (forall t ms, jmembers t ms -> forall r, steps Out (t ++ r) = steps Out r).
Proof.
  apply json_mutind; intros; try reflexivity; rewrite <- ?app_assoc.
  - now apply number_steps.
  - now apply (jstring_steps _ s).
  - cbn [app]. rewrite (steps_step Out 91 Out) by reflexivity. rewrite H. reflexivity.
  - cbn [app]. rewrite (steps_step Out 123 Out) by reflexivity. rewrite H. reflexivity.
  - apply H.
  - rewrite H. cbn [app]. rewrite (steps_step Out 44 Out) by reflexivity. apply H0.
  - rewrite (jstring_steps _ s) by assumption. cbn [app]. rewrite (steps_step Out 58 Out) by reflexivity. apply H.
  - rewrite (jstring_steps _ s) by assumption. cbn [app]. rewrite (steps_step Out 58 Out) by reflexivity.
    rewrite H. cbn [app]. rewrite (steps_step Out 44 Out) by reflexivity. apply H0.
Qed.
Lemma jval_steps t v r : jval t v -> steps Out (t ++ r) = steps Out r.
Proof. intros H. exact (proj1 json_steps _ _ H r). Qed.
Lemma jval_passes t v : jval t v -> steps Out t = Some Out.
Proof. intros H. pose proof (jval_steps t v [] H) as E. now rewrite app_nil_r in E. Qed.

(** ** Quoting *)
Section Quote.
  Context (printable : N -> bool).
  Notation qr := (quote_rune printable).
  Notation qc := (quote_char printable).

  Lemma hexdigit_val n : n < 16 -> hexval (hexdigit n) n.
  Proof.
    intros H. unfold hexdigit. destruct (n <? 10) eqn:L; [apply N.ltb_lt in L; now constructor|].
    apply N.ltb_ge in L. constructor. lia.
  Qed.
  Lemma hex4 n : n < 65536 -> exists a b c d, hex 4 n = [a; b; c; d] /\ four a b c d n.
  Proof.
    intros H. unfold hex. cbn [app]. exists (hexdigit (n / 16 / 16 / 16 mod 16)), (hexdigit (n / 16 / 16 mod 16)), (hexdigit (n / 16 mod 16)), (hexdigit (n mod 16)).
    split; [reflexivity|]. exists (n / 16 / 16 / 16 mod 16), (n / 16 / 16 mod 16), (n / 16 mod 16), (n mod 16).
    repeat split; try (apply hexdigit_val, N.mod_lt; discriminate).
    pose proof (N.div_mod n 16 ltac:(discriminate)). pose proof (N.div_mod (n / 16) 16 ltac:(discriminate)).
    pose proof (N.div_mod (n / 16 / 16) 16 ltac:(discriminate)).
    assert (n / 16 / 16 / 16 < 16) by (rewrite !N.div_div by discriminate; apply N.div_lt_upper_bound; [discriminate|lia]).
    rewrite (N.mod_small (n / 16 / 16 / 16)) by assumption. lia.
  Qed.

  (** A clean character is written as itself. *)
  Lemma quote_clean c t s : clean_char printable c -> (match c with Rune r => ~ surrogate r | _ => True end) -> jchars t s ->
    exists r, c = Rune r /\ jchars (qc c ++ t) (r :: s).
  Proof.
    destruct c as [r|b]; [|intros []]. intros [C P] W J. exists r. split; [reflexivity|]. cbn [quote_char]. unfold quote_rune.
    destruct ((r =? 34) || (r =? 92)) eqn:E1.
    { apply Bool.orb_true_iff in E1 as [->%N.eqb_eq| ->%N.eqb_eq]; cbn [app]; apply jc_escape; try exact J; unfold escapes; (apply (bool_decide_unpack _); vm_compute; exact I). }
    apply Bool.orb_false_iff in E1 as [N1%N.eqb_neq N2%N.eqb_neq].
    destruct (is_print printable r) eqn:E2.
    { cbn [app]. apply jc_plain; try assumption. unfold is_print in E2. destruct (r <? 128) eqn:L.
      - apply Bool.andb_true_iff in E2 as [L1%N.leb_le L2%N.leb_le]. assumption.
      - apply N.ltb_ge in L. lia. }
    assert (H : r < 32 \/ r = 127 \/ 128 <= r < 65536).
    { unfold is_print in E2. destruct (r <? 128) eqn:L; [apply N.ltb_lt in L|apply N.ltb_ge in L].
      - apply Bool.andb_false_iff in E2 as [L1%N.leb_gt|L2%N.leb_gt]; lia.
      - destruct (N.lt_ge_cases r 65536); [lia|]. rewrite P in E2 by assumption. discriminate. }
    rewrite !elem_of_cons, elem_of_nil in C.
    destruct (N.lt_ge_cases r 32) as [L|L].
    - assert (K : r = 8 \/ r = 9 \/ r = 10 \/ r = 12 \/ r = 13) by (destruct C as [[? ?]|C]; [lia|tauto]).
      destruct K as [->|[->|[->|[->| ->]]]]; cbn -[escapes]; apply jc_escape; try exact J; unfold escapes; (apply (bool_decide_unpack _); vm_compute; exact I).
    - assert (K : 128 <= r < 65536) by (destruct C as [[? ?]|C]; lia).
      assert (E : forall n, n < 128 -> (r =? n) = false) by (intros; apply N.eqb_neq; lia).
      rewrite !E by lia. replace (r <? 32) with false by (symmetry; apply N.ltb_ge; lia).
      replace (r <? 65536) with true by (symmetry; apply N.ltb_lt; lia). cbn [orb].
      destruct (hex4 r ltac:(lia)) as (a & b & c & d & -> & F). cbn [app]. change (txt "\u") with [92; 117]. cbn [app].
      apply (jc_unicode _ _ _ _ r); assumption.
  Qed.

  (** A character that is not clean is not passed by the scanner. *)
  Lemma quote_dirty c t : ~ clean_char printable c -> steps In (qc c ++ t) = None.
  Proof.
    destruct c as [r|b]; [|reflexivity]. cbn [clean_char quote_char]. intros C. unfold quote_rune.
    destruct ((r =? 34) || (r =? 92)) eqn:E1.
    { exfalso. apply C. split; [|intros; apply Bool.orb_true_iff in E1 as [->%N.eqb_eq| ->%N.eqb_eq]; lia].
      apply Bool.orb_true_iff in E1 as [->%N.eqb_eq| ->%N.eqb_eq]; lia. }
    destruct (is_print printable r) eqn:E2.
    { exfalso. apply C. unfold is_print in E2. destruct (r <? 128) eqn:L.
      - apply Bool.andb_true_iff in E2 as [L1%N.leb_le L2%N.leb_le]. apply N.ltb_lt in L. split; [left; split; lia|lia].
      - apply N.ltb_ge in L. split; [left; split; lia|intros; exact E2]. }
    destruct (r =? 7); [reflexivity|].
    destruct (r =? 8) eqn:E8; [apply N.eqb_eq in E8 as ->; exfalso; apply C; split; [right; (apply (bool_decide_unpack _); vm_compute; exact I)|lia]|].
    destruct (r =? 12) eqn:E12; [apply N.eqb_eq in E12 as ->; exfalso; apply C; split; [right; (apply (bool_decide_unpack _); vm_compute; exact I)|lia]|].
    destruct (r =? 10) eqn:E10; [apply N.eqb_eq in E10 as ->; exfalso; apply C; split; [right; (apply (bool_decide_unpack _); vm_compute; exact I)|lia]|].
    destruct (r =? 13) eqn:E13; [apply N.eqb_eq in E13 as ->; exfalso; apply C; split; [right; (apply (bool_decide_unpack _); vm_compute; exact I)|lia]|].
    destruct (r =? 9) eqn:E9; [apply N.eqb_eq in E9 as ->; exfalso; apply C; split; [right; (apply (bool_decide_unpack _); vm_compute; exact I)|lia]|].
    destruct (r =? 11); [reflexivity|].
    destruct ((r <? 32) || (r =? 127)) eqn:E; [reflexivity|]. apply Bool.orb_false_iff in E as [L%N.ltb_ge NE%N.eqb_neq].
    destruct (r <? 65536) eqn:L2; [|reflexivity]. apply N.ltb_lt in L2. exfalso. apply C. split; [left; auto|lia].
  Qed.

  Lemma quote_body s : clean printable s -> well_formed s -> jchars (List.concat (map qc s)) (runes s).
  Proof.
    intros C W. induction s as [|c s IH]; [constructor|]. apply Forall_cons in C as [C1 C2]. apply Forall_cons in W as [W1 W2].
    cbn [map List.concat]. destruct (quote_clean c (List.concat (map qc s)) (runes s) C1) as (r & -> & J); [destruct c; tauto|now apply IH|]. exact J.
  Qed.
  Lemma quote_string s : clean printable s -> well_formed s -> jstring (quote printable s) (runes s).
  Proof. intros C W. exists (List.concat (map qc s)). split; [reflexivity|]. now apply quote_body. Qed.
  Lemma clean_char_dec c : clean_char printable c \/ ~ clean_char printable c.
  Proof.
    destruct c as [x|b]; [|right; auto]. cbn.
    destruct (decide (x ∈ [8; 9; 10; 12; 13])), (decide (32 <= x)), (decide (x = 127)), (decide (65536 <= x)), (printable x); try tauto;
      try (left; split; [tauto|intros; congruence || lia]); try (right; intros [A B]; first [destruct A; tauto|specialize (B ltac:(assumption)); congruence]).
  Qed.
  Lemma clean_dec s : clean printable s \/ ~ clean printable s.
  Proof.
    induction s as [|c s IH]; [left; constructor|]. destruct (clean_char_dec c) as [C|C]; [|right; intros [? _]%Forall_cons; tauto].
    destruct IH as [IH|IH]; [left; now constructor|right; intros [_ ?]%Forall_cons; tauto].
  Qed.
  Lemma quote_passes s r : well_formed s -> steps Out (quote printable s ++ r) <> None -> clean printable s.
  Proof.
    intros W H. unfold quote in H. rewrite <- !app_assoc in H. cbn [app] in H. rewrite (steps_step Out 34 In) in H by reflexivity.
    induction s as [|c s IH]; [constructor|]. apply Forall_cons in W as [W1 W2]. cbn [map List.concat] in H. rewrite <- app_assoc in H.
    pose proof (clean_char_dec c) as D.
    destruct D as [D|D]; [|now rewrite quote_dirty in H].
    apply Forall_cons. split; [exact D|]. apply IH; [exact W2|].
    destruct (quote_clean c [] [] D) as (x & -> & J); [destruct c; tauto|constructor|]. rewrite app_nil_r in J.
    now rewrite (jchars_steps _ _ _ J) in H.
  Qed.

  (** ** Objects *)
  Lemma clean_dec_all {A} (l : list A) (f : A -> gostring) :
    Forall (fun x => clean printable (f x)) l \/ ~ Forall (fun x => clean printable (f x)) l.
  Proof.
    induction l as [|x l IH]; [left; constructor|].
    destruct (clean_dec (f x)) as [C|C]; [|right; intros [? _]%Forall_cons; tauto].
    destruct IH as [IH|IH]; [left; now constructor|right; intros [_ ?]%Forall_cons; tauto].
  Qed.

  Lemma jmembers_app t1 ms1 t2 ms2 : jmembers t1 ms1 -> jmembers t2 ms2 -> jmembers (t1 ++ [44] ++ t2) (ms1 ++ ms2).
  Proof.
    intros H J. induction H as [k s t v K V|k s t v r ms K V M IH].
    - change ([(s, v)] ++ ms2) with ((s, v) :: ms2). rewrite <- !app_assoc. now apply jm_more.
    - change (((s, v) :: ms) ++ ms2) with ((s, v) :: (ms ++ ms2)). rewrite <- !app_assoc. now apply jm_more.
  Qed.
  Lemma jobj_inv b ms : jval b (JObj ms) ->
    (b = [123; 125] /\ ms = []) \/ (exists t, b = 123 :: t ++ [125] /\ jmembers t ms /\ t <> [] /\ ms <> []).
  Proof.
    intros H. inversion H as [| | | | | | | |t ms' M]; subst; [left; auto|right]. exists t. split; [reflexivity|]. split; [exact M|].
    destruct M as [k s t v (k' & -> & _) _|k s t v r ms (k' & -> & _) _ _]; (split; [cbn; discriminate|discriminate]).
  Qed.

  (** v3 *)
  Lemma append_v3_app sep b adds : append_v3 printable sep b adds = b ++ append_v3 printable sep [] adds.
  Proof.
    revert sep b. induction adds as [|[k v] adds IH]; intros sep b; cbn [append_v3]; [now rewrite app_nil_r|].
    rewrite IH. rewrite (IH true ((if sep then [] ++ [44] else []) ++ _)). rewrite !app_assoc. f_equal. destruct sep; [|now rewrite !app_nil_r].
    cbn [app]. now rewrite <- !app_assoc.
  Qed.
  Lemma append_v3_cons sep k v adds : append_v3 printable sep [] ((k, v) :: adds) =
    ((if sep then [44] else []) ++ quote printable k ++ [58] ++ v ++ append_v3 printable true [] adds).
  Proof. cbn [append_v3]. rewrite append_v3_app. destruct sep; cbn [app]; rewrite <- !app_assoc; reflexivity. Qed.

  Lemma append_v3_members (adds : list (gostring * text)) (vals : list json) :
    Forall2 (fun kv v => jval kv.2 v) adds vals -> Forall (fun kv => clean printable kv.1 /\ well_formed kv.1) adds ->
    adds <> [] -> jmembers (append_v3 printable false [] adds) (zip (map (fun kv => runes kv.1) adds) vals) /\
      append_v3 printable true [] adds = [44] ++ append_v3 printable false [] adds.
  Proof.
    intros F. induction F as [|[k t] v adds vals V F IH]; intros C N; [congruence|]. apply Forall_cons in C as [[C W] C'].
    rewrite !append_v3_cons. split; [|reflexivity]. cbn [app map zip_with fst]. destruct adds as [|a adds].
    - inversion F; subst. cbn [append_v3]. rewrite app_nil_r. apply (jm_one (quote printable k)); [now apply quote_string|exact V].
    - destruct (IH C') as [M E]; [discriminate|]. rewrite E. apply (jm_more (quote printable k) (runes k) t v).
      + now apply quote_string. + exact V. + exact M.
  Qed.
  Lemma marshal_v3_valid b ms (adds : list (gostring * text)) (vals : list json) : jval b (JObj ms) ->
    Forall2 (fun kv v => jval kv.2 v) adds vals -> Forall (fun kv => clean printable kv.1 /\ well_formed kv.1) adds ->
    jval (marshal_v3 printable b adds) (JObj (ms ++ zip (map (fun kv => runes kv.1) adds) vals)).
  Proof.
    intros J F C. destruct (decide (adds = [])) as [->|N].
    { inversion F; subst. cbn. rewrite app_nil_r. unfold marshal_v3. cbn.
      assert (E : removelast b ++ [125] = b); [|rewrite E; exact J].
      destruct (jobj_inv _ _ J) as [[-> _]|(t & -> & _)]; [reflexivity|].
      change (123 :: t ++ [125]) with ((123 :: t) ++ [125]). now rewrite removelast_last. }
    destruct (append_v3_members adds vals F C N) as [M E]. unfold marshal_v3.
    destruct (jobj_inv _ _ J) as [[-> ->]|(t & -> & Mt & Nt & _)].
    - cbn [removelast List.length Nat.ltb Nat.leb]. rewrite append_v3_app. cbn [app]. apply (jv_obj _ _ M).
    - change (123 :: t ++ [125]) with ((123 :: t) ++ [125]). rewrite removelast_last. rewrite append_v3_app.
      assert (Nat.ltb 1 (List.length (123 :: t)) = true) as ->.
      { destruct t; [congruence|]. reflexivity. }
      rewrite E. pose proof (jv_obj _ _ (jmembers_app _ _ _ _ Mt M)) as H. exact H.
  Qed.

  Lemma append_v3_passes sep adds r (vals : list json) :
    Forall2 (fun kv v => jval kv.2 v) adds vals -> Forall (fun kv => well_formed kv.1) adds ->
    steps Out (append_v3 printable sep [] adds ++ r) <> None -> Forall (fun kv => clean printable kv.1) adds.
  Proof.
    intros F. revert sep. induction F as [|[k t] v adds vals V F IH]; intros sep W H; [constructor|].
    apply Forall_cons in W as [W1 W2]. rewrite append_v3_cons in H. rewrite <- !app_assoc in H.
    assert (H' : steps Out (quote printable k ++ [58] ++ t ++ append_v3 printable true [] adds ++ r) <> None).
    { destruct sep; [|exact H]. cbn [app] in H. now rewrite (steps_step Out 44 Out) in H. }
    assert (C : clean printable k) by (eapply quote_passes; [exact W1|exact H']).
    constructor; [exact C|]. apply (IH true W2). rewrite (jstring_steps _ (runes k)) in H' by now apply quote_string.
    cbn [app] in H'. rewrite (steps_step Out 58 Out) in H' by reflexivity. now rewrite (jval_steps _ v) in H'.
  Qed.
  Lemma prefix_steps b ms r : jval b (JObj ms) -> steps Out (removelast b ++ r) = steps Out r.
  Proof.
    intros J. destruct (jobj_inv _ _ J) as [[-> ->]|(t & -> & Mt & _)]; [reflexivity|].
    change (123 :: t ++ [125]) with ((123 :: t) ++ [125]). rewrite removelast_last. cbn [app]. rewrite (steps_step Out 123 Out) by reflexivity.
    apply (proj2 (proj2 json_steps) _ _ Mt).
  Qed.
  Lemma marshal_v3_only b ms adds (vals : list json) j : jval b (JObj ms) ->
    Forall2 (fun kv v => jval kv.2 v) adds vals -> Forall (fun kv => well_formed kv.1) adds ->
    jval (marshal_v3 printable b adds) j -> Forall (fun kv => clean printable kv.1) adds.
  Proof.
    intros J F W V. apply jval_passes in V. unfold marshal_v3 in V. rewrite append_v3_app, <- app_assoc, (prefix_steps _ _ _ J) in V.
    eapply append_v3_passes; [exact F|exact W|]. now rewrite V.
  Qed.

  (** v2 *)
  Notation v2_good := (v2_good printable).
  Definition v2_tail (adds : list (gostring * v2value)) : text :=
    List.concat (map (fun kv => [44] ++ quote printable kv.1 ++ [58] ++ fmt_q printable kv.2) adds).
  Lemma marshal_v2_eq b adds : marshal_v2 printable b adds = removelast b ++ v2_tail adds ++ [125].
  Proof.
    unfold marshal_v2. rewrite app_assoc. f_equal. generalize (removelast b) as c.
    induction adds as [|kv adds IH]; intros c; cbn [fold_left]; [unfold v2_tail; cbn; now rewrite app_nil_r|].
    rewrite IH. unfold v2_tail. cbn [map List.concat]. now rewrite <- !app_assoc.
  Qed.
  Lemma v2_members (adds : list (gostring * v2value)) :
    Forall (fun kv => (clean printable kv.1 /\ well_formed kv.1) /\ v2_good kv.2 /\ v2_wf kv.2) adds -> adds <> [] ->
    exists t, v2_tail adds = [44] ++ t /\ jmembers t (map (fun kv => (runes kv.1, v2_json kv.2)) adds).
  Proof.
    induction 1 as [|[k v] adds [[C W] [G W']] F IH]; intros N; [congruence|]. cbn [fst snd] in *.
    destruct v as [s| |]; [|destruct G|destruct G]. cbn in G, W'.
    assert (V : jval (quote printable s) (JStr (runes s))) by (apply jv_str; now apply quote_string).
    destruct adds as [|a adds].
    - unfold v2_tail. cbn [map List.concat fst snd fmt_q]. rewrite app_nil_r. eexists. split; [reflexivity|].
      apply jm_one; [now apply quote_string|exact V].
    - destruct IH as (t & E & M); [discriminate|]. unfold v2_tail in *. cbn [map List.concat fst snd fmt_q] in *. rewrite E.
      eexists. split; [rewrite <- !app_assoc; reflexivity|].
      apply (jm_more (quote printable k)); [now apply quote_string|exact V|exact M].
  Qed.
  Lemma marshal_v2_valid b ms adds : jval b (JObj ms) -> ms <> [] ->
    Forall (fun kv => (clean printable kv.1 /\ well_formed kv.1) /\ v2_good kv.2 /\ v2_wf kv.2) adds ->
    jval (marshal_v2 printable b adds) (JObj (ms ++ map (fun kv => (runes kv.1, v2_json kv.2)) adds)).
  Proof.
    intros J N F. rewrite marshal_v2_eq. destruct (jobj_inv _ _ J) as [[-> ->]|(t & -> & Mt & Nt & _)]; [congruence|].
    change (123 :: t ++ [125]) with ((123 :: t) ++ [125]) in *. rewrite removelast_last.
    destruct (decide (adds = [])) as [->|Na]; [cbn; rewrite app_nil_r; exact J|].
    destruct (v2_members _ F Na) as (t' & -> & M).
    pose proof (jv_obj _ _ (jmembers_app _ _ _ _ Mt M)) as H. cbn [app] in *. rewrite <- app_assoc in H. exact H.
  Qed.
  Lemma v2_passes adds r : Forall (fun kv => well_formed kv.1 /\ v2_wf kv.2) adds ->
    steps Out (v2_tail adds ++ r) <> None -> Forall (fun kv => clean printable kv.1 /\ v2_good kv.2) adds.
  Proof.
    induction 1 as [|[k v] adds [W W'] F IH]; intros H; [constructor|]. cbn [fst snd] in *. unfold v2_tail in H. cbn [map List.concat fst snd] in H.
    rewrite <- !app_assoc in H. cbn [app] in H. rewrite (steps_step Out 44 Out) in H by reflexivity.
    assert (C : clean printable k) by (eapply quote_passes; [exact W|exact H]).
    rewrite (jstring_steps _ (runes k)) in H by now apply quote_string. rewrite (steps_step Out 58 Out) in H by reflexivity.
    destruct v as [s|t|t]; [|destruct (H eq_refl)|destruct (H eq_refl)]. cbn [fmt_q] in H.
    assert (C' : clean printable s) by (eapply quote_passes; [exact W'|exact H]).
    rewrite (jstring_steps _ (runes s)) in H by now apply quote_string.
    constructor; [split; assumption|]. now apply IH.
  Qed.
  Lemma jval_comma t v : ~ jval (123 :: 44 :: t) v.
  Proof.
    intros H. inversion H as [| | |t' [_ N]|t' s (k & E & _)| | | |t' ms M E]; subst.
    - apply Forall_cons in N as [N _]. apply (bool_decide_pack _) in N. vm_compute in N. destruct N.
    - discriminate E.
    - destruct M as [k s x v (k' & -> & _) _|k s x v r ms (k' & -> & _) _ _]; discriminate E.
  Qed.
  Lemma marshal_v2_only b ms adds j : jval b (JObj ms) -> Forall (fun kv => well_formed kv.1 /\ v2_wf kv.2) adds ->
    jval (marshal_v2 printable b adds) j -> (ms <> [] \/ adds = []) /\ Forall (fun kv => clean printable kv.1 /\ v2_good kv.2) adds.
  Proof.
    intros J W V. rewrite marshal_v2_eq in V. split.
    - destruct adds as [|kv adds]; [now right|]. left. intros ->. destruct (jobj_inv _ _ J) as [[-> _]|(t & _ & _ & _ & N)]; [|congruence].
      cbn in V. now apply jval_comma in V.
    - apply jval_passes in V. rewrite (prefix_steps _ _ _ J) in V. eapply v2_passes; [exact W|]. now rewrite V.
  Qed.
End Quote.
