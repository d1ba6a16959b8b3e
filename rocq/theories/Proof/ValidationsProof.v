From stdpp Require Import list strings.
From Coq Require Import NArith Ascii String Lia.
From Verif.Model Require Import Validations.
From Verif.Spec Require Import ValidationsSpec.

(** ** Merge *)
Section merge.
  Context {F T : Type} (is0 : F -> bool).
  Notation merge := (merge (T := T) is0).
  Notation get := (get (T := T) is0).

  Lemma over_list_nil {A} (l : list A) : over_list l [] = l. Proof. reflexivity. Qed.
  Lemma over_list_cons {A} (l : list A) a r : over_list l (a :: r) = a :: r. Proof. reflexivity. Qed.

  Lemma merge_get k v n :
    get k (merge v n) = match get k n with Some x => Some x | None => get k v end.
  Proof.
    destruct k; cbn [ValidationsSpec.get Validations.merge vRequired vMultipleOf vMaximum vExclusiveMaximum
      vMinimum vExclusiveMinimum vMaxLength vMinLength vPattern vMaxItems vMinItems vUniqueItems
      vMaxProperties vMinProperties vEnum vConst vAllOf vAnyOf vOneOf vIsRequired vShouldOmitEmpty];
    unfold set_float, over_float, over_bool, over_ptr.
    all: try (match goal with |- set_list _ (over_list _ ?l) = _ => destruct l; reflexivity end).
    all: try (match goal with |- set_nat (over_uint _ ?l) = _ => destruct l; reflexivity end).
    all: try (match goal with |- context [is0 (if negb (is0 ?x) then _ else _)] =>
                destruct (is0 x) eqn:?; cbn [negb]; [reflexivity|]; now rewrite Heqb end).
    - destruct (vPattern n); reflexivity.
    - destruct (vUniqueItems n); reflexivity.
    - destruct (vConst n); reflexivity.
    - destruct (vIsRequired n); reflexivity.
    - destruct (vShouldOmitEmpty n); reflexivity.
  Qed.

  Lemma over_list_assoc {A} (a b c : list A) : over_list (over_list a b) c = over_list a (over_list b c).
  Proof. destruct c; [reflexivity|]. rewrite !over_list_cons. reflexivity. Qed.
  Lemma over_uint_assoc a b c : over_uint (over_uint a b) c = over_uint a (over_uint b c).
  Proof. destruct c; reflexivity. Qed.
  Lemma over_float_assoc a b c : over_float is0 (over_float is0 a b) c = over_float is0 a (over_float is0 b c).
  Proof. unfold over_float. destruct (is0 c) eqn:E; cbn [negb]; [reflexivity|]. now rewrite E. Qed.
  Lemma over_string_assoc a b c : over_string (over_string a b) c = over_string a (over_string b c).
  Proof. destruct c; reflexivity. Qed.
  Lemma over_bool_assoc a b c : over_bool (over_bool a b) c = over_bool a (over_bool b c).
  Proof. destruct c; reflexivity. Qed.
  Lemma over_ptr_assoc {A} (a b c : option A) : over_ptr (over_ptr a b) c = over_ptr a (over_ptr b c).
  Proof. destruct c; reflexivity. Qed.

  Lemma merge_assoc a b c : merge (merge a b) c = merge a (merge b c).
  Proof.
    unfold Validations.merge. cbn.
    rewrite !over_list_assoc, !over_uint_assoc, !over_float_assoc, !over_string_assoc, !over_bool_assoc, !over_ptr_assoc.
    reflexivity.
  Qed.

  Lemma merge_self v : merge v v = v.
  Proof.
    destruct v as [a1 a2 a3 a4 a5 a6 a7 a8 a9 b1 b2 b3 b4 b5 b6 b7 b8 b9 c1 c2 c3].
    unfold Validations.merge. cbn -[over_list over_uint over_float over_string over_bool over_ptr].
    f_equal.
    all: try (match goal with |- over_list ?l _ = _ => destruct l; reflexivity end).
    all: try (match goal with |- over_uint ?l _ = _ => destruct l; reflexivity end).
    all: try (match goal with |- over_string ?l _ = _ => destruct l; reflexivity end).
    all: try (match goal with |- over_bool ?l _ = _ => destruct l; reflexivity end).
    all: try (match goal with |- over_ptr ?l _ = _ => destruct l; reflexivity end).
    all: unfold over_float; case_match; reflexivity.
  Qed.
End merge.

(** ** Strings *)
Local Open Scope string_scope.

Lemma las_app a b : list_ascii_of_string (a ++ b) = (list_ascii_of_string a ++ list_ascii_of_string b)%list.
Proof.
  induction a as [|c a IH]; [reflexivity|]. change (String c a ++ b) with (String c (a ++ b)). cbn. now rewrite IH.
Qed.

Definition sforall (p : ascii -> bool) (s : string) : Prop := forallb p (list_ascii_of_string s) = true.

Lemma sforall_app p a b : sforall p (a ++ b) <-> sforall p a /\ sforall p b.
Proof. unfold sforall. rewrite las_app, forallb_app, andb_true_iff. reflexivity. Qed.
Lemma sforall_cons p c s : sforall p (String c s) <-> p c = true /\ sforall p s.
Proof. unfold sforall. cbn [list_ascii_of_string forallb]. rewrite andb_true_iff. reflexivity. Qed.
Lemma sforall_nil p : sforall p "".
Proof. reflexivity. Qed.
Lemma sforall_impl p q s : (forall c, p c = true -> q c = true) -> sforall p s -> sforall q s.
Proof.
  intros H. induction s as [|c s IH]; [intros; reflexivity|]. rewrite !sforall_cons. intros [H1 H2]. auto.
Qed.
Lemma sforall_concat p sep l : sforall p sep -> Forall (sforall p) l -> sforall p (String.concat sep l).
Proof.
  intros Hs F. induction F as [|x l Hx F IH]; [reflexivity|].
  destruct l as [|y l]; [exact Hx|].
  change (String.concat sep (x :: y :: l)) with (x ++ sep ++ String.concat sep (y :: l)).
  rewrite !sforall_app. auto.
Qed.

Lemma cut_app (p : ascii -> bool) a c b :
  sforall (fun x => negb (p x)) a -> p c = true -> cut p (a ++ String c b) = Some (a, b).
Proof.
  intros Ha Hc. induction a as [|x a IH].
  - change ("" ++ String c b) with (String c b). cbn. now rewrite Hc.
  - apply sforall_cons in Ha as [Hx Ha]. change (String x a ++ String c b) with (String x (a ++ String c b)).
    cbn [cut]. apply negb_true_iff in Hx. rewrite Hx, IH by exact Ha. reflexivity.
Qed.

Lemma cut_none (p : ascii -> bool) a : sforall (fun x => negb (p x)) a -> cut p a = None.
Proof.
  intros Ha. induction a as [|x a IH]; [reflexivity|].
  apply sforall_cons in Ha as [Hx Ha]. cbn [cut]. apply negb_true_iff in Hx. rewrite Hx, IH by exact Ha. reflexivity.
Qed.

Lemma existsb_none c s : sforall (fun x => negb (Ascii.eqb c x)) s ->
  existsb (Ascii.eqb c) (list_ascii_of_string s) = false.
Proof.
  intros H. induction s as [|x s IH]; [reflexivity|].
  apply sforall_cons in H as [Hx H]. cbn. apply negb_true_iff in Hx. rewrite Hx. auto.
Qed.

Definition tagsafe (c : ascii) : bool := negb (Ascii.eqb dquote c) && negb (Ascii.eqb backslash c).

Lemma split_on_text sep a s : sforall (fun x => negb (Ascii.eqb x sep)) a ->
  split_on sep (a ++ s) = match split_on sep s with x :: xs => (a ++ x) :: xs | [] => [a] end.
Proof.
  intros Ha. assert (NN : forall t, split_on sep t <> []).
  { intros t. destruct t; cbn [split_on]; [congruence|]. case_match; [congruence|]. case_match; congruence. }
  induction a as [|c a IH].
  - change ("" ++ s) with s. destruct (split_on sep s) eqn:E; [exfalso; exact (NN s E)|reflexivity].
  - apply sforall_cons in Ha as [Hc Ha]. change (String c a ++ s) with (String c (a ++ s)). cbn [split_on].
    apply negb_true_iff in Hc. rewrite Hc, IH by exact Ha.
    destruct (split_on sep s) eqn:E; [exfalso; exact (NN s E)|reflexivity].
Qed.

Lemma app_nil_r_s a : a ++ "" = a.
Proof. induction a as [|c a IH]; [reflexivity|]. change (String c a ++ "") with (String c (a ++ "")). now rewrite IH. Qed.
Lemma app_assoc_s a b c : (a ++ b) ++ c = a ++ b ++ c.
Proof. induction a as [|x a IH]; [reflexivity|]. change (String x (a ++ b) ++ c = String x (a ++ b ++ c)).
  change (String x (a ++ b) ++ c) with (String x ((a ++ b) ++ c)). now rewrite IH. Qed.
Lemma length_app_s a b : String.length (a ++ b) = (String.length a + String.length b)%nat.
Proof. induction a as [|c a IH]; [reflexivity|]. change (String c a ++ b) with (String c (a ++ b)). cbn. now rewrite IH. Qed.

Lemma split_join ds : ds <> [] -> Forall (sforall (fun x => negb (Ascii.eqb x comma))) ds ->
  split_on comma (String.concat "," ds) = ds.
Proof.
  intros Hn F. induction F as [|d ds Hd F IH]; [congruence|].
  destruct ds as [|d2 ds].
  - cbn [String.concat]. rewrite <- (app_nil_r_s d) at 1. rewrite split_on_text by exact Hd. cbn. now rewrite app_nil_r_s.
  - change (String.concat "," (d :: d2 :: ds)) with (d ++ String comma (String.concat "," (d2 :: ds))).
    rewrite split_on_text by exact Hd. cbn [split_on]. change (Ascii.eqb comma comma) with true. cbn iota.
    rewrite IH by congruence. now rewrite app_nil_r_s.
Qed.

(** One pair [name:"value"] at the head of a tag. *)
Lemma lookup_tag_pair fuel key name value rest :
  skip_spaces (name ++ String ":"%char (String dquote (value ++ String dquote rest))) =
    name ++ String ":"%char (String dquote (value ++ String dquote rest)) ->
  sforall (fun x => negb (Ascii.eqb ":"%char x)) name -> sforall tagsafe value ->
  lookup_tag (S fuel) key (name ++ String ":"%char (String dquote (value ++ String dquote rest))) =
  if String.eqb name key then Some value else lookup_tag fuel key rest.
Proof.
  intros Hsp Hn Hv. cbn [lookup_tag]. rewrite Hsp.
  rewrite cut_app by (try exact Hn; reflexivity).
  change (Ascii.eqb dquote dquote) with true. cbn iota.
  rewrite cut_app; [|eapply sforall_impl; [|exact Hv]; unfold tagsafe; intros c H; apply andb_prop in H; tauto|reflexivity].
  rewrite existsb_none; [reflexivity|].
  eapply sforall_impl; [|exact Hv]; unfold tagsafe; intros c H; apply andb_prop in H; tauto.
Qed.

Definition sq (s : string) : string := "'" ++ s ++ "'".

Lemma oneof_join l fuel : Forall no_quote l -> (String.length (String.concat " " (map sq l)) < fuel)%nat ->
  oneof_values fuel (String.concat " " (map sq l)) = l.
Proof.
  intros F. revert fuel. induction F as [|s l Hs F IH]; intros fuel HL.
  { destruct fuel; reflexivity. }
  destruct fuel as [|fuel]; [lia|].
  assert (Q : sforall (fun x => negb (Ascii.eqb "'"%char x)) s).
  { unfold no_quote in Hs. eapply sforall_impl; [|exact Hs]. intros c H. cbn beta in *.
    apply negb_true_iff in H. apply negb_true_iff. destruct (Ascii.eqb_spec "'"%char c); [subst; discriminate|reflexivity]. }
  cbn [map] in *.
  destruct (map sq l) as [|y ys] eqn:E.
  - cbn [String.concat] in *. change (sq s) with (String "'"%char (s ++ String "'"%char "")) in *.
    cbn [oneof_values skip_spaces]. change (Ascii.eqb "'" " ")%char with false. cbn iota.
    change (Ascii.eqb "'" "'")%char with true. cbn iota. rewrite cut_app by (try exact Q; reflexivity).
    destruct l; [|discriminate]. destruct fuel; reflexivity.
  - change (String.concat " " (sq s :: y :: ys)) with (sq s ++ " " ++ String.concat " " (y :: ys)) in *.
    change (sq s) with (String "'"%char (s ++ String "'"%char "")) in *.
    assert (R : String "'"%char (s ++ String "'"%char "") ++ " " ++ String.concat " " (y :: ys) =
                String "'"%char (s ++ String "'"%char (" " ++ String.concat " " (y :: ys)))).
    { change (String "'"%char (s ++ String "'"%char "") ++ " " ++ String.concat " " (y :: ys)) with
        (String "'"%char ((s ++ String "'"%char "") ++ " " ++ String.concat " " (y :: ys))).
      rewrite app_assoc_s. reflexivity. }
    rewrite R in *. cbn [oneof_values skip_spaces]. change (Ascii.eqb "'" " ")%char with false. cbn iota.
    change (Ascii.eqb "'" "'")%char with true. cbn iota. rewrite cut_app by (try exact Q; reflexivity).
    f_equal. 
    assert (G : forall fl t, oneof_values (S fl) (" " ++ t) = oneof_values (S fl) t) by reflexivity.
    cbn [String.length] in HL. rewrite length_app_s in HL. cbn [String.length] in HL. rewrite length_app_s in HL. cbn [String.length] in HL.
    destruct fuel as [|fuel]; [lia|]. rewrite G. apply IH. lia.
Qed.

(** ** Tags *)
Section tags.
  Context {F T : Type} (is0 : F -> bool) (show : F -> string) (of_uint : N -> F) (convert : string -> string).
  Notation validations := (validations F T).
  Notation field_tag := (field_tag is0 show of_uint convert).
  Notation json_tag := (json_tag convert).

  Definition json_value (v : validations) (field : string) : string :=
    String.concat "," (convert field :: if should_add_omit_empty v then ["omitempty"] else []).

  Lemma plain_safe s : plain s -> sforall tagsafe s.
  Proof.
    intros H. eapply sforall_impl; [|exact H]. intros c. unfold plain_char, tagsafe. cbn [existsb].
    rewrite !negb_orb, !andb_true_iff, !negb_true_iff. intros (H1 & H2 & H3 & _).
    split; [destruct (Ascii.eqb_spec dquote c)|destruct (Ascii.eqb_spec backslash c)]; subst; try reflexivity; discriminate.
  Qed.
  Lemma plain_nocomma s : plain s -> sforall (fun x => negb (Ascii.eqb x comma)) s.
  Proof.
    intros H. eapply sforall_impl; [|exact H]. intros c. unfold plain_char. cbn [existsb].
    rewrite !negb_orb, !andb_true_iff. tauto.
  Qed.
  Lemma plain_nobar s : plain s -> sforall (fun x => negb (Ascii.eqb "|"%char x)) s.
  Proof.
    intros H. eapply sforall_impl; [|exact H]. intros c. unfold plain_char. cbn [existsb].
    rewrite !negb_orb, !andb_true_iff, !negb_true_iff. intros (_ & _ & _ & H4 & _).
    destruct (Ascii.eqb_spec "|"%char c); [subst; discriminate|reflexivity].
  Qed.
  Lemma plain_app a b : plain (a ++ b) <-> plain a /\ plain b.
  Proof. exact (sforall_app plain_char a b). Qed.

  Lemma tagsafe_comma : sforall tagsafe ",". Proof. reflexivity. Qed.
  Lemma tagsafe_omitempty : sforall tagsafe "omitempty". Proof. reflexivity. Qed.

  Lemma json_value_safe v field : plain (convert field) -> sforall tagsafe (json_value v field).
  Proof.
    intros H. unfold json_value. apply sforall_concat; [exact tagsafe_comma|].
    constructor; [apply plain_safe; exact H|]. destruct (should_add_omit_empty v); repeat constructor.
  Qed.

  Lemma field_tag_shape (v : validations) field ptr ty :
    field_tag v field ptr ty =
    "json" ++ String ":"%char (String dquote (json_value v field ++ String dquote (validate_tag is0 show of_uint v ptr ty))).
  Proof.
    unfold Validations.field_tag, Validations.json_tag, json_value, join, quote.
    rewrite !app_assoc_s. reflexivity.
  Qed.

  Lemma tag_value_json (v : validations) field ptr ty : plain (convert field) ->
    tag_value "json" (field_tag v field ptr ty) = Some (json_value v field).
  Proof.
    intros H. unfold tag_value. rewrite field_tag_shape.
    rewrite lookup_tag_pair; [reflexivity|reflexivity|reflexivity|apply json_value_safe; exact H].
  Qed.

  Lemma json_fields (v : validations) field ptr ty go : plain (convert field) ->
    json_omitempty (field_tag v field ptr ty) = should_add_omit_empty v /\
    json_key go (field_tag v field ptr ty) =
      (if (String.eqb (convert field) "-" && negb (should_add_omit_empty v))%bool then None
       else Some (if json_name_ok (convert field) then convert field else go)).
  Proof.
    intros H. unfold json_omitempty, json_key. rewrite tag_value_json by exact H.
    assert (S : split_on comma (json_value v field) =
                convert field :: if should_add_omit_empty v then ["omitempty"] else []).
    { unfold json_value. apply split_join; [congruence|]. constructor; [apply plain_nocomma; exact H|].
      destruct (should_add_omit_empty v); repeat constructor. }
    rewrite S. split; [destruct (should_add_omit_empty v); reflexivity|].
    assert (X : String.eqb (json_value v field) "-" =
                (String.eqb (convert field) "-" && negb (should_add_omit_empty v))%bool).
    { unfold json_value. destruct (should_add_omit_empty v); cbn [negb].
      - rewrite andb_false_r. change (String.concat "," [convert field; "omitempty"]) with (convert field ++ ",omitempty").
        destruct (convert field) as [|c r]; [reflexivity|]. change (String c r ++ ",omitempty") with (String c (r ++ ",omitempty")).
        cbn [String.eqb]. destruct (Ascii.eqb c "-"); [|reflexivity]. destruct r; reflexivity.
      - rewrite andb_true_r. reflexivity. }
    rewrite X. destruct (String.eqb (convert field) "-" && negb (should_add_omit_empty v))%bool; [reflexivity|].
    destruct (json_name_ok (convert field)); reflexivity.
  Qed.

  Lemma validate_shape (v : validations) ptr ty ds :
    validate_directives is0 show of_uint v ptr ty = ds -> ds <> [] ->
    validate_tag is0 show of_uint v ptr ty =
    " " ++ "validate" ++ String ":"%char (String dquote
        (String.concat "," (if vIsRequired v then ds else "omitempty" :: ds) ++ String dquote "")).
  Proof.
    intros E Hn. unfold validate_tag. rewrite E. destruct ds; [congruence|].
    change (0 <? List.length (s :: ds))%nat with true. cbn iota. reflexivity.
  Qed.

  Lemma tag_value_validate (v : validations) field ptr ty ds :
    plain (convert field) -> validate_directives is0 show of_uint v ptr ty = ds ->
    Forall plain ds ->
    tag_value "validate" (field_tag v field ptr ty) =
    match ds with [] => None | _ => Some (String.concat "," (if vIsRequired v then ds else "omitempty" :: ds)) end.
  Proof.
    intros Hp E Hds. unfold tag_value. rewrite field_tag_shape.
    rewrite lookup_tag_pair; [|reflexivity|reflexivity|apply json_value_safe; exact Hp].
    change (String.eqb "json" "validate") with false. cbn iota.
    set (n := String.length _).
    assert (Hn : exists m, n = S (S m)). { unfold n. cbn. eauto. } destruct Hn as [m ->].
    destruct ds as [|d ds].
    - unfold validate_tag. rewrite E. reflexivity.
    - rewrite (validate_shape v ptr ty (d :: ds) E ltac:(congruence)).
      change (lookup_tag (S (S m)) "validate" (" " ++ ?x)) with (lookup_tag (S (S m)) "validate" x).
      rewrite lookup_tag_pair; [reflexivity|reflexivity|reflexivity|].
      assert (Sf : Forall (sforall tagsafe) (d :: ds)).
      { eapply Forall_impl; [exact Hds|]. intros s. apply plain_safe. }
      apply sforall_concat; [exact tagsafe_comma|].
      destruct (vIsRequired v); [exact Sf|]. constructor; [exact tagsafe_omitempty|exact Sf].
  Qed.

  (** One directive. *)
  Lemma read_param name p : sforall (fun x => negb (Ascii.eqb "="%char x)) name -> plain (name ++ "=" ++ p) ->
    read_directive (name ++ "=" ++ p) = Some (name, Some p).
  Proof.
    intros Hn Hp. unfold read_directive. rewrite existsb_none by (apply plain_nobar; exact Hp).
    change (name ++ "=" ++ p) with (name ++ String "="%char p). now rewrite cut_app.
  Qed.

  (** [reads ds ws]: each written directive is read as one of the wanted ones. *)
  Definition reads (ws : list (directive F)) (ds : list string) : Prop :=
    Forall plain ds /\ exists rs, mapM read_directive ds = Some rs /\ Forall2 (meaning show) ws rs.

  Lemma reads_nil : reads [] [].
  Proof. split; [constructor|]. exists []. split; [reflexivity|constructor]. Qed.

  Lemma reads_app ws1 ws2 ds1 ds2 : reads ws1 ds1 -> reads ws2 ds2 -> reads (ws1 ++ ws2)%list (ds1 ++ ds2)%list.
  Proof.
    intros [P1 (r1 & E1 & F1)] [P2 (r2 & E2 & F2)]. split; [apply Forall_app; auto|].
    exists (r1 ++ r2)%list. split; [|apply Forall2_app; assumption].
    clear -E1 E2. revert r1 E1. induction ds1 as [|d ds1 IH]; intros r1 E1.
    - cbn in E1. injection E1 as <-. exact E2.
    - change (mapM read_directive (d :: ds1)) with (x ← read_directive d; k ← mapM read_directive ds1; mret (x :: k)) in E1.
      destruct (read_directive d) as [x|] eqn:D; [|discriminate]. cbn in E1.
      destruct (mapM read_directive ds1) as [k|] eqn:M; [|discriminate]. cbn in E1. injection E1 as <-.
      change (mapM read_directive ((d :: ds1) ++ ds2)%list) with (x ← read_directive d; k ← mapM read_directive (ds1 ++ ds2)%list; mret (x :: k)).
      rewrite D. cbn. rewrite (IH k eq_refl). reflexivity.
  Qed.

  Lemma reads_one w d r : plain d -> read_directive d = Some r -> meaning show w r -> reads [w] [d].
  Proof.
    intros P E M. split; [constructor; [exact P|constructor]|]. exists [r].
    split; [|constructor; [exact M|constructor]].
    change (mapM read_directive [d]) with (x ← read_directive d; mret [x]). now rewrite E.
  Qed.

  Notation num_ok := (num_ok is0).
  Notation uint_ok := (uint_ok is0 of_uint).

  Lemma reads_number name w o zero :
    plain name -> sforall (fun x => negb (Ascii.eqb "="%char x)) name ->
    is0 zero = true -> num_ok o -> (forall x, plain (show x)) ->
    (forall x, meaning show (w x) (name, Some (show x))) ->
    reads (opt o w) (directive_if_defined is0 show name (default zero o)).
  Proof.
    intros Pn Hn Hz Ho Hs Hw. unfold directive_if_defined. destruct o as [x|]; cbn [ValidationsSpec.num_ok default from_option id opt] in *.
    - rewrite Ho. cbn [negb]. assert (P : plain (name ++ "=" ++ show x)).
      { apply plain_app. split; [exact Pn|]. apply plain_app. split; [reflexivity|apply Hs]. }
      eapply reads_one; [exact P|apply read_param; assumption|apply Hw].
    - rewrite Hz. apply reads_nil.
  Qed.

  Lemma reads_uint name (w : F -> directive F) o :
    plain name -> sforall (fun x => negb (Ascii.eqb "="%char x)) name ->
    is0 (of_uint 0) = true -> uint_ok o -> (forall x, plain (show x)) ->
    (forall x, meaning show (w x) (name, Some (show x))) ->
    reads (opt o (fun n => w (of_uint n))) (directive_if_defined is0 show name (of_uint (default 0%N o))).
  Proof.
    intros Pn Hn Hz Ho Hs Hw.
    pose proof (reads_number name w (of_uint <$> o) (of_uint 0) Pn Hn Hz) as R.
    destruct o as [n|]; cbn in *; apply R; auto.
  Qed.

  Lemma enum_strings_some l ss : strings_only l = Some ss -> enum_strings l = map sq ss.
  Proof.
    revert ss. induction l as [|a l IH]; intros ss; unfold strings_only.
    - intros [= <-]. reflexivity.
    - change (mapM ?f (a :: l)) with (x ← f a; k ← mapM f l; mret (x :: k)).
      destruct a as [s|]; [|discriminate]. cbn [mbind option_bind].
      fold (strings_only l). destruct (strings_only l) as [k|]; [|discriminate]. cbn. intros [= <-].
      cbn [map flat_map enum_strings]. unfold enum_strings in *. cbn. rewrite (IH k eq_refl). reflexivity.
  Qed.

  Lemma enum_strings_length l : (List.length (enum_strings l) <= List.length l)%nat /\
    (strings_only l = None -> (List.length (enum_strings l) < List.length l)%nat).
  Proof.
    induction l as [|a l [IH1 IH2]]; unfold strings_only.
    - split; [cbn; lia|discriminate].
    - change (mapM ?f (a :: l)) with (x ← f a; k ← mapM f l; mret (x :: k)).
      unfold enum_strings in *. cbn [flat_map]. rewrite app_length.
      destruct a as [s|]; cbn [List.length].
      + split; [lia|]. cbn [mbind option_bind]. fold (strings_only l).
        destruct (strings_only l) as [k|]; [discriminate|]. intros _. specialize (IH2 eq_refl). lia.
      + split; [lia|]. intros _. lia.
  Qed.

  Lemma strings_only_plain l ss :
    Forall (fun a => match a with JString s => plain s /\ no_quote s | JOther => True end) l ->
    strings_only l = Some ss -> Forall plain ss /\ Forall no_quote ss /\ List.length ss = List.length l.
  Proof.
    intros FA. revert ss. induction FA as [|a l Ha FA IH]; intros ss; unfold strings_only.
    - intros [= <-]. repeat constructor.
    - change (mapM ?f (a :: l)) with (x ← f a; k ← mapM f l; mret (x :: k)).
      destruct a as [s|]; [|discriminate]. cbn [mbind option_bind].
      fold (strings_only l). destruct (strings_only l) as [k|]; [|discriminate]. cbn. intros [= <-].
      destruct (IH k eq_refl) as (A & B & C). destruct Ha. cbn. refine (conj _ (conj _ _)); [constructor..|]; auto.
  Qed.

  Lemma reads_enum (v : validations) o :
    vEnum v = default [] o -> enum_ok o ->
    reads (opt (o ≫= strings_only) DOneOf) (enum_directives v).
  Proof.
    intros E Ho. unfold enum_directives. rewrite E. destruct o as [l|]; [|apply reads_nil].
    cbn [default mbind option_bind id from_option]. destruct Ho as [Hn Hf].
    destruct (enum_strings_length l) as [L1 L2].
    destruct (0 <? List.length l)%nat eqn:Z; [|apply Nat.ltb_ge in Z; destruct l; [congruence|cbn in Z; lia]].
    destruct (strings_only l) as [ss|] eqn:S; cbn [opt].
    - destruct (strings_only_plain l ss Hf S) as (P & Q & L).
      rewrite (enum_strings_some l ss S), map_length, L, Nat.eqb_refl.
      assert (PJ : plain (String.concat " " (map sq ss))).
      { apply sforall_concat; [reflexivity|]. rewrite Forall_map. eapply Forall_impl; [exact P|].
        intros s Hs. cbn beta. apply plain_app. split; [reflexivity|]. apply plain_app. split; [exact Hs|reflexivity]. }
      assert (PO : plain ("oneof=" ++ join " " (map sq ss))).
      { apply plain_app. split; [reflexivity|exact PJ]. }
      eapply reads_one; [exact PO|apply (read_param "oneof"); [reflexivity|exact PO]|].
      cbn [meaning]. eexists. split; [reflexivity|]. apply oneof_join; [exact Q|]. unfold join. lia.
    - specialize (L2 eq_refl). destruct (Nat.eqb_spec (List.length l) (List.length (enum_strings l))); [lia|].
      apply reads_nil.
  Qed.

  Lemma reads_const (v : validations) :
    match vConst v with Some (JString s) => plain s | _ => True end ->
    reads (opt (vConst v ≫= fun a => match a with JString s => Some s | JOther => None end) DEq) (const_directives v).
  Proof.
    intros H. unfold const_directives. destruct (vConst v) as [[s|]|]; cbn [mbind option_bind opt]; try apply reads_nil.
    assert (P : plain ("eq=" ++ s)) by (apply plain_app; split; [reflexivity|exact H]).
    eapply reads_one; [exact P|apply (read_param "eq"); [reflexivity|exact P]|reflexivity].
  Qed.

  Lemma read_of_reads (d : declared F) zero ptr ty field ws : plain (convert field) ->
    reads ws (validate_directives is0 show of_uint (decode zero d : validations) ptr ty) ->
    exists rs, read_validate (field_tag (decode zero d : validations) field ptr ty) = Some rs /\
               Forall2 (meaning show) (match ws with [] => [] | _ => if dRequired d then ws else DOmitEmpty :: ws end) rs.
  Proof.
    intros Hc R.
    destruct R as [P (rs & M & FM)].
    set (ds := validate_directives is0 show of_uint (decode zero d : validations) ptr ty) in *.
    unfold read_validate. rewrite (tag_value_validate _ field ptr ty ds Hc eq_refl P).
    cbn [decode vIsRequired].
    destruct ds as [|x ds].
    - cbn in M. injection M as <-. apply Forall2_nil_inv_r in FM. rewrite FM. exists []. split; [reflexivity|constructor].
    - destruct ws as [|w ws].
      { apply Forall2_nil_inv_l in FM. subst rs. exfalso. revert M.
        change (mapM read_directive (x :: ds)) with (x ← read_directive x; k ← mapM read_directive ds; mret (x :: k)).
        destruct (read_directive x); [|discriminate]. cbn. destruct (mapM read_directive ds); discriminate. }
      destruct (dRequired d).
      + rewrite split_join; [eauto|congruence|]. eapply Forall_impl; [exact P|]. apply plain_nocomma.
      + rewrite split_join; [|congruence|].
        * exists (("omitempty", None) :: rs). split; [|constructor; [reflexivity|exact FM]].
          change (mapM read_directive ("omitempty" :: x :: ds)) with
            (y ← read_directive "omitempty"; k ← mapM read_directive (x :: ds); mret (y :: k)).
          rewrite M. reflexivity.
        * constructor; [reflexivity|]. eapply Forall_impl; [exact P|]. apply plain_nocomma.
  Qed.

  Lemma validate_read (d : declared F) zero ptr ty field :
    is0 zero = true -> is0 (of_uint 0) = true -> (forall x, plain (show x)) -> plain (convert field) ->
    expressible is0 of_uint d ->
    (dRequired d = true -> ptr = true \/ ty = "array") ->
    exists rs, read_validate (field_tag (decode zero d : validations) field ptr ty) = Some rs /\
               Forall2 (meaning show) (wanted_all of_uint d) rs.
  Proof.
    intros Hz Hu0 Hs Hc (Hmin & Hmax & Hemin & Hemax & Hlmin & Hlmax & Henum & Hconst) Hreq.
    assert (R : reads (wanted of_uint d) (validate_directives is0 show of_uint (decode zero d : validations) ptr ty)).
    { unfold validate_directives, wanted, decode. cbn [vIsRequired vMinLength vMaxLength vMinimum vMaximum
        vExclusiveMinimum vExclusiveMaximum vUniqueItems].
      apply reads_app.
      { destruct (dRequired d) eqn:E; cbn [andb]; [|apply reads_nil].
        replace (ptr || String.eqb ty "array")%bool with true.
        - eapply reads_one; reflexivity.
        - destruct (Hreq eq_refl) as [->| ->]; [reflexivity|]. symmetry. apply orb_true_r. }
      apply reads_app; [apply (reads_uint "min" DMin); auto; reflexivity|].
      apply reads_app; [apply (reads_uint "max" DMax); auto; reflexivity|].
      apply reads_app; [apply (reads_number "gte" DGte); auto; reflexivity|].
      apply reads_app; [apply (reads_number "lte" DLte); auto; reflexivity|].
      apply reads_app; [apply (reads_number "gt" DGt); auto; reflexivity|].
      apply reads_app; [apply (reads_number "lt" DLt); auto; reflexivity|].
      apply reads_app; [destruct (dUnique d); [eapply reads_one; reflexivity|apply reads_nil]|].
      apply reads_app; [apply reads_enum; auto|]. apply reads_const. exact Hconst. }
    pose proof (read_of_reads d zero ptr ty field _ Hc R) as Q. unfold wanted_all. destruct (wanted of_uint d); exact Q.
  Qed.

  Lemma said_reads (d : declared F) zero ptr ty :
    is0 zero = true -> is0 (of_uint 0) = true -> (forall x, plain (show x)) -> texts_ok d ->
    reads (wanted of_uint (said is0 of_uint d (ptr || String.eqb ty "array"))) (validate_directives is0 show of_uint (decode zero d : validations) ptr ty).
  Proof.
    intros Hz Hu0 Hs [He Hconst].
    assert (D1 : forall o, directive_if_defined is0 show "min" (of_uint (default 0%N o)) = directive_if_defined is0 show "min" (of_uint (default 0%N (kept (fun n => is0 (of_uint n)) o)))).
    { intros [n|]; cbn; [|reflexivity]. unfold directive_if_defined. destruct (is0 (of_uint n)) eqn:E; cbn; [now rewrite Hu0|now rewrite E]. }
    assert (D2 : forall o, directive_if_defined is0 show "max" (of_uint (default 0%N o)) = directive_if_defined is0 show "max" (of_uint (default 0%N (kept (fun n => is0 (of_uint n)) o)))).
    { intros [n|]; cbn; [|reflexivity]. unfold directive_if_defined. destruct (is0 (of_uint n)) eqn:E; cbn; [now rewrite Hu0|now rewrite E]. }
    assert (D3 : forall name o, directive_if_defined is0 show name (default zero o) = directive_if_defined is0 show name (default zero (kept is0 o))).
    { intros name [n|]; cbn; [|reflexivity]. unfold directive_if_defined. destruct (is0 n) eqn:E; cbn; [now rewrite Hz|now rewrite E]. }
    assert (K1 : forall o, uint_ok (kept (fun n => is0 (of_uint n)) o)) by (intros [n|]; cbn; [|exact I]; destruct (is0 (of_uint n)) eqn:E; cbn; auto).
    assert (K2 : forall o, num_ok (kept is0 o)) by (intros [n|]; cbn; [|exact I]; destruct (is0 n) eqn:E; cbn; auto).
    unfold validate_directives, wanted, decode, said. cbn [vIsRequired vMinLength vMaxLength vMinimum vMaximum vExclusiveMinimum vExclusiveMaximum vUniqueItems
      dRequired dMinLength dMaxLength dMinimum dMaximum dExclusiveMinimum dExclusiveMaximum dUnique dEnum dConst].
    rewrite D1, D2, (D3 "gte"), (D3 "lte"), (D3 "gt"), (D3 "lt").
    apply reads_app.
    { destruct (dRequired d && (ptr || String.eqb ty "array"))%bool; [eapply reads_one; reflexivity|apply reads_nil]. }
    apply reads_app; [apply (reads_uint "min" DMin); auto; reflexivity|].
    apply reads_app; [apply (reads_uint "max" DMax); auto; reflexivity|].
    apply reads_app; [apply (reads_number "gte" DGte); auto; reflexivity|].
    apply reads_app; [apply (reads_number "lte" DLte); auto; reflexivity|].
    apply reads_app; [apply (reads_number "gt" DGt); auto; reflexivity|].
    apply reads_app; [apply (reads_number "lt" DLt); auto; reflexivity|].
    apply reads_app; [destruct (dUnique d); [eapply reads_one; reflexivity|apply reads_nil]|].
    apply reads_app.
    - apply reads_enum.
      + cbn. destruct (dEnum d) as [[|]|]; reflexivity.
      + destruct (dEnum d) as [[|x l]|]; cbn; [exact I| |exact I]. split; [discriminate|exact He].
    - apply reads_const. exact Hconst.
  Qed.

  Lemma kept_length {A} (p : A -> bool) (o : option A) (f g : A -> directive F) :
    (List.length (opt (kept p o) f) <= List.length (opt o g))%nat /\
    (List.length (opt (kept p o) f) = List.length (opt o g) <-> match o with Some x => p x = false | None => True end).
  Proof. destruct o as [x|]; cbn; [|split; [lia|tauto]]. destruct (p x); cbn; split; try lia; split; try congruence; lia. Qed.

  Lemma validate_exact (d : declared F) zero ptr ty field :
    is0 zero = true -> is0 (of_uint 0) = true -> (forall x, plain (show x)) -> plain (convert field) -> texts_ok d ->
    (exists rs, read_validate (field_tag (decode zero d : validations) field ptr ty) = Some rs /\
                Forall2 (meaning show) (wanted_all of_uint d) rs) <->
    expressible is0 of_uint d /\ (dRequired d = true -> ptr = true \/ ty = "array").
  Proof.
    intros Hz Hu0 Hs Hc Ht. split; [|intros [He Hr]; now apply validate_read].
    intros (rs & R & W). destruct (read_of_reads d zero ptr ty field _ Hc (said_reads d zero ptr ty Hz Hu0 Hs Ht)) as (rs' & R' & W').
    rewrite R in R'. injection R' as <-. apply Forall2_length in W, W'. rewrite <- W in W'. clear R W.
    set (nilable := (ptr || String.eqb ty "array")%bool) in *.
    assert (Hn : dRequired d = true -> nilable = true -> ptr = true \/ ty = "array").
    { intros _. unfold nilable. destruct ptr; [auto|]. cbn. intros H. right. now apply String.eqb_eq. }
    assert (L : List.length (wanted of_uint (said is0 of_uint d nilable)) = List.length (wanted of_uint d)).
    { revert W'. unfold wanted_all. generalize (wanted of_uint d). generalize (wanted of_uint (said is0 of_uint d nilable)).
      intros l l'. destruct l, l', (dRequired d); cbn; lia. }
    clear W'. unfold wanted, said in L.
    cbn [dRequired dMinLength dMaxLength dMinimum dMaximum dExclusiveMinimum dExclusiveMaximum dUnique dEnum dConst] in L. rewrite !app_length in L.
    destruct (kept_length (fun n => is0 (of_uint n)) (dMinLength d) (fun n => DMin (of_uint n)) (fun n => DMin (of_uint n))) as [A1 B1].
    destruct (kept_length (fun n => is0 (of_uint n)) (dMaxLength d) (fun n => DMax (of_uint n)) (fun n => DMax (of_uint n))) as [A2 B2].
    destruct (kept_length is0 (dMinimum d) DGte DGte) as [A3 B3]. destruct (kept_length is0 (dMaximum d) DLte DLte) as [A4 B4].
    destruct (kept_length is0 (dExclusiveMinimum d) DGt DGt) as [A5 B5]. destruct (kept_length is0 (dExclusiveMaximum d) DLt DLt) as [A6 B6].
    assert (A7 : (List.length (opt (kept (fun l : list jany => match l with [] => true | _ => false end) (dEnum d) ≫= strings_only) (@DOneOf F)) <=
                  List.length (opt (dEnum d ≫= strings_only) (@DOneOf F)))%nat /\
                 (List.length (opt (kept (fun l : list jany => match l with [] => true | _ => false end) (dEnum d) ≫= strings_only) (@DOneOf F)) =
                  List.length (opt (dEnum d ≫= strings_only) (@DOneOf F)) -> dEnum d <> Some [])).
    { destruct (dEnum d) as [[|x l]|]; cbn; [split; [lia|discriminate]|split; [lia|congruence]|split; [lia|congruence]]. }
    destruct A7 as [A7 B7].
    assert (A0 : (List.length (if (dRequired d && nilable)%bool then [@DRequired F] else []) <= List.length (if dRequired d then [@DRequired F] else []))%nat /\
                 (List.length (if (dRequired d && nilable)%bool then [@DRequired F] else []) = List.length (if dRequired d then [@DRequired F] else []) -> dRequired d = true -> nilable = true)).
    { destruct (dRequired d), nilable; cbn; split; try lia; auto. }
    destruct A0 as [A0 B0].
    split; [|intros Hd; apply Hn; [exact Hd|apply B0; [lia|exact Hd]]].
    destruct Ht as [He Hq]. unfold expressible, num_ok, uint_ok.
    split; [apply B3; lia|]. split; [apply B4; lia|]. split; [apply B5; lia|]. split; [apply B6; lia|]. split; [apply B1; lia|]. split; [apply B2; lia|].
    split; [|exact Hq]. assert (Z : dEnum d <> Some []) by (apply B7; lia). unfold enum_ok. destruct (dEnum d) as [l|]; [|exact I]. split; [congruence|exact He].
  Qed.
End tags.
