From stdpp Require Import gmap list strings.
From Coq Require Import ZArith Ascii String.
From Verif.Model Require Import GoStrings Reference Parser Options Command.
From Verif.Spec Require Import ParserSpec OptionsSpec CommandSpec.
From Verif.Proof Require Import GoStringsProof ParserProof OptionsProof.
Local Open Scope string_scope.
Local Open Scope list_scope.

Lemma parse_bool_spec v b : parse_bool v = Some b <-> says v b.
Proof.
  unfold parse_bool, says. destruct (bool_decide _) eqn:H1; [|destruct (bool_decide (v ∈ ["0"; _; _; _; _; _])) eqn:H2].
  - apply bool_decide_eq_true in H1. split; [intros [= <-]|].
    + revert H1. rewrite !elem_of_cons, elem_of_nil. tauto.
    + destruct b; [done|]. intros H. exfalso. revert H1 H. rewrite !elem_of_cons, elem_of_nil. intuition congruence.
  - apply bool_decide_eq_false in H1. apply bool_decide_eq_true in H2. split; [intros [= <-]|].
    + revert H2. rewrite !elem_of_cons, elem_of_nil. tauto.
    + destruct b; [|done]. intros H. exfalso. apply H1. revert H. rewrite !elem_of_cons, elem_of_nil. tauto.
  - apply bool_decide_eq_false in H1, H2. split; [done|]. destruct b; intros H; exfalso; [apply H1|apply H2]; revert H; rewrite !elem_of_cons, elem_of_nil; tauto.
Qed.

Lemma contains_spec c s : contains c s = true <-> letter_in c s.
Proof.
  unfold letter_in. induction s as [|a s IH]; cbn; [by rewrite elem_of_nil|]. rewrite orb_true_iff, IH, elem_of_cons. by rewrite Ascii.eqb_eq; firstorder.
Qed.
Lemma unusual_spec v : (contains """" v || contains "010" v || contains "013" v)%bool = true <-> unusual v.
Proof. rewrite !orb_true_iff, !contains_spec. unfold unusual. tauto. Qed.

Section command.
  Variable csv : string -> option (list string).

  Lemma lacks_letter c s : lacks c s <-> ~ letter_in c s.
  Proof.
    unfold letter_in. induction s as [|a s IH]; [cbn; rewrite elem_of_nil; split; [tauto|intros _; apply lacks_nil]|].
    rewrite lacks_cons, IH. cbn. rewrite elem_of_cons. split; [intros [H1 H2] [E|E]; [by apply H1|done]|intros H; split; [intros ->; tauto|tauto]].
  Qed.
  Lemma split_commas v l : split "," v = l <-> l <> [] /\ comma_separated l = v /\ Forall (fun x => ~ letter_in "," x) l.
  Proof.
    split.
    - intros <-. split; [destruct (split_nonnil "," v) as (x & xs & ->); done|]. split; [apply comma_split|].
      eapply Forall_impl; [apply split_has_no_sep|]. intros x. apply lacks_letter.
    - intros (N & <- & F). destruct l as [|x r]; [done|]. apply split_comma. eapply Forall_impl; [exact F|]. intros y. apply lacks_letter.
  Qed.
  Lemma read_as_csv_spec v l : read_as_csv csv v = Some l <-> listed csv v l.
  Proof.
    unfold read_as_csv, listed. destruct (String.eqb_spec v "") as [->|N].
    - split; [intros [= <-]; auto|]. intros [[_ ->]|[[? _]|[? _]]]; done.
    - destruct (contains """" v || contains "010" v || contains "013" v)%bool eqn:U.
      + apply unusual_spec in U. split; [auto|]. intros [[? _]|[(_ & _ & ?)|(_ & ? & _)]]; done.
      + assert (~ unusual v) by (rewrite <- unusual_spec; by rewrite U). split.
        * intros [= E]. apply split_commas in E. tauto.
        * intros [[? _]|[(_ & ? & _)|(_ & _ & ? & ? & ?)]]; try done. f_equal. by apply split_commas.
  Qed.

  (** ** The last value given *)
  Lemma value_cons n v r name d x : value_of ((n, v) :: r) name d x <-> value_of r name (if decide (n = name) then v else d) x.
  Proof.
    unfold value_of, never. destruct (decide (n = name)) as [->|N].
    - split.
      + intros [(b & a & E & H)|[H _]]; [|exfalso; apply (H v); left]. destruct b as [|nv b]; injection E.
        * intros -> ->. right. auto.
        * intros -> _. left. eauto.
      + intros [(b & a & -> & H)|[H ->]]; left; [exists ((name, v) :: b), a; auto|exists [], r; auto].
    - split.
      + intros [(b & a & E & H)|[H ->]].
        * destruct b as [|nv b]; injection E; [intros _ _ ?; done|intros -> _; left; eauto].
        * right. split; [|done]. intros v' Hv. apply (H v'). by right.
      + intros [(b & a & -> & H)|[H ->]]; [left; exists ((n, v) :: b), a; auto|]. right. split; [|done]. intros v' Hv. apply elem_of_cons in Hv as [[= -> _]|Hv]; [done|by apply (H v')].
  Qed.
  Lemma value_nil name d x : value_of [] name d x <-> x = d.
  Proof.
    unfold value_of, never. split; [intros [(b & a & E & _)|[_ ->]]; [by destruct b|done]|]. intros ->. right. split; [|done]. intros v. apply not_elem_of_nil.
  Qed.
  Lemma value_unique args name : forall d x y, value_of args name d x -> value_of args name d y -> x = y.
  Proof.
    induction args as [|[n v] r IH]; intros d x y; [rewrite !value_nil; congruence|]. rewrite !value_cons. apply IH.
  Qed.
  Lemma says_false : says "false" false.
  Proof. unfold says. set_solver. Qed.
  Lemma says_unique v b b' : says v b -> says v b' -> b = b'.
  Proof. rewrite <- !parse_bool_spec. congruence. Qed.

  Ltac cases n := repeat match goal with |- context [String.eqb n ?t] => destruct (String.eqb_spec n t) as [->|?] end.

  Lemma set_allowed n v f : is_Some (set_flag csv n v f) <-> allowed csv (n, v).
  Proof.
    unfold allowed, text_flags, switches. cbn [fst snd]. setoid_rewrite <- parse_bool_spec. setoid_rewrite <- read_as_csv_spec. unfold set_flag. cases n.
    all: try (split; [intros _; left; apply (bool_decide_unpack _); vm_compute; exact I|eauto; fail]).
    1: { split; [intros [f' E]; right; right; split; [done|]; destruct (read_as_csv csv v); [eauto|done]|].
      intros [H|[[H _]|[_ [l ->]]]]; [exfalso; revert H; apply (bool_decide_unpack _); vm_compute; exact I..|cbn; eauto]. }
    1-3: split; [intros [f' E]; right; left; split; [apply (bool_decide_unpack _); vm_compute; exact I|]; destruct (parse_bool v); [eauto|done]|];
      intros [H|[[_ [b ->]]|[H _]]]; [exfalso; revert H; apply (bool_decide_unpack _); vm_compute; exact I|cbn; eauto|done].
    split; [intros [f' E]; done|]. intros [H|[[H _]|[H _]]]; exfalso; [revert H; rewrite !elem_of_cons, elem_of_nil; tauto..|done].
  Qed.

  Lemma set_flags_allowed args : forall f, is_Some (set_flags csv args f) <-> Forall (allowed csv) args.
  Proof.
    induction args as [|[n v] r IH]; intros f; cbn [set_flags]; [split; eauto|]. rewrite Forall_cons, <- (set_allowed n v f). split.
    - intros [f' E]. destruct (set_flag csv n v f) as [g|]; [|done]. cbn in E. split; [eauto|]. apply (IH g). eauto.
    - intros [[g ->] H]. cbn. by apply IH.
  Qed.

  (** Each flag sets what is its own. *)
  Definition text (f : flags) (name : string) : string :=
    if String.eqb name "output" then f_output f else if String.eqb name "package" then f_package f else if String.eqb name "generate" then f_generate f
    else if String.eqb name "convert-keys" then f_convert f else f_naming f.
  Definition switch (f : flags) (name : string) : bool :=
    if String.eqb name "disable-formatting" then f_disable f else if String.eqb name "ignore-string-format" then f_ignore f else f_force f.

  Lemma set_text n v f f' name : name ∈ text_flags -> set_flag csv n v f = Some f' -> text f' name = if decide (n = name) then v else text f name.
  Proof.
    intros Hn E. unfold text_flags in Hn. revert E. unfold set_flag. cases n.
    all: repeat (apply elem_of_cons in Hn as [->|Hn]; [try destruct (read_as_csv csv v) as [l|]; try destruct (parse_bool v) as [b|]; cbn; intros E; try discriminate E;
      injection E as <-; vm_compute; reflexivity|]); by apply elem_of_nil in Hn.
  Qed.
  Lemma set_switch n v f f' name : name ∈ switches -> set_flag csv n v f = Some f' ->
    if decide (n = name) then parse_bool v = Some (switch f' name) else switch f' name = switch f name.
  Proof.
    intros Hn E. unfold switches in Hn. revert E. unfold set_flag. cases n.
    all: repeat (apply elem_of_cons in Hn as [->|Hn]; [try destruct (read_as_csv csv v) as [l|]; try destruct (parse_bool v) as [b|]; cbn; intros E; try discriminate E;
      injection E as <-; vm_compute; reflexivity|]); by apply elem_of_nil in Hn.
  Qed.
  Lemma set_input n v f f' : set_flag csv n v f = Some f' ->
    if decide (n = "input") then exists l, read_as_csv csv v = Some l /\ f_changed f' = true /\ f_input f' = if f_changed f then f_input f ++ l else l
    else f_changed f' = f_changed f /\ f_input f' = f_input f.
  Proof.
    unfold set_flag. cases n.
    all: try destruct (parse_bool v) as [b|]; cbn; intros E; try discriminate E; try (injection E as <-; done).
    all: revert E; destruct (read_as_csv csv v) as [l|]; cbn; [|done]; intros [= <-]; exists l; done.
  Qed.

  Lemma flags_text args : forall f f' name, name ∈ text_flags -> set_flags csv args f = Some f' -> value_of args name (text f name) (text f' name).
  Proof.
    induction args as [|[n v] r IH]; intros f f' name Hn E; cbn [set_flags] in E; [injection E as ->; by apply value_nil|].
    destruct (set_flag csv n v f) as [g|] eqn:Eg; [|done]. cbn in E. rewrite value_cons, <- (set_text _ _ _ _ _ Hn Eg). by apply IH.
  Qed.
  Lemma flags_switch args : forall f f' name t, name ∈ switches -> says t (switch f name) -> set_flags csv args f = Some f' ->
    exists v, value_of args name t v /\ says v (switch f' name).
  Proof.
    induction args as [|[n v] r IH]; intros f f' name t Hn Ht E; cbn [set_flags] in E; [injection E as ->; exists t; split; [by apply value_nil|done]|].
    destruct (set_flag csv n v f) as [g|] eqn:Eg; [|done]. cbn in E. setoid_rewrite value_cons. apply (IH g); [done| |done].
    pose proof (set_switch _ _ _ _ _ Hn Eg) as K. destruct (decide (n = name)); [by apply parse_bool_spec|]. by rewrite K.
  Qed.
  Lemma never_input_cons n v r : never "input" ((n, v) :: r) <-> n <> "input" /\ never "input" r.
  Proof.
    unfold never. split.
    - intros H. split; [intros ->; apply (H v); left|]. intros v' Hv. apply (H v'). by right.
    - intros [N H] v' Hv. apply elem_of_cons in Hv as [[= <- _]|Hv]; [done|by apply (H v')].
  Qed.
  Lemma flags_input args : forall f f', set_flags csv args f = Some f' ->
    exists l, inputs_given csv args l /\ (never "input" args /\ f_input f' = f_input f /\ l = [] \/ ~ never "input" args /\ f_input f' = if f_changed f then f_input f ++ l else l).
  Proof.
    induction args as [|[n v] r IH]; intros f f' E; cbn [set_flags] in E.
    { injection E as ->. exists []. split; [constructor|]. left. split; [|done]. intros v. apply not_elem_of_nil. }
    destruct (set_flag csv n v f) as [g|] eqn:Eg; [|done]. cbn in E. apply set_input in Eg. destruct (IH _ _ E) as (l & G & K). setoid_rewrite never_input_cons.
    destruct (decide (n = "input")) as [->|N].
    - destruct Eg as (l0 & L & Ec & Ei). apply read_as_csv_spec in L. exists (l0 ++ l). split; [by constructor|]. right. split; [tauto|]. rewrite Ec, Ei in K.
      destruct K as [(_ & -> & ->)|[_ ->]]; [by rewrite app_nil_r|]. destruct (f_changed f); [by rewrite app_assoc|done].
    - destruct Eg as [Ec Ei]. exists l. split; [by constructor|]. rewrite <- Ec, <- Ei. tauto.
  Qed.
  Lemma listed_unique v l l' : listed csv v l -> listed csv v l' -> l = l'.
  Proof. rewrite <- !read_as_csv_spec. congruence. Qed.
  Lemma given_unique args : forall l l', inputs_given csv args l -> inputs_given csv args l' -> l = l'.
  Proof.
    induction args as [|nv r IH]; intros l l' H H'; [inversion H; inversion H'; congruence|].
    inversion H; subst; inversion H'; subst; try done; [f_equal; [by eapply listed_unique|]|]; by apply IH.
  Qed.
  Lemma inputs_unique args l l' : inputs csv args l -> inputs csv args l' -> l = l'.
  Proof. intros [[H N]|[N ->]] [[H' N']|[N' ->]]; try done. by eapply given_unique. Qed.
  Lemma flags_inputs args f : set_flags csv args default_flags = Some f -> inputs csv args (f_input f).
  Proof.
    intros E. destruct (flags_input _ _ _ E) as (l & G & [(N & -> & ->)|[N ->]]); [right; done|left; done].
  Qed.
  Lemma on_unique args name b b' : on args name b -> on args name b' -> b = b'.
  Proof. intros (v & V & S) (v' & V' & S'). rewrite (value_unique _ _ _ _ _ V V') in S. by eapply says_unique. Qed.

  Lemma flags_parts args f xs : set_flags csv args default_flags = Some f ->
    (exists v, value_of args "generate" "user,application,types" v /\ v = comma_separated (map word xs)) <-> f_generate f = comma_separated (map word xs).
  Proof.
    intros E. assert (V : value_of args "generate" "user,application,types" (f_generate f)) by (exact (flags_text args default_flags f "generate" ltac:(unfold text_flags; set_solver) E)).
    split; [|by eauto]. intros (v & V' & ->). by eapply value_unique.
  Qed.
  Lemma wanted_spec args path deps out pkg xs raw o : wanted csv args path deps out pkg xs raw o <->
    exists f, set_flags csv args default_flags = Some f /\ f_input f = path :: deps /\ f_output f = out /\ f_package f = pkg /\ f_generate f = comma_separated (map word xs) /\
      f_disable f = raw /\ o = mkOptions (f_convert f) (f_naming f) (f_ignore f) (f_force f).
  Proof.
    assert (K : forall f, set_flags csv args default_flags = Some f ->
      value_of args "output" "asyncapi.gen.go" (f_output f) /\ value_of args "package" "asyncapi" (f_package f) /\
      value_of args "convert-keys" "none" (f_convert f) /\ value_of args "naming-scheme" "none" (f_naming f) /\
      on args "disable-formatting" (f_disable f) /\ on args "ignore-string-format" (f_ignore f) /\ on args "force-pointers" (f_force f)).
    { intros f E. split; [|split; [|split; [|split; [|split; [|split]]]]].
      1: exact (flags_text args default_flags f "output" ltac:(unfold text_flags; set_solver) E).
      1: exact (flags_text args default_flags f "package" ltac:(unfold text_flags; set_solver) E).
      1: exact (flags_text args default_flags f "convert-keys" ltac:(unfold text_flags; set_solver) E).
      1: exact (flags_text args default_flags f "naming-scheme" ltac:(unfold text_flags; set_solver) E).
      1: exact (flags_switch args default_flags f "disable-formatting" "false" ltac:(unfold switches; set_solver) says_false E).
      1: exact (flags_switch args default_flags f "ignore-string-format" "false" ltac:(unfold switches; set_solver) says_false E).
      exact (flags_switch args default_flags f "force-pointers" "false" ltac:(unfold switches; set_solver) says_false E). }
    split.
    - intros [W1 W2 W3 W4 W5 W6 W7 W8 W9 W10]. apply (set_flags_allowed _ default_flags) in W1 as [f E]. exists f. split; [done|].
      destruct (K f E) as (K1 & K2 & K3 & K4 & K5 & K6 & K7).
      split; [exact (inputs_unique _ _ _ (flags_inputs _ _ E) W2)|]. split; [exact (value_unique _ _ _ _ _ K1 W3)|]. split; [exact (value_unique _ _ _ _ _ K2 W4)|].
      split; [exact (proj1 (flags_parts _ _ _ E) W5)|]. split; [exact (on_unique _ _ _ _ K5 W6)|].
      rewrite (value_unique _ _ _ _ _ K3 W7), (value_unique _ _ _ _ _ K4 W8), (on_unique _ _ _ _ K6 W9), (on_unique _ _ _ _ K7 W10). by destruct o.
    - intros (f & E & Hi & <- & <- & Hg & <- & ->). destruct (K f E) as (K1 & K2 & K3 & K4 & K5 & K6 & K7). split; try done.
      + apply (set_flags_allowed _ default_flags). eauto.
      + rewrite <- Hi. by apply flags_inputs.
      + by apply (flags_parts _ _ _ E).
  Qed.

  (** ** The documents *)
  Variable writing_to : string -> writing.
  Variable reading : string -> file.
  Lemma read_forced p m f k : from_file p (major_number m) f = Ok k <-> k = m /\ exists d, read_as p f d /\ fits d m = true.
  Proof.
    rewrite from_file_spec. setoid_rewrite from_json_forced. unfold read_as. firstorder.
  Qed.
  Lemma dependencies_spec w m paths : forall l, dependencies reading w m paths = Ok l <->
    Forall2 (fun p pt => pt.1 = p /\ w !! p = Some pt.2 /\ exists d, read_as p (reading pt.2) d /\ fits d m = true) paths l.
  Proof.
    induction paths as [|p r IH]; intros l; cbn [dependencies].
    { split; [intros [= <-]; constructor|intros H; inversion H; done]. }
    split.
    - destruct (w !! p) as [t|] eqn:Et; [|done]. destruct (from_file _ _ _) as [| |k] eqn:Ef; try done. apply read_forced in Ef as [-> Hd].
      destruct (dependencies reading w m r) as [| |l'] eqn:Er; try done. intros [= <-]. constructor; [done|]. by apply IH.
    - intros H. destruct l as [|[p' t] l']; [by inversion H|]. apply Forall2_cons in H as [(Ep & Et & Hd) Hr]. cbn in Ep, Et, Hd. subst p'. rewrite Et. rewrite (proj2 (read_forced p m (reading t) m)) by done.
      apply IH in Hr. by rewrite Hr.
  Qed.
  Lemma dependencies_not_panic w m paths : dependencies reading w m paths <> Panic.
  Proof.
    induction paths as [|p r IH]; cbn [dependencies]; [done|]. destruct (w !! p); [|done]. destruct (from_file _ _ _) eqn:E; [by apply from_file_not_panic in E|done|].
    by destruct (dependencies _ _ _ _).
  Qed.
  Lemma from_files_spec w path deps c : from_files reading w path deps = Ok c <-> documents reading w path deps c.
  Proof.
    assert (V : forall f m, from_file path 0 f = Ok m <-> exists d v, read_as path f d /\ declares d v /\ version_of v m /\ fits d m = true).
    { intros f m. rewrite from_file_spec. setoid_rewrite from_json_spec. unfold read_as. firstorder. }
    unfold from_files. split.
    - destruct (w !! path) as [t|] eqn:Et; [|done]. destruct (from_file _ _ _) as [| |m] eqn:Ef; try done. apply V in Ef.
      destruct (dependencies _ _ _ _) as [| |l] eqn:Ed; try done. intros [= <-]. split; [done|done|by apply dependencies_spec].
    - intros [Et Ev Ed]. rewrite Et. apply V in Ev. rewrite Ev. apply dependencies_spec in Ed. rewrite Ed. by destruct c.
  Qed.
  Lemma from_files_not_panic w path deps : from_files reading w path deps <> Panic.
  Proof.
    unfold from_files. destruct (w !! path); [|done]. destruct (from_file _ _ _) eqn:E; [by apply from_file_not_panic in E|done|].
    destruct (dependencies _ _ _ _) eqn:D; [by apply dependencies_not_panic in D|done|done].
  Qed.

  (** ** The run *)
  Variable content : codegen -> settings -> string -> parts -> res string.
  Variable format : string -> option string.
  Lemma chosen_unique p p' : (forall x, chosen p x <-> chosen p' x) -> p = p'.
  Proof.
    intros H. pose proof (H Application) as H1. pose proof (H User) as H2. pose proof (H Types) as H3. destruct p as [a b c], p' as [a' b' c']. cbn in *.
    destruct a, a', b, b', c, c'; f_equal; intuition congruence.
  Qed.
  Lemma generate_asked o : accepted o -> (generate o initial).2 = Some (asked o).
  Proof. intros [C N]. unfold generate. rewrite !bool_decide_true by assumption. by destruct o as [c n [] []]. Qed.
  Lemma generate_some o g : (generate o initial).2 = Some g <-> accepted o /\ g = asked o.
  Proof.
    split; [|intros [A ->]; by apply generate_asked]. intros E. assert (D : Decision (accepted o)) by (unfold accepted; apply _). destruct D as [A|A]; [|destruct (generate_refused o initial A); congruence].
    split; [done|]. rewrite (generate_asked _ A) in E. congruence.
  Qed.

  Lemma run_success args w w' : run csv writing_to reading content format args w = (Success, w') <->
    exists path deps out pkg xs raw o c text,
      wanted csv args path deps out pkg xs raw o /\ documents reading w path deps c /\ makes content format c pkg xs raw o text /\ writing_to out = Written /\ w' = <[out := text]> w.
  Proof.
    setoid_rewrite wanted_spec. setoid_rewrite <- from_files_spec. unfold makes. split.
    - unfold run. destruct (set_flags _ _ _) as [f|] eqn:Ef; [|done]. destruct (f_input f) as [|path deps] eqn:Ei; [done|].
      destruct (from_files _ _ _ _) as [| |c] eqn:Ec; try done. unfold to_codegen_options. destruct (to_options _) as [p|] eqn:Ep; [|done]. cbn.
      apply to_options_spec in Ep as (xs & Ex & Hx). unfold generate_to. cbn [a_options a_package a_parts a_disable a_output].
      destruct (generate _ _).2 as [g|] eqn:Eg; [|done]. apply generate_some in Eg as [A ->]. destruct (content _ _ _ _) as [| |t] eqn:Et; try done.
      destruct (if f_disable f then Some t else format t) as [text'|] eqn:Etext; [|done]. unfold write_file. destruct (writing_to (f_output f)) eqn:Ew; try done. intros [= <-].
      eexists path, deps, (f_output f), (f_package f), xs, (f_disable f), _, c, text'. split; [exists f; done|]. split; [done|]. split; [|done]. split; [done|].
      exists p, t. split; [done|]. split; [done|]. destruct (f_disable f); [congruence|done].
    - intros (path & deps & out & pkg & xs & raw & o & c & text' & (f & Ef & Ei & <- & <- & Eg & <- & ->) & Ec & (A & p & t & Hp & Et & Etext) & Ew & ->).
      unfold run. rewrite Ef, Ei, Ec. unfold to_codegen_options. assert (Ep : to_options (f_generate f) = Some p) by (apply to_options_spec; eauto). rewrite Ep. cbn.
      unfold generate_to. cbn [a_options a_package a_parts a_disable a_output]. rewrite (generate_asked _ A), Et.
      destruct (f_disable f); [rewrite Etext|rewrite Etext]; unfold write_file; by rewrite Ew.
  Qed.

  Lemma run_unchanged args w x w' : run csv writing_to reading content format args w = (x, w') -> x <> Success ->
    w' = w \/ x = Failure /\ exists path deps out pkg xs raw o c text n,
      wanted csv args path deps out pkg xs raw o /\ documents reading w path deps c /\ makes content format c pkg xs raw o text /\ writing_to out = Cut n /\ w' = <[out := first n text]> w.
  Proof.
    setoid_rewrite wanted_spec. setoid_rewrite <- from_files_spec. unfold makes. intros E N. revert E.
    unfold run. destruct (set_flags _ _ _) as [f|] eqn:Ef; [|intros [= <- <-]; by left]. destruct (f_input f) as [|path deps] eqn:Ei; [intros [= <- <-]; by left|].
    destruct (from_files _ _ _ _) as [| |c] eqn:Ec; try (intros [= <- <-]; by left). unfold to_codegen_options. destruct (to_options _) as [p|] eqn:Ep; [|intros [= <- <-]; by left]. cbn.
    apply to_options_spec in Ep as (xs & Ex & Hx). unfold generate_to. cbn [a_options a_package a_parts a_disable a_output].
    destruct (generate _ _).2 as [g|] eqn:Eg; [|intros [= <- <-]; by left]. apply generate_some in Eg as [A ->]. destruct (content _ _ _ _) as [| |t] eqn:Et; try (intros [= <- <-]; by left).
    destruct (if f_disable f then Some t else format t) as [text'|] eqn:Etext; [|intros [= <- <-]; by left]. unfold write_file.
    destruct (writing_to (f_output f)) as [| |n] eqn:Ew; intros [= <- <-]; [by left|done|right]. split; [done|].
    eexists path, deps, (f_output f), (f_package f), xs, (f_disable f), _, c, text', n. split; [exists f; done|]. split; [done|]. split; [|done]. split; [done|].
    exists p, t. split; [done|]. split; [done|]. destruct (f_disable f); [congruence|done].
  Qed.

  Lemma run_crash args w w' : run csv writing_to reading content format args w = (Crash, w') <->
    w' = w /\ (Forall (allowed csv) args /\ inputs csv args [] \/
      exists path deps out pkg xs raw o c p, wanted csv args path deps out pkg xs raw o /\ documents reading w path deps c /\ accepted o /\ (forall x, chosen p x <-> x ∈ xs) /\
        content c (asked o) pkg p = Panic).
  Proof.
    setoid_rewrite wanted_spec. setoid_rewrite <- from_files_spec. split.
    - unfold run. destruct (set_flags _ _ _) as [f|] eqn:Ef; [|done]. destruct (f_input f) as [|path deps] eqn:Ei.
      { intros [= <-]. split; [done|]. left. split; [apply (set_flags_allowed _ default_flags); eauto|]. rewrite <- Ei. by apply flags_inputs. }
      destruct (from_files _ _ _ _) as [| |c] eqn:Ec; [by apply from_files_not_panic in Ec|done|]. unfold to_codegen_options. destruct (to_options _) as [p|] eqn:Ep; [|done]. cbn.
      apply to_options_spec in Ep as (xs & Ex & Hx). unfold generate_to. cbn [a_options a_package a_parts a_disable a_output].
      destruct (generate _ _).2 as [g|] eqn:Eg; [|done]. apply generate_some in Eg as [A ->]. destruct (content _ _ _ _) as [| |t] eqn:Et; [|done|].
      { intros [= <-]. split; [done|]. right. eexists path, deps, (f_output f), (f_package f), xs, (f_disable f), _, c, p. split; [exists f; done|]. done. }
      destruct (if f_disable f then Some t else format t); [|done]. unfold write_file. by destruct (writing_to _).
    - intros [-> [[F I]|(path & deps & out & pkg & xs & raw & o & c & p & (f & Ef & Ei & <- & <- & Eg & <- & ->) & Ec & A & Hp & Et)]].
      + apply (set_flags_allowed _ default_flags) in F as [f Ef]. unfold run. rewrite Ef. pose proof (inputs_unique _ _ _ (flags_inputs _ _ Ef) I) as ->. done.
      + unfold run. rewrite Ef, Ei, Ec. unfold to_codegen_options. assert (Ep : to_options (f_generate f) = Some p) by (apply to_options_spec; eauto). rewrite Ep. cbn.
        unfold generate_to. cbn [a_options a_package a_parts a_disable a_output]. by rewrite (generate_asked _ A), Et.
  Qed.
End command.
