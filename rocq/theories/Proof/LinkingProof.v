(** Linking visits what can be seen, links it with what it designates and nothing else. *)
From stdpp Require Import gmap list strings.
From Coq Require Import Ascii String.
From Verif.Model Require Import GoStrings Reference Linking.
From Verif.Spec Require Import ReferenceSpec LinkingSpec.
From Verif.Proof Require Import GoStringsProof ReferenceProof.
Local Open Scope string_scope.

(** ** The accessor of channels *)
Lemma message_from_channel w p ns q : message_from w p ns <> Ok (OChannel q).
Proof.
  destruct ns as [|x ns]; cbn [message_from]; [discriminate|].
  destruct (String.eqb x "payload"); [destruct p; [|discriminate]; case_match; discriminate|].
  destruct (String.eqb x "header"); [destruct p; [|discriminate]; case_match; discriminate|]. case_match; discriminate.
Qed.
Lemma by_path_channel w used path l :
  by_path true v3_kinds w used path = Ok (OChannel (Some l)) <-> channel_steps used path l.
Proof.
  split.
  - unfold by_path. destruct path as [|p0 path]; cbn [at_ lookup list_lookup]; [discriminate|].
    destruct (String.eqb_spec p0 "components") as [->|N0].
    + destruct path as [|k path]; cbn [at_ lookup list_lookup]; [discriminate|].
      destruct (String.eqb_spec k "schemas") as [->|N1].
      { destruct path as [|n path]; cbn [at_ lookup list_lookup drop]; [discriminate|]. rewrite ?drop_0.
        destruct (schema_from w (comps used "schemas" !! n) path); discriminate. }
      destruct (String.eqb_spec k "messages") as [->|N2].
      { destruct path as [|n path]; cbn [at_ lookup list_lookup drop]; [discriminate|]. rewrite ?drop_0.
        intros H. now apply message_from_channel in H. }
      case_bool_decide; [|discriminate].
      destruct path as [|n path]; cbn [at_ lookup list_lookup drop]; [discriminate|].
      destruct (String.eqb_spec k "channels") as [->|]; [|discriminate]. intros [= E]. now constructor.
    + cbn [andb]. destruct (String.eqb_spec p0 "channels") as [->|]; [|discriminate].
      destruct path as [|c [|what path]]; cbn [List.length Nat.ltb Nat.leb at_ lookup list_lookup]; try discriminate.
      { intros [= E]. now constructor. }
      destruct (String.eqb_spec what "messages") as [->|]; [|discriminate].
      destruct (channels used !! c) as [ch|] eqn:Ec; [|discriminate].
      destruct path as [|n path]; cbn [at_ lookup list_lookup drop]; [discriminate|]. rewrite drop_0.
      intros H. now apply message_from_channel in H.
  - intros M. inversion M as [n l' behind E|n l' E]; subst; unfold by_path; cbn; now rewrite E.
Qed.
Lemma as_channel_ok o l : as_channel o = Ok l <-> o = Ok (OChannel (Some l)).
Proof. unfold as_channel. destruct o as [| |[p|p|p|k p]]; try (split; intros; congruence). destruct p; cbn; split; congruence. Qed.
Lemma reference_channel_exact w s ref l : as_channel (reference3 w s ref) = Ok l <-> designates channel_steps w s ref l.
Proof.
  rewrite as_channel_ok. apply (designates_reference channel_steps true v3_kinds w s ref l OChannel).
  - intros used steps H. inversion H; subst; (eexists _, _; split; [reflexivity|discriminate]).
  - intros. apply by_path_channel.
Qed.

Lemma reference_kinds w s ref k p : reference3 w s ref = Ok (OOther k p) -> k ∈ v3_kinds.
Proof.
  unfold reference3. rewrite reference_by_path. destruct (get_dependency w s ref) as [| |[used r]]; try discriminate.
  unfold by_path. generalize (split "/" (trim_prefix "/" r)). intros path.
  destruct path as [|p0 path]; cbn [at_ lookup list_lookup]; [discriminate|].
  destruct (String.eqb_spec p0 "components") as [->|N0].
  - destruct path as [|q path]; cbn [at_ lookup list_lookup]; [discriminate|].
    destruct (String.eqb_spec q "schemas") as [->|N1].
    { destruct path as [|n path]; cbn [at_ lookup list_lookup drop]; [discriminate|]. rewrite ?drop_0.
      destruct (schema_from w (comps used "schemas" !! n) path); discriminate. }
    destruct (String.eqb_spec q "messages") as [->|N2].
    { destruct path as [|n path]; cbn [at_ lookup list_lookup drop]; [discriminate|]. rewrite ?drop_0.
      intros H. now apply message_from_kind in H. }
    case_bool_decide as B; [|discriminate].
    destruct path as [|n path]; cbn [at_ lookup list_lookup drop]; [discriminate|].
    destruct (String.eqb q "channels"); [discriminate|]. now intros [= -> _].
  - cbn [andb]. destruct (String.eqb_spec p0 "channels") as [->|]; [|discriminate].
    destruct path as [|c [|what path]]; cbn [List.length Nat.ltb Nat.leb at_ lookup list_lookup]; try discriminate.
    destruct (String.eqb_spec what "messages") as [->|]; [|discriminate].
    destruct (channels used !! c) as [ch|] eqn:Ec; [|discriminate].
    destruct path as [|n path]; cbn [at_ lookup list_lookup drop]; [discriminate|]. rewrite drop_0.
    intros H. now apply message_from_kind in H.
Qed.

(** Every accessor but that of correlation identifiers. *)
Lemma target_designated w s k ref p : k <> KCorrelationID -> k <> KSchema -> target w s k ref = Ok p <-> designated w s k ref p.
Proof.
  intros N N'. destruct k; try congruence; unfold target, designated;
    first [ apply reference_channel_exact
          | apply reference_message_exact
          | apply reference_other_exact; [apply (bool_decide_unpack _); vm_compute; exact I|apply (bool_decide_unpack _); vm_compute; exact I]
          | (split; [discriminate|contradiction])
          | idtac ].
  split; [|contradiction]. rewrite as_other_ok. intros H. apply reference_kinds in H. revert H.
  change (~ "messageExamples" ∈ v3_kinds). apply (bool_decide_unpack _). vm_compute. exact I.
Qed.
Lemma target_correlation w s ref p : target w s KCorrelationID ref = Ok p <-> designated w s KChannel ref p.
Proof. apply reference_channel_exact. Qed.

#[global] Instance kind_eq_dec : EqDecision kind.
Proof. solve_decision. Defined.

(** ** Objects *)
Lemma object_induction (P : object -> Prop) :
  (forall o, (forall f c, holds o f c -> P c) -> P o) -> forall o, P o.
Proof.
  intros H. fix IH 1. intros [i k r loc fields]. apply H. intros f c (l & Hl & Hc). cbn [o_fields] in Hl. clear H.
  revert l Hl Hc. induction fields as [|[n cs] fields IHf]; intros l Hl Hc.
  - exfalso. now apply elem_of_nil in Hl.
  - apply elem_of_cons in Hl. destruct Hl as [E|Hl]; [|exact (IHf l Hl Hc)].
    injection E as E1 E2. subst l. clear E1 IHf. revert Hc. induction cs as [|d cs IHc]; intros Hc.
    + exfalso. now apply elem_of_nil in Hc.
    + apply elem_of_cons in Hc. destruct Hc as [->|Hc]; [apply IH|exact (IHc Hc)].
Qed.

Lemma entry_map {A B} (g : A -> B) fs f : entry (map (fun '(n, cs) => (n, map g cs)) fs) f = map g (entry fs f).
Proof. induction fs as [|[n cs] fs IH]; cbn [map entry]; [reflexivity|]. now destruct (String.eqb n f). Qed.
Lemma entry_spec {A} (fs : list (string * list A)) f c : NoDup (map fst fs) -> c ∈ entry fs f <-> exists l, (f, l) ∈ fs /\ c ∈ l.
Proof.
  induction fs as [|[n cs] fs IH]; cbn [map entry fst]; intros N.
  - split; [intros H; now apply elem_of_nil in H|intros (l & H & _); now apply elem_of_nil in H].
  - apply NoDup_cons in N as [N1 N2]. destruct (String.eqb_spec n f) as [->|Nf].
    + split; [intros H; exists cs; split; [left|exact H]|].
      intros (l & H & Hc). apply elem_of_cons in H as [[= ->]|H]; [exact Hc|]. exfalso. apply N1.
      apply elem_of_list_fmap. exists (f, l). now split.
    + rewrite (IH N2). split; intros (l & H & Hc); exists l; (split; [|exact Hc]); [now right|].
      apply elem_of_cons in H as [[= -> _]|H]; [congruence|exact H].
Qed.
Lemma entry_of {A} (fs : list (string * list A)) f l : NoDup (map fst fs) -> (f, l) ∈ fs -> entry fs f = l.
Proof.
  induction fs as [|[n k] fs IH]; intros N H; [now apply elem_of_nil in H|]. cbn in N. apply NoDup_cons in N as [Nn N]. cbn [entry].
  apply elem_of_cons in H as [H|H].
  - injection H as -> ->. now rewrite String.eqb_refl.
  - destruct (String.eqb_spec n f) as [->|_]; [|now apply IH]. exfalso. apply Nn. apply elem_of_list_fmap. now exists (f, l).
Qed.
Lemma conforms_inv o : conforms o -> NoDup (map fst (o_fields o)) /\ (forall f c, holds o f c -> (f, o_kind c) ∈ declares (o_kind o)) /\
  (o_kind o = KSpecification \/ o_kind o = KComponents \/ o_kind o = KInfo -> o_ref o = "") /\ (forall f c, holds o f c -> conforms c).
Proof. intros C. inversion C; subst. auto. Qed.
Lemma holds_entry o f c : conforms o -> holds o f c <-> c ∈ entry (o_fields o) f.
Proof. intros C. apply conforms_inv in C as (N & _). unfold holds. now rewrite entry_spec. Qed.

(** The tables: what is declared and not blind is visited, and conversely. *)
Lemma steps_declared k f q : (f, q) ∈ declares k -> ~ blind k f -> Into f ∈ steps k.
Proof.
  intros H B. destruct k; cbn [declares] in H; repeat (apply elem_of_cons in H as [[= -> ->]|H];
    [first [exfalso; apply B; unfold blind; tauto|cbn [steps]; repeat (first [apply elem_of_list_here|apply elem_of_list_further])]|]);
    now apply elem_of_nil in H.
Qed.
Lemma steps_not_blind k f : Into f ∈ steps k -> ~ blind k f.
Proof.
  intros H [[-> ->]|[[-> ->]|[-> ->]]]; revert H;
    cbn [steps]; rewrite !elem_of_cons, elem_of_nil; intros H; repeat (destruct H as [[=]|H]); exact H.
Qed.
Lemma own_step k : k = KSpecification \/ k = KComponents \/ k = KInfo \/ k = KSchema \/ Own ∈ steps k.
Proof.
  destruct k; try tauto; do 4 right; cbn [steps]; repeat (first [apply elem_of_list_here|apply elem_of_list_further]).
Qed.

Section linking.
  Context (w : world) (at_address : nat -> option object) (schema : nat -> res unit).
  Notation aim s x := (target w s (o_kind x) (o_ref x)).
  Notation link := (link w at_address schema).

  Definition effect (X : spec -> object -> Prop) (l l' : links) : Prop :=
    (forall s x, X s x -> refers x -> exists p, aim s x = Ok p) /\
    forall i, (exists s x p, X s x /\ refers x /\ o_id x = i /\ aim s x = Ok p /\ l' !! i = Some p) \/
              ((forall s x, X s x -> refers x -> o_id x <> i) /\ l' !! i = l !! i).
  Lemma effect_none (X : spec -> object -> Prop) l : (forall s x, X s x -> ~ refers x) -> effect X l l.
  Proof. intros H. split; [intros s x Hx R; now destruct (H s x Hx)|]. intros i. right. split; [|reflexivity]. intros s x Hx R. now destruct (H s x Hx). Qed.
  Lemma effect_app X Y l1 l2 l3 : effect X l1 l2 -> effect Y l2 l3 -> effect (fun s x => X s x \/ Y s x) l1 l3.
  Proof.
    intros [A1 B1] [A2 B2]. split; [intros s x [H|H] R; [now apply A1|now apply A2]|].
    intros i. destruct (B2 i) as [(s & x & p & H & R & E & T & L)|[H2 L2]].
    { left. exists s, x, p. auto. }
    destruct (B1 i) as [(s & x & p & H & R & E & T & L)|[H1 L1]].
    { left. exists s, x, p. repeat split; auto; try apply R. now rewrite L2. }
    right. split; [|now rewrite L2]. intros s x [H|H] R; [now apply (H1 s)|now apply (H2 s)].
  Qed.
  Lemma effect_same X Y l l' : (forall s x, refers x -> X s x <-> Y s x) -> effect X l l' -> effect Y l l'.
  Proof.
    intros H [A B]. split; [intros s x Hy R; apply A; [now apply H|exact R]|].
    intros i. destruct (B i) as [(s & x & p & Hx & R & E & T & L)|[H1 L]].
    - left. exists s, x, p. split; [now apply H|auto].
    - right. split; [|exact L]. intros s x Hy R. apply (H1 s); [now apply H|exact R].
  Qed.

  Lemma each_effect {A} (v : A -> option object -> links -> res links) (X : A -> spec -> object -> Prop) cs op l l' :
    (forall c, c ∈ cs -> forall op l l', v c op l = Ok l' -> effect (X c) l l') ->
    each (map v cs) op l = Ok l' -> effect (fun s x => exists c, c ∈ cs /\ X c s x) l l'.
  Proof.
    revert l. induction cs as [|c cs IH]; intros l H; cbn [map each].
    - intros [= ->]. apply effect_none. intros s x (c & Hc & _). now apply elem_of_nil in Hc.
    - destruct (v c op l) as [| |l1] eqn:E; try discriminate. intros E2.
      apply (effect_same (fun s x => X c s x \/ exists d, d ∈ cs /\ X d s x)).
      + intros s x _. split; [intros [Hx|(d & Hd & Hx)]; [exists c; split; [left|exact Hx]|exists d; split; [now right|exact Hx]]|].
        intros (d & Hd & Hx). apply elem_of_cons in Hd as [->|Hd]; [now left|right; eauto].
      + apply effect_app with (l2 := l1); [apply (H c) with op; [left|exact E]|].
        apply IH; [|exact E2]. intros d Hd. apply H. now right.
  Qed.

  Definition seen (s : spec) (o : object) : spec -> object -> Prop := fun s' x => s' = s /\ sighted o x.
  Definition visited (s : spec) (o : object) (st : step) : spec -> object -> Prop := fun s' x =>
    match st with
    | Own => s' = s /\ x = o
    | Into f => exists c, c ∈ entry (o_fields o) f /\ seen s c s' x
    | _ => False
    end.
  Lemma keep_ok r l l' : keep r l = Ok l' -> l' = l /\ r = Ok tt.
  Proof. destruct r as [| |[]]; cbn; try discriminate. intros [= ->]. now split. Qed.

  Lemma do_steps_effect s o op ss l l' :
    o_kind o <> KSchema ->
    (forall f c, holds o f c -> forall op l l', link s c op l = Ok l' -> effect (seen s c) l l') -> NoDup (map fst (o_fields o)) ->
    do_steps w at_address s o (map (fun '(f, cs) => (f, map (link s) cs)) (o_fields o)) op ss l = Ok l' ->
    effect (fun s' x => exists st, st ∈ ss /\ visited s o st s' x) l l'.
  Proof.
    intros K IH ND. revert l. induction ss as [|st ss IHs]; intros l; cbn [do_steps].
    - intros [= ->]. apply effect_none. intros s' x (st & Hst & _). now apply elem_of_nil in Hst.
    - match goal with |- context[do_step _ _ _ ?o ?fs ?op ?st ?l] => destruct (do_step w at_address s o fs op st l) as [| |l1] eqn:E end; try discriminate.
      intros E2. apply (effect_same (fun s' x => visited s o st s' x \/ exists t, t ∈ ss /\ visited s o t s' x)).
      { intros s' x _. split; [intros [H|(t & Ht & H)]; [exists st; split; [left|exact H]|exists t; split; [now right|exact H]]|].
        intros (t & Ht & H). apply elem_of_cons in Ht as [->|Ht]; [now left|right; eauto]. }
      apply effect_app with (l2 := l1); [|now apply IHs]. clear IHs E2. destruct st as [|f| |]; cbn [do_step visited] in E |- *.
      + destruct (String.eqb_spec (o_ref o) "") as [R|R].
        { injection E as ->. apply effect_none. intros s' x [-> ->] [H _]. now apply H. }
        destruct (aim s o) as [| |p] eqn:T; try discriminate. injection E as <-. split.
        * intros s' x [-> ->] _. now exists p.
        * intros i. destruct (decide (o_id o = i)) as [<-|N].
          { left. exists s, o, p. split; [now split|]. split; [now split|]. split; [reflexivity|]. split; [exact T|]. apply lookup_insert. }
          right. split; [now intros s' x [-> ->] _|]. now apply lookup_insert_ne.
      + rewrite entry_map in E. apply each_effect with (X := seen s) in E; [exact E|].
        intros c Hc. apply (IH f). unfold holds. now apply entry_spec.
      + apply keep_ok in E as [-> _]. apply effect_none. now intros.
      + apply keep_ok in E as [-> _]. apply effect_none. now intros.
  Qed.

  Lemma sighted_steps s o : conforms o -> o_kind o <> KSchema -> forall s' x, refers x ->
    (exists st, st ∈ steps (o_kind o) /\ visited s o st s' x) <-> seen s o s' x.
  Proof.
    intros C K s' x [R Rk]. split.
    - intros (st & Hst & V). destruct st as [|f| |]; cbn [visited] in V; try contradiction.
      + destruct V as [-> ->]. split; [reflexivity|constructor].
      + destruct V as (c & Hc & -> & Hx). split; [reflexivity|]. apply (sighted_field o f c); [now apply holds_entry| |exact Hx].
        now apply steps_not_blind.
    - intros [-> Hx]. inversion Hx as [|? f c ? Hc Hb Hx']; subst.
      + exists Own. split; [|now split]. destruct (own_step (o_kind x)) as [H|[H|[H|[H|H]]]]; [| | |congruence|exact H];
          apply conforms_inv in C as (_ & _ & C & _); exfalso; apply R; apply C; tauto.
      + exists (Into f). split.
        * apply conforms_inv in C as (_ & D & _ & _). apply (steps_declared _ _ (o_kind c)); [now apply D|exact Hb].
        * exists c. split; [now apply holds_entry|]. now split.
  Qed.

  Lemma link_effect s o : conforms o -> forall op l l', link s o op l = Ok l' -> effect (seen s o) l l'.
  Proof.
    induction o as [o IH] using object_induction. intros C op l l' E.
    assert (K : o_kind o = KSchema \/ o_kind o <> KSchema) by (destruct o as [i k r loc fs]; destruct k; cbn; auto; right; discriminate).
    destruct K as [K|K].
    - assert (E1 : l' = l).
      { destruct o as [i k r loc fs]. cbn in K. subst k. cbn in E. now apply keep_ok in E as [-> _]. }
      subst l'. apply effect_none. intros s' x [-> Hx] [R Rk]. inversion Hx as [|? f c ? Hc Hb Hx']; subst; [congruence|].
      apply conforms_inv in C as (_ & D & _ & _). apply D in Hc. rewrite K in Hc. now apply elem_of_nil in Hc.
    - assert (E1 : do_steps w at_address s o (map (fun '(f, cs) => (f, map (link s) cs)) (o_fields o)) op (steps (o_kind o)) l = Ok l').
      { destruct o as [i k r loc fs]. cbn in K. destruct k; try exact E. congruence. }
      pose proof C as C'. apply conforms_inv in C' as (N & _ & _ & Cc).
      apply do_steps_effect in E1; [|exact K| |exact N].
      + now apply (effect_same (fun s' x => exists st, st ∈ steps (o_kind o) /\ visited s o st s' x)); [apply sighted_steps|].
      + intros f c H. apply (IH f c H). now apply (Cc f c).
  Qed.

  (** ** Documents *)
  Lemma file_induction (P : file -> Prop) :
    (forall s root others, (forall f, f ∈ others -> P f) -> P (File s root others)) -> forall f, P f.
  Proof.
    intros H. fix IH 1. intros [s root others]. apply H. intros f. clear H. induction others as [|g others IHo]; intros Hf.
    - exfalso. now apply elem_of_nil in Hf.
    - apply elem_of_cons in Hf. destruct Hf as [->|Hf]; [apply IH|exact (IHo Hf)].
  Qed.
  Lemma set_all_effect f : (forall s root, files f s root -> conforms root) -> forall l l',
    set_all w at_address schema f l = Ok l' -> effect (in_file f) l l'.
  Proof.
    induction f as [s root others IH] using file_induction. intros C l l'. cbn [set_all].
    destruct (each (map (fun o _ => set_all w at_address schema o) others) None l) as [| |l1] eqn:E; try discriminate. intros E2.
    apply (effect_same (fun s' x => (exists f, f ∈ others /\ in_file f s' x) \/ seen s root s' x)).
    - intros s' x _. split.
      + intros [(f & Hf & Hx)|[-> Hx]]; [now apply (in_other _ _ _ f)|now constructor].
      + intros H. inversion H; subst; [right; now split|left; eauto].
    - apply effect_app with (l2 := l1).
      + apply each_effect with (v := fun o _ => set_all w at_address schema o) (X := in_file) in E; [exact E|].
        intros f Hf _ l2 l3. apply IH; [exact Hf|]. intros s' r Hr. apply (C s'). now apply (file_other _ _ _ f).
      + apply link_effect in E2; [exact E2|]. apply (C s). constructor.
  Qed.

  (** ** The outcome *)
  (** The objects that are visited, with the operation they are visited for. *)
  Inductive reach (o : object) (op : option object) : object -> option object -> Prop :=
  | reach_here : reach o op o op
  | reach_field y opy f c : reach o op y opy -> holds y f c -> ~ blind (o_kind y) f -> reach o op c (operation_for y opy).
  Lemma reach_cons o op f c x opx : holds o f c -> ~ blind (o_kind o) f -> reach c (operation_for o op) x opx -> reach o op x opx.
  Proof.
    intros H B R. induction R as [|y opy g d R IH Hd Bd].
    - apply (reach_field o op o op f); [constructor|exact H|exact B].
    - apply (reach_field o op y opy g); assumption.
  Qed.
  Lemma reach_inv o op x opx : reach o op x opx -> (x = o /\ opx = op) \/ exists f c, holds o f c /\ ~ blind (o_kind o) f /\ reach c (operation_for o op) x opx.
  Proof.
    intros R. induction R as [|y opy g d R [[-> ->]|(f & c & H & B & R')] Hd Bd]; [now left| |].
    - right. exists g, d. split; [exact Hd|]. split; [exact Bd|constructor].
    - right. exists f, c. split; [exact H|]. split; [exact B|]. apply (reach_field c _ y opy g); assumption.
  Qed.
  Lemma sighted_reach o op x : sighted o x -> exists opx, reach o op x opx.
  Proof.
    intros S. revert op. induction S as [o|o f c x H B S IH]; intros op; [exists op; constructor|].
    destruct (IH (operation_for o op)) as [opx R]. exists opx. now apply (reach_cons o op f c).
  Qed.
  Lemma reach_sighted o op x opx : reach o op x opx -> sighted o x.
  Proof.
    assert (T : forall a b, sighted a b -> forall f c, holds b f c -> ~ blind (o_kind b) f -> sighted a c).
    { intros a b S. induction S as [a|a f c z H B S IH]; intros g d Hg Bg.
      - apply (sighted_field a g d); [exact Hg|exact Bg|constructor].
      - apply (sighted_field a f c); [exact H|exact B|]. now apply (IH g). }
    intros R. induction R as [|y opy f c R IH H B]; [constructor|]. now apply (T o y IH f).
  Qed.
  Lemma conforms_sighted o x : conforms o -> sighted o x -> conforms x.
  Proof. intros C S. induction S as [|o f c x H B S IH]; [exact C|]. apply IH. apply conforms_inv in C as (_ & _ & _ & C). now apply (C f). Qed.

  (** What an object leads to, whatever has been linked so far. *)
  Definition resolved (s : spec) (o : object) : object :=
    if String.eqb (o_ref o) "" then o else match aim s o with Ok p => default o (at_address p) | _ => o end.
  Definition locate_for (s : spec) (op : option object) (location : string) : res unit :=
    if String.eqb location "" then Ok tt else
    match op with
    | None => Panic
    | Some op =>
        match entry (o_fields op) "messages", entry (o_fields op) "channel" with
        | _ :: _, _ => parent_of location
        | [], [] => Panic
        | [], ch :: _ => match entry (o_fields (resolved s ch)) "messages" with [] => Err | _ :: _ => parent_of location end
        end
    end.
  Definition own_check (s : spec) (x : object) : res unit :=
    if String.eqb (o_ref x) "" then Ok tt else
    match o_kind x with KSchema => Ok tt | _ => match aim s x with Ok _ => Ok tt | Err => Err | Panic => Panic end end.
  Inductive check (s : spec) (x : object) (op : option object) : res unit -> Prop :=
  | check_own : check s x op (own_check s x)
  | check_schema : o_kind x = KSchema -> check s x op (schema (o_id x))
  | check_locate : o_kind x = KReplyAddress -> check s x op (locate_for s op (o_location x))
  | check_answer : o_kind x = KOperation -> check s x op (answer x).

  (** The links made so far are those of objects of the document. *)
  Definition sane (All : spec -> object -> Prop) (l : links) : Prop :=
    forall i p, l !! i = Some p -> exists s x, All s x /\ refers x /\ o_id x = i /\ aim s x = Ok p.
  Lemma sane_effect (All X : spec -> object -> Prop) l l' : sane All l -> (forall s x, X s x -> All s x) -> effect X l l' -> sane All l'.
  Proof.
    intros S Sub [_ B] i p L. destruct (B i) as [(s & x & q & Hx & R & E & T & Lq)|[_ E]].
    - rewrite L in Lq. injection Lq as <-. exists s, x. auto.
    - apply S. now rewrite <- E.
  Qed.
  Lemma effect_grows X l l' i : effect X l l' -> is_Some (l !! i) -> is_Some (l' !! i).
  Proof. intros [_ B] [p L]. destruct (B i) as [(s & x & q & Hx & R & E & T & Lq)|[_ E]]; [now exists q|exists p; now rewrite E]. Qed.
  Lemma effect_links (X : spec -> object -> Prop) l l' s x : effect X l l' -> X s x -> refers x -> is_Some (l' !! o_id x).
  Proof. intros [_ B] Hx R. destruct (B (o_id x)) as [(s' & y & q & Hy & R' & E & T & Lq)|[H _]]; [now exists q|now destruct (H s x Hx R)]. Qed.

  Section outcome.
    Variable All : spec -> object -> Prop.
    Hypothesis Unique : forall s x s' y, All s x -> All s' y -> o_id x = o_id y -> s = s' /\ x = y.
    Variable s : spec.

    (** The operation that replies are visited for is linked, and so is its channel. *)
    Definition ready (op : option object) (l : links) : Prop :=
      forall q, op = Some q -> All s q /\ o_ref q = "" /\
        forall ch, ch ∈ entry (o_fields q) "channel" -> All s ch /\ o_kind ch = KChannel /\ (refers ch -> is_Some (l !! o_id ch)).
    Lemma ready_effect X op l l' : effect X l l' -> ready op l -> ready op l'.
    Proof.
      intros E R q Hq. destruct (R q Hq) as (A & N & C). split; [exact A|]. split; [exact N|].
      intros ch Hch. destruct (C ch Hch) as (A' & K & L). split; [exact A'|]. split; [exact K|]. intros Rf. apply (effect_grows _ _ _ _ E). now apply L.
    Qed.
    Lemma locate_ready op location l : sane All l -> ready op l -> locate at_address op location l = locate_for s op location.
    Proof.
      intros S R. unfold locate, locate_for. destruct (String.eqb location ""); [reflexivity|]. destruct op as [q|]; [|reflexivity].
      destruct (R q eq_refl) as (A & N & C).
      assert (F : followed at_address l q = q).
      { unfold followed. destruct (l !! o_id q) as [p|] eqn:L; [|reflexivity]. destruct (S _ _ L) as (s' & x & Hx & [Rx _] & E & _).
        destruct (Unique s' x s q Hx A E) as [_ ->]. congruence. }
      rewrite F. destruct (entry (o_fields q) "messages"); [|reflexivity]. destruct (entry (o_fields q) "channel") as [|ch rest]; [reflexivity|].
      destruct (C ch ltac:(left)) as (A' & K & L). enough (G : followed at_address l ch = resolved s ch) by now rewrite G.
      unfold followed, resolved. destruct (String.eqb_spec (o_ref ch) "") as [E|E].
      - destruct (l !! o_id ch) as [p|] eqn:Lc; [|reflexivity]. destruct (S _ _ Lc) as (s' & x & Hx & [Rx _] & Ex & _).
        destruct (Unique s' x s ch Hx A' Ex) as [_ ->]. congruence.
      - destruct L as [p Lp]; [split; [exact E|rewrite K; discriminate]|]. rewrite Lp. destruct (S _ _ Lp) as (s' & x & Hx & Rx & Ex & T).
        destruct (Unique s' x s ch Hx A' Ex) as [-> ->]. now rewrite T.
    Qed.

    Definition answers (o : object) (op : option object) (r : res links) : Prop :=
      match r with
      | Ok _ => forall x opx c, reach o op x opx -> check s x opx c -> c = Ok tt
      | Err => exists x opx, reach o op x opx /\ check s x opx Err
      | Panic => exists x opx, reach o op x opx /\ check s x opx Panic
      end.
    (** The same for a list of objects. *)
    Definition answers_list (cs : list object) (op : option object) (r : res links) : Prop :=
      match r with
      | Ok _ => forall d, d ∈ cs -> forall x opx c, reach d op x opx -> check s x opx c -> c = Ok tt
      | Err => exists d x opx, d ∈ cs /\ reach d op x opx /\ check s x opx Err
      | Panic => exists d x opx, d ∈ cs /\ reach d op x opx /\ check s x opx Panic
      end.
    Definition for_replies (o : object) : Prop := o_kind o = KReply \/ o_kind o = KReplyAddress.
    Lemma each_answers cs op l :
      (forall c, c ∈ cs -> conforms c) -> (forall c x, c ∈ cs -> sighted c x -> All s x) ->
      (forall c, c ∈ cs -> forall l, sane All l -> (for_replies c -> ready op l) -> answers c op (link s c op l)) ->
      sane All l -> ((exists c, c ∈ cs /\ for_replies c) -> ready op l) ->
      answers_list cs op (each (map (link s) cs) op l).
    Proof.
      revert l. induction cs as [|c cs IH]; intros l C Sub H S R; cbn [map each].
      - intros d Hd. now apply elem_of_nil in Hd.
      - assert (A := H c ltac:(left) l S ltac:(intros F; apply R; exists c; split; [left|exact F])).
        destruct (link s c op l) as [| |l1] eqn:E.
        + destruct A as (x & opx & Rx & Cx). exists c, x, opx. split; [left|]. now split.
        + destruct A as (x & opx & Rx & Cx). exists c, x, opx. split; [left|]. now split.
        + assert (Ef := link_effect s c (C c ltac:(left)) op l l1 E).
          assert (S1 : sane All l1).
          { apply (sane_effect All (seen s c) l l1 S); [|exact Ef]. intros s' x [-> Hx]. apply (Sub c); [left|exact Hx]. }
          assert (I := IH l1 (fun d Hd => C d ltac:(now right)) (fun d x Hd => Sub d x ltac:(now right)) (fun d Hd => H d ltac:(now right)) S1
                       ltac:(intros (d & Hd & F); apply (ready_effect _ _ _ _ Ef); apply R; exists d; split; [now right|exact F])).
          destruct (each (map (link s) cs) op l1) as [| |l2].
          * destruct I as (d & x & opx & Hd & I). exists d, x, opx. split; [now right|exact I].
          * destruct I as (d & x & opx & Hd & I). exists d, x, opx. split; [now right|exact I].
          * intros d Hd. apply elem_of_cons in Hd as [->|Hd]; [exact A|now apply I].
    Qed.

    (** Where replies and their addresses are. *)
    Lemma replies_in k f q : (f, q) ∈ declares k -> q = KReply \/ q = KReplyAddress ->
      (k = KOperation /\ f = "reply") \/ (k = KReply /\ f = "address") \/ k = KComponents.
    Proof.
      intros H Q. destruct k; cbn [declares] in H; repeat (apply elem_of_cons in H as [[= -> ->]|H];
        [first [tauto|destruct Q; discriminate]|]); now apply elem_of_nil in H.
    Qed.

    Lemma link_answers o : conforms o -> (forall x, sighted o x -> All s x) ->
      (forall x, sighted o x -> o_kind x = KOperation -> entry (o_fields x) "reply" <> [] -> o_ref x = "") ->
      forall op l, sane All l -> (for_replies o -> ready op l) -> answers o op (link s o op l).
    Proof.
      induction o as [o IH] using object_induction. intros C Sub Alone op l S R.
      assert (Cd := C). apply conforms_inv in Cd as (ND & D & Nr & Cc).
      assert (K : o_kind o = KSchema \/ o_kind o <> KSchema) by (destruct o as [i k r loc fs]; destruct k; cbn; auto; right; discriminate).
      destruct K as [K|K].
      { assert (E : link s o op l = keep (schema (o_id o)) l) by (destruct o as [i k r loc fs]; cbn in K; now subst k). rewrite E.
        assert (Only : forall x opx, reach o op x opx -> x = o).
        { intros x opx Rx. apply reach_inv in Rx as [[-> _]|(f & c & H & _)]; [reflexivity|]. apply D in H. rewrite K in H. now apply elem_of_nil in H. }
        destruct (schema (o_id o)) as [| |[]] eqn:Es; cbn [keep answers].
        - exists o, op. split; [constructor|]. rewrite <- Es. now constructor.
        - exists o, op. split; [constructor|]. rewrite <- Es. now constructor.
        - intros x opx c Rx Cx. apply Only in Rx as ->. inversion Cx; subst.
          + unfold own_check. rewrite K. now destruct (String.eqb _ _).
          + exact Es.
          + congruence.
          + congruence. }
      assert (E : link s o op l = do_steps w at_address s o (map (fun '(f, cs) => (f, map (link s) cs)) (o_fields o)) op (steps (o_kind o)) l).
      { destruct o as [i k r loc fs]. cbn in K. destruct k; try reflexivity. congruence. }
      rewrite E. clear E.
      (* what a step answers for *)
      set (fine := fun st => match st with
                             | Own => own_check s o = Ok tt
                             | Into f => forall c x opx r, holds o f c -> reach c (operation_for o op) x opx -> check s x opx r -> r = Ok tt
                             | Locate => locate_for s op (o_location o) = Ok tt
                             | Answer => answer o = Ok tt
                             end).
      set (good := fun (ss : list step) (r : res links) => match r with
                             | Ok _ => forall st, st ∈ ss -> fine st
                             | Err => exists x opx, reach o op x opx /\ check s x opx Err
                             | Panic => exists x opx, reach o op x opx /\ check s x opx Panic end).
      assert (G : forall done ss l1, steps (o_kind o) = (done ++ ss)%list -> sane All l1 ->
                  effect (fun s' x => exists st, st ∈ done /\ visited s o st s' x) l l1 ->
                  good ss (do_steps w at_address s o (map (fun '(f, cs) => (f, map (link s) cs)) (o_fields o)) op ss l1)).
      { intros done ss. revert done. induction ss as [|st ss IHs]; intros done l1 Hs S1 Ef; cbn [do_steps].
        - intros st Hst. now apply elem_of_nil in Hst.
        - assert (Hst : st ∈ steps (o_kind o)) by (rewrite Hs; apply elem_of_app; right; left).
          match goal with |- context[do_step _ _ _ ?o ?fs ?op ?st ?l] => set (r := do_step w at_address s o fs op st l) end.
          assert (Q : match r with Ok _ => fine st | Err => exists x opx, reach o op x opx /\ check s x opx Err
                      | Panic => exists x opx, reach o op x opx /\ check s x opx Panic end).
          { subst r. destruct st as [|f| |]; cbn [do_step fine].
            - assert (O := check_own s o op). unfold own_check in O |- *. destruct (String.eqb (o_ref o) ""); [reflexivity|].
              destruct (o_kind o) eqn:Ek; try congruence; (destruct (target w s _ (o_ref o)); [exists o, op; split; [constructor|exact O] ..|reflexivity]).
            - rewrite entry_map.
              assert (B : ~ blind (o_kind o) f) by now apply steps_not_blind.
              assert (I := each_answers (entry (o_fields o) f) (operation_for o op) l1).
              assert (Hin : forall c, c ∈ entry (o_fields o) f -> holds o f c) by (intros c Hc; now apply holds_entry).
              specialize (I (fun c Hc => Cc f c (Hin c Hc))
                            (fun c x Hc Hx => Sub x (sighted_field o f c x (Hin c Hc) B Hx))).
              specialize (I (fun c Hc l2 S2 R2 => IH f c (Hin c Hc) (Cc f c (Hin c Hc)) (fun x Hx => Sub x (sighted_field o f c x (Hin c Hc) B Hx))
                               (fun x Hx => Alone x (sighted_field o f c x (Hin c Hc) B Hx)) (operation_for o op) l2 S2 R2) S1).
              assert (Rd : (exists c, c ∈ entry (o_fields o) f /\ for_replies c) -> ready (operation_for o op) l1).
              { intros (c & Hc & F). assert (Dc := D f c (Hin c Hc)). destruct (replies_in _ _ _ Dc F) as [[Ko ->]|[[Ko ->]|Ko]].
                - unfold operation_for. rewrite Ko. intros q [= <-]. split; [apply Sub; constructor|].
                  split; [apply Alone; [constructor|exact Ko|]; intros En; rewrite En in Hc; now apply elem_of_nil in Hc|].
                  intros ch Hch. assert (Hh : holds o "channel" ch) by now apply holds_entry.
                  assert (Bc : ~ blind (o_kind o) "channel") by (unfold blind; rewrite Ko; intros [[H _]|[[H _]|[_ H]]]; discriminate).
                  split; [apply Sub; apply (sighted_field o "channel" ch); [exact Hh|exact Bc|constructor]|].
                  split.
                  { assert (Dh := D _ _ Hh). rewrite Ko in Dh. cbn [declares] in Dh.
                    rewrite !elem_of_cons, elem_of_nil in Dh. intuition congruence. }
                  intros Rf. apply (effect_links _ _ _ s ch Ef); [|exact Rf].
                  exists (Into "channel"). split.
                  + rewrite Ko in Hs. cbn [steps] in Hs. clear -Hs. destruct done as [|a [|b done]]; cbn [app] in Hs.
                    * discriminate.
                    * discriminate.
                    * injection Hs as <- <- _. right. left.
                  + exists ch. split; [exact Hch|]. split; [reflexivity|constructor].
                - unfold operation_for. rewrite Ko. apply (ready_effect _ _ _ _ Ef). apply R. left. exact Ko.
                - unfold operation_for. rewrite Ko. now intros q [=]. }
              specialize (I Rd). destruct (each (map (link s) (entry (o_fields o) f)) (operation_for o op) l1) as [| |l2]; cbn [answers_list] in I.
              + destruct I as (d & x & opx & Hd & Rx & Cx). exists x, opx. split; [|exact Cx]. apply (reach_cons o op f d); [now apply Hin|exact B|exact Rx].
              + destruct I as (d & x & opx & Hd & Rx & Cx). exists x, opx. split; [|exact Cx]. apply (reach_cons o op f d); [now apply Hin|exact B|exact Rx].
              + intros c x opx r Hc Rx Cx. apply (I c) with x opx; [now apply holds_entry|exact Rx|exact Cx].
            - assert (Ka : o_kind o = KReplyAddress).
              { destruct (o_kind o); cbn [steps] in Hst; rewrite ?elem_of_cons, ?elem_of_nil in Hst; try reflexivity; exfalso; intuition congruence. }
              assert (O := check_locate s o op Ka). rewrite locate_ready;
                [|exact S1|apply (ready_effect _ _ _ _ Ef); apply R; right; exact Ka].
              destruct (locate_for s op (o_location o)) as [| |[]]; cbn [keep]; [exists o, op; split; [constructor|exact O] ..|reflexivity].
            - assert (Ka : o_kind o = KOperation).
              { destruct (o_kind o); cbn [steps] in Hst; rewrite ?elem_of_cons, ?elem_of_nil in Hst; try reflexivity; exfalso; intuition congruence. }
              assert (O := check_answer s o op Ka). destruct (answer o) as [| |[]]; cbn [keep]; [exists o, op; split; [constructor|exact O] ..|reflexivity]. }
          destruct r as [| |l2] eqn:Er; [exact Q|exact Q|].
          assert (E1 : effect (fun s' x => exists t, t ∈ [st] /\ visited s o t s' x) l1 l2).
          { apply (do_steps_effect s o op [st] l1 l2 K); [|exact ND|].
            - intros f c H. now apply link_effect, (Cc f).
            - cbn [do_steps]. subst r. now rewrite Er. }
          assert (Ef' : effect (fun s' x => exists t, t ∈ (done ++ [st])%list /\ visited s o t s' x) l l2).
          { apply (effect_same (fun s' x => (exists t, t ∈ done /\ visited s o t s' x) \/ (exists t, t ∈ [st] /\ visited s o t s' x))).
            - intros s' x _. split.
              + intros [(t & Ht & V)|(t & Ht & V)]; exists t; (split; [apply elem_of_app; auto|exact V]).
              + intros (t & Ht & V). apply elem_of_app in Ht as [Ht|Ht]; eauto.
            - now apply effect_app with (l2 := l1). }
          assert (S2 : sane All l2).
          { apply (sane_effect All (fun s' x => (exists t, t ∈ [st] /\ visited s o t s' x) /\ refers x) l1 l2 S1).
            - intros s' x [(t & Ht & V) Rf]. apply elem_of_list_singleton in Ht as ->.
              assert (V' : seen s o s' x) by (apply (sighted_steps s o C K s' x Rf); exists st; now split).
              destruct V' as [-> Hx]. now apply Sub.
            - apply (effect_same _ _ _ _ (fun s' x Rf => conj (fun H => conj H Rf) (fun H => proj1 H)) E1). }
          specialize (IHs (done ++ [st])%list l2 ltac:(rewrite Hs, <- app_assoc; reflexivity) S2 Ef').
          destruct (do_steps w at_address s o _ op ss l2); [exact IHs|exact IHs|].
          intros t Ht. apply elem_of_cons in Ht as [->|Ht]; [exact Q|now apply IHs]. }
      specialize (G [] (steps (o_kind o)) l eq_refl S).
      specialize (G ltac:(apply effect_none; intros s' x (st & Hst & _); now apply elem_of_nil in Hst)).
      destruct (do_steps w at_address s o _ op (steps (o_kind o)) l); [exact G|exact G|].
      cbn [good answers] in *. intros x opx c Rx Cx. apply reach_inv in Rx as [[-> ->]|(f & d & Hd & B & Rx)].
      - inversion Cx; subst.
        + destruct (own_step (o_kind o)) as [H|[H|[H|[H|H]]]]; [| | |congruence|now apply (G Own)];
            unfold own_check; rewrite Nr by tauto; reflexivity.
        + congruence.
        + apply (G Locate). rewrite H. cbn. right. left.
        + apply (G Answer). rewrite H. cbn [steps]. repeat (first [apply elem_of_list_here|apply elem_of_list_further]).
      - apply (G (Into f)) with d x opx; [|exact Hd|exact Rx|exact Cx]. apply (steps_declared _ _ (o_kind d)); [now apply D|exact B].
    Qed.
  End outcome.

  (** ** The outcome for a document *)
  Lemma set_all_answers (All : spec -> object -> Prop) f : (forall s x s' y, All s x -> All s' y -> o_id x = o_id y -> s = s' /\ x = y) ->
    (forall s root, files f s root -> conforms root) -> (forall s x, in_file f s x -> All s x) ->
    (forall s x, in_file f s x -> o_kind x = KOperation -> entry (o_fields x) "reply" <> [] -> o_ref x = "") ->
    (forall s root, files f s root -> ~ for_replies root) ->
    forall l, sane All l ->
    match set_all w at_address schema f l with
    | Ok _ => forall s root x opx c, files f s root -> reach root None x opx -> check s x opx c -> c = Ok tt
    | Err => exists s root x opx, files f s root /\ reach root None x opx /\ check s x opx Err
    | Panic => exists s root x opx, files f s root /\ reach root None x opx /\ check s x opx Panic
    end.
  Proof.
    intros U. induction f as [s root others IH] using file_induction. intros C Sub Alone Top l S. cbn [set_all].
    assert (I : match each (map (fun o (_ : option object) => set_all w at_address schema o) others) None l with
                | Ok l1 => sane All l1 /\ forall f s r x opx c, f ∈ others -> files f s r -> reach r None x opx -> check s x opx c -> c = Ok tt
                | Err => exists f s r x opx, f ∈ others /\ files f s r /\ reach r None x opx /\ check s x opx Err
                | Panic => exists f s r x opx, f ∈ others /\ files f s r /\ reach r None x opx /\ check s x opx Panic
                end).
    { assert (Sub' : forall g, g ∈ others -> (forall s' r, files g s' r -> conforms r) /\ (forall s' x, in_file g s' x -> All s' x) /\
        (forall s' x, in_file g s' x -> o_kind x = KOperation -> entry (o_fields x) "reply" <> [] -> o_ref x = "") /\
        (forall s' r, files g s' r -> ~ for_replies r)).
      { intros g Hg. split; [intros s' r H; apply (C s'); now apply (file_other _ _ _ g)|].
        split; [intros s' x H; apply Sub; now apply (in_other _ _ _ g)|].
        split; [intros s' x H; apply (Alone s'); now apply (in_other _ _ _ g)|].
        intros s' r H. apply (Top s'). now apply (file_other _ _ _ g). }
      clear C Sub Alone Top. revert l S. induction others as [|g others IHo]; intros l S; cbn [map each].
      - split; [exact S|]. intros f ? ? ? ? ? Hf. now apply elem_of_nil in Hf.
      - destruct (Sub' g ltac:(left)) as (Cg & Sg & Ag & Tg). assert (G := IH g ltac:(left) Cg Sg Ag Tg l S).
        destruct (set_all w at_address schema g l) as [| |l1] eqn:E.
        + destruct G as (s' & r & x & opx & G). exists g, s', r, x, opx. split; [left|exact G].
        + destruct G as (s' & r & x & opx & G). exists g, s', r, x, opx. split; [left|exact G].
        + apply set_all_effect in E; [|exact Cg]. assert (S1 := sane_effect All _ _ _ S Sg E).
          specialize (IHo (fun h Hh => IH h ltac:(now right)) (fun h Hh => Sub' h ltac:(now right)) l1 S1).
          destruct (each _ None l1) as [| |l2].
          * destruct IHo as (h & s' & r & x & opx & Hh & H). exists h, s', r, x, opx. split; [now right|exact H].
          * destruct IHo as (h & s' & r & x & opx & Hh & H). exists h, s', r, x, opx. split; [now right|exact H].
          * destruct IHo as [S2 H]. split; [exact S2|]. intros h s' r x opx c Hh. apply elem_of_cons in Hh as [->|Hh]; [apply G|now apply H]. }
    destruct (each _ None l) as [| |l1].
    - destruct I as (h & s' & r & x & opx & Hh & Hf & H). exists s', r, x, opx. split; [now apply (file_other _ _ _ h)|exact H].
    - destruct I as (h & s' & r & x & opx & Hh & Hf & H). exists s', r, x, opx. split; [now apply (file_other _ _ _ h)|exact H].
    - destruct I as [S1 I].
      assert (L := link_answers All U s root (C s root ltac:(constructor)) (fun x Hx => Sub s x (in_root _ _ _ _ Hx))
                     (fun x Hx => Alone s x (in_root _ _ _ _ Hx)) None l1 S1).
      specialize (L ltac:(intros F; destruct (Top s root ltac:(constructor) F))).
      destruct (link s root None l1) as [| |l2]; cbn [answers] in L.
      + destruct L as (x & opx & L). exists s, root, x, opx. split; [constructor|exact L].
      + destruct L as (x & opx & L). exists s, root, x, opx. split; [constructor|exact L].
      + intros s' r x opx c Hf. inversion Hf; subst; [now apply L|]. now apply (I f).
  Qed.

  (** ** In the words of the specification *)
  Lemma has_path_parent location : (parent_of location = Ok tt /\ has_path location) \/ (parent_of location = Panic /\ ~ has_path location).
  Proof.
    unfold parent_of. destruct ((has_prefix "$message.header#" location || has_prefix "$message.payload#" location)%bool) eqn:P.
    - assert (E : exists pre r, location = pre ++ r /\ (pre = "$message.header#" \/ pre = "$message.payload#")).
      { apply orb_prop in P as [P|P]; unfold has_prefix in P; [destruct (strip_prefix "$message.header#" location) as [r|] eqn:E|
          destruct (strip_prefix "$message.payload#" location) as [r|] eqn:E]; try discriminate; apply strip_prefix_some in E; eauto. }
      destruct E as (pre & r & -> & Hp). assert (Lp : lacks "/" pre).
      { destruct Hp as [-> | ->]; unfold lacks; apply (bool_decide_unpack _); vm_compute; exact I. }
      destruct (decide ("/"%char ∈ list_ascii_of_string r)) as [Hr|Hr].
      + left. split.
        * cbn [andb]. assert (S : exists a b, pre ++ r = a ++ String "/" b /\ lacks "/" a).
          { clear Hp. revert Hr. clear -Lp. intros Hr. induction r as [|c r IH] using string_ind in pre, Lp, Hr |- *; [now apply elem_of_nil in Hr|].
            destruct (decide (c = "/"%char)) as [->|N]; [now exists pre, r|].
            cbn [list_ascii_of_string] in Hr. apply elem_of_cons in Hr as [Hr|Hr]; [congruence|].
            destruct (IH (pre ++ String c "") ltac:(apply lacks_app; split; [exact Lp|apply lacks_cons; split; [congruence|apply lacks_nil]]) Hr) as (a & b & E & La).
            exists a, b. split; [|exact La]. now rewrite <- E, sapp_assoc. }
          destruct S as (a & b & E & La). rewrite E, split_app by exact La. destruct (split_nonnil "/" b) as (x & xs & ->). reflexivity.
        * intros r' [E|E]; (destruct Hp as [-> | ->]; [|]); try (apply sapp_inj in E; congruence); cbn in E; discriminate.
      + right. split.
        * rewrite split_lacks by (apply lacks_app; now split). reflexivity.
        * intros H. apply Hr. apply H. destruct Hp as [-> | ->]; auto.
    - left. split; [reflexivity|]. intros r E. exfalso. apply orb_false_elim in P as [P1 P2].
      unfold has_prefix in P1, P2. destruct E as [-> | ->]; rewrite strip_prefix_app in *; discriminate.
  Qed.

  Lemma own_check_ok s x : o_kind x <> KCorrelationID -> refers x -> own_check s x = Ok tt <-> exists p, designated w s (o_kind x) (o_ref x) p.
  Proof.
    intros N [R K]. unfold own_check. destruct (String.eqb_spec (o_ref x) "") as [E|_]; [congruence|].
    transitivity (exists p, aim s x = Ok p).
    - destruct (o_kind x); try congruence; (destruct (target w s _ (o_ref x)) as [| |p]; (split; [try discriminate; eauto|intros [q Hq]; congruence])).
    - split; intros [p H]; exists p; now apply target_designated.
  Qed.
  Lemma own_check_correlation s x : o_kind x = KCorrelationID -> o_ref x <> "" -> own_check s x = Ok tt <-> exists p, designated w s KChannel (o_ref x) p.
  Proof.
    intros K R. unfold own_check. destruct (String.eqb_spec (o_ref x) "") as [E|_]; [congruence|]. rewrite K.
    transitivity (exists p, target w s KCorrelationID (o_ref x) = Ok p).
    - destruct (target w s KCorrelationID (o_ref x)) as [| |p]; (split; [try discriminate; eauto|intros [q Hq]; congruence]).
    - split; intros [p H]; exists p; now apply target_correlation.
  Qed.

  Section acceptable.
    Variable f : file.
    Hypothesis Reg : regular w at_address f.

    Lemma roots_conform s root : files f s root -> conforms root /\ o_kind root = KSpecification.
    Proof. intros H. destruct (reg_conforms _ _ _ Reg s root H). now split. Qed.
    Lemma in_file_root s x : in_file f s x <-> exists root, files f s root /\ sighted root x.
    Proof.
      clear Reg. revert s x. induction f as [t r others IH] using file_induction. intros s x. split.
      - intros H. inversion H; subst; [exists r; split; [constructor|assumption]|].
        match goal with Hf : ?g ∈ others, Hx : in_file ?g _ _ |- _ => apply (IH g Hf) in Hx as (root & Hr & Hx); exists root; split;
          [now apply (file_other _ _ _ g)|exact Hx] end.
      - intros (root & Hr & Hx). inversion Hr; subst; [now constructor|].
        match goal with Hf : ?g ∈ others, Hx' : files ?g _ _ |- _ => apply (in_other _ _ _ g); [exact Hf|]; apply (IH g Hf); eauto end.
    Qed.
    Lemma in_file_conforms s x : in_file f s x -> conforms x.
    Proof. intros H. apply in_file_root in H as (root & Hr & Hx). apply roots_conform in Hr as [C _]. now apply (conforms_sighted root). Qed.
    Lemma in_file_holds s x g c : in_file f s x -> holds x g c -> ~ blind (o_kind x) g -> in_file f s c.
    Proof.
      intros H Hc B. apply in_file_root in H as (root & Hr & Hx). apply in_file_root. exists root. split; [exact Hr|].
      destruct (sighted_reach root None x Hx) as [opx R]. apply (reach_sighted root None c (operation_for x opx)). now apply (reach_field _ _ x opx g).
    Qed.

    (** Which operation a reply or an address is visited for. *)
    Lemma context s root x opx : files f s root -> reach root None x opx ->
      (o_kind x = KReply -> (exists q, opx = Some q /\ in_file f s q /\ o_kind q = KOperation /\ holds q "reply" x) \/
                            (opx = None /\ exists c, in_file f s c /\ o_kind c = KComponents /\ holds c "replies" x)) /\
      (o_kind x = KReplyAddress -> (exists q, opx = Some q /\ in_file f s q /\ o_kind q = KOperation /\ address_of q x) \/
                            (opx = None /\ exists c, in_file f s c /\ o_kind c = KComponents /\ address_of_components c x)).
    Proof.
      intros Hr R. destruct (roots_conform s root Hr) as [C Kr]. induction R as [|y opy g c R IH Hc B]; [rewrite Kr; split; discriminate|].
      assert (Hy : in_file f s y) by (apply in_file_root; exists root; split; [exact Hr|]; now apply reach_sighted in R).
      assert (Dc : (g, o_kind c) ∈ declares (o_kind y)) by (apply in_file_conforms in Hy; apply conforms_inv in Hy as (_ & D & _); now apply D).
      split; intros K; rewrite K in Dc.
      - destruct (o_kind y) eqn:Ky; cbn [declares] in Dc; rewrite ?elem_of_cons, ?elem_of_nil in Dc;
          repeat (destruct Dc as [Dc|Dc]; [try discriminate Dc|]); try contradiction; injection Dc as ->.
        + right. unfold operation_for. rewrite Ky. split; [reflexivity|]. now exists y.
        + left. unfold operation_for. rewrite Ky. now exists y.
      - destruct (o_kind y) eqn:Ky; cbn [declares] in Dc; rewrite ?elem_of_cons, ?elem_of_nil in Dc;
          repeat (destruct Dc as [Dc|Dc]; [try discriminate Dc|]); try contradiction; injection Dc as ->.
        + right. unfold operation_for. rewrite Ky. split; [reflexivity|]. exists y. split; [exact Hy|]. split; [exact Ky|]. now left.
        + unfold operation_for. rewrite Ky. destruct IH as [IH _]. destruct (IH eq_refl) as [(q & -> & Hq & Kq & Hh)|(-> & d & Hd & Kd & Hh)].
          * left. exists q. split; [reflexivity|]. split; [exact Hq|]. split; [exact Kq|]. now exists y.
          * right. split; [reflexivity|]. exists d. split; [exact Hd|]. split; [exact Kd|]. right. now exists y.
    Qed.

    Lemma locate_for_spec s q location : in_file f s q -> o_kind q = KOperation ->
      (forall ch, holds q "channel" ch -> refers ch -> exists p, designated w s (o_kind ch) (o_ref ch) p) ->
      locate_for s (Some q) location = Ok tt <-> (location <> "" -> has_path location /\ has_messages w at_address s q).
    Proof.
      intros Hq Kq Rq. unfold locate_for. destruct (String.eqb_spec location "") as [->|Nl]; [split; [now intros _ []|reflexivity]|].
      assert (Cq := in_file_conforms s q Hq).
      assert (P : parent_of location = Ok tt <-> has_path location).
      { destruct (has_path_parent location) as [[-> H]|[-> H]]; split; (reflexivity || discriminate || tauto). }
      destruct (entry (o_fields q) "messages") as [|m ms] eqn:Em.
      - assert (Nm : forall m, ~ holds q "messages" m) by (intros m H; apply holds_entry in H; [|exact Cq]; rewrite Em in H; now apply elem_of_nil in H).
        destruct (entry (o_fields q) "channel") as [|ch chs] eqn:Ec.
        + split; [discriminate|]. intros H. exfalso. destruct (H Nl) as [_ [[m Hm]|(ch & ch' & m & Hch & _)]]; [now apply (Nm m)|].
          apply holds_entry in Hch; [|exact Cq]. rewrite Ec in Hch. now apply elem_of_nil in Hch.
        + assert (Hch : holds q "channel" ch) by (apply holds_entry; [exact Cq|rewrite Ec; left]).
          assert (Bc : ~ blind (o_kind q) "channel") by (unfold blind; rewrite Kq; intros [[H _]|[[H _]|[_ H]]]; discriminate).
          assert (Hin := in_file_holds s q "channel" ch Hq Hch Bc).
          assert (Kc : o_kind ch = KChannel).
          { apply conforms_inv in Cq as (_ & D & _). assert (Dh := D _ _ Hch). rewrite Kq in Dh. cbn [declares] in Dh.
            rewrite !elem_of_cons, elem_of_nil in Dh. intuition congruence. }
          assert (St : stands_for w at_address s ch (resolved s ch) /\ NoDup (map fst (o_fields (resolved s ch)))).
          { unfold resolved. destruct (String.eqb_spec (o_ref ch) "") as [E|E].
            - split; [now constructor|]. apply in_file_conforms in Hin. now apply conforms_inv in Hin as (N & _).
            - destruct (Rq ch Hch ltac:(split; [exact E|rewrite Kc; discriminate])) as [p Hp].
              assert (T := Hp). apply target_designated in T; [|rewrite Kc; discriminate|rewrite Kc; discriminate]. rewrite T.
              destruct (reg_address _ _ _ Reg s ch p Hin Hp) as (o & s' & Ao & _ & _ & No). rewrite Ao. cbn [default].
              apply in_file_conforms in No. apply conforms_inv in No as (No & _). split; [|exact No].
              now apply (for_target w at_address s ch p). }
          destruct St as [St ND].
          assert (Same : forall o', stands_for w at_address s ch o' -> o' = resolved s ch).
          { intros o' H. inversion St as [E1 E2|p1 o1 E1 D1 A1 E2]; inversion H as [F1 F2|p2 o2 F1 D2 A2 F2]; subst; try congruence.
            apply target_designated in D1; [|rewrite Kc; discriminate|rewrite Kc; discriminate].
            apply target_designated in D2; [|rewrite Kc; discriminate|rewrite Kc; discriminate]. congruence. }
          destruct (entry (o_fields (resolved s ch)) "messages") as [|m ms] eqn:Er.
          * split; [discriminate|]. intros H. exfalso. destruct (H Nl) as [_ [[m Hm]|(d & ch' & m & Hd & Sd & l & Hl & Hm)]]; [now apply (Nm m)|].
            assert (d = ch) as -> by (apply (reg_single _ _ _ Reg s q "channel" Hq ltac:(now right; left)); assumption).
            apply Same in Sd as ->. assert (Hin' : m ∈ entry (o_fields (resolved s ch)) "messages") by (apply entry_spec; [exact ND|eauto]).
            rewrite Er in Hin'. now apply elem_of_nil in Hin'.
          * rewrite P. split; [|intros H; now apply H]. intros H _. split; [exact H|]. right. exists ch, (resolved s ch), m.
            split; [exact Hch|]. split; [exact St|]. apply (entry_spec _ _ _ ND). rewrite Er. left.
      - rewrite P. split; [|intros H; now apply H]. intros H _. split; [exact H|]. left. exists m. apply holds_entry; [exact Cq|]. rewrite Em. left.
    Qed.

    Lemma answer_spec s q : in_file f s q -> o_kind q = KOperation ->
      answer q = Ok tt <-> forall r, holds q "reply" r -> exists ch, holds r "channel" ch.
    Proof.
      intros Hq Kq. assert (Cq := in_file_conforms s q Hq). unfold answer. destruct (entry (o_fields q) "reply") as [|r rs] eqn:Er.
      - split; [|reflexivity]. intros _ r Hr. apply holds_entry in Hr; [|exact Cq]. rewrite Er in Hr. now apply elem_of_nil in Hr.
      - assert (Hr : holds q "reply" r) by (apply holds_entry; [exact Cq|rewrite Er; left]).
        assert (Cr : conforms r) by (apply conforms_inv in Cq as (_ & _ & _ & C); now apply (C "reply")).
        destruct (entry (o_fields r) "channel") as [|ch chs] eqn:Ec.
        + split; [discriminate|]. intros H. exfalso. destruct (H r Hr) as [ch Hch]. apply holds_entry in Hch; [|exact Cr]. rewrite Ec in Hch. now apply elem_of_nil in Hch.
        + split; [|reflexivity]. intros _ r' Hr'. assert (r' = r) as -> by (apply (reg_single _ _ _ Reg s q "reply" Hq ltac:(now left)); assumption).
          exists ch. apply holds_entry; [exact Cr|]. rewrite Ec. left.
    Qed.

    Lemma anywhere_in s x : in_file f s x -> anywhere f s x.
    Proof.
      clear Reg. revert s x. induction f as [t r others IH] using file_induction. intros s x H. inversion H as [? ? ? ? Hx|? ? ? g ? ? Hg Hx]; subst.
      - constructor. clear -Hx. induction Hx as [o|o f c x H B S IH']; [constructor|now apply (inside_field o f c)].
      - apply (any_other _ _ _ g); [exact Hg|]. now apply IH.
    Qed.
    Lemma alone s x : in_file f s x -> o_kind x = KOperation -> entry (o_fields x) "reply" <> [] -> o_ref x = "".
    Proof.
      intros H K N. destruct (entry (o_fields x) "reply") as [|r rs] eqn:E; [congruence|]. apply (reg_alone _ _ _ Reg s x r H K).
      apply holds_entry; [now apply (in_file_conforms s)|]. rewrite E. left.
    Qed.

    Lemma outcome : match set_all w at_address schema f ∅ with
      | Ok _ => forall s root x opx c, files f s root -> reach root None x opx -> check s x opx c -> c = Ok tt
      | Err => exists s root x opx, files f s root /\ reach root None x opx /\ check s x opx Err
      | Panic => exists s root x opx, files f s root /\ reach root None x opx /\ check s x opx Panic
      end.
    Proof.
      apply (set_all_answers (in_file f)).
      - intros s x s' y Hx Hy E. apply (reg_distinct _ _ _ Reg); [now apply anywhere_in|now apply anywhere_in|exact E].
      - intros s root H. now destruct (roots_conform s root H).
      - auto.
      - apply alone.
      - intros s root H [K|K]; destruct (roots_conform s root H) as [_ K']; congruence.
      - intros i p H. now rewrite lookup_empty in H.
    Qed.

    Lemma acceptable_checks : acceptable w at_address schema f <->
      forall s root x opx c, files f s root -> reach root None x opx -> check s x opx c -> c = Ok tt.
    Proof.
      split.
      - intros A s root x opx c Hr R Cx. assert (Hx : in_file f s x) by (apply in_file_root; exists root; split; [exact Hr|now apply reach_sighted in R]).
        inversion Cx as [|K|K|K]; subst.
        + destruct (String.eqb_spec (o_ref x) "") as [E|E]; [unfold own_check; now rewrite E|].
          destruct (decide (o_kind x = KSchema)) as [K|K]; [unfold own_check; rewrite K; now destruct (String.eqb _ _)|].
          destruct (decide (o_kind x = KCorrelationID)) as [K'|K'].
          * apply own_check_correlation; [exact K'|exact E|]. now apply (acc_correlations _ _ _ _ A s x Hx (conj E K)).
          * apply own_check_ok; [exact K'|now split|]. now apply (acc_references _ _ _ _ A s x Hx (conj E K)).
        + now apply (acc_schemas _ _ _ _ A s).
        + destruct (context s root x opx Hr R) as [_ Cxt]. destruct (Cxt K) as [(q & -> & Hq & Kq & Ha)|(-> & d & Hd & Kd & Ha)].
          * apply locate_for_spec; [exact Hq|exact Kq| |].
            { intros ch Hch Rf. assert (Bc : ~ blind (o_kind q) "channel") by (unfold blind; rewrite Kq; intros [[H _]|[[H _]|[_ H]]]; discriminate).
              apply (acc_references _ _ _ _ A s ch); [now apply (in_file_holds s q "channel")|exact Rf|].
              assert (Cq := in_file_conforms s q Hq). apply conforms_inv in Cq as (_ & D & _). assert (Dh := D _ _ Hch). rewrite Kq in Dh. cbn [declares] in Dh.
              rewrite !elem_of_cons, elem_of_nil in Dh. intuition congruence. }
            intros Nl. now apply (acc_located _ _ _ _ A s q x).
          * unfold locate_for. now rewrite (acc_components _ _ _ _ A s d x Hd Kd Ha).
        + apply (answer_spec s x Hx K). intros r. now apply (acc_replies _ _ _ _ A s).
      - intros G.
        assert (G' : forall s x, in_file f s x -> exists root opx, files f s root /\ reach root None x opx).
        { intros s x H. apply in_file_root in H as (root & Hr & Hx). destruct (sighted_reach root None x Hx) as [opx R]. eauto. }
        assert (Own : forall s x, in_file f s x -> own_check s x = Ok tt).
        { intros s x H. destruct (G' s x H) as (root & opx & Hr & R). apply (G s root x opx); [exact Hr|exact R|constructor]. }
        assert (Rf : forall s x, in_file f s x -> refers x -> o_kind x <> KCorrelationID -> exists p, designated w s (o_kind x) (o_ref x) p).
        { intros s x H R K. now apply own_check_ok; [| |apply Own]. }
        split.
        + exact Rf.
        + intros s x H [R _] K. now apply own_check_correlation; [| |apply Own].
        + intros s x H K. destruct (G' s x H) as (root & opx & Hr & R). apply (G s root x opx); [exact Hr|exact R|now constructor].
        + intros s op r H K. apply (answer_spec s op H K). destruct (G' s op H) as (root & opx & Hr & R). apply (G s root op opx); [exact Hr|exact R|now constructor].
        + intros s op a H K (r & Hr & Ha). destruct (G' s op H) as (root & opx & Hroot & R).
          assert (Cq := in_file_conforms s op H). assert (Dq := Cq). apply conforms_inv in Dq as (_ & D & _ & Cc).
          assert (Kr : o_kind r = KReply).
          { assert (Dh := D _ _ Hr). rewrite K in Dh. cbn [declares] in Dh. rewrite !elem_of_cons, elem_of_nil in Dh. intuition congruence. }
          assert (Ka : o_kind a = KReplyAddress).
          { assert (Cr := Cc _ _ Hr). apply conforms_inv in Cr as (_ & D' & _). assert (Dh := D' _ _ Ha). rewrite Kr in Dh. cbn [declares] in Dh.
            rewrite !elem_of_cons, elem_of_nil in Dh. intuition congruence. }
          assert (R1 : reach root None r (Some op)).
          { replace (Some op) with (operation_for op opx) by (unfold operation_for; now rewrite K). apply (reach_field _ _ op opx "reply" r R Hr).
            unfold blind. rewrite K. intros [[E _]|[[E _]|[_ E]]]; discriminate. }
          assert (R2 : reach root None a (Some op)).
          { replace (Some op) with (operation_for r (Some op)) by (unfold operation_for; now rewrite Kr). apply (reach_field _ _ r (Some op) "address" a R1 Ha).
            unfold blind. rewrite Kr. intros [[E _]|[[E _]|[E _]]]; discriminate. }
          assert (L := G s root a (Some op) _ Hroot R2 (check_locate s a (Some op) Ka)). revert L. apply locate_for_spec; [exact H|exact K|].
          intros ch Hch Rc. assert (Bc : ~ blind (o_kind op) "channel") by (unfold blind; rewrite K; intros [[E _]|[[E _]|[_ E]]]; discriminate).
          apply Rf; [now apply (in_file_holds s op "channel")|exact Rc|].
          assert (Dh := D _ _ Hch). rewrite K in Dh. cbn [declares] in Dh. rewrite !elem_of_cons, elem_of_nil in Dh. intuition congruence.
        + intros s c a H K Ha. destruct (G' s c H) as (root & opx & Hroot & R).
          assert (Cq := in_file_conforms s c H). apply conforms_inv in Cq as (_ & D & _ & Cc).
          assert (Z : o_kind a = KReplyAddress /\ reach root None a None).
          { destruct Ha as [Ha|(r & Hr & Ha)].
            - split; [assert (Dh := D _ _ Ha); rewrite K in Dh; cbn [declares] in Dh; rewrite !elem_of_cons, elem_of_nil in Dh; intuition congruence|].
              replace None with (operation_for c opx) at 2 by (unfold operation_for; now rewrite K). apply (reach_field _ _ c opx "replyAddresses" a R Ha).
              unfold blind. rewrite K. intros [[E _]|[[E _]|[E _]]]; discriminate.
            - assert (Kr : o_kind r = KReply).
              { assert (Dh := D _ _ Hr). rewrite K in Dh. cbn [declares] in Dh. rewrite !elem_of_cons, elem_of_nil in Dh. intuition congruence. }
              assert (Ka : o_kind a = KReplyAddress).
              { assert (Cr := Cc _ _ Hr). apply conforms_inv in Cr as (_ & D' & _). assert (Dh := D' _ _ Ha). rewrite Kr in Dh. cbn [declares] in Dh.
                rewrite !elem_of_cons, elem_of_nil in Dh. intuition congruence. }
              split; [exact Ka|].
              assert (R1 : reach root None r None).
              { replace None with (operation_for c opx) at 2 by (unfold operation_for; now rewrite K). apply (reach_field _ _ c opx "replies" r R Hr).
                unfold blind. rewrite K. intros [[E _]|[[E _]|[E _]]]; discriminate. }
              replace None with (operation_for r None) at 2 by (unfold operation_for; now rewrite Kr). apply (reach_field _ _ r None "address" a R1 Ha).
              unfold blind. rewrite Kr. intros [[E _]|[[E _]|[E _]]]; discriminate. }
          destruct Z as [Ka Ra]. assert (L := G s root a None _ Hroot Ra (check_locate s a None Ka)). unfold locate_for in L.
          destruct (String.eqb_spec (o_location a) ""); [assumption|discriminate].
    Qed.

    Lemma accepted : (exists l, set_all w at_address schema f ∅ = Ok l) <-> acceptable w at_address schema f.
    Proof.
      rewrite acceptable_checks. assert (O := outcome). destruct (set_all w at_address schema f ∅) as [| |l].
      - split; [now intros [l E]|]. intros H. exfalso. destruct O as (s & root & x & opx & Hr & R & Cx). now specialize (H _ _ _ _ _ Hr R Cx).
      - split; [now intros [l E]|]. intros H. exfalso. destruct O as (s & root & x & opx & Hr & R & Cx). now specialize (H _ _ _ _ _ Hr R Cx).
      - split; [intros _; exact O|]. intros _. now exists l.
    Qed.

    (** Why the processing panics. *)
    (** ** What the objects lead to *)
    Lemma linked l s x : set_all w at_address schema f ∅ = Ok l -> in_file f s x ->
      (refers x -> exists p, aim s x = Ok p /\ l !! o_id x = Some p) /\ (~ refers x -> l !! o_id x = None).
    Proof.
      intros E Hx. apply set_all_effect in E; [|intros s' r Hr; now apply roots_conform in Hr]. destruct E as [_ E].
      destruct (E (o_id x)) as [(s' & y & p & Hy & Ry & Ey & Ty & Ly)|[Nx ->]].
      - destruct (reg_distinct _ _ _ Reg s' y s x (anywhere_in _ _ Hy) (anywhere_in _ _ Hx) Ey) as [-> ->].
        split; [intros _; now exists p|intros N; contradiction].
      - split; [|intros _; apply lookup_empty]. intros R. exfalso. now apply (Nx s x).
    Qed.
    Lemma followed_stands l s x : set_all w at_address schema f ∅ = Ok l -> in_file f s x -> o_kind x <> KCorrelationID -> o_kind x <> KSchema ->
      stands_for w at_address s x (followed at_address l x) /\ exists s', in_file f s' (followed at_address l x) /\ o_kind (followed at_address l x) = o_kind x.
    Proof.
      intros E Hx Kc Ks. destruct (linked l s x E Hx) as [Hr Hn]. unfold followed. destruct (decide (o_ref x = "")) as [R|R].
      - rewrite Hn by now intros [? _]. split; [now constructor|now exists s].
      - destruct (Hr (conj R Ks)) as (p & T & ->). apply target_designated in T; [|exact Kc|exact Ks].
        destruct (reg_address _ _ _ Reg s x p Hx T) as (o & s' & Ao & _ & Ko & Io). rewrite Ao. cbn. split; [now apply (for_target _ _ _ _ p)|now exists s'].
    Qed.
    Lemma stands_for_unique s x o o' : o_kind x <> KCorrelationID -> o_kind x <> KSchema ->
      stands_for w at_address s x o -> stands_for w at_address s x o' -> o = o'.
    Proof.
      intros Kc Ks H H'. inversion H as [E1 E2|p1 o1 E1 D1 A1 E2]; inversion H' as [F1 F2|p2 o2 F1 D2 A2 F2]; subst; try congruence.
      apply target_designated in D1; [|exact Kc|exact Ks]. apply target_designated in D2; [|exact Kc|exact Ks]. congruence.
    Qed.
    Lemma traits_in s m t : in_file f s m -> o_kind m = KMessage -> holds m "traits" t -> in_file f s t /\ o_kind t = KMessageTrait.
    Proof.
      intros Hm Km H. split.
      - apply (in_file_holds s m "traits" t Hm H). unfold blind. intros [[_ B]|[[_ B]|[_ B]]]; discriminate.
      - apply in_file_conforms in Hm. apply conforms_inv in Hm as (_ & D & _). assert (Dh := D _ _ H). rewrite Km in Dh. cbn [declares] in Dh.
        rewrite !elem_of_cons, elem_of_nil in Dh. intuition congruence.
    Qed.
    Lemma carried l s m : set_all w at_address schema f ∅ = Ok l -> in_file f s m -> o_kind m = KMessage ->
      forall c, carries w at_address s m c <-> exists r, correlation_of at_address l m = (c :: r)%list.
    Proof.
      intros E Hm Km. assert (Cm := in_file_conforms s m Hm). assert (ND := proj1 (conforms_inv m Cm)).
      assert (Follow : forall t, holds m "traits" t -> stands_for w at_address s t (followed at_address l t) /\ conforms (followed at_address l t) /\
        (forall c d, holds (followed at_address l t) "correlationID" c -> holds (followed at_address l t) "correlationID" d -> c = d) /\
        (forall o, stands_for w at_address s t o -> o = followed at_address l t)).
      { intros t Ht. destruct (traits_in s m t Hm Km Ht) as [It Kt].
        destruct (followed_stands l s t E It) as [St (s' & Is & Ks)]; [now rewrite Kt|now rewrite Kt|]. split; [exact St|]. split; [now apply in_file_conforms in Is|].
        split; [apply (reg_single _ _ _ Reg s' _ "correlationID" Is ltac:(now right; right))|].
        intros o Ho. apply (stands_for_unique s t); [now rewrite Kt|now rewrite Kt|exact Ho|exact St]. }
      unfold correlation_of. intros c. destruct (entry (o_fields m) "correlationID") as [|d ds] eqn:Eo.
      - cbn [app]. assert (No : forall d, ~ holds m "correlationID" d).
        { intros d Hd. apply holds_entry in Hd; [|exact Cm]. rewrite Eo in Hd. now apply elem_of_nil in Hd. }
        assert (Cut : forall ts, (forall t, t ∈ ts -> holds m "traits" t) ->
          (exists r, List.concat (map (fun t => entry (o_fields (followed at_address l t)) "correlationID") ts) = c :: r) <->
          exists before t after, ts = (before ++ t :: after)%list /\ holds (followed at_address l t) "correlationID" c /\
            forall u d, u ∈ before -> ~ holds (followed at_address l u) "correlationID" d).
        { induction ts as [|t ts IH]; intros Hts; cbn [map List.concat].
          - split; [intros [r H]; discriminate|intros (b & t & a & H & _); destruct b; discriminate].
          - destruct (Follow t (Hts t ltac:(left))) as (_ & Ct & Ut & _).
            destruct (entry (o_fields (followed at_address l t)) "correlationID") as [|e es] eqn:Et.
            + cbn [app]. rewrite IH by (intros u Hu; apply Hts; now right).
              assert (Nt : forall d, ~ holds (followed at_address l t) "correlationID" d).
              { intros d Hd. apply holds_entry in Hd; [|exact Ct]. rewrite Et in Hd. now apply elem_of_nil in Hd. }
              split.
              * intros (b & u & a & -> & Hu & Hb). exists (t :: b), u, a. split; [reflexivity|]. split; [exact Hu|].
                intros v d Hv. apply elem_of_cons in Hv as [->|Hv]; [apply Nt|now apply Hb].
              * intros ([|t' b] & u & a & Eq & Hu & Hb); injection Eq as -> ->; [now destruct (Nt c)|].
                exists b, u, a. split; [reflexivity|]. split; [exact Hu|]. intros v d Hv. apply Hb. now right.
            + assert (He : holds (followed at_address l t) "correlationID" e) by (apply holds_entry; [exact Ct|rewrite Et; left]). split.
              * intros [r Eq]. injection Eq as -> _. exists [], t, ts. split; [reflexivity|]. split; [exact He|]. intros u d Hu. now apply elem_of_nil in Hu.
              * intros ([|t' b] & u & a & Eq & Hu & Hb); injection Eq as -> ->.
                -- rewrite (Ut c e Hu He). eexists. reflexivity.
                -- exfalso. apply (Hb t' e); [left|exact He]. }
        rewrite Cut; [|intros t Ht; apply holds_entry; [exact Cm|exact Ht]]. split.
        + intros H. inversion H as [d Hd|b t a t' d _ Ht St Hd Hb]; subst; [now destruct (No c)|].
          assert (Ee : entry (o_fields m) "traits" = (b ++ t :: a)%list) by now apply entry_of.
          assert (Hh : forall u, u ∈ (b ++ t :: a)%list -> holds m "traits" u) by (intros u Hu; apply holds_entry; [exact Cm|now rewrite Ee]).
          exists b, t, a. split; [exact Ee|]. split.
          * destruct (Follow t) as (_ & _ & _ & U); [apply Hh; apply elem_of_app; right; left|]. now rewrite <- (U t' St).
          * intros u d Hu. apply (Hb u); [exact Hu|]. apply Follow. apply Hh. apply elem_of_app. now left.
        + intros (b & t & a & Ee & Hc & Hb).
          assert (Hh : forall u, u ∈ (b ++ t :: a)%list -> holds m "traits" u) by (intros u Hu; apply holds_entry; [exact Cm|now rewrite Ee]).
          apply (carries_trait _ _ _ _ b t a (followed at_address l t)); [exact No| | |exact Hc|].
          * destruct (Hh t ltac:(apply elem_of_app; right; left)) as (ts & Hts & _). rewrite (entry_of _ _ _ ND Hts) in Ee. now rewrite <- Ee.
          * apply Follow. apply Hh. apply elem_of_app. right. left.
          * intros u u' d Hu Su. destruct (Follow u) as (_ & _ & _ & U); [apply Hh; apply elem_of_app; now left|]. rewrite (U u' Su). now apply Hb.
      - assert (Hd : holds m "correlationID" d) by (apply holds_entry; [exact Cm|rewrite Eo; left]). split.
        + intros H. inversion H as [e He|b t a t' e N Ht St He Hb]; subst; [|now destruct (N d)].
          rewrite (reg_single _ _ _ Reg s m "correlationID" Hm ltac:(now right; right) c d He Hd). eexists. reflexivity.
        + intros [r Eq]. injection Eq as -> _. now constructor.
    Qed.
    Lemma have_exact l s m : set_all w at_address schema f ∅ = Ok l -> in_file f s m -> o_kind m = KMessage ->
      have_correlation_id at_address l m = true <->
      exists s' m' c, stands_for w at_address s m m' /\ in_file f s' m' /\ carries w at_address s' m' c /\ o_location c <> "".
    Proof.
      intros E Hm Km. destruct (followed_stands l s m E Hm) as [St (s' & Is & Ks)]; [now rewrite Km|now rewrite Km|]. rewrite Km in Ks.
      assert (C := carried l s' _ E Is Ks). unfold have_correlation_id.
      assert (Same : forall s'' m', stands_for w at_address s m m' -> in_file f s'' m' -> m' = followed at_address l m /\ s'' = s').
      { intros s'' m' Sm Im. assert (m' = followed at_address l m) as -> by (apply (stands_for_unique s m); [now rewrite Km|now rewrite Km|exact Sm|exact St]).
        split; [reflexivity|]. now destruct (reg_distinct _ _ _ Reg s'' _ s' _ (anywhere_in _ _ Im) (anywhere_in _ _ Is) eq_refl). }
      destruct (correlation_of at_address l (followed at_address l m)) as [|c r].
      - split; [discriminate|]. intros (s'' & m' & c & Sm & Im & Hc & _). destruct (Same _ _ Sm Im) as [-> ->]. apply C in Hc as [r Hr]. discriminate.
      - split.
        + intros Hl. exists s', (followed at_address l m), c. split; [exact St|]. split; [exact Is|]. split; [apply C; now exists r|].
          intros N. rewrite N in Hl. discriminate.
        + intros (s'' & m' & d & Sm & Im & Hd & Nd). destruct (Same _ _ Sm Im) as [-> ->]. apply C in Hd as [q Hq]. injection Hq as -> _.
          destruct (String.eqb_spec (o_location d) ""); [contradiction|reflexivity].
    Qed.

    Lemma panics : set_all w at_address schema f ∅ = Panic ->
      (exists s x, in_file f s x /\ refers x /\ reference3 w s (o_ref x) = Panic) \/
      (exists s x, in_file f s x /\ o_kind x = KSchema /\ schema (o_id x) = Panic) \/
      (exists s op r, in_file f s op /\ o_kind op = KOperation /\ holds op "reply" r /\ forall ch, ~ holds r "channel" ch) \/
      (exists s op a, in_file f s op /\ o_kind op = KOperation /\ address_of op a /\ o_location a <> "" /\
         (~ has_path (o_location a) \/ ((forall m, ~ holds op "messages" m) /\ forall ch, ~ holds op "channel" ch))) \/
      (exists s c a, in_file f s c /\ o_kind c = KComponents /\ address_of_components c a /\ o_location a <> "").
    Proof.
      intros E. assert (O := outcome). rewrite E in O. destruct O as (s & root & x & opx & Hr & R & Cx).
      assert (Hx : in_file f s x) by (apply in_file_root; exists root; split; [exact Hr|now apply reach_sighted in R]).
      inversion Cx as [C|K C|K C|K C].
      - left. exists s, x. split; [exact Hx|]. unfold own_check in C. destruct (String.eqb_spec (o_ref x) "") as [N|N]; [discriminate|].
        split; [split; [exact N|]; destruct (o_kind x); congruence|].
        destruct (reference3 w s (o_ref x)) as [| |o] eqn:Er; [reflexivity|exfalso ..].
        + destruct (o_kind x); unfold target in C; rewrite ?Er in C; discriminate C.
        + assert (No : forall k, as_other k (Ok o) <> Panic) by (intros k; destruct o as [p|p|p|k' p]; cbn; [..|destruct (String.eqb k' k)]; try discriminate; destruct p; discriminate).
          assert (Nm : as_message (Ok o) <> Panic) by (destruct o as [p|p|p|k' p]; cbn; try discriminate; destruct p; discriminate).
          assert (Nc : as_channel (Ok o) <> Panic) by (destruct o as [p|p|p|k' p]; cbn; try discriminate; destruct p; discriminate).
          destruct (o_kind x); unfold target in C; rewrite ?Er in C; try discriminate C;
            first [destruct (as_other _ (Ok o)) eqn:Q; [now apply (No _ Q)|discriminate C|discriminate C]
                  |destruct (as_message (Ok o)) eqn:Q; [now apply Nm|discriminate C|discriminate C]
                  |destruct (as_channel (Ok o)) eqn:Q; [now apply Nc|discriminate C|discriminate C]].
      - right. left. now exists s, x.
      - do 3 right. destruct (context s root x opx Hr R) as [_ Cxt]. destruct (Cxt K) as [(q & -> & Hq & Kq & Ha)|(-> & d & Hd & Kd & Ha)].
        + left. exists s, q, x. split; [exact Hq|]. split; [exact Kq|]. split; [exact Ha|].
          assert (Cq := in_file_conforms s q Hq). unfold locate_for in C.
          destruct (String.eqb_spec (o_location x) "") as [N|N]; [discriminate|]. split; [exact N|].
          assert (P : parent_of (o_location x) = Panic -> ~ has_path (o_location x)) by (destruct (has_path_parent (o_location x)) as [[-> _]|[_ H]]; [discriminate|auto]).
          destruct (entry (o_fields q) "messages") as [|m ms] eqn:Em; [|left; now apply P].
          destruct (entry (o_fields q) "channel") as [|ch chs] eqn:Ec.
          * right. split; intros y Hy; (apply holds_entry in Hy; [|exact Cq]); [rewrite Em in Hy|rewrite Ec in Hy]; now apply elem_of_nil in Hy.
          * left. apply P. match type of C with match ?e with _ => _ end = _ => destruct e end; [discriminate C|exact C].
        + right. exists s, d, x. split; [exact Hd|]. split; [exact Kd|]. split; [exact Ha|]. intros N. unfold locate_for in C. rewrite N in C. discriminate.
      - right. right. left. exists s, x. assert (Cq := in_file_conforms s x Hx). unfold answer in C.
        destruct (entry (o_fields x) "reply") as [|r rs] eqn:Ee; [discriminate|]. exists r. split; [exact Hx|]. split; [exact K|].
        assert (Hh : holds x "reply" r) by (apply holds_entry; [exact Cq|rewrite Ee; left]). split; [exact Hh|].
        intros ch Hch. assert (Cr : conforms r) by (apply conforms_inv in Cq as (_ & _ & _ & Cc); now apply (Cc "reply")).
        apply holds_entry in Hch; [|exact Cr]. destruct (entry (o_fields r) "channel"); [now apply elem_of_nil in Hch|discriminate].
    Qed.
  End acceptable.
End linking.
