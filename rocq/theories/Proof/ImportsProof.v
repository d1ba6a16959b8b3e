From stdpp Require Import gmap list strings.
From Coq Require Import String Ascii.
From Verif.Model Require Import Reference Imports.
From Verif.Spec Require Import ImportsSpec.

Section Ind.
  Context (P : ischema -> Prop).
  Context (H : forall props items others imp,
             Forall (fun kp => P kp.2) props -> (forall it, items = Some it -> P it) ->
             P (ISchema props items others imp)).
  Fixpoint ischema_rect2 (s : ischema) : P s :=
    match s with
    | ISchema props items others imp =>
        H props items others imp
          ((fix go (l : list (string * ischema)) : Forall (fun kp => P kp.2) l :=
              match l with
              | [] => Forall_nil_2 _
              | kp :: r => Forall_cons_2 _ kp r (ischema_rect2 kp.2) (go r)
              end) props)
          (match items as o return forall it, o = Some it -> P it with
           | Some x => fun it e => match e in _ = o return match o with Some y => P y | None => True end with eq_refl => ischema_rect2 x end
           | None => fun it e => match e in _ = o return match o with Some y => P y | None => True end with eq_refl => I end
           end)
    end.
End Ind.

(** The imports in the order of the visit. *)
Fixpoint imports_of (s : ischema) : list go_import :=
  match s with
  | ISchema props items _ imp =>
      ((fix go (l : list (string * ischema)) : list go_import :=
          match l with [] => [] | (_, p) :: r => imports_of p ++ go r end) props)
      ++ match items with Some it => imports_of it | None => [] end
      ++ match imp with Some i => [i] | None => [] end
  end.

Lemma over_app {A B} (f : A -> B -> res B) l1 l2 m :
  over f (l1 ++ l2) m = match over f l1 m with Ok m => over f l2 m | e => e end.
Proof.
  revert m. induction l1 as [|a r IH]; intros m; [done|]. simpl. destruct (f a m); auto.
Qed.

Lemma go_type_imports_over s m : go_type_imports s m = over add_import (imports_of s) m.
Proof.
  revert m. induction s as [props items others imp IHp IHi] using ischema_rect2. intros m.
  simpl. revert m. induction props as [|[k p] r IH]; intros m.
  - simpl. destruct items as [it|].
    + rewrite (IHi it eq_refl), over_app. destruct (over add_import (imports_of it) m); try done.
      destruct imp as [i|]; simpl; [|done]. by destruct (add_import _ _).
    + destruct imp as [i|]; simpl; [|done]. by destruct (add_import _ _).
  - inversion IHp; subst. simpl in *. rewrite H1, <- app_assoc, over_app.
    destruct (over add_import (imports_of p) m); try done. by apply IH.
Qed.

Lemma asks_inv props items others imp i : asks (ISchema props items others imp) i ->
  imp = Some i \/ (exists k p, (k, p) ∈ props /\ asks p i) \/ (exists it, items = Some it /\ asks it i).
Proof. intros H. inversion H; subst; eauto 10. Qed.

Lemma imports_of_asks s i : i ∈ imports_of s <-> asks s i.
Proof.
  induction s as [props items others imp IHp IHi] using ischema_rect2. simpl.
  rewrite !elem_of_app. split.
  - intros [H|[H|H]].
    + cut (exists k p, (k, p) ∈ props /\ asks p i).
      { intros (k & p & ? & ?). by eapply asks_property. }
      induction props as [|[k p] r IH]; [by apply elem_of_nil in H|].
      inversion IHp; subst. apply elem_of_app in H. destruct H as [H|H].
      * exists k, p. split; [left|by apply H2].
      * destruct (IH H3 H) as (k' & p' & ? & ?). exists k', p'. split; [by right|done].
    + destruct items as [it|]; [|by apply elem_of_nil in H]. apply asks_items. by apply IHi.
    + destruct imp; [|by apply elem_of_nil in H]. apply elem_of_list_singleton in H as ->. constructor.
  - intros H. apply asks_inv in H as [-> |[(k & p & Hk & Ha)|(it & -> & Ha)]].
    + right; right. by left.
    + left. induction props as [|[k' p'] r IH]; [by apply elem_of_nil in Hk|].
      inversion IHp as [|? ? Hp Hr]; subst. apply elem_of_app. apply elem_of_cons in Hk. destruct Hk as [[= -> ->]|Hk].
      * left. by apply Hp.
      * right. by apply IH.
    + right; left. by apply IHi.
Qed.

(** What a sequence of imports leaves in the map. *)
Lemma over_add_ok l m m' : over add_import l m = Ok m' ->
  (forall p n, m' !! p = Some n <-> m !! p = Some n \/ m !! p = None /\ mkImport n p ∈ l) /\
  (forall i n, i ∈ l -> m' !! i_path i = Some n -> n = i_name i).
Proof.
  revert m. induction l as [|a r IH]; simpl; intros m H.
  - injection H as ->. split; [|intros i n Hi; by apply elem_of_nil in Hi].
    intros p n. split; [by left|]. intros [?|[_ Hi]]; [done|by apply elem_of_nil in Hi].
  - destruct a as [an ap]. unfold add_import in H at 1. simpl in H.
    destruct (m !! ap) as [n0|] eqn:E.
    + destruct (String.eqb n0 an) eqn:En; [|done]. apply String.eqb_eq in En as ->.
      destruct (IH _ H) as [I1 I2]. split.
      * intros p n. rewrite I1. split; (intros [?|[? Hi]]; [by left|right; split; [done|]]).
        -- by right.
        -- apply elem_of_cons in Hi. destruct Hi as [[= -> ->]|?]; [congruence|done].
      * intros i n Hi Hn. apply elem_of_cons in Hi. destruct Hi as [->|Hi]; [|by eapply I2].
        simpl in *. assert (m' !! ap = Some an) by (apply I1; by left). congruence.
    + destruct (IH _ H) as [I1 I2]. split.
      * intros p n. rewrite I1. destruct (decide (p = ap)) as [->|Hp].
        -- rewrite lookup_insert. split.
           ++ intros [[= ->]|[? ?]]; [|done]. right. split; [done|]. left.
           ++ intros [?|[_ Hi]]; [congruence|]. left. f_equal.
              assert (m' !! ap = Some an) as Ha by (apply I1; left; apply lookup_insert).
              apply elem_of_cons in Hi. destruct Hi as [[= ->]|Hi]; [done|]. by apply (I2 _ _ Hi Ha).
        -- rewrite lookup_insert_ne by done. split; (intros [?|[? Hi]]; [by left|right; split; [done|]]).
           ++ by right.
           ++ apply elem_of_cons in Hi. destruct Hi as [[= -> ->]|?]; [done|done].
      * intros i n Hi Hn. apply elem_of_cons in Hi. destruct Hi as [->|Hi]; [|by eapply I2].
        simpl in *. assert (m' !! ap = Some an) by (apply I1; left; apply lookup_insert). congruence.
Qed.

Lemma over_add_err l m : over add_import l m = Err ->
  (exists i n, i ∈ l /\ m !! i_path i = Some n /\ n <> i_name i) \/
  (exists i j, i ∈ l /\ j ∈ l /\ i_path i = i_path j /\ i_name i <> i_name j).
Proof.
  revert m. induction l as [|[an ap] r IH]; simpl; intros m H; [done|].
  unfold add_import in H at 1. simpl in H. destruct (m !! ap) as [n0|] eqn:E.
  - destruct (String.eqb n0 an) eqn:En.
    + destruct (IH _ H) as [(i & n & Hi & ? & ?)|(i & j & Hi & Hj & ? & ?)].
      * left. exists i, n. split; [by right|done].
      * right. exists i, j. split; [by right|]. split; [by right|done].
    + apply String.eqb_neq in En. left. exists (mkImport an ap), n0. split; [left|done].
  - destruct (IH _ H) as [(i & n & Hi & Hl & Hn)|(i & j & Hi & Hj & ? & ?)].
    + destruct (decide (i_path i = ap)) as [Hp|Hp].
      * right. exists (mkImport an ap), i. rewrite Hp, lookup_insert in Hl. injection Hl as <-.
        split; [left|]. split; [by right|done].
      * rewrite lookup_insert_ne in Hl by done. left. exists i, n. split; [by right|done].
    + right. exists i, j. split; [by right|]. split; [by right|done].
Qed.

Lemma over_add_panic l m : over add_import l m <> Panic.
Proof.
  revert m. induction l as [|[an ap] r IH]; simpl; intros m; [done|].
  unfold add_import at 1. simpl. destruct (m !! ap); [destruct (String.eqb _ _)|]; done.
Qed.

(** The imports of the components in the order of the visit. *)
Definition opt_of (o : option ischema) : list go_import := match o with Some s => imports_of s | None => [] end.
Definition all_imports (v2 : bool) (c : components) : list go_import :=
  (c_schemas c ≫= fun kv => imports_of kv.2)
  ++ (c_messages c ≫= fun kv => opt_of (im_payload kv.2) ++ opt_of (im_headers kv.2))
  ++ (if v2 then c_parameters c ≫= fun kv => opt_of kv.2 else []).

Lemma over_bind {A} (f : A -> gmap string string -> res (gmap string string)) (g : A -> list go_import) l m :
  (forall a m, f a m = over add_import (g a) m) ->
  over f l m = over add_import (l ≫= g) m.
Proof.
  intros Hf. revert m. induction l as [|a r IH]; intros m; [done|]. simpl.
  rewrite over_app, Hf. destruct (over add_import (g a) m); auto.
Qed.
Lemma opt_imports_over o m : opt_imports o m = over add_import (opt_of o) m.
Proof. destruct o; [apply go_type_imports_over|done]. Qed.

Lemma collect_over v2 c : collect v2 c = over add_import (all_imports v2 c) ∅.
Proof.
  unfold collect, all_imports.
  rewrite (over_bind _ (fun kv : string * ischema => imports_of kv.2)) by (intros; apply go_type_imports_over).
  rewrite over_app. destruct (over add_import _ ∅) as [| |m]; try done.
  rewrite (over_bind _ (fun kv : string * imessage => opt_of (im_payload kv.2) ++ opt_of (im_headers kv.2))).
  2: { intros a m0. rewrite opt_imports_over, over_app. destruct (over _ _ m0); try done. apply opt_imports_over. }
  rewrite over_app. destruct (over add_import _ m) as [| |m']; try done.
  destruct v2; [|done].
  apply over_bind. intros; apply opt_imports_over.
Qed.

Lemma all_imports_asked v2 c i : i ∈ all_imports v2 c <-> asked_for v2 c i.
Proof.
  unfold all_imports, asked_for, looked_at. rewrite !elem_of_app, !elem_of_list_bind. split.
  - intros [(kv & Hi & Hk)|[(kv & Hi & Hk)|H]].
    + apply imports_of_asks in Hi. exists kv.2. split; [|done]. left. exists kv.1. by destruct kv.
    + destruct kv as [k [p h]]. simpl in Hi. apply elem_of_app in Hi.
      destruct Hi as [Hi|Hi]; [destruct p as [s|]|destruct h as [s|]]; try by apply elem_of_nil in Hi.
      all: apply imports_of_asks in Hi; exists s; (split; [|done]); right; left; eexists k, _; (split; [exact Hk|]); simpl; auto.
    + destruct v2; [|by apply elem_of_nil in H]. apply elem_of_list_bind in H as (kv & Hi & Hk).
      destruct kv as [k [s|]]; [|by apply elem_of_nil in Hi]. apply imports_of_asks in Hi.
      exists s. split; [|done]. right; right. split; [done|]. by exists k.
  - intros (s & Hl & Ha). apply imports_of_asks in Ha.
    destruct Hl as [[k Hk]|[(k & m & Hk & Hm)|[-> [k Hk]]]].
    + left. by exists (k, s).
    + right; left. exists (k, m). split; [|done]. simpl. apply elem_of_app.
      destruct Hm as [-> | ->]; [by left|by right].
    + right; right. apply elem_of_list_bind. by exists (k, Some s).
Qed.

Lemma collect_err v2 c : collect v2 c = Err <-> conflict v2 c.
Proof.
  rewrite collect_over. split.
  - intros H. destruct (over_add_err _ _ H) as [(i & n & Hi & Hl & Hn)|(i & j & Hi & Hj & ? & ?)].
    + by rewrite lookup_empty in Hl.
    + exists i, j. split; [by apply all_imports_asked|]. split; [by apply all_imports_asked|done].
  - intros (i & j & Hi & Hj & Hp & Hn).
    apply all_imports_asked in Hi. apply all_imports_asked in Hj.
    destruct (over add_import (all_imports v2 c) ∅) as [| |m] eqn:E; [by apply over_add_panic in E|done|].
    exfalso. destruct (over_add_ok _ _ _ E) as [I1 I2].
    assert (m !! i_path i = Some (i_name i)) as Hm.
    { apply I1. right. split; [apply lookup_empty|]. by destruct i. }
    pose proof (I2 i _ Hi Hm). rewrite Hp in Hm. pose proof (I2 j _ Hj Hm). congruence.
Qed.

Lemma collect_ok v2 c m : collect v2 c = Ok m ->
  forall p n, m !! p = Some n <-> asked_for v2 c (mkImport n p).
Proof.
  rewrite collect_over. intros H p n. destruct (over_add_ok _ _ _ H) as [I1 I2].
  rewrite I1, <- all_imports_asked, lookup_empty. split; [intros [?|[_ ?]]; done|by right].
Qed.

Lemma collect_no_panic v2 c : collect v2 c <> Panic.
Proof. rewrite collect_over. apply over_add_panic. Qed.

(** * The lines *)
Lemma list_ascii_app s t : list_ascii_of_string (s +:+ t)%string = list_ascii_of_string s ++ list_ascii_of_string t.
Proof.
  induction s as [|a s IH]; [done|].
  change (list_ascii_of_string (String a (s +:+ t)) = a :: (list_ascii_of_string s ++ list_ascii_of_string t)).
  simpl. by rewrite IH.
Qed.
Lemma trim_left_plain l : (forall a r, l = a :: r -> is_space a = false) -> trim_left l = l.
Proof. destruct l as [|a r]; [done|]. intros H. simpl. by rewrite (H a r eq_refl). Qed.
Definition dq : ascii := Ascii false true false false false true false false.
Lemma trim_space_quoted (l : list ascii) :
  string_of_list_ascii (rev (trim_left (rev (l ++ [dq])))) = string_of_list_ascii (l ++ [dq]).
Proof. rewrite rev_app_distr. simpl. by rewrite rev_involutive. Qed.

Lemma import_line_text i : starts_plainly (i_name i) -> import_line (i_path i) (i_name i) = import_text i.
Proof.
  destruct i as [n p]. unfold import_line, import_text, trim_space. simpl. intros Hn.
  set (q := ("""" +:+ p +:+ """")%string).
  change (String.append " """ (String.append p """")) with (String " " q).
  assert (list_ascii_of_string q = (dq :: list_ascii_of_string p) ++ [dq]) as Hq.
  { unfold q. rewrite list_ascii_app, list_ascii_app. done. }
  destruct n as [|a n].
  - change (String.append "" (String " " q)) with (String " " q). simpl String.eqb. cbv iota.
    change (list_ascii_of_string (String " " q)) with (" "%char :: list_ascii_of_string q).
    cbn [trim_left is_space]. simpl (is_space " ").
    change (if is_space " " then trim_left (list_ascii_of_string q) else " "%char :: list_ascii_of_string q)
      with (trim_left (list_ascii_of_string q)).
    rewrite (trim_left_plain (list_ascii_of_string q)). 2: { intros b r. rewrite Hq. intros E. simpl in E. assert (b = dq) as -> by congruence. done. }
    rewrite Hq, trim_space_quoted, <- Hq. apply string_of_list_ascii_of_string.
  - simpl in Hn. rewrite (trim_left_plain (list_ascii_of_string (String.append (String a n) (String " " q)))).
    2: { intros b r H. change (list_ascii_of_string (String.append (String a n) (String " " q)))
           with (a :: list_ascii_of_string (n +:+ String " " q)%string) in H. inversion H; subst. done. }
    assert (list_ascii_of_string (String.append (String a n) (String " " q))
            = (a :: list_ascii_of_string n ++ " "%char :: dq :: list_ascii_of_string p) ++ [dq]) as E.
    { change (list_ascii_of_string (String.append (String a n) (String " " q)))
        with (a :: list_ascii_of_string (n +:+ String " " q)%string).
      rewrite list_ascii_app. change (list_ascii_of_string (String " " q)) with (" "%char :: list_ascii_of_string q).
      rewrite Hq. simpl. by rewrite <- app_assoc. }
    rewrite E, trim_space_quoted, <- E, string_of_list_ascii_of_string. done.
Qed.

(** * Iteration orders *)
Scheme reorders_min := Minimality for reorders Sort Prop
with reorders_props_min := Minimality for reorders_props Sort Prop
with reorders_items_min := Minimality for reorders_items Sort Prop.
Combined Scheme reorders_mut from reorders_min, reorders_props_min, reorders_items_min.

Lemma reorders_asks :
  (forall s s', reorders s s' -> forall i, asks s i <-> asks s' i) /\
  (forall l l', reorders_props l l' -> forall i, (exists k p, (k, p) ∈ l /\ asks p i) <-> (exists k p, (k, p) ∈ l' /\ asks p i)) /\
  (forall o o', reorders_items o o' -> forall i, (exists s, o = Some s /\ asks s i) <-> (exists s, o' = Some s /\ asks s i)).
Proof.
  apply reorders_mut.
  - intros props props' items items' others imp _ IHp _ IHi i.
    assert (forall pr it, asks (ISchema pr it others imp) i <->
              imp = Some i \/ (exists k p, (k, p) ∈ pr /\ asks p i) \/ (exists s, it = Some s /\ asks s i)) as G.
    { intros pr it. split.
      - apply asks_inv.
      - intros [-> |[(k & p & ? & ?)|(s & -> & ?)]]; [apply asks_own|by eapply asks_property|by apply asks_items]. }
    rewrite !G, IHp, IHi. done.
  - done.
  - intros k p p' l l1 l2 _ IH1 _ IH2 i. specialize (IH2 i). specialize (IH1 i). split.
    + intros (k0 & p0 & H & Ha). apply elem_of_cons in H. destruct H as [[= -> ->]|H].
      * exists k, p'. split; [apply elem_of_app; right; left|by apply IH1].
      * destruct (proj1 IH2) as (k1 & p1 & H1 & ?); [by exists k0, p0|]. exists k1, p1. split; [|done].
        rewrite elem_of_app in *. destruct H1; [by left|right; by right].
    + intros (k0 & p0 & H & Ha). rewrite elem_of_app, elem_of_cons in H.
      assert ((k0, p0) = (k, p') \/ (k0, p0) ∈ l1 ++ l2) as [[= -> ->]|H'].
      { rewrite elem_of_app. tauto. }
      * exists k, p. split; [left|by apply IH1].
      * destruct (proj2 IH2) as (k1 & p1 & H1 & ?); [by exists k0, p0|]. exists k1, p1. split; [by right|done].
  - intros i. split; by intros (? & ? & ?).
  - intros a b _ IH i. split; intros (s & [= <-] & ?); eexists; (split; [done|by apply IH]).
Qed.

Lemma reorders_map_sym_elem {A} (R : A -> A -> Prop) l l' : reorders_map R l l' ->
  (forall k a, (k, a) ∈ l -> exists a', (k, a') ∈ l' /\ R a a') /\
  (forall k a', (k, a') ∈ l' -> exists a, (k, a) ∈ l /\ R a a').
Proof.
  induction 1 as [|k a a' l l1 l2 Ha Hl [I1 I2]]; [split; intros ? ? H; by apply elem_of_nil in H|].
  split.
  - intros k0 a0 H. apply elem_of_cons in H. destruct H as [[= -> ->]|H].
    + exists a'. split; [apply elem_of_app; right; left|done].
    + destruct (I1 _ _ H) as (b & Hb & ?). exists b. split; [|done].
      rewrite elem_of_app in *. destruct Hb; [by left|right; by right].
  - intros k0 a0 H. rewrite elem_of_app, elem_of_cons in H.
    assert ((k0, a0) = (k, a') \/ (k0, a0) ∈ l1 ++ l2) as [[= -> ->]|H'].
    { rewrite elem_of_app. tauto. }
    + exists a. split; [left|done].
    + destruct (I2 _ _ H') as (b & Hb & ?). exists b. split; [by right|done].
Qed.

Lemma reorders_asked v2 c c' : reorders_components c c' -> forall i, asked_for v2 c i <-> asked_for v2 c' i.
Proof.
  intros (Hs & Hm & Hp) i.
  destruct (reorders_map_sym_elem _ _ _ Hs) as [S1 S2].
  destruct (reorders_map_sym_elem _ _ _ Hm) as [M1 M2].
  destruct (reorders_map_sym_elem _ _ _ Hp) as [P1 P2].
  destruct reorders_asks as (RA & _ & RO).
  unfold asked_for, looked_at. split; intros (s & Hl & Ha).
  - destruct Hl as [[k Hk]|[(k & m & Hk & Hm')|[-> [k Hk]]]].
    + destruct (S1 _ _ Hk) as (s' & ? & Hr). exists s'. split; [left; by exists k|by apply (RA _ _ Hr)].
    + destruct (M1 _ _ Hk) as (m' & ? & Hr). destruct Hr as [p p' h h' Rp Rh]. simpl in Hm'.
      destruct Hm' as [-> | ->].
      * destruct (proj1 (RO _ _ Rp i)) as (s' & -> & ?); [by exists s|]. exists s'. split; [|done].
        right; left. eexists k, _. split; [done|]. by left.
      * destruct (proj1 (RO _ _ Rh i)) as (s' & -> & ?); [by exists s|]. exists s'. split; [|done].
        right; left. eexists k, _. split; [done|]. by right.
    + destruct (P1 _ _ Hk) as (o & ? & Hr). destruct (proj1 (RO _ _ Hr i)) as (s' & -> & ?); [by exists s|].
      exists s'. split; [|done]. right; right. split; [done|]. by exists k.
  - destruct Hl as [[k Hk]|[(k & m & Hk & Hm')|[-> [k Hk]]]].
    + destruct (S2 _ _ Hk) as (s' & ? & Hr). exists s'. split; [left; by exists k|by apply (RA _ _ Hr)].
    + destruct (M2 _ _ Hk) as (m' & ? & Hr). destruct Hr as [p p' h h' Rp Rh]. simpl in Hm'.
      destruct Hm' as [-> | ->].
      * destruct (proj2 (RO _ _ Rp i)) as (s' & -> & ?); [by exists s|]. exists s'. split; [|done].
        right; left. eexists k, _. split; [done|]. by left.
      * destruct (proj2 (RO _ _ Rh i)) as (s' & -> & ?); [by exists s|]. exists s'. split; [|done].
        right; left. eexists k, _. split; [done|]. by right.
    + destruct (P2 _ _ Hk) as (o & ? & Hr). destruct (proj2 (RO _ _ Hr i)) as (s' & -> & ?); [by exists s|].
      exists s'. split; [|done]. right; right. split; [done|]. by exists k.
Qed.

Lemma map_to_lines_perm l l' : l ≡ₚ l' -> map_to_lines l ≡ₚ map_to_lines l'.
Proof. intros H. unfold map_to_lines. by rewrite H. Qed.

(** The pairs of the collected map whose path is not empty. *)
Definition kept (l : list (string * string)) : list go_import :=
  omap (fun pn : string * string => if String.eqb pn.1 "" then None else Some (mkImport pn.2 pn.1)) l.
Lemma map_to_lines_kept l : map_to_lines l = map (fun i => import_line (i_path i) (i_name i)) (kept l).
Proof.
  induction l as [|[p n] r IH]; [done|]. unfold map_to_lines, kept in *. simpl.
  destruct (String.eqb p ""); simpl; [exact IH|]. by f_equal.
Qed.
Lemma kept_elem l i : i ∈ kept l <-> (i_path i, i_name i) ∈ l /\ i_path i <> ""%string.
Proof.
  unfold kept. rewrite elem_of_list_omap. split.
  - intros ([p n] & H & E). simpl in E. destruct (String.eqb p "") eqn:Ep; [done|].
    injection E as <-. simpl. split; [done|]. by apply String.eqb_neq.
  - intros [H Hp]. exists (i_path i, i_name i). split; [done|]. simpl.
    apply String.eqb_neq in Hp. rewrite Hp. by destruct i.
Qed.
Lemma kept_nodup l : NoDup l.*1 -> NoDup (map i_path (kept l)).
Proof.
  induction l as [|[p n] r IH]; simpl; intros H; [constructor|]. inversion H; subst.
  unfold kept. simpl. fold (kept r). destruct (String.eqb p ""); simpl; [by apply IH|].
  constructor; [|by apply IH]. intros Hi. apply elem_of_list_fmap in Hi as (i & -> & Hi).
  apply kept_elem in Hi as [Hi _]. apply H2. apply elem_of_list_fmap. eexists. split; [|exact Hi]. done.
Qed.
