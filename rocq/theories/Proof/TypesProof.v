From stdpp Require Import list strings.
From Coq Require Import String.
From Verif.Model Require Import Types.
From Verif.Spec Require Import TypesSpec.
From Verif.Proof Require Import LogsProof.
Local Open Scope string_scope.

Lemma child_inv n t f e ps it ad r c : child (GSchema n t f e ps it ad r) c ->
  (exists k b, (k, (b, c)) ∈ ps) \/ it = Some c \/ ad = Some c.
Proof. intros Hc. inversion Hc; subst; eauto. Qed.

Section Ind.
  Context (P : gschema -> Prop).
  Context (H : forall n t f e ps it ad r, Forall (fun kp : string * (bool * gschema) => P kp.2.2) ps ->
    (forall i, it = Some i -> P i) -> (forall i, ad = Some i -> P i) -> P (GSchema n t f e ps it ad r)).
  Fixpoint gschema_rect2 (s : gschema) : P s :=
    match s with
    | GSchema n t f e ps it ad r =>
        H n t f e ps it ad r
          ((fix go (l : list (string * (bool * gschema))) : Forall (fun kp => P kp.2.2) l :=
              match l with
              | [] => Forall_nil_2 _
              | (k, (b, p)) :: l => Forall_cons_2 _ (k, (b, p)) l (gschema_rect2 p) (go l)
              end) ps)
          (match it as o return forall i, o = Some i -> P i with
           | Some i0 => fun i E => eq_ind i0 P (gschema_rect2 i0) i (f_equal (default i0) E)
           | None => fun i E => False_ind _ (eq_ind None (fun o => match o with None => True | Some _ => False end) I _ E)
           end)
          (match ad as o return forall i, o = Some i -> P i with
           | Some i0 => fun i E => eq_ind i0 P (gschema_rect2 i0) i (f_equal (default i0) E)
           | None => fun i E => False_ind _ (eq_ind None (fun o => match o with None => True | Some _ => False end) I _ E)
           end)
    end.
End Ind.
Lemma gschema_ind2 (P : gschema -> Prop) : (forall s, (forall c, child s c -> P c) -> P s) -> forall s, P s.
Proof.
  intros H s. induction s as [n t f e ps it ad r Hp Hi Ha] using gschema_rect2. apply H. intros c Hc.
  apply child_inv in Hc as [(k & b & Hin)|[E|E]]; [|by apply Hi|by apply Ha].
  rewrite Forall_forall in Hp. exact (Hp _ Hin).
Qed.

Lemma inside_trans s c x : inside s c -> inside c x -> inside s x.
Proof. induction 1 as [|s c' y Hc Hi IH]; [done|]. intros Hx. econstructor; [done|]. by apply IH. Qed.

(** The schema whose definition a child gives rise to. *)
Inductive target : gschema -> gschema -> Prop :=
| target_object c : g_type c = "object" -> target c c
| target_items c it : g_type c = "array" -> g_items c = Some it -> g_type it = "object" -> target c it.

Lemma child_definition_spec {A} (f : gschema -> option (list A)) c l : child_definition f c = Some l ->
  (forall t, target c t -> f t = Some l) /\ ((forall t, ~ target c t) -> l = []).
Proof.
  destruct c as [n t fm e ps it ad r]. unfold child_definition.
  destruct (String.eqb t "object") eqn:Eo.
  - apply String.eqb_eq in Eo as ->. intros Hf. split.
    + intros x Hx. inversion Hx; subst; [done|]. simpl in *. congruence.
    + intros Hn. destruct (Hn (GSchema n "object" fm e ps it ad r)). by constructor.
  - apply String.eqb_neq in Eo. destruct (String.eqb t "array") eqn:Ea.
    + apply String.eqb_eq in Ea as ->. destruct it as [i|].
      * destruct (String.eqb (g_type i) "object") eqn:Ei.
        -- apply String.eqb_eq in Ei. intros Hf. split.
           ++ intros x Hx. inversion Hx; subst; simpl in *; congruence.
           ++ intros Hn. destruct (Hn i). by apply (target_items _ i).
        -- apply String.eqb_neq in Ei. intros [= <-]. split; [|done].
           intros x Hx. inversion Hx; subst; simpl in *; congruence.
      * intros [= <-]. split; [|done]. intros x Hx. inversion Hx; subst; simpl in *; congruence.
    + apply String.eqb_neq in Ea. intros [= <-]. split; [|done]. intros x Hx. inversion Hx; subst; simpl in *; congruence.
Qed.
Lemma target_dec c : (exists t, target c t) \/ forall t, ~ target c t.
Proof.
  destruct (decide (g_type c = "object")) as [?|Ho]; [left; exists c; by constructor|].
  destruct (decide (g_type c = "array")) as [?|Ha].
  - destruct (g_items c) as [i|] eqn:Ei.
    + destruct (decide (g_type i = "object")) as [?|Hi]; [left; exists i; by eapply target_items|].
      right. intros t Ht. inversion Ht; subst; congruence.
    + right. intros t Ht. inversion Ht; subst; congruence.
  - right. intros t Ht. inversion Ht; subst; congruence.
Qed.
Lemma child_definition_elem {A} (f : gschema -> option (list A)) c l x : child_definition f c = Some l -> x ∈ l ->
  exists t, target c t /\ f t = Some l.
Proof.
  intros Hc Hx. destruct (child_definition_spec f c l Hc) as [H1 H2].
  destruct (target_dec c) as [[t Ht]|Hn]; [exists t; split; [done|by apply H1]|].
  rewrite (H2 Hn) in Hx. by apply elem_of_nil in Hx.
Qed.

(** The definitions are the own one and those of the targets of the children. *)
Definition composite (s : gschema) : Prop := g_type s = "object" \/ g_type s = "array".
Lemma composite_eqb s : let 'GSchema _ t _ _ _ _ _ _ := s in
  (String.eqb t "object" || String.eqb t "array")%bool = true <-> composite s.
Proof. destruct s; unfold composite; simpl. by rewrite orb_true_iff, !String.eqb_eq. Qed.

Section Order.
Context (order : visit) (Horder : forall l, order l ≡ₚ l).

Lemma definition_inv dates force s ds : schema_definition order dates force s = Some ds ->
  exists own subs, own_definition dates force s = Some own /\ ds = own :: subs /\
    (forall nd, nd ∈ subs -> composite s /\ exists c t l, child s c /\ target c t /\ schema_definition order dates force t = Some l /\ nd ∈ l) /\
    (composite s -> forall c t, child s c -> target c t -> exists l, schema_definition order dates force t = Some l /\ forall nd, nd ∈ l -> nd ∈ subs).
Proof.
  destruct s as [n t f e ps it ad r]. intros H.
  change (schema_definition order dates force (GSchema n t f e ps it ad r)) with
    (own ← own_definition dates force (GSchema n t f e ps it ad r);
      subs ← (if String.eqb t "object" || String.eqb t "array" then
                ps ← mapM (fun kp => child_definition (schema_definition order dates force) kp.2.2) ps;
                is ← match it with Some it => child_definition (schema_definition order dates force) it | None => Some [] end;
                as_ ← match ad with Some a => child_definition (schema_definition order dates force) a | None => Some [] end;
                Some (List.concat (order ps) ++ is ++ as_)%list
              else Some []);
      Some (own :: subs)) in H.
  pose proof (composite_eqb (GSchema n t f e ps it ad r)) as Hc. simpl in Hc.
  destruct (own_definition _ _ _) as [own|]; [|done]. simpl in H.
  exists own. destruct (String.eqb t "object" || String.eqb t "array")%bool.
  - destruct (mapM _ ps) as [lps|] eqn:Ep; [|done]. simpl in H.
    destruct (match it with Some it => _ | None => _ end) as [lit|] eqn:Ei; [|done]. simpl in H.
    destruct (match ad with Some a => _ | None => _ end) as [lad|] eqn:Ea; [|done]. simpl in H.
    injection H as <-. exists (List.concat (order lps) ++ lit ++ lad)%list. split; [done|]. split; [done|].
    apply mapM_Some in Ep. split.
    + intros nd Hnd. split; [by apply Hc|]. rewrite !elem_of_app in Hnd. destruct Hnd as [Hnd|[Hnd|Hnd]].
      * assert (exists l, l ∈ lps /\ nd ∈ l) as (l & Hl & Hin).
        { apply elem_of_list_In, in_concat in Hnd as (l & Hl & Hin). exists l. apply elem_of_list_In in Hl, Hin.
          rewrite Horder in Hl. split; assumption. }
        apply elem_of_list_lookup in Hl as (i & Hl).
        destruct (Forall2_lookup_r _ _ _ _ _ Ep Hl) as ([k [b p]] & Hp & Hd). simpl in Hd.
        destruct (child_definition_elem _ _ _ _ Hd Hin) as (x & Ht & Hx).
        exists p, x, l. split; [eapply child_prop; by eapply elem_of_list_lookup_2|done].
      * destruct it as [i|]; [|injection Ei as <-; by apply elem_of_nil in Hnd].
        destruct (child_definition_elem _ _ _ _ Ei Hnd) as (x & Ht & Hx).
        exists i, x, lit. split; [constructor|done].
      * destruct ad as [i|]; [|injection Ea as <-; by apply elem_of_nil in Hnd].
        destruct (child_definition_elem _ _ _ _ Ea Hnd) as (x & Ht & Hx).
        exists i, x, lad. split; [constructor|done].
    + intros _ c x Hch Ht. apply child_inv in Hch as [(k & b & Hin)|[-> | ->]].
      * apply elem_of_list_lookup in Hin as (i & Hin).
        destruct (Forall2_lookup_l _ _ _ _ _ Ep Hin) as (l & Hl & Hd). simpl in Hd.
        destruct (child_definition_spec _ _ _ Hd) as [H1 _]. exists l. split; [by apply H1|].
        intros nd Hnd. rewrite elem_of_app. left. rewrite elem_of_list_In, in_concat. exists l.
        rewrite <- !elem_of_list_In. split; [rewrite Horder; by eapply elem_of_list_lookup_2|done].
      * destruct (child_definition_spec _ _ _ Ei) as [H1 _]. exists lit. split; [by apply H1|].
        intros nd Hnd. rewrite !elem_of_app. tauto.
      * destruct (child_definition_spec _ _ _ Ea) as [H1 _]. exists lad. split; [by apply H1|].
        intros nd Hnd. rewrite !elem_of_app. tauto.
  - simpl in H. injection H as <-. exists []. split; [done|]. split; [done|]. split.
    + intros nd Hnd. by apply elem_of_nil in Hnd.
    + intros Hco. apply Hc in Hco. done.
Qed.

Lemma own_definition_name dates force s nd : own_definition dates force s = Some nd -> nd.1 = g_name s.
Proof.
  destruct s as [n t f e ps it ad r]. unfold own_definition.
  destruct (String.eqb t "object").
  - destruct (mapM _ ps); [|done]. simpl. destruct ad as [a|].
    + destruct (schema_name dates a); [|done]. simpl. by intros [= <-].
    + by intros [= <-].
  - destruct (schema_name _ _); [|done]. simpl. by intros [= <-].
Qed.
Lemma definition_name dates force s ds : schema_definition order dates force s = Some ds -> g_name s ∈ ds.*1%list.
Proof.
  intros H. destruct (definition_inv _ _ _ _ H) as (own & subs & Ho & -> & _).
  rewrite <- (own_definition_name _ _ _ _ Ho). simpl. left.
Qed.

(** * Mentioned names *)
Lemma refers_inside s c n : inside s c -> refers c n -> refers s n.
Proof. intros Hi (x & Hx & Hr). exists x. split; [by eapply inside_trans|done]. Qed.
Lemma refers_child s c n : child s c -> refers c n -> refers s n.
Proof. intros Hc. apply refers_inside. econstructor; [done|constructor]. Qed.

(** What a type written for a schema with arrays around mentions. *)
Lemma schema_name_mentions dates s t u : schema_name dates s = Some t -> mentions t u ->
  refers s u \/ (g_type s = "object" /\ u = g_name s) \/
  (exists it t', g_type s = "array" /\ g_items s = Some it /\ schema_name dates it = Some t' /\ mentions t' u).
Proof.
  destruct s as [n ty f e ps it ad r]. simpl.
  destruct (String.eqb e "") eqn:Ee; simpl; [|intros [= <-] Hm; inversion Hm].
  apply String.eqb_eq in Ee as ->.
  destruct (String.eqb ty "") eqn:Ety; simpl.
  - apply String.eqb_eq in Ety as ->. destruct r as [m|]; intros [= <-] Hm; inversion Hm; subst.
    left. eexists. split; [apply inside_here|done].
  - destruct (String.eqb ty "object") eqn:Eo; [apply String.eqb_eq in Eo as ->; intros [= <-] Hm; inversion Hm; subst; eauto|].
    destruct (String.eqb ty "boolean"); [intros [= <-] Hm; inversion Hm|].
    destruct (String.eqb ty "string").
    { destruct (_ && _)%bool; [intros [= <-] Hm; inversion Hm|]. destruct (_ && _)%bool; intros [= <-] Hm; inversion Hm. }
    destruct (String.eqb ty "integer"); [destruct (String.eqb f _); intros [= <-] Hm; inversion Hm|].
    destruct (String.eqb ty "array") eqn:Ea.
    { apply String.eqb_eq in Ea as ->. destruct it as [i|]; [|done].
      destruct (schema_name dates i) as [t'|] eqn:Ei; [|done]. simpl. intros [= <-] Hm. inversion Hm; subst.
      right; right. by exists i, t'. }
    destruct (String.eqb ty "number"); [destruct (String.eqb f _); intros [= <-] Hm; inversion Hm|].
    intros [= <-] Hm; inversion Hm.
Qed.

Lemma array_depth_items s it : g_type s = "array" -> g_items s = Some it -> array_depth s = S (array_depth it).
Proof. destruct s as [n t f e ps i ad r]. simpl. intros -> ->. done. Qed.
Lemma items_child s it : g_items s = Some it -> child s it.
Proof. destruct s. simpl. intros ->. constructor. Qed.
Lemma array_depth_array s : g_type s = "array" -> array_depth s <> 0%nat.
Proof. destruct s as [n t f e ps i ad r]. simpl. intros ->. simpl. by destruct i. Qed.
Lemma array_depth_other s : g_type s <> "array" -> array_depth s = 0%nat.
Proof. destruct s as [n t f e ps i ad r]. simpl. intros Ht. apply String.eqb_neq in Ht. by rewrite Ht. Qed.

(** A schema with at most one array around. *)
Lemma schema_name_shallow dates s t u : schema_name dates s = Some t -> mentions t u -> (array_depth s <= 1)%nat ->
  refers s u \/ exists x, target s x /\ u = g_name x.
Proof.
  intros Hs Hm Hd. destruct (schema_name_mentions _ _ _ _ Hs Hm) as [?|[[Ho ->]|(it & t' & Ha & Hi & Hn & Hm')]].
  - by left.
  - right. exists s. split; [by constructor|done].
  - destruct (schema_name_mentions _ _ _ _ Hn Hm') as [Hr|[[Ho ->]|(it' & t2 & Ha' & _)]].
    + left. eapply refers_child; [by apply items_child|done].
    + right. exists it. split; [by eapply target_items|done].
    + exfalso. rewrite (array_depth_items _ _ Ha Hi) in Hd. apply array_depth_array in Ha'. lia.
Qed.

Lemma own_definition_uses dates force s n d u : own_definition dates force s = Some (n, d) -> uses d u -> shallow s ->
  refers s u \/ (composite s /\ exists c x, child s c /\ target c x /\ u = g_name x).
Proof.
  intros Ho Hu [Hd Hsh].
  assert (g_type s = "object" -> forall c t, child s c -> schema_name dates c = Some t -> mentions t u ->
    refers s u \/ (composite s /\ exists c x, child s c /\ target c x /\ u = g_name x)) as G.
  { intros Hob c t Hc Ht Hm.
    destruct (schema_name_shallow _ _ _ _ Ht Hm) as [Hr|(x & Hx & ->)].
    - eapply Hsh; [apply inside_here|by rewrite Hob|done].
    - left. by eapply refers_child.
    - right. split; [by left|]. by exists c, x. }
  destruct s as [nm ty f e ps it ad r]. unfold own_definition in Ho.
  destruct (String.eqb ty "object") eqn:Eo.
  - apply String.eqb_eq in Eo as ->. specialize (G eq_refl).
    destruct (mapM _ ps) as [fs|] eqn:Ep; [|done]. simpl in Ho. apply mapM_Some in Ep.
    assert (forall fl, fl ∈ fs -> mentions (f_type fl) u ->
      refers (GSchema nm "object" f e ps it ad r) u \/ (composite (GSchema nm "object" f e ps it ad r) /\ exists c x, child (GSchema nm "object" f e ps it ad r) c /\ target c x /\ u = g_name x)) as G2.
    { intros fl Hfl Hm. apply elem_of_list_lookup in Hfl as (i & Hfl).
      destruct (Forall2_lookup_r _ _ _ _ _ Ep Hfl) as ([k [b p]] & Hp & Hx). simpl in Hx.
      destruct (schema_name dates p) as [t|] eqn:Et; [|done]. simpl in Hx. injection Hx as <-.
      eapply G; [eapply child_prop; by eapply elem_of_list_lookup_2|done|done]. }
    destruct ad as [a|].
    + destruct (schema_name dates a) as [t|] eqn:Et; [|done]. simpl in Ho. injection Ho as <- <-.
      destruct Hu as [(fl & Hfl & Hm)|(t' & [= <-] & Hm)]; [by eapply G2|]. eapply G; [constructor|done|done].
    + injection Ho as <- <-. destruct Hu as [(fl & Hfl & Hm)|(t' & [=] & Hm)]. by eapply G2.
  - apply String.eqb_neq in Eo.
    destruct (schema_name dates (GSchema nm ty f e ps it ad r)) as [t|] eqn:Et; [|done]. simpl in Ho. injection Ho as <- <-.
    simpl in Hu. destruct (schema_name_mentions _ _ _ _ Et Hu) as [?|[[? _]|(i & t' & Ha & Hi & Hn & Hm')]]; [by left|done|].
    assert (array_depth i <= 1)%nat as Hdi.
    { rewrite (array_depth_items _ _ Ha Hi) in Hd. lia. }
    destruct (schema_name_shallow _ _ _ _ Hn Hm' Hdi) as [Hr|(x & Hx & ->)].
    + left. eapply refers_child; [by apply items_child|done].
    + right. split; [by right|]. exists i, x. split; [by apply items_child|done].
Qed.

Lemma target_inside c x : target c x -> inside c x.
Proof.
  intros H. inversion H; subst; [constructor|]. econstructor; [by apply items_child|constructor].
Qed.
Lemma target_type c x : target c x -> g_type x = "object".
Proof. intros H. inversion H; subst; done. Qed.
Lemma shallow_target s c x : shallow s -> child s c -> target c x -> shallow x.
Proof.
  intros [Hd Hs] Hc Ht. split.
  - pose proof (target_type _ _ Ht) as Ho. rewrite array_depth_other by (by rewrite Ho). lia.
  - intros o c' Hi. apply Hs. econstructor; [done|]. eapply inside_trans; [by apply target_inside|done].
Qed.

Lemma definition_uses dates force s ds : schema_definition order dates force s = Some ds -> shallow s ->
  forall n d u, (n, d) ∈ ds -> uses d u -> u ∈ ds.*1%list \/ refers s u.
Proof.
  revert ds. assert (forall s, (forall ds, schema_definition order dates force s = Some ds -> shallow s ->
    forall n d u, (n, d) ∈ ds -> uses d u -> u ∈ ds.*1%list \/ refers s u) /\
    (forall it, g_items s = Some it -> forall ds, schema_definition order dates force it = Some ds -> shallow it ->
    forall n d u, (n, d) ∈ ds -> uses d u -> u ∈ ds.*1%list \/ refers it u)) as G.
  2: { intros ds. apply G. }
  clear s. intros s. induction s as [s IH] using gschema_ind2.
  split; [|intros it Hit; by apply IH, items_child].
  intros ds Hds Hsh n d u Hnd Hu.
  destruct (definition_inv _ _ _ _ Hds) as (own & subs & Ho & -> & H1 & H2).
  apply elem_of_cons in Hnd. destruct Hnd as [<-|Hnd].
  - destruct (own_definition_uses _ _ _ _ _ _ Ho Hu Hsh) as [?|(Hco & c & x & Hc & Hx & ->)]; [by right|].
    left. destruct (H2 Hco c x Hc Hx) as (l & Hl & Hin). apply definition_name in Hl.
    apply elem_of_list_fmap in Hl as ([n' d'] & Hn' & Hl). simpl in Hn'. apply elem_of_list_fmap.
    exists (n', d'). split; [done|]. right. by apply Hin.
  - destruct (H1 _ Hnd) as (Hco & c & x & l & Hc & Hx & Hl & Hin).
    assert (u ∈ l.*1%list \/ refers x u) as Hor.
    { assert (shallow x) as Hshx by (by eapply shallow_target).
      destruct (IH c Hc) as [I1 I2]. inversion Hx; subst; [by eapply I1|by eapply I2]. }
    destruct Hor as [Hor|Hor].
    + left. apply elem_of_list_fmap in Hor as ([n' d'] & -> & Hor). apply elem_of_list_fmap. exists (n', d'). split; [done|].
      destruct (H2 Hco c x Hc Hx) as (l' & Hl' & Hin'). rewrite Hl in Hl'. injection Hl' as <-. right. by apply Hin'.
    + right. eapply refers_child; [done|]. eapply refers_inside; [by apply target_inside|done].
Qed.

Lemma define_all_elem dates force cs env : define_all order dates force cs = Some env ->
  forall nd, nd ∈ env <-> exists c ds, c ∈ cs /\ schema_definition order dates force c = Some ds /\ nd ∈ ds.
Proof.
  unfold define_all. destruct (mapM _ cs) as [ls|] eqn:Em; [|done]. simpl. intros [= <-] nd.
  apply mapM_Some in Em. rewrite elem_of_list_In, in_concat. split.
  - intros (l & Hl & Hin). apply elem_of_list_In in Hl, Hin.
    apply elem_of_list_lookup in Hl as (i & Hl).
    destruct (Forall2_lookup_r _ _ _ _ _ Em Hl) as (c & Hc & Hd). exists c, l. split; [by eapply elem_of_list_lookup_2|done].
  - intros (c & ds & Hc & Hd & Hin). apply elem_of_list_lookup in Hc as (i & Hc).
    destruct (Forall2_lookup_l _ _ _ _ _ Em Hc) as (l & Hl & Hd'). rewrite Hd in Hd'. injection Hd' as <-.
    exists ds. rewrite <- !elem_of_list_In. split; [by eapply elem_of_list_lookup_2|done].
Qed.

(** * Definitions are a part of the names *)
Lemma child_definition_sublist {A} (g : A -> string) (f : gschema -> option (list A)) c l :
  child_definition f c = Some l ->
  (forall x l, inside c x -> f x = Some l -> (map g l) ⊆+ all_names x) ->
  (map g l) ⊆+ all_names c.
Proof.
  intros Hc Hf. destruct (child_definition_spec _ _ _ Hc) as [H1 H2].
  destruct (target_dec c) as [[t Ht]|Hn]; [|rewrite (H2 Hn); apply submseteq_nil_l].
  pose proof (Hf _ _ (target_inside _ _ Ht) (H1 _ Ht)) as Hs.
  inversion Ht as [|? it Ha Hi Ho]; subst; [done|]. etransitivity; [exact Hs|].
  destruct c as [n ty fm e ps i ad r]. simpl in Hi. subst i. simpl.
  apply submseteq_cons. apply submseteq_inserts_l. apply submseteq_inserts_r. done.
Qed.

Lemma definition_sublist dates force s ds : schema_definition order dates force s = Some ds ->
  (map fst ds) ⊆+ all_names s.
Proof.
  revert ds. assert (forall s x, inside s x -> forall ds, schema_definition order dates force x = Some ds ->
    (map fst ds) ⊆+ all_names x) as G; [|by apply (G s s), inside_here].
  clear s. intros s. induction s as [s IH] using gschema_ind2. intros x Hx. inversion Hx; subst.
  2: { by apply (IH c). }
  clear Hx. destruct x as [n t f e ps it ad r]. intros ds H.
  change (schema_definition order dates force (GSchema n t f e ps it ad r)) with
    (own ← own_definition dates force (GSchema n t f e ps it ad r);
      subs ← (if String.eqb t "object" || String.eqb t "array" then
                ps ← mapM (fun kp => child_definition (schema_definition order dates force) kp.2.2) ps;
                is ← match it with Some it => child_definition (schema_definition order dates force) it | None => Some [] end;
                as_ ← match ad with Some a => child_definition (schema_definition order dates force) a | None => Some [] end;
                Some (List.concat (order ps) ++ is ++ as_)%list
              else Some []);
      Some (own :: subs)) in H.
  destruct (own_definition _ _ _) as [own|] eqn:Eo; [|done]. simpl in H.
  apply own_definition_name in Eo. simpl in Eo.
  destruct (_ || _)%bool.
  2: { simpl in H. injection H as <-. simpl. rewrite Eo. apply submseteq_skip, submseteq_nil_l. }
  destruct (mapM _ ps) as [lps|] eqn:Ep; [|done]. simpl in H.
  destruct (match it with Some it => _ | None => _ end) as [lit|] eqn:Ei; [|done]. simpl in H.
  destruct (match ad with Some a => _ | None => _ end) as [lad|] eqn:Ea; [|done]. simpl in H.
  injection H as <-. simpl. rewrite Eo. apply submseteq_skip. rewrite !map_app.
  apply submseteq_app; [|apply submseteq_app].
  - rewrite Horder. apply mapM_Some in Ep.
    assert (forall k b p, (k, (b, p)) ∈ ps -> child (GSchema n t f e ps it ad r) p) as Hch.
    { intros. by eapply child_prop. }
    clear Ei Ea. revert Hch. generalize (GSchema n t f e ps it ad r) as s0. intros s0 Hch.
    assert (forall k b p, (k, (b, p)) ∈ ps -> forall x, inside p x -> forall ds, schema_definition order dates force x = Some ds ->
      (map fst ds) ⊆+ all_names x) as IHp.
    { intros k b p Hin. apply IH. by eapply child_prop. }
    clear IH Hch. induction Ep as [|[k [b p]] l ps lps Hd Ep IHe]; [apply submseteq_nil_l|]. simpl. rewrite map_app.
    apply submseteq_app.
    + eapply child_definition_sublist; [exact Hd|]. intros x l' Hx. apply (IHp k b p); [left|done].
    + apply IHe. intros k' b' p' Hin. apply (IHp k' b' p'). by right.
  - destruct it as [i|]; [|injection Ei as <-; apply submseteq_nil_l].
    eapply child_definition_sublist; [exact Ei|]. intros x l' Hx. apply (IH i); [constructor|done].
  - destruct ad as [a|]; [|injection Ea as <-; apply submseteq_nil_l].
    eapply child_definition_sublist; [exact Ea|]. intros x l' Hx. apply (IH a); [constructor|done].
Qed.

Lemma define_all_sublist dates force cs env : define_all order dates force cs = Some env ->
  (map fst env) ⊆+ List.concat (map all_names cs).
Proof.
  unfold define_all. destruct (mapM _ cs) as [ls|] eqn:Em; [|done]. simpl. intros [= <-].
  apply mapM_Some in Em. induction Em as [|c l cs ls Hd Em IH]; [apply submseteq_nil_l|]. simpl. rewrite map_app.
  apply submseteq_app; [by eapply definition_sublist|done].
Qed.

(** * The definitions come from the schemas inside *)
Lemma definition_source dates force s ds nd : schema_definition order dates force s = Some ds -> nd ∈ ds ->
  exists x, inside s x /\ own_definition dates force x = Some nd.
Proof.
  revert ds. assert (forall s x, inside s x -> forall ds, schema_definition order dates force x = Some ds -> nd ∈ ds ->
    exists y, inside x y /\ own_definition dates force y = Some nd) as G; [|apply (G s s), inside_here].
  clear s. intros s. induction s as [s IH] using gschema_ind2. intros x Hx. inversion Hx; subst.
  2: { by apply (IH c). }
  clear Hx. intros ds Hds Hnd. destruct (definition_inv _ _ _ _ Hds) as (own & subs & Ho & -> & H1 & _).
  apply elem_of_cons in Hnd as [->|Hnd]; [exists x; split; [constructor|done]|].
  destruct (H1 _ Hnd) as (_ & c & t & l & Hc & Ht & Hl & Hin).
  destruct (IH c Hc t (target_inside _ _ Ht) l Hl Hin) as (y & Hy & Hoy).
  exists y. split; [|done]. econstructor; [done|]. eapply inside_trans; [by apply target_inside|done].
Qed.
Lemma define_all_source dates force cs env nd : define_all order dates force cs = Some env -> nd ∈ env ->
  exists x, node_of cs x /\ own_definition dates force x = Some nd.
Proof.
  intros H Hnd. apply (define_all_elem _ _ _ _ H) in Hnd as (c & ds & Hc & Hd & Hin).
  destruct (definition_source _ _ _ _ _ Hd Hin) as (x & Hx & Ho). exists x. split; [by exists c|done].
Qed.

(** * Layout *)

Lemma schema_name_named dates s n : schema_name dates s = Some (TNamed n) ->
  (g_type s = "object" /\ n = g_name s) \/ reference_of s n.
Proof.
  intros H. assert (mentions (TNamed n) n) as Hm by constructor.
  destruct s as [nm ty f e ps it ad r]. simpl in *.
  destruct (String.eqb e "") eqn:Ee; simpl in *; [|done]. apply String.eqb_eq in Ee as ->.
  destruct (String.eqb ty "") eqn:Ety; simpl in *.
  { apply String.eqb_eq in Ety as ->. destruct r as [m|]; [|done]. injection H as ->. by right. }
  destruct (String.eqb ty "object") eqn:Eo; [apply String.eqb_eq in Eo as ->; injection H as ->; by left|].
  exfalso. clear Hm.
  destruct (String.eqb ty "boolean"); [done|]. destruct (String.eqb ty "string").
  { destruct (_ && _)%bool; [done|]. by destruct (_ && _)%bool. }
  destruct (String.eqb ty "integer"); [by destruct (String.eqb f _)|].
  destruct (String.eqb ty "array"); [destruct it as [i|]; [by destruct (schema_name dates i)|done]|].
  destruct (String.eqb ty "number"); [by destruct (String.eqb f _)|done].
Qed.

Lemma embeds_inv dates cs env a b : define_all order dates false cs = Some env -> embeds env a b ->
  exists x, node_of cs x /\ g_name x = a /\
    ((g_type x = "object" /\ exists k p, (k, (true, p)) ∈ g_props x /\
        ((g_type p = "object" /\ b = g_name p) \/ reference_of p b)) \/
     (g_type x <> "object" /\ reference_of x b)).
Proof.
  intros H (d & Hd & Hm). destruct (define_all_source _ _ _ _ _ H Hd) as (x & Hx & Ho). exists x. split; [done|].
  pose proof (own_definition_name _ _ _ _ Ho) as Hn. simpl in Hn. split; [done|].
  destruct x as [nm ty f e ps it ad r]. unfold own_definition in Ho.
  destruct (String.eqb ty "object") eqn:Eo.
  - apply String.eqb_eq in Eo as ->. left. split; [done|].
    destruct (mapM _ ps) as [fs|] eqn:Ep; [|done]. simpl in Ho. apply mapM_Some in Ep.
    assert (exists a', d = DStruct fs a') as (a' & ->).
    { destruct ad as [i|]; [destruct (schema_name dates i); [|done]|]; simpl in Ho; injection Ho as _ <-; eauto. }
    destruct Hm as (fl & Hfl & Hp & Ht). apply elem_of_list_lookup in Hfl as (i & Hfl).
    destruct (Forall2_lookup_r _ _ _ _ _ Ep Hfl) as ([k [rq p]] & Hin & Hx'). simpl in Hx'.
    destruct (schema_name dates p) as [t|] eqn:Et; [|done]. simpl in Hx'. injection Hx' as <-. simpl in *. subst t.
    apply schema_name_named in Et.
    assert (rq = true) as ->.
    { destruct rq; [done|]. exfalso. unfold is_field_pointer in Hp. simpl in Hp.
      apply negb_false_iff, String.eqb_eq in Hp. destruct Et as [[Et _]|Et]; [congruence|].
      destruct p. simpl in *. destruct Et as [-> _]. done. }
    exists k, p. split; [by eapply elem_of_list_lookup_2|done].
  - apply String.eqb_neq in Eo. right. split; [done|].
    destruct (schema_name dates _) as [t|] eqn:Et; [|done]. simpl in Ho. injection Ho as _ <-. simpl in Hm. subst t.
    apply schema_name_named in Et as [[? _]|Et]; [done|]. done.
Qed.

Section Layout.
  Context (dates : bool) (cs : list gschema) (env : list (string * gdef)).
  Context (Henv : define_all order dates false cs = Some env).
  Context (Hnames : forall x y, node_of cs x -> node_of cs y -> g_name x = g_name y -> x = y).
  Notation ok := (finite_layout env).

  Lemma node_child x c : node_of cs x -> child x c -> node_of cs c.
  Proof.
    intros (r & Hr & Hi) Hc. exists r. split; [done|]. eapply inside_trans; [done|]. econstructor; [done|constructor].
  Qed.
  Lemma prop_child x k b p : (k, (b, p)) ∈ g_props x -> child x p.
  Proof. destruct x. simpl. intros H. by eapply child_prop. Qed.

  (** What is needed for the layout of the type of a schema to be finite. *)
  Lemma ok_node x : node_of cs x ->
    (g_type x = "object" -> forall k p, (k, (true, p)) ∈ g_props x ->
       (g_type p = "object" -> ok (g_name p)) /\ (forall m, reference_of p m -> ok m)) ->
    (forall m, reference_of x m -> ok m) -> ok (g_name x).
  Proof.
    intros Hx Ho Hr. constructor. intros b Hb.
    destruct (embeds_inv _ _ _ _ _ Henv Hb) as (y & Hy & Hn & Hc). rewrite <- (Hnames x y Hx Hy (eq_sym Hn)) in Hc.
    destruct Hc as [(Hob & k & p & Hin & Hp)|(_ & Hc)]; [|by apply Hr].
    destruct (Ho Hob k p Hin) as [H1 H2]. destruct Hp as [[Hp ->]|Hp]; [by apply H1|by apply H2].
  Qed.

  Lemma valid_layout : forall v x, valid (node_of cs) v x -> node_of cs x ->
    ok (g_name x) /\ forall m, reference_of x m -> ok m.
  Proof.
    fix IH 3. intros v x Hv Hx. destruct Hv as [n f e ps it ad r l Hl|v n f ps it ad m c Hc Hm Hv|v n t f e ps it ad r Ht Hr].
    - assert (forall m, reference_of (GSchema n "object" f e ps it ad r) m -> ok m) as H2 by (intros m [? _]; done).
      split; [|done]. apply ok_node; [done| |done]. intros _ k p Hin. simpl in Hin.
      destruct (Hl k p Hin) as (v & _ & Hv). destruct (IH v p Hv) as [H1 H3].
      { eapply node_child; [done|]. by eapply child_prop. }
      split; [done|done].
    - destruct (IH v c Hv Hc) as [H1 _]. rewrite Hm in H1.
      assert (forall m', reference_of (GSchema n "" f "" ps it ad (Some m)) m' -> ok m') as H2.
      { intros m' (_ & _ & [= <-]). done. }
      split; [|done]. apply ok_node; [done|done|done].
    - assert (forall m, ~ reference_of (GSchema n t f e ps it ad r) m) as H2.
      { intros m (-> & -> & ->). by destruct (Hr eq_refl). }
      split; [|intros m Hm; by destruct (H2 m)]. apply ok_node; [done|done|]. intros m Hm; by destruct (H2 m).
  Qed.

  (** The schemas that are referred to have values. *)
  Context (Hvalid : forall x y m, node_of cs x -> reference_of x m -> node_of cs y -> g_name y = m ->
    exists v, valid (node_of cs) v y).

  Lemma ok_reference x m : node_of cs x -> reference_of x m -> ok m.
  Proof.
    intros Hx Hr. constructor. intros b Hb.
    destruct (embeds_inv _ _ _ _ _ Henv Hb) as (y & Hy & Hn & Hc).
    destruct (Hvalid x y m Hx Hr Hy Hn) as (v & Hv). destruct (valid_layout v y Hv Hy) as [H1 _]. rewrite Hn in H1.
    by apply (Acc_inv H1).
  Qed.
  Lemma ok_inside x : node_of cs x -> ok (g_name x).
  Proof.
    induction x as [x IH] using gschema_ind2. intros Hx. apply ok_node; [done| |intros m Hm; by eapply ok_reference].
    intros _ k p Hin. assert (node_of cs p) as Hp by (eapply node_child; [done|by eapply prop_child]).
    split; [|intros m Hm; by eapply ok_reference]. intros _. apply IH; [by eapply prop_child|done].
  Qed.
  Lemma layout n : ok n.
  Proof.
    constructor. intros b Hb. destruct (embeds_inv _ _ _ _ _ Henv Hb) as (y & Hy & Hn & _).
    pose proof (ok_inside y Hy) as H. rewrite Hn in H. by apply (Acc_inv H).
  Qed.
End Layout.

(** * Time *)
Lemma definition_type dates force s ds n t m : schema_definition order dates force s = Some ds -> (n, DType t m) ∈ ds ->
  g_type s <> "object" /\ n = g_name s /\ schema_name dates s = Some t /\
  (let 'GSchema _ _ f _ _ _ _ _ := s in m = is_date_generated dates f).
Proof.
  intros H Hin. destruct (definition_inv _ _ _ _ H) as (own & subs & Ho & -> & H1 & _).
  assert (forall x, own_definition dates force x = Some (n, DType t m) -> g_type x <> "object" /\ n = g_name x /\
    schema_name dates x = Some t /\ (let 'GSchema _ _ f _ _ _ _ _ := x in m = is_date_generated dates f)) as G.
  { intros [nm ty f e ps it ad r] Hx. unfold own_definition in Hx. destruct (String.eqb ty "object") eqn:Eo.
    - destruct (mapM _ ps); [|done]. simpl in Hx. destruct ad as [a|]; [|done]. by destruct (schema_name dates a).
    - apply String.eqb_neq in Eo. destruct (schema_name _ _) eqn:E; [|done]. simpl in Hx. injection Hx as <- <- <-. done. }
  apply elem_of_cons in Hin as [<-|Hin]; [by apply G|].
  exfalso. destruct (H1 _ Hin) as (_ & c & x & l & Hc & Hx & Hl & Hnd).
  assert (forall x, g_type x = "object" -> forall l, schema_definition order dates force x = Some l -> (n, DType t m) ∉ l) as G2.
  2: { by apply (G2 x (target_type _ _ Hx) l Hl). }
  clear - Horder G. intros x. assert (forall y, inside x y -> g_type y = "object" -> forall l, schema_definition order dates force y = Some l -> (n, DType t m) ∉ l) as G3.
  2: { apply G3, inside_here. }
  induction x as [x IH] using gschema_ind2. intros y Hy. inversion Hy; subst.
  2: { by apply (IH c). }
  intros Ho l Hl Hnd. destruct (definition_inv _ _ _ _ Hl) as (own & subs & Hown & -> & H1 & _).
  apply elem_of_cons in Hnd as [<-|Hnd]; [by apply G in Hown as [? _]|].
  destruct (H1 _ Hnd) as (_ & c & z & l' & Hc & Hz & Hl' & Hin').
  exact (IH c Hc z (target_inside _ _ Hz) (target_type _ _ Hz) l' Hl' Hin').
Qed.

(** * Exactly the names that are defined *)
Lemma definition_names dates force s ds : schema_definition order dates force s = Some ds ->
  forall n, n ∈ ds.*1%list <-> exists x, given s x /\ g_name x = n.
Proof.
  intros H n. split.
  - intros Hn. apply elem_of_list_fmap in Hn as (nd & -> & Hn).
    assert (forall y, inside s y -> forall l, schema_definition order dates force y = Some l -> nd ∈ l -> exists x, given y x /\ g_name x = nd.1) as G.
    2: { exact (G s (inside_here s) ds H Hn). }
    clear H Hn ds. induction s as [s IH] using gschema_ind2. intros y Hy. inversion Hy; subst.
    2: { by apply (IH c). }
    intros l Hl Hnd. destruct (definition_inv _ _ _ _ Hl) as (own & subs & Hown & -> & H1 & _).
    apply elem_of_cons in Hnd as [->|Hnd]; [exists y; split; [constructor|by rewrite (own_definition_name _ _ _ _ Hown)]|].
    destruct (H1 _ Hnd) as (Hco & c & z & l' & Hc & Hz & Hl' & Hin').
    destruct (IH c Hc z (target_inside _ _ Hz) l' Hl' Hin') as (x & Hx & Hxn). exists x. split; [|done].
    inversion Hz; subst; [by eapply given_object|by eapply given_items].
  - intros (x & Hx & <-). revert ds H. induction Hx as [s|s c x Hs Hc Ho _ IH|s c i x Hs Hc Ha Hi Ho _ IH]; intros ds H;
      destruct (definition_inv _ _ _ _ H) as (own & subs & Hown & -> & _ & H2).
    + rewrite <- (own_definition_name _ _ _ _ Hown). left.
    + destruct (H2 Hs c c Hc) as (l & Hl & Hsub); [by constructor|]. specialize (IH l Hl).
      apply elem_of_list_fmap in IH as (nd & -> & Hnd). apply elem_of_list_fmap. exists nd. split; [done|]. right. by apply Hsub.
    + destruct (H2 Hs c i Hc) as (l & Hl & Hsub); [by eapply target_items|]. specialize (IH l Hl).
      apply elem_of_list_fmap in IH as (nd & -> & Hnd). apply elem_of_list_fmap. exists nd. split; [done|]. right. by apply Hsub.
Qed.

(** * Exactly when there are no definitions *)
Lemma schema_name_none dates s : schema_name dates s = None <-> itemless s.
Proof.
  split.
  - induction s as [s IH] using gschema_ind2. destruct s as [n t f e ps it ad r]. simpl.
    destruct (String.eqb_spec e "") as [->|]; simpl; [|done]. destruct (String.eqb_spec t "") as [->|]; simpl; [by destruct r|].
    destruct (String.eqb t "object"); [done|]. destruct (String.eqb t "boolean"); [done|]. destruct (String.eqb t "string").
    { destruct (_ && _)%bool; [done|]. by destruct (_ && _)%bool. }
    destruct (String.eqb t "integer"); [done|]. destruct (String.eqb_spec t "array") as [->|]; [|by destruct (String.eqb t "number")].
    destruct it as [i|]; [|intros _; constructor]. intros H. apply fmap_None in H. constructor. apply IH; [constructor|done].
  - induction 1 as [|n f ps i ad r _ IH]; [done|]. simpl. by rewrite IH.
Qed.
Lemma own_definition_none dates force s : own_definition dates force s = None <-> needs_itemless s.
Proof.
  destruct s as [n t f e ps it ad r]. unfold own_definition, needs_itemless. destruct (String.eqb t "object") eqn:Eo.
  - destruct (mapM _ ps) as [fs|] eqn:Em.
    + simpl. assert (forall k b p, (k, (b, p)) ∈ ps -> ~ itemless p) as Hp.
      { intros k b p Hin Hi. apply mapM_Some in Em. apply elem_of_list_lookup in Hin as (i & Hin).
        destruct (Forall2_lookup_l _ _ _ _ _ Em Hin) as (y & _ & Hy). simpl in Hy. apply (schema_name_none dates) in Hi. by rewrite Hi in Hy. }
      destruct ad as [a|].
      * destruct (schema_name dates a) as [ta|] eqn:Ea; simpl.
        -- split; [done|]. intros [(k & b & p & Hin & Hi)|(a' & [= <-] & Hi)]; [by apply Hp in Hin|]. apply (schema_name_none dates) in Hi. congruence.
        -- split; [|done]. intros _. right. exists a. split; [done|]. by apply (schema_name_none dates).
      * split; [done|]. intros [(k & b & p & Hin & Hi)|(a' & [=] & Hi)]. by apply Hp in Hin.
    + simpl. split; [|done]. intros _. left. apply mapM_None in Em. apply Exists_exists in Em as ([k [b p]] & Hin & Hy). simpl in Hy.
      exists k, b, p. split; [done|]. destruct (schema_name dates p) eqn:Ep; [done|]. by apply (schema_name_none dates).
  - rewrite <- (schema_name_none dates). by destruct (schema_name dates _).
Qed.
Lemma child_definition_none {A} (f : gschema -> option (list A)) c : child_definition f c = None -> exists t, target c t /\ f t = None.
Proof.
  destruct c as [n t fo e ps it ad r]. unfold child_definition. destruct (String.eqb_spec t "object") as [->|]; [intros H; eexists; split; [by constructor|done]|].
  destruct (String.eqb_spec t "array") as [->|]; [|done]. destruct it as [i|]; [|done]. destruct (String.eqb_spec (g_type i) "object"); [|done].
  intros H. exists i. split; [by eapply target_items|done].
Qed.
Lemma definition_none dates force s : schema_definition order dates force s = None <-> exists x, given s x /\ needs_itemless x.
Proof.
  split.
  - assert (forall y, inside s y -> schema_definition order dates force y = None -> exists x, given y x /\ needs_itemless x) as G.
    2: { apply G, inside_here. }
    induction s as [s IH] using gschema_ind2. intros y Hy. inversion Hy; subst.
    2: { by apply (IH c). }
    assert (forall c, child y c -> child_definition (schema_definition order dates force) c = None -> composite y -> exists x, given y x /\ needs_itemless x) as K.
    { intros c Hc Hn Hco. apply child_definition_none in Hn as (z & Hz & Hn). destruct (IH c Hc z (target_inside _ _ Hz) Hn) as (x & Hx & Hb).
      exists x. split; [|done]. inversion Hz; subst; [by eapply given_object|by eapply given_items]. }
    intros H. destruct (own_definition dates force y) as [own|] eqn:Eo; [|exists y; split; [constructor|by apply own_definition_none in Eo]].
    clear IH Hy. destruct y as [n t f e ps it ad r].
    change (schema_definition order dates force (GSchema n t f e ps it ad r)) with
      (own ← own_definition dates force (GSchema n t f e ps it ad r);
        subs ← (if String.eqb t "object" || String.eqb t "array" then
                  ps ← mapM (fun kp => child_definition (schema_definition order dates force) kp.2.2) ps;
                  is ← match it with Some it => child_definition (schema_definition order dates force) it | None => Some [] end;
                  as_ ← match ad with Some a => child_definition (schema_definition order dates force) a | None => Some [] end;
                  Some (List.concat (order ps) ++ is ++ as_)%list
                else Some []);
        Some (own :: subs)) in H.
    rewrite Eo in H. cbn [mbind option_bind] in H. pose proof (composite_eqb (GSchema n t f e ps it ad r)) as Hc. simpl in Hc.
    destruct (String.eqb t "object" || String.eqb t "array")%bool; [|done]. assert (composite (GSchema n t f e ps it ad r)) as Hco by (by apply Hc).
    destruct (mapM _ ps) as [lps|] eqn:Ep.
    2: { apply mapM_None in Ep. apply Exists_exists in Ep as ([k [b p]] & Hin & Hn). eapply (K p); [by eapply child_prop|done|done]. }
    cbn [mbind option_bind] in H. destruct it as [i|].
    + destruct (child_definition _ i) as [li|] eqn:Ei; [|eapply (K i); [constructor|done|done]]. cbn [mbind option_bind] in H.
      destruct ad as [a|]; [|done]. destruct (child_definition _ a) as [la|] eqn:Ea; [done|]. eapply (K a); [constructor|done|done].
    + cbn [mbind option_bind] in H. destruct ad as [a|]; [|done]. destruct (child_definition _ a) as [la|] eqn:Ea; [done|]. eapply (K a); [constructor|done|done].
  - intros (x & Hx & Hb). induction Hx as [s|s c x Hs Hc Ho _ IH|s c i x Hs Hc Ha Hi Ho _ IH];
      destruct (schema_definition order dates force s) as [ds|] eqn:E; try done; destruct (definition_inv _ _ _ _ E) as (own & subs & Hown & -> & _ & H2).
    + apply (own_definition_none dates force) in Hb. congruence.
    + destruct (H2 Hs c c Hc) as (l & Hl & _); [by constructor|]. specialize (IH Hb). congruence.
    + destruct (H2 Hs c i Hc) as (l & Hl & _); [by eapply target_items|]. specialize (IH Hb). congruence.
Qed.

(** * Every schema has definitions *)
Lemma schema_name_known dates s : (forall x, inside s x -> known_type x) -> exists t, schema_name dates s = Some t /\ well_formed t.
Proof.
  induction s as [s IH] using gschema_ind2. intros Hk. pose proof (Hk s (inside_here s)) as Hs.
  assert (forall i, g_items s = Some i -> exists t, schema_name dates i = Some t /\ well_formed t) as Hi.
  { intros i Hi. apply IH; [by apply items_child|]. intros x Hx. apply Hk. econstructor; [by apply items_child|done]. }
  clear IH Hk. destruct s as [nm ty f e ps it ad r]. simpl in *.
  destruct (String.eqb e "") eqn:Ee; simpl; [|eexists; split; [done|by apply wf_other]].
  apply String.eqb_eq in Ee as ->. destruct Hs as [?|[Hs|(-> & i & ->)]]; [done| |].
  - rewrite !elem_of_cons, elem_of_nil in Hs. destruct Hs as [Hs|[Hs|[Hs|[Hs|[Hs|[Hs|Hs]]]]]]; try done; subst; simpl.
    + destruct r; (eexists; split; [done|by apply wf_other]).
    + eexists; split; [done|by apply wf_other].
    + eexists; split; [done|by apply wf_other].
    + destruct (_ && _)%bool; [|destruct (_ && _)%bool]; (eexists; split; [done|by apply wf_other]).
    + destruct (String.eqb f "int32"); (eexists; split; [done|by apply wf_other]).
    + destruct (String.eqb f "float"); (eexists; split; [done|by apply wf_other]).
  - simpl. destruct (Hi i eq_refl) as (t & -> & Ht). simpl. eexists. split; [done|by constructor].
Qed.

Lemma mapM_total {A B} (f : A -> option B) l : (forall x, x ∈ l -> is_Some (f x)) -> is_Some (mapM f l).
Proof. intros H. apply mapM_is_Some, Forall_forall. exact H. Qed.

Lemma own_definition_known dates force s : (forall x, inside s x -> known_type x) ->
  exists nd, own_definition dates force s = Some nd /\ forall t, written nd.2 t -> well_formed t.
Proof.
  intros Hk. assert (forall c, child s c -> exists t, schema_name dates c = Some t /\ well_formed t) as Hc.
  { intros c Hc. apply schema_name_known. intros x Hx. apply Hk. by econstructor. }
  pose proof (schema_name_known dates s Hk) as Hs.
  destruct s as [nm ty f e ps it ad r]. unfold own_definition. destruct (String.eqb ty "object").
  - destruct (mapM_total (fun kp : string * (bool * gschema) =>
               t ← schema_name dates kp.2.2;
               Some (mkField kp.1 (is_field_pointer force kp.2.1 kp.2.2) t)) ps) as (fs & Hfs).
    { intros [k [b p]] Hin. simpl. destruct (Hc p) as (t & -> & _); [by eapply child_prop|]. simpl. by eexists. }
    rewrite Hfs. simpl. apply mapM_Some in Hfs.
    assert (forall fl, fl ∈ fs -> well_formed (f_type fl)) as Hw.
    { intros fl Hfl. apply elem_of_list_lookup in Hfl as (i & Hfl).
      destruct (Forall2_lookup_r _ _ _ _ _ Hfs Hfl) as ([k [b p]] & Hp & Hx). simpl in Hx.
      destruct (Hc p) as (t & Ht & Hwt); [eapply child_prop; by eapply elem_of_list_lookup_2|].
      rewrite Ht in Hx. simpl in Hx. injection Hx as <-. done. }
    destruct ad as [a|].
    + destruct (Hc a) as (t & -> & Hwt); [constructor|]. simpl. eexists. split; [done|]. simpl.
      intros t' [(fl & Hfl & <-)|[= <-]]; [by apply Hw|done].
    + eexists. split; [done|]. simpl. intros t' [(fl & Hfl & <-)|[=]]. by apply Hw.
  - destruct Hs as (t & -> & Ht). simpl. eexists. split; [done|]. simpl. by intros t' <-.
Qed.

Lemma child_definition_total {A} (f : gschema -> option (list A)) c :
  (forall x, inside c x -> is_Some (f x)) -> is_Some (child_definition f c).
Proof.
  intros H. destruct c as [n t fm e ps it ad r]. unfold child_definition.
  destruct (String.eqb t "object"); [apply H, inside_here|].
  destruct (String.eqb t "array"); [|by eexists]. destruct it as [i|]; [|by eexists].
  destruct (String.eqb _ _); [|by eexists]. apply H. econstructor; [apply child_items|constructor].
Qed.

Lemma definition_total dates force s : (forall x, inside s x -> known_type x) -> is_Some (schema_definition order dates force s).
Proof.
  assert (forall s x, inside s x -> (forall y, inside x y -> known_type y) -> is_Some (schema_definition order dates force x)) as G.
  2: { apply (G s s), inside_here. }
  clear s. intros s. induction s as [s IH] using gschema_ind2. intros x Hx. inversion Hx; subst.
  2: { by apply (IH c). }
  clear Hx. intros Hk.
  assert (forall c, child x c -> forall y, inside c y -> is_Some (schema_definition order dates force y)) as Hc.
  { intros c Hc y Hy. apply (IH c Hc y Hy). intros z Hz. apply Hk. econstructor; [done|]. by eapply inside_trans. }
  destruct (own_definition_known dates force x Hk) as (own & Hown & _).
  destruct x as [n t f e ps it ad r].
  change (schema_definition order dates force (GSchema n t f e ps it ad r)) with
    (own ← own_definition dates force (GSchema n t f e ps it ad r);
      subs ← (if String.eqb t "object" || String.eqb t "array" then
                ps ← mapM (fun kp => child_definition (schema_definition order dates force) kp.2.2) ps;
                is ← match it with Some it => child_definition (schema_definition order dates force) it | None => Some [] end;
                as_ ← match ad with Some a => child_definition (schema_definition order dates force) a | None => Some [] end;
                Some (List.concat (order ps) ++ is ++ as_)%list
              else Some []);
      Some (own :: subs)).
  rewrite Hown. simpl. destruct (_ || _)%bool; [|by eexists].
  destruct (mapM_total (fun kp : string * (bool * gschema) => child_definition (schema_definition order dates force) kp.2.2) ps) as (l & ->).
  { intros [k [b p]] Hin. simpl. apply child_definition_total. apply Hc. by eapply child_prop. }
  simpl. assert (is_Some match it with Some it => child_definition (schema_definition order dates force) it | None => Some [] end) as (l2 & ->).
  { destruct it as [i|]; [|by eexists]. apply child_definition_total. apply Hc. constructor. }
  simpl. assert (is_Some match ad with Some it => child_definition (schema_definition order dates force) it | None => Some [] end) as (l3 & ->).
  { destruct ad as [i|]; [|by eexists]. apply child_definition_total. apply Hc. constructor. }
  simpl. by eexists.
Qed.
End Order.

(** * The order of the visit *)
Lemma concat_perm {A} (l l' : list (list A)) : Forall2 Permutation l l' -> List.concat l ≡ₚ List.concat l'.
Proof. induction 1 as [|x y l l' Hxy H IH]; [done|]. simpl. by rewrite Hxy, IH. Qed.
Lemma concat_perm2 {A} (l l' : list (list A)) : l ≡ₚ l' -> List.concat l ≡ₚ List.concat l'.
Proof.
  induction 1 as [|x l l' H IH|x y l|l1 l2 l3 H1 IH1 H2 IH2]; simpl; [done|by rewrite IH| |by rewrite IH1].
  rewrite !(assoc_L app). by rewrite (Permutation_app_comm y x).
Qed.

Definition operm {A} (a b : option (list A)) : Prop :=
  match a, b with Some x, Some y => x ≡ₚ y | None, None => True | _, _ => False end.
Lemma operm_inv {A} (a b : option (list A)) : operm a b -> (a = None /\ b = None) \/ exists x y, a = Some x /\ b = Some y /\ x ≡ₚ y.
Proof. destruct a, b; simpl; try done; eauto 10. Qed.
Lemma operm_refl {A} (a : option (list A)) : operm a a.
Proof. by destruct a; simpl. Qed.
Lemma child_definition_operm {A} (f g : gschema -> option (list A)) c :
  (forall x, inside c x -> operm (f x) (g x)) -> operm (child_definition f c) (child_definition g c).
Proof.
  intros H. destruct c as [n t fm e ps it ad r]. unfold child_definition.
  destruct (String.eqb t "object"); [apply H, inside_here|].
  destruct (String.eqb t "array"); [|apply operm_refl]. destruct it as [i|]; [|apply operm_refl].
  destruct (String.eqb _ _); [|apply operm_refl]. apply H. econstructor; [apply child_items|constructor].
Qed.
Lemma mapM_operm {A B} (f g : A -> option (list B)) l : (forall x, x ∈ l -> operm (f x) (g x)) ->
  (mapM f l = None /\ mapM g l = None) \/ exists x y, mapM f l = Some x /\ mapM g l = Some y /\ Forall2 Permutation x y.
Proof.
  induction l as [|a l IH]; intros H; simpl.
  - right. exists [], []. split; [reflexivity|]. split; [reflexivity|]. constructor.
  - destruct (operm_inv _ _ (H a ltac:(left))) as [[-> ->]|(x & y & -> & -> & Hxy)]; [by left|]. simpl.
    destruct IH as [[-> ->]|(xs & ys & -> & -> & Hl)]; [intros; apply H; by right|by left|]. simpl.
    right. exists (x :: xs), (y :: ys). split; [done|]. split; [done|]. by constructor.
Qed.
Lemma definition_operm (o1 o2 : visit) dates force s : (forall l, o1 l ≡ₚ l) -> (forall l, o2 l ≡ₚ l) ->
  operm (schema_definition o1 dates force s) (schema_definition o2 dates force s).
Proof.
  intros H1 H2. assert (forall s x, inside s x -> operm (schema_definition o1 dates force x) (schema_definition o2 dates force x)) as G.
  2: { apply (G s s), inside_here. }
  clear s. intros s. induction s as [s IH] using gschema_ind2. intros x Hx. inversion Hx; subst.
  2: { by apply (IH c). }
  clear Hx.
  assert (forall o n t f e ps it ad r, schema_definition o dates force (GSchema n t f e ps it ad r) =
    (own ← own_definition dates force (GSchema n t f e ps it ad r);
      subs ← (if String.eqb t "object" || String.eqb t "array" then
                ps ← mapM (fun kp => child_definition (schema_definition o dates force) kp.2.2) ps;
                is ← match it with Some it => child_definition (schema_definition o dates force) it | None => Some [] end;
                as_ ← match ad with Some a => child_definition (schema_definition o dates force) a | None => Some [] end;
                Some (List.concat (o ps) ++ is ++ as_)%list
              else Some []);
      Some (own :: subs))) as Eq by reflexivity.
  destruct x as [n t f e ps it ad r]. rewrite !Eq. clear Eq.
  destruct (own_definition _ _ _) as [own|]; [|done]. simpl. destruct (_ || _)%bool; [|apply operm_refl].
  destruct (mapM_operm (fun kp => child_definition (schema_definition o1 dates force) kp.2.2)
    (fun kp => child_definition (schema_definition o2 dates force) kp.2.2) ps) as [[-> ->]|(l1 & l2 & -> & -> & Hl)].
  { intros [k [b p]] Hin. simpl. apply child_definition_operm. apply IH. by eapply child_prop. }
  { done. }
  simpl.
  assert (operm match it with Some it => child_definition (schema_definition o1 dates force) it | None => Some [] end
    match it with Some it => child_definition (schema_definition o2 dates force) it | None => Some [] end) as Hi.
  { destruct it as [i|]; [|apply operm_refl]. apply child_definition_operm. apply IH. constructor. }
  assert (operm match ad with Some it => child_definition (schema_definition o1 dates force) it | None => Some [] end
    match ad with Some it => child_definition (schema_definition o2 dates force) it | None => Some [] end) as Ha.
  { destruct ad as [i|]; [|apply operm_refl]. apply child_definition_operm. apply IH. constructor. }
  destruct (operm_inv _ _ Hi) as [[-> ->]|(x1 & x2 & -> & -> & Hx)]; [done|]. simpl.
  destruct (operm_inv _ _ Ha) as [[-> ->]|(y1 & y2 & -> & -> & Hy)]; [done|]. simpl.
  apply perm_skip. rewrite Hx, Hy. apply Permutation_app; [|done].
  rewrite (concat_perm2 _ _ (H1 l1)), (concat_perm2 _ _ (H2 l2)). by apply concat_perm.
Qed.
