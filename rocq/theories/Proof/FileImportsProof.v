From stdpp Require Import gmap list strings.
From Coq Require Import Ascii String Lia.
From Verif.Model Require Import Types Conversion FileImports.
From Verif.Spec Require Import TypesSpec FileImportsSpec.
From Verif.Proof Require Import TypesProof.
Local Open Scope string_scope.
Local Open Scope list_scope.

(** * Qualifiers *)
Lemma is_ident_spec a : is_ident a = true <-> letter_or_digit a.
Proof.
  unfold is_ident, letter_or_digit. rewrite !orb_true_iff, !andb_true_iff, !Nat.leb_le, Nat.eqb_eq. lia.
Qed.
Definition qual (l u : list ascii) : Prop :=
  exists before after, l = before ++ u ++ "."%char :: after /\ u <> [] /\ Forall letter_or_digit u /\
    (forall a, last before = Some a -> ~ letter_or_digit a).
Lemma dot_not : ~ letter_or_digit "."%char.
Proof. rewrite <- is_ident_spec. discriminate. Qed.

Lemma span_unique (u w : list ascii) a b p q :
  Forall letter_or_digit u -> Forall letter_or_digit w -> ~ letter_or_digit a -> ~ letter_or_digit b ->
  u ++ a :: p = w ++ b :: q -> u = w /\ a = b.
Proof.
  revert w. induction u as [|c u IH]; intros [|d w] Hu Hw Ha Hb E; simpl in E.
  - by injection E as -> ->.
  - injection E as -> E. by apply Forall_cons in Hw as [? _].
  - injection E as -> E. by apply Forall_cons in Hu as [? _].
  - injection E as -> E. apply Forall_cons in Hu as [_ Hu]. apply Forall_cons in Hw as [_ Hw].
    destruct (IH w Hu Hw Ha Hb E) as [-> ->]. done.
Qed.
Lemma qual_step w a r u : Forall letter_or_digit w -> ~ letter_or_digit a ->
  qual (w ++ a :: r) u <-> (a = "."%char /\ w <> [] /\ u = w) \/ qual r u.
Proof.
  intros Hw Ha. split.
  - intros (b & c & E & Hu & Hf & Hl). apply app_eq_inv in E as [(k & E1 & E2)|(k & E1 & E2)].
    + left. destruct b as [|b0 b] using rev_ind.
      * simpl in E1. subst k. destruct (span_unique u w "."%char a c r Hf Hw dot_not Ha E2) as [-> <-]. done.
      * exfalso. apply (Hl b0); [apply last_snoc|]. rewrite E1 in Hw. apply Forall_app in Hw as [Hw _].
        apply Forall_app in Hw as [_ Hw]. by apply Forall_cons in Hw as [? _].
    + right. destruct k as [|a' k].
      * simpl in E2. destruct u as [|u0 u]; [done|]. simpl in E2. injection E2 as -> _.
        apply Forall_cons in Hf as [? _]. done.
      * simpl in E2. injection E2 as <- ->. exists k, c. split; [done|]. split; [done|]. split; [done|].
        intros x Hx. apply Hl. rewrite E1. rewrite last_app_cons. by apply last_cons_Some_ne || (destruct k; [done|]; exact Hx).
  - intros [(-> & Hn & ->)|(b & c & -> & Hu & Hf & Hl)].
    + exists [], r. done.
    + exists (w ++ a :: b), c. split; [by rewrite <- app_assoc|]. split; [done|]. split; [done|].
      intros x. rewrite last_app_cons. destruct b as [|b0 b]; [by intros [= <-]|]. intros Hx. apply Hl. exact Hx.
Qed.
Lemma qualifiers_from_spec l : forall w u, Forall letter_or_digit w -> u ∈ qualifiers_from w l <-> qual (w ++ l) u.
Proof.
  induction l as [|a r IH]; intros w u Hw; simpl.
  - split; [by intros ?%elem_of_nil|]. rewrite app_nil_r. intros (b & c & -> & _).
    apply Forall_app in Hw as [_ Hw]. apply Forall_app in Hw as [_ Hw]. apply Forall_cons in Hw as [Hw _]. by destruct dot_not.
  - destruct (is_ident a) eqn:Ea.
    + apply is_ident_spec in Ea. rewrite IH by (apply Forall_app; split; [done|by apply Forall_singleton]).
      by rewrite <- app_assoc.
    + assert (~ letter_or_digit a) as Hna by (rewrite <- is_ident_spec; congruence).
      rewrite (qual_step w a r u Hw Hna). destruct (Ascii.eqb a ".") eqn:Ed.
      * apply Ascii.eqb_eq in Ed as ->. rewrite elem_of_app, IH by done. simpl. destruct w as [|w0 w].
        { rewrite elem_of_nil. naive_solver. }
        rewrite elem_of_list_singleton. naive_solver.
      * apply Ascii.eqb_neq in Ed. rewrite IH by done. simpl. naive_solver.
Qed.
Lemma qualifiers_spec s u : u ∈ qualifiers s <-> qualified s u.
Proof.
  unfold qualifiers. rewrite elem_of_list_fmap. split.
  - intros (l & -> & Hl). apply qualifiers_from_spec in Hl as (b & c & E & Hn & Hf & Hb); [|done]. exists b, c.
    rewrite list_ascii_of_string_of_list_ascii. split; [done|]. split; [|done]. destruct l; [done|discriminate].
  - intros (b & c & E & Hn & Hf & Hb). exists (list_ascii_of_string u).
    rewrite string_of_list_ascii_of_string. split; [done|]. apply qualifiers_from_spec; [done|]. exists b, c.
    split; [done|]. split; [by destruct u|done].
Qed.

(** * Types *)
Definition from (s : gschema) (u : string) : Prop := exists x, inside s x /\ qualified (g_ext x) u.
Definition dates_use (dates : bool) (u : string) : Prop := dates = true /\ (u = "civil" \/ u = "time").
Lemma from_child s c u : child s c -> from c u -> from s u.
Proof. intros Hc (x & Hx & Hq). exists x. split; [by econstructor|done]. Qed.
Lemma from_inside s c u : inside s c -> from c u -> from s u.
Proof. intros Hc (x & Hx & Hq). exists x. split; [by eapply inside_trans|done]. Qed.

Lemma date_generated dates f : is_date_generated dates f = true -> dates = true.
Proof. unfold is_date_generated. by intros [? _]%andb_true_iff. Qed.
Lemma schema_name_uses dates s : forall t u, schema_name dates s = Some t -> u ∈ type_uses t -> dates_use dates u \/ from s u.
Proof.
  induction s as [s IH] using gschema_ind2. destruct s as [n ty f e ps it ad r]. intros t u Ht Hu. simpl in Ht.
  destruct (String.eqb e "") eqn:Ee; simpl in Ht.
  2: { injection Ht as <-. right. exists (GSchema n ty f e ps it ad r). split; [constructor|]. by apply qualifiers_spec. }
  destruct (String.eqb ty "") eqn:Et; simpl in Ht.
  { destruct r; injection Ht as <-; by apply elem_of_nil in Hu. }
  destruct (String.eqb ty "object"); [injection Ht as <-; by apply elem_of_nil in Hu|].
  destruct (String.eqb ty "boolean"); [injection Ht as <-; by apply elem_of_nil in Hu|].
  destruct (String.eqb ty "string").
  { destruct (is_date_generated dates f && String.eqb f "date") eqn:E1.
    { injection Ht as <-. apply andb_true_iff in E1 as [E1 _]. apply date_generated in E1. apply elem_of_list_singleton in Hu. left. by split; [|left]. }
    destruct (is_date_generated dates f && String.eqb f "date-time") eqn:E2.
    { injection Ht as <-. apply andb_true_iff in E2 as [E2 _]. apply date_generated in E2. apply elem_of_list_singleton in Hu. left. by split; [|right]. }
    injection Ht as <-. by apply elem_of_nil in Hu. }
  destruct (String.eqb ty "integer"); [injection Ht as <-; destruct (String.eqb f "int32"); by apply elem_of_nil in Hu|].
  destruct (String.eqb ty "array").
  { destruct it as [it|]; [|discriminate]. destruct (schema_name dates it) as [t'|] eqn:E; [|discriminate]. simpl in Ht. injection Ht as <-.
    assert (child (GSchema n ty f e ps (Some it) ad r) it) as Hc by constructor.
    destruct (IH it Hc t' u E Hu) as [?|?]; [by left|right; by eapply from_child]. }
  destruct (String.eqb ty "number"); [injection Ht as <-; destruct (String.eqb f "float"); by apply elem_of_nil in Hu|].
  injection Ht as <-; by apply elem_of_nil in Hu.
Qed.

Lemma elem_of_flat_map {A B} (f : A -> list B) l y : y ∈ flat_map f l <-> exists x, x ∈ l /\ y ∈ f x.
Proof. rewrite elem_of_list_In, in_flat_map. by setoid_rewrite elem_of_list_In. Qed.
Lemma elem_of_concat {A} (ls : list (list A)) y : y ∈ List.concat ls <-> exists l, l ∈ ls /\ y ∈ l.
Proof. rewrite elem_of_list_In, in_concat. by setoid_rewrite elem_of_list_In. Qed.
Lemma mapM_elem {A B} (f : A -> option B) l k y : mapM f l = Some k -> y ∈ k <-> exists x, x ∈ l /\ f x = Some y.
Proof.
  intros H%mapM_Some. split.
  - intros (i & Hi)%elem_of_list_lookup. destruct (Forall2_lookup_r _ _ _ _ _ H Hi) as (x & Hx & E).
    exists x. split; [by eapply elem_of_list_lookup_2|done].
  - intros (x & (i & Hi)%elem_of_list_lookup & E). destruct (Forall2_lookup_l _ _ _ _ _ H Hi) as (z & Hz & E').
    rewrite E in E'. injection E' as <-. by eapply elem_of_list_lookup_2.
Qed.

Definition def_use (dates : bool) (u : string) : Prop := u = "json" \/ u = "fmt" \/ dates_use dates u.
Lemma own_definition_uses2 dates force s n d u : own_definition dates force s = Some (n, d) -> u ∈ def_uses d -> def_use dates u \/ from s u.
Proof.
  destruct s as [nm ty f e ps it ad r]. unfold own_definition.
  destruct (String.eqb ty "object") eqn:Eo.
  - destruct (mapM _ ps) as [fs|] eqn:Ef; [|discriminate]. cbn [mbind option_bind].
    assert (forall u, u ∈ flat_map (fun f => type_uses (f_type f)) fs -> def_use dates u \/ from (GSchema nm ty f e ps it ad r) u) as Hfs.
    { intros v (fd & Hfd & Hv)%elem_of_flat_map. apply (mapM_elem _ _ _ fd Ef) in Hfd as ([k [b p]] & Hp & E). simpl in E.
      destruct (schema_name dates p) as [t|] eqn:Et; [|discriminate]. simpl in E. injection E as <-. simpl in Hv.
      destruct (schema_name_uses _ _ _ _ Et Hv) as [?|?]; [left; by right; right|right].
      eapply from_child; [by eapply child_prop|done]. }
    destruct ad as [a|].
    + destruct (schema_name dates a) as [t|] eqn:Et; [|discriminate]. cbn. intros [= <- <-]. simpl. intros [Hu|Hu]%elem_of_app; [by apply Hfs|].
      apply elem_of_app in Hu as [Hu|Hu].
      * destruct (schema_name_uses _ _ _ _ Et Hu) as [?|?]; [left; by right; right|right]. eapply from_child; [apply child_addl|done].
      * left. apply elem_of_cons in Hu as [->|Hu]; [by left|]. apply elem_of_list_singleton in Hu as ->. by right; left.
    + intros [= <- <-]. simpl. rewrite app_nil_r. apply Hfs.
  - destruct (schema_name dates _) as [t|] eqn:Et; [|discriminate]. cbn [mbind option_bind]. intros [= <- <-]. cbn [def_uses]. intros [Hu|Hu]%elem_of_app.
    + destruct (schema_name_uses _ _ _ _ Et Hu) as [?|?]; [left; by right; right|by right].
    + destruct (is_date_generated dates f) eqn:Ed; [|by apply elem_of_nil in Hu]. apply date_generated in Ed.
      left. apply elem_of_cons in Hu as [->|Hu]; [by left|]. apply elem_of_list_singleton in Hu as ->. right; right. by split; [|right].
Qed.

Section Order.
Context (order : visit) (Horder : forall l, order l ≡ₚ l).
Lemma definition_uses2 dates force s : forall ds n d u, schema_definition order dates force s = Some ds -> (n, d) ∈ ds -> u ∈ def_uses d ->
  def_use dates u \/ from s u.
Proof.
  assert (forall s, (forall ds n d u, schema_definition order dates force s = Some ds -> (n, d) ∈ ds -> u ∈ def_uses d -> def_use dates u \/ from s u) /\
    forall it, g_items s = Some it -> forall ds n d u, schema_definition order dates force it = Some ds -> (n, d) ∈ ds -> u ∈ def_uses d -> def_use dates u \/ from it u) as G.
  2: apply G.
  clear s. intros s. induction s as [s IH] using gschema_ind2.
  split; [|intros it Hit; by apply IH, items_child].
  intros ds n d u Hds Hnd Hu. destruct (definition_inv order Horder _ _ _ _ Hds) as (own & subs & Ho & -> & H1 & _).
  apply elem_of_cons in Hnd as [<-|Hnd]; [by eapply own_definition_uses2|].
  destruct (H1 _ Hnd) as (_ & c & x & l & Hc & Hx & Hl & Hin).
  assert (def_use dates u \/ from x u) as [?|?]; [|by left|right].
  { destruct (IH c Hc) as [I1 I2]. inversion Hx; subst; [by eapply I1|by eapply I2]. }
  eapply from_child; [done|]. eapply from_inside; [by apply target_inside|done].
Qed.
Lemma schema_uses_in dates force s us u : schema_uses order dates force s = Some us -> u ∈ us -> def_use dates u \/ from s u.
Proof.
  unfold schema_uses. destruct (schema_definition order dates force s) as [ds|] eqn:E; [|discriminate]. simpl. intros [= <-].
  intros ([n d] & Hd & Hu)%elem_of_flat_map. by eapply definition_uses2.
Qed.
Lemma name_uses_in dates s us u : name_uses dates s = Some us -> u ∈ us -> dates_use dates u \/ from s u.
Proof.
  unfold name_uses. destruct (schema_name dates s) as [t|] eqn:E; [|discriminate]. simpl. intros [= <-]. by apply schema_name_uses.
Qed.

(** * Conversion functions *)
Definition conv_use (dates : bool) (t : string) (u : string) : Prop :=
  u = "json" \/ u = "fmt" \/ u = "extensions" \/ (dates = true /\ u = "time") \/
  (u = "binary" /\ (t = "integer" \/ t = "number")) \/ (u = "math" /\ t = "number").
Lemma header_value_uses v3 h : expr_uses (header_value v3 h) = [].
Proof. unfold header_value. by destruct (String.eqb _ _). Qed.
Ltac fin := repeat match goal with H : _ ∈ _ :: _ |- _ => apply elem_of_cons in H as [->|H] | H : _ ∈ [] |- _ => by apply elem_of_nil in H end.
Lemma decode_header_uses v3 dates force h t u : u ∈ flat_map stmt_uses (decode_header v3 dates force h) -> conv_use dates t u.
Proof.
  unfold decode_header. destruct (seen_pointer force h), (String.eqb _ "object"); simpl;
    [intros; fin; unfold conv_use; tauto| |intros; fin; unfold conv_use; tauto|];
    (destruct (is_date_generated dates _) eqn:Ed; [apply date_generated in Ed; simpl; intros; fin; unfold conv_use; tauto
     | simpl; rewrite header_value_uses; simpl; by intros ?%elem_of_nil]).
Qed.
Lemma encode_header_uses dates force h t u : u ∈ flat_map stmt_uses (encode_header dates force h) -> conv_use dates t u.
Proof.
  unfold encode_header. destruct (h_flag h), (seen_pointer force h), (String.eqb _ "object"); simpl;
    try (intros; fin; unfold conv_use; tauto);
    (destruct (is_date_generated dates _) eqn:Ed; [apply date_generated in Ed|]; simpl; intros; fin; unfold conv_use; tauto).
Qed.
Lemma decode_payload_uses dates p u : u ∈ flat_map stmt_uses (decode_payload dates p) -> conv_use dates (g_type (followed p)) u.
Proof.
  unfold decode_payload. rewrite flat_map_app, elem_of_app. intros [H|H].
  - destruct (String.eqb (g_type (followed p)) "string") eqn:Es.
    { destruct (is_date_generated dates _) eqn:Ed; [apply date_generated in Ed|]; simpl in H; fin; unfold conv_use; tauto. }
    destruct (String.eqb (g_type (followed p)) "integer") eqn:Ei.
    { apply String.eqb_eq in Ei. destruct (String.eqb _ "int32"); simpl in H; fin; unfold conv_use; tauto. }
    destruct (String.eqb (g_type (followed p)) "number") eqn:En.
    { apply String.eqb_eq in En. destruct (String.eqb _ "float"); simpl in H; fin; unfold conv_use; tauto. }
    simpl in H; fin; unfold conv_use; tauto.
  - exfalso. destruct (_ || _); [|by apply elem_of_nil in H]. destruct (Conversion.target p); by apply elem_of_nil in H.
Qed.
Lemma encode_payload_uses dates p u : u ∈ flat_map stmt_uses (encode_payload dates p) -> conv_use dates (g_type (followed p)) u.
Proof.
  unfold encode_payload. destruct (_ || _); [simpl; intros; fin; unfold conv_use; tauto|].
  destruct (String.eqb (g_type (followed p)) "integer") eqn:Ei.
  { apply String.eqb_eq in Ei. destruct (String.eqb _ "int32"); simpl; intros; fin; unfold conv_use; tauto. }
  destruct (String.eqb (g_type (followed p)) "number") eqn:En.
  { apply String.eqb_eq in En. destruct (String.eqb _ "float"); simpl; intros; fin; unfold conv_use; tauto. }
  destruct (_ && _) eqn:E; [apply andb_true_iff in E as [_ E]; apply date_generated in E|]; simpl; intros; fin; unfold conv_use; tauto.
Qed.
Lemma decoder_uses v3 dates force m u : u ∈ flat_map stmt_uses (decoder v3 dates force m) -> conv_use dates (g_type (followed (m_payload m))) u.
Proof.
  unfold decoder. rewrite flat_map_app, elem_of_app. intros [H|H]; [by apply decode_payload_uses|].
  destruct (m_headers m) as [hs|]; [|by apply elem_of_nil in H]. simpl in H. rewrite app_nil_r in H.
  apply elem_of_flat_map in H as ([k b] & Hc & Hu). apply elem_of_list_fmap in Hc as (h & [= -> ->] & _). by eapply decode_header_uses.
Qed.
Lemma encoder_uses dates force m u : u ∈ flat_map stmt_uses (encoder dates force m) -> conv_use dates (g_type (followed (m_payload m))) u.
Proof.
  unfold encoder. rewrite !flat_map_app, !elem_of_app. intros [H|[H|H]]; [by apply encode_payload_uses| |by apply elem_of_nil in H].
  destruct (m_headers m) as [hs|]; [|by apply elem_of_nil in H].
  apply elem_of_flat_map in H as (s & Hs & Hu). apply elem_of_flat_map in Hs as (h & _ & Hs).
  eapply encode_header_uses. apply elem_of_flat_map. eauto.
Qed.
Lemma decoder_binary v3 dates force m : g_type (followed (m_payload m)) = "integer" \/ g_type (followed (m_payload m)) = "number" ->
  "binary" ∈ flat_map stmt_uses (decoder v3 dates force m).
Proof.
  intros H. unfold decoder, decode_payload. rewrite !flat_map_app, !elem_of_app. left. left.
  destruct H as [-> | ->]; simpl; [destruct (String.eqb _ "int32")|destruct (String.eqb _ "float")]; simpl; set_solver.
Qed.
Lemma decoder_math v3 dates force m : g_type (followed (m_payload m)) = "number" ->
  "math" ∈ flat_map stmt_uses (decoder v3 dates force m).
Proof.
  intros H. unfold decoder, decode_payload. rewrite !flat_map_app, !elem_of_app. left. left.
  rewrite H. simpl. destruct (String.eqb _ "float"); simpl; set_solver.
Qed.

(** * Messages *)
Definition message_use (dates : bool) (x : xmessage) (u : string) : Prop :=
  conv_use dates (payload_type x) u \/ dates_use dates u \/ (u = "uuid" /\ x_correlated x = true).
Lemma def_use_conv dates t u : def_use dates u -> conv_use dates t u \/ dates_use dates u.
Proof. unfold def_use, conv_use. tauto. Qed.
Lemma message_uses_in v3 dates force x us u : message_uses order v3 dates force x = Some us -> u ∈ us ->
  message_use dates x u \/ from (own (m_payload (x_message x))) u \/ exists s r, x_headers x = Some (s, r) /\ from s u.
Proof.
  unfold message_uses. destruct (headers_uses order dates force (x_headers x)) as [hs|] eqn:Eh; [|discriminate]. cbn [mbind option_bind].
  destruct (payload_definition order dates force _) as [ds|] eqn:Ed; [|discriminate]. cbn [mbind option_bind].
  destruct (name_uses dates _) as [ns|] eqn:En; [|discriminate]. cbn [mbind option_bind]. intros [= <-].
  rewrite !elem_of_app, ?elem_of_cons, !elem_of_app. intros [H|[H|[H|[H|[->|[H|H]]]]]].
  - unfold headers_uses in Eh. destruct (x_headers x) as [[s r]|]; [|injection Eh as <-; by apply elem_of_nil in H].
    destruct (if r then Some [] else schema_uses order dates force s) as [a|] eqn:Ea; [|discriminate]. cbn [mbind option_bind] in Eh.
    destruct (name_uses dates s) as [b|] eqn:Eb; [|discriminate]. cbn [mbind option_bind] in Eh. injection Eh as <-.
    apply elem_of_app in H as [H|H].
    + destruct r; [injection Ea as <-; by apply elem_of_nil in H|].
      destruct (schema_uses_in _ _ _ _ _ Ea H) as [K|K]; [left|right; right; eauto].
      destruct (def_use_conv _ (payload_type x) _ K); [by left|right; by left].
    + destruct (name_uses_in _ _ _ _ Eb H) as [K|K]; [left; right; by left|right; right; eauto].
  - unfold payload_definition in Ed. destruct (_ && _); [|injection Ed as <-; by apply elem_of_nil in H].
    destruct (schema_uses_in _ _ _ _ _ Ed H) as [K|K]; [left|right; by left].
    destruct (def_use_conv _ (payload_type x) _ K); [by left|right; by left].
  - destruct (name_uses_in _ _ _ _ En H) as [K|K]; [left; right; by left|right; by left].
  - destruct (x_correlated x) eqn:Ec; [|by apply elem_of_nil in H]. apply elem_of_list_singleton in H as ->. left; right; right. done.
  - left; left. unfold conv_use. tauto.
  - left; left. by eapply decoder_uses.
  - left; left. by eapply encoder_uses.
Qed.
Lemma message_uses_has v3 dates force x us : message_uses order v3 dates force x = Some us ->
  "extensions" ∈ us /\ (x_correlated x = true -> "uuid" ∈ us) /\
  (payload_type x = "integer" \/ payload_type x = "number" -> "binary" ∈ us) /\ (payload_type x = "number" -> "math" ∈ us).
Proof.
  unfold message_uses. destruct (headers_uses order dates force (x_headers x)) as [hs|] eqn:Eh; [|discriminate]. cbn [mbind option_bind].
  destruct (payload_definition order dates force _) as [ds|] eqn:Ed; [|discriminate]. cbn [mbind option_bind].
  destruct (name_uses dates _) as [ns|] eqn:En; [|discriminate]. cbn [mbind option_bind]. intros [= <-].
  rewrite !elem_of_app, !elem_of_cons, !elem_of_app. split; [tauto|]. split; [intros ->; rewrite !elem_of_cons; tauto|]. split.
  - intros H. do 5 right. left. by apply decoder_binary.
  - intros H. do 5 right. left. by apply decoder_math.
Qed.

Lemma types_uses_in v3 dates force ps ms ss us u : types_uses order v3 dates force ps ms ss = Some us -> u ∈ us ->
  u = "extensions" \/ u = "fmt" \/ def_use dates u \/ (exists x, x ∈ ms /\ message_use dates x u) \/
  (exists s, (s ∈ ps \/ s ∈ ss) /\ from s u) \/
  (exists x, x ∈ ms /\ (from (own (m_payload (x_message x))) u \/ exists s r, x_headers x = Some (s, r) /\ from s u)).
Proof.
  unfold types_uses. destruct (mapM (name_uses dates) _) as [lp|] eqn:Ep; [|discriminate]. cbn [mbind option_bind].
  destruct (mapM (message_uses order v3 dates force) ms) as [lm|] eqn:Em; [|discriminate]. cbn [mbind option_bind].
  destruct (mapM (schema_uses order dates force) ss) as [ls|] eqn:Es; [|discriminate]. cbn [mbind option_bind]. intros [= <-].
  rewrite !elem_of_cons, !elem_of_app, !elem_of_concat. intros [H|[H|[H|[H|H]]]]; [by left|by right; left|..].
  - destruct H as (l & Hl & Hu). apply (mapM_elem _ _ _ l Ep) in Hl as (s & Hs & E).
    destruct (name_uses_in _ _ _ _ E Hu) as [K|K]; [right; right; left; by right; right|].
    do 4 right. left. exists s. split; [left; by destruct v3; [apply elem_of_nil in Hs|]|done].
  - destruct H as (l & Hl & Hu). apply (mapM_elem _ _ _ l Em) in Hl as (x & Hx & E).
    destruct (message_uses_in _ _ _ _ _ _ E Hu) as [K|K]; [do 3 right; left; eauto|do 5 right; eauto].
  - destruct H as (l & Hl & Hu). apply (mapM_elem _ _ _ l Es) in Hl as (s & Hs & E).
    destruct (schema_uses_in _ _ _ _ _ E Hu) as [K|K]; [by right; right; left|]. do 4 right. left. exists s. split; [by right|done].
Qed.
Lemma types_uses_message v3 dates force ps ms ss us x : types_uses order v3 dates force ps ms ss = Some us -> x ∈ ms ->
  exists l, message_uses order v3 dates force x = Some l /\ forall u, u ∈ l -> u ∈ us.
Proof.
  unfold types_uses. destruct (mapM (name_uses dates) _) as [lp|] eqn:Ep; [|discriminate]. cbn [mbind option_bind].
  destruct (mapM (message_uses order v3 dates force) ms) as [lm|] eqn:Em; [|discriminate]. cbn [mbind option_bind].
  destruct (mapM (schema_uses order dates force) ss) as [ls|] eqn:Es; [|discriminate]. cbn [mbind option_bind]. intros [= <-] Hx.
  pose proof Em as Em'. apply mapM_Some in Em'. apply elem_of_list_lookup in Hx as (i & Hi).
  destruct (Forall2_lookup_l _ _ _ _ _ Em' Hi) as (l & Hl & E). exists l. split; [done|]. intros u Hu.
  rewrite !elem_of_cons, !elem_of_app, !elem_of_concat. do 3 right. left. exists l. split; [by eapply elem_of_list_lookup_2|done].
Qed.

(** * Controllers *)
Lemma whenever_in b l (u : string) : u ∈ whenever b l <-> b = true /\ u ∈ l.
Proof. destruct b; simpl; [naive_solver|]. rewrite elem_of_nil. naive_solver. Qed.
Lemma side_uses_in v3 s u : u ∈ side_uses v3 s -> u ∈ ["context"; "extensions"; "fmt"] \/ (u = "uuid" /\ side_sends v3 s).
Proof.
  unfold side_uses, subscriber_uses, base_uses, all_uses. rewrite !elem_of_app, !whenever_in, !elem_of_flat_map.
  intros [[_ H]|[H|[[_ H]|[(o & Ho & H)|(o & Ho & H)]]]]; [fin; set_solver..| |].
  - left. apply elem_of_app in H as [H|H]; [unfold listening_uses in H; fin; set_solver|]. destruct v3.
    + unfold answering_uses in H. destruct (xo_reply o) as [[opt p]|]; [|by apply elem_of_nil in H].
      apply elem_of_cons in H as [->|H]; [set_solver|]. apply whenever_in in H as [_ H]. fin; set_solver.
    + unfold waiting_uses in H. apply whenever_in in H as [_ H]. apply elem_of_app in H as [H|H]; [fin; set_solver|].
      apply whenever_in in H as [_ H]. fin; set_solver.
  - apply elem_of_app in H as [H|H].
    + unfold sending_uses in H. rewrite !elem_of_app, !whenever_in in H. destruct H as [H|[[_ H]|[E H]]]; [fin; set_solver..|].
      apply elem_of_list_singleton in H as ->. apply andb_true_iff in E as [E1 E2]. right. split; [done|]. exists o. split; [done|]. split; [done|].
      intros ->. left. by destruct (xo_reply_of o).
    + destruct v3; [|by apply elem_of_nil in H]. unfold requesting_uses in H. destruct (xo_reply o) eqn:Er; [|by apply elem_of_nil in H].
      rewrite elem_of_app, whenever_in in H. destruct H as [H|[E H]]; [fin; set_solver|]. apply elem_of_list_singleton in H as ->.
      right. split; [done|]. exists o. split; [done|]. split; [done|]. intros _. right. by rewrite Er.
Qed.
Lemma side_uses_uuid v3 s : side_sends v3 s -> "uuid" ∈ side_uses v3 s.
Proof.
  intros (o & Ho & Hc & Hr). unfold side_uses. rewrite !elem_of_app. do 4 right. apply elem_of_flat_map. exists o. split; [done|].
  rewrite elem_of_app. unfold sending_uses, requesting_uses. rewrite !elem_of_app, !whenever_in, Hc. destruct v3; simpl; [|left; set_solver].
  destruct (xo_reply_of o); simpl; [|left; set_solver]. destruct (Hr eq_refl) as [?|?]; [done|]. destruct (xo_reply o); [|done]. right. set_solver.
Qed.
Lemma side_uses_base v3 s : "extensions" ∈ side_uses v3 s /\ "context" ∈ side_uses v3 s.
Proof. unfold side_uses, base_uses. rewrite !elem_of_app. set_solver. Qed.

(** * The file *)
Definition file_use (v3 dates : bool) (p : parts) (d : document) (u : string) : Prop :=
  u ∈ ["json"; "fmt"; "context"; "extensions"] \/ dates_use dates u \/
  (u = "binary" /\ p_types p = true /\ exists x, x ∈ d_messages d /\ (payload_type x = "integer" \/ payload_type x = "number")) \/
  (u = "math" /\ p_types p = true /\ exists x, x ∈ d_messages d /\ payload_type x = "number") \/
  (u = "uuid" /\ ((p_types p = true /\ exists x, x ∈ d_messages d /\ x_correlated x = true) \/
     (p_application p = true /\ side_sends v3 (d_application d)) \/ (p_user p = true /\ side_sends v3 (d_user d)))).
Lemma file_uses_in v3 dates force p d us u : file_uses order v3 dates force p d = Some us -> u ∈ us ->
  file_use v3 dates p d u \/ custom_use d u.
Proof.
  unfold file_uses. destruct (if p_types p then _ else _) as [t|] eqn:Et; [|discriminate]. cbn [mbind option_bind]. intros [= <-].
  rewrite !elem_of_app, !whenever_in. intros [[E H]|[[E H]|H]].
  - left. apply side_uses_in in H as [H|[-> H]]; [left; set_solver|]. do 4 right. split; [done|]. right; left. done.
  - left. apply side_uses_in in H as [H|[-> H]]; [left; set_solver|]. do 4 right. split; [done|]. right; right. done.
  - destruct (p_types p) eqn:Ep; [|injection Et as <-; by apply elem_of_nil in H].
    destruct (types_uses_in _ _ _ _ _ _ _ _ Et H) as [->|[->|[K|[(x & Hx & K)|[(s & Hs & y & Hy & K)|(x & Hx & K)]]]]].
    + left; left. set_solver.
    + left; left. set_solver.
    + left. unfold def_use in K. destruct K as [->|[->|K]]; [left; set_solver|left; set_solver|by right; left].
    + left. unfold message_use, conv_use in K. destruct K as [[->|[->|[->|[[? ->]|[[-> K]|[-> K]]]]]]|[K|[-> K]]].
      * left; set_solver.
      * left; set_solver.
      * left; set_solver.
      * right; left. split; [done|by right].
      * right; right; left. split; [done|]. split; [done|eauto].
      * do 3 right; left. split; [done|]. split; [done|eauto].
      * by right; left.
      * do 4 right. split; [done|]. left. split; [done|eauto].
    + right. exists s, y. split; [|done]. destruct Hs as [?|?]; [by left|by right; left].
    + right. destruct K as [(y & Hy & K)|(s & r & Hh & y & Hy & K)].
      * eexists _, y. split; [right; right; exists x; split; [done|by left]|done].
      * exists s, y. split; [right; right; exists x; split; [done|right; eauto]|done].
Qed.
Lemma file_uses_has v3 dates force p d us u : file_uses order v3 dates force p d = Some us ->
  u ∈ ["binary"; "math"; "uuid"] -> file_use v3 dates p d u -> u ∈ us.
Proof.
  unfold file_uses. destruct (if p_types p then _ else _) as [t|] eqn:Et; [|discriminate]. cbn [mbind option_bind]. intros [= <-] Hu.
  rewrite !elem_of_app, !whenever_in. intros [K|[[_ K]|[(-> & E & x & Hx & K)|[(-> & E & x & Hx & K)|[-> K]]]]].
  - exfalso. set_solver.
  - exfalso. destruct K as [-> | ->]; set_solver.
  - right; right. rewrite E in Et. destruct (types_uses_message _ _ _ _ _ _ _ _ Et Hx) as (l & Hl & Hs). apply Hs.
    destruct (message_uses_has _ _ _ _ _ Hl) as (_ & _ & H & _). by apply H.
  - right; right. rewrite E in Et. destruct (types_uses_message _ _ _ _ _ _ _ _ Et Hx) as (l & Hl & Hs). apply Hs.
    destruct (message_uses_has _ _ _ _ _ Hl) as (_ & _ & _ & H). by apply H.
  - destruct K as [(E & x & Hx & K)|[[E K]|[E K]]].
    + right; right. rewrite E in Et. destruct (types_uses_message _ _ _ _ _ _ _ _ Et Hx) as (l & Hl & Hs). apply Hs.
      destruct (message_uses_has _ _ _ _ _ Hl) as (_ & H & _). by apply H.
    + left. split; [done|]. by apply side_uses_uuid.
    + right; left. split; [done|]. by apply side_uses_uuid.
Qed.
End Order.

(** * Formatting *)
Section Process.
  Context (package_name : string -> string) (find : string -> option import).
  Notation decl := (declares package_name).
  Lemma fixed_declares u : knows package_name -> u ∈ packages.*2%list -> exists i, i ∈ map (mkImp "") fixed_imports /\ decl i = u.
  Proof.
    intros Hk Hu. apply elem_of_list_fmap in Hu as ([p n] & -> & Hp). exists (mkImp "" p). split.
    - apply elem_of_list_fmap. exists p. split; [done|]. unfold packages, fixed_imports in *. set_solver.
    - unfold declares. simpl. by apply Hk.
  Qed.
  Lemma no_missing (l : list import) (us : list string) : (forall u, u ∈ us -> u ∈ map decl l) -> filter (fun u => u ∉ map decl l) us = [].
  Proof.
    induction us as [|u us IH]; intros H; [done|]. rewrite filter_cons_False by (intros Hn; apply Hn, H; set_solver).
    apply IH. set_solver.
  Qed.
  Lemma process_covered (l : list import) us : (forall u, u ∈ us -> u ∈ map decl l) ->
    process package_name find l us = filter (fun i => decl i ∈ us) (remove_dups l).
  Proof. intros H. unfold process. rewrite (no_missing _ _ H). simpl. by rewrite app_nil_r. Qed.
  Lemma process_in (l : list import) us i : (forall u, u ∈ us -> u ∈ map decl l) ->
    i ∈ process package_name find l us <-> decl i ∈ us /\ i ∈ l.
  Proof. intros H. by rewrite (process_covered _ _ H), elem_of_list_filter, elem_of_remove_dups. Qed.
  Lemma process_accepted (l : list import) us : (forall u, u ∈ us -> u ∈ map decl l) ->
    accepted decl (process package_name find l us) us <-> forall i j, i ∈ l -> j ∈ l -> decl i = decl j -> decl i ∈ us -> i = j.
  Proof.
    intros Hc. split.
    - intros [_ _ Ho] i j Hi Hj E Hu.
      assert (i ∈ process package_name find l us) as Pi by (by apply process_in).
      assert (j ∈ process package_name find l us) as Pj by (apply process_in; [done|by rewrite <- E]).
      apply elem_of_list_lookup in Pi as (a & Ha). apply elem_of_list_lookup in Pj as (b & Hb).
      assert (a = b) as ->; [|congruence]. eapply NoDup_lookup; [exact Ho|..]; erewrite list_lookup_fmap; [by rewrite Ha|rewrite Hb; simpl; by rewrite E].
    - intros Hinj. split.
      + intros i Hi. by apply process_in in Hi as [? _].
      + intros u Hu. apply Hc in Hu as Hd. apply elem_of_list_fmap in Hd as (i & -> & Hi). exists i. split; [by apply process_in|done].
      + rewrite process_covered by done. apply NoDup_fmap_2_strong; [|apply NoDup_filter, NoDup_remove_dups].
        intros i j Hi Hj E. apply elem_of_list_filter in Hi as [Hu Hi]. apply elem_of_list_filter in Hj as [_ Hj].
        rewrite elem_of_remove_dups in Hi, Hj. by apply Hinj.
  Qed.
End Process.
