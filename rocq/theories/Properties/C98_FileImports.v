(** C98: the imports of a generated file. *)
From stdpp Require Import gmap list strings.
From Coq Require Import Ascii String.
From Verif.Model Require Import Reference Imports Types Conversion FileImports.
From Verif.Spec Require Import TypesSpec FileImportsSpec.
From Verif.Proof Require Import FileImportsProof.
Local Open Scope string_scope.
Local Open Scope list_scope.

(** With formatting disabled, no file that the tool generates compiles, for any document, whatever parts and options are asked for, in both versions:
    "errors" is imported and never used, unless a custom type of the document happens to use it. *)
Theorem C98_unformatted_refuted package_name find order v3 dates force p d us :
  (forall l, order l ≡ₚ l) -> knows package_name -> file_uses order v3 dates force p d = Some us -> ~ custom_use d "errors" ->
  ~ accepted (declares package_name) (generated_imports package_name find false (import_block (d_custom d)) us) us.
Proof.
  intros Ho Hk Hf Hn [Hu _ _]. specialize (Hu (mkImp "" "errors")). simpl in Hu.
  assert ("errors" ∈ us) as H.
  { replace "errors" with (declares package_name (mkImp "" "errors")); [apply Hu|].
    - unfold import_block. apply elem_of_app. left. unfold fixed_imports. set_solver.
    - unfold declares. simpl. apply Hk. unfold packages. set_solver. }
  destruct (file_uses_in order Ho _ _ _ _ _ _ _ Hf H) as [K|K]; [|done].
  unfold file_use, dates_use in K. destruct K as [K|[[_ [K|K]]|[[K _]|[[K _]|[K _]]]]]; try discriminate. set_solver.
Qed.

(** Every package that the templates use is always imported; what else is used comes from a custom type of the document. *)
Theorem C98_imported package_name order v3 dates force p d us u :
  (forall l, order l ≡ₚ l) -> knows package_name -> file_uses order v3 dates force p d = Some us -> u ∈ us ->
  (exists i, i ∈ import_block (d_custom d) /\ declares package_name i = u) \/ custom_use d u.
Proof.
  intros Ho Hk Hf Hu. destruct (file_uses_in order Ho _ _ _ _ _ _ _ Hf Hu) as [K|K]; [left|by right].
  assert (u ∈ packages.*2%list) as Hp.
  { unfold packages. simpl. unfold file_use, dates_use in K. destruct K as [K|[[_ [->| ->]]|[[-> _]|[[-> _]|[-> _]]]]]; set_solver. }
  destruct (fixed_declares package_name (fun _ => None) u Hk Hp) as (i & Hi & E). exists i. split; [|done].
  unfold import_block. apply elem_of_app. by left.
Qed.

(** The lines of the custom imports are those that CustomImports returns (C47), in its order; each has the path and the name of an import of the document. *)
Theorem C98_custom l :
  map (fun i => import_line (imp_path i) (imp_name i)) (custom_block l) = map_to_lines l /\
  (forall i, i ∈ custom_block l <-> (imp_path i, imp_name i) ∈ l /\ imp_path i <> "").
Proof.
  split.
  - induction l as [|[q n] l IH]; [done|]. unfold custom_block, map_to_lines in *. cbn. by destruct (String.eqb q ""); cbn; rewrite IH.
  - intros [n q]. unfold custom_block. rewrite elem_of_list_omap. cbn. split.
    + intros ([q' n'] & H & E). cbn in E. destruct (String.eqb_spec q' "") as [->|N]; [done|]. by injection E as -> ->.
    + intros [H N]. exists (q, n). split; [done|]. cbn. by destruct (String.eqb_spec q "").
Qed.
Print Assumptions C98_custom.
Example C98_custom_example : custom_block [("", "x"); ("github.com/gofrs/uuid", "gofrs"); ("net/url", "")] = [mkImp "gofrs" "github.com/gofrs/uuid"; mkImp "" "net/url"].
Proof. reflexivity. Qed.

(** With formatting, the imports are accepted exactly when no two lines declare one name that is used, provided that the packages of the custom types are
    imported (which is C70). *)
Theorem C98_formatted package_name find order v3 dates force p d us :
  (forall l, order l ≡ₚ l) -> knows package_name -> file_uses order v3 dates force p d = Some us ->
  (forall u, custom_use d u -> exists i, i ∈ import_block (d_custom d) /\ declares package_name i = u) ->
  accepted (declares package_name) (generated_imports package_name find true (import_block (d_custom d)) us) us <->
  forall i j, i ∈ import_block (d_custom d) -> j ∈ import_block (d_custom d) -> declares package_name i = declares package_name j ->
    declares package_name i ∈ us -> i = j.
Proof.
  intros Ho Hk Hf Hc. apply process_accepted. intros u Hu.
  assert (exists i, i ∈ import_block (d_custom d) /\ declares package_name i = u) as (i & Hi & <-).
  { destruct (C98_imported package_name _ _ _ _ _ _ _ u Ho Hk Hf Hu); eauto. }
  apply elem_of_list_fmap. eauto.
Qed.
(** So without custom types and imports the imports of a formatted file are always accepted. *)
Theorem C98_plain package_name find order v3 dates force p d us :
  (forall l, order l ≡ₚ l) -> knows package_name -> file_uses order v3 dates force p d = Some us ->
  d_custom d = [] -> (forall u, ~ custom_use d u) ->
  accepted (declares package_name) (generated_imports package_name find true (import_block (d_custom d)) us) us.
Proof.
  intros Ho Hk Hf Hd Hc. eapply C98_formatted; [done..| |].
  - intros u Hu. by destruct (Hc u).
  - rewrite Hd. unfold import_block. change (custom_block []) with (@nil import). rewrite app_nil_r.
    assert (forall i, i ∈ map (mkImp "") fixed_imports -> exists n, (imp_path i, n) ∈ packages /\ i = mkImp "" (imp_path i) /\ declares package_name i = n) as Hi.
    { intros i Hi. apply elem_of_list_fmap in Hi as (q & -> & Hq).
      assert (exists n, (q, n) ∈ packages) as (n & Hn).
      { assert (Forall (fun q => q ∈ packages.*1%list) fixed_imports) as HF by (apply (bool_decide_unpack _); vm_compute; exact I).
        rewrite Forall_forall in HF. apply HF, elem_of_list_fmap in Hq as ([q' n] & -> & Hq). eauto. }
      exists n. split; [done|]. split; [done|]. unfold declares. simpl. by apply Hk. }
    intros i j Ii Ij E _. destruct (Hi i Ii) as (n & Pi & Ei & Di), (Hi j Ij) as (n' & Pj & Ej & Dj).
    rewrite Di, Dj in E. subst n'. rewrite Ei, Ej. f_equal. clear -Pi Pj.
    assert (forall a b, a ∈ packages -> b ∈ packages -> a.2 = b.2 -> a.1 = b.1) as H; [|by apply (H _ _ Pi Pj)].
    assert (Forall (fun a => Forall (fun b => a.2 = b.2 -> a.1 = b.1) packages) packages) as HF.
    { apply (bool_decide_unpack _). vm_compute. exact I. }
    intros a b Ha Hb. rewrite Forall_forall in HF. specialize (HF a Ha). rewrite Forall_forall in HF. by apply HF.
Qed.

(** Which of the packages with a narrow use stay: "math" for payloads that are numbers, "binary" for integers and numbers, "uuid" for identifiers.
    When dates are not generated, "time" and "civil" go. *)
Theorem C98_math order v3 dates force p d us :
  (forall l, order l ≡ₚ l) -> file_uses order v3 dates force p d = Some us -> ~ custom_use d "math" ->
  "math" ∈ us <-> p_types p = true /\ exists x, x ∈ d_messages d /\ payload_type x = "number".
Proof.
  intros Ho Hf Hn. split.
  - intros Hu. destruct (file_uses_in order Ho _ _ _ _ _ _ _ Hf Hu) as [K|K]; [|done].
    unfold file_use, dates_use in K. destruct K as [K|[[_ [K|K]]|[[K _]|[[_ K]|[K _]]]]]; try discriminate; [set_solver|done].
  - intros K. apply (file_uses_has order Ho v3 dates force p d us _ Hf); [set_solver|]. right; right; right; left. done.
Qed.
Theorem C98_binary order v3 dates force p d us :
  (forall l, order l ≡ₚ l) -> file_uses order v3 dates force p d = Some us -> ~ custom_use d "binary" ->
  "binary" ∈ us <-> p_types p = true /\ exists x, x ∈ d_messages d /\ (payload_type x = "integer" \/ payload_type x = "number").
Proof.
  intros Ho Hf Hn. split.
  - intros Hu. destruct (file_uses_in order Ho _ _ _ _ _ _ _ Hf Hu) as [K|K]; [|done].
    unfold file_use, dates_use in K. destruct K as [K|[[_ [K|K]]|[[_ K]|[[K _]|[K _]]]]]; try discriminate; [set_solver|done].
  - intros K. apply (file_uses_has order Ho v3 dates force p d us _ Hf); [set_solver|]. right; right; left. done.
Qed.
Theorem C98_uuid order v3 dates force p d us :
  (forall l, order l ≡ₚ l) -> file_uses order v3 dates force p d = Some us -> ~ custom_use d "uuid" ->
  "uuid" ∈ us <-> (p_types p = true /\ exists x, x ∈ d_messages d /\ x_correlated x = true) \/
    (p_application p = true /\ side_sends v3 (d_application d)) \/ (p_user p = true /\ side_sends v3 (d_user d)).
Proof.
  intros Ho Hf Hn. split.
  - intros Hu. destruct (file_uses_in order Ho _ _ _ _ _ _ _ Hf Hu) as [K|K]; [|done].
    unfold file_use, dates_use in K. destruct K as [K|[[_ [K|K]]|[[K _]|[[K _]|[_ K]]]]]; try discriminate; [set_solver|done].
  - intros K. apply (file_uses_has order Ho v3 dates force p d us _ Hf); [set_solver|]. right; right; right; right. done.
Qed.
(** "fmt" stays when types are generated, or a side formats texts. *)
Theorem C98_fmt order v3 dates force p d us :
  file_uses order v3 dates force p d = Some us ->
  "fmt" ∈ us <-> p_types p = true \/ (p_application p = true /\ side_formats v3 (d_application d)) \/ (p_user p = true /\ side_formats v3 (d_user d)).
Proof.
  intros Hf. unfold file_uses in Hf. destruct (p_types p) eqn:Hp.
  { apply bind_Some in Hf as (t & Ht & [= <-]). unfold types_uses in Ht. apply bind_Some in Ht as (? & _ & Ht).
    apply bind_Some in Ht as (? & _ & Ht). apply bind_Some in Ht as (? & _ & [= <-]). split; [by left|intros _].
    rewrite !elem_of_app. right; right. apply elem_of_cons. right. apply elem_of_cons. by left. }
  cbn in Hf. injection Hf as <-. rewrite app_nil_r, elem_of_app.
  assert (forall b s, "fmt" ∈ whenever b (side_uses v3 s) <-> b = true /\ side_formats v3 s) as H; [|rewrite !H; naive_solver].
  intros b s. destruct b; cbn [whenever]; [|split; [by intros ?%elem_of_nil|by intros []]].
  split; [intros H; split; [done|]|intros [_ H]].
  - destruct (xs_receive s) as [|r l] eqn:Er; [right|left; by rewrite Er]. unfold side_uses, subscriber_uses, all_uses in H. rewrite Er in H. cbn in H.
    apply elem_of_cons in H as [?|H]; [discriminate|]. apply elem_of_cons in H as [?|H]; [discriminate|].
    change (flat_map _ _) with (flat_map (fun o => sending_uses v3 o ++ (if v3 then requesting_uses o else [])) (xs_send s)) in H.
    apply elem_of_list_In, in_flat_map in H as (o & Ho%elem_of_list_In & H%elem_of_list_In). exists o. split; [done|].
    apply (elem_of_app (sending_uses v3 o)) in H as [H|H].
    + left. unfold sending_uses in H. destruct (xo_params o); [|exfalso; cbn in H; destruct (xo_correlated o && negb (v3 && xo_reply_of o)); set_solver].
      split; [done|]. intros ->. destruct (xo_address o); [done|]. exfalso. cbn in H. destruct (xo_correlated o && negb (xo_reply_of o)); set_solver.
    + right. destruct v3; [|by apply elem_of_nil in H]. split; [done|]. unfold requesting_uses in H. destruct (xo_reply o); [done|by apply elem_of_nil in H].
  - unfold side_uses. rewrite !elem_of_app. destruct H as [H|(o & Ho & H)].
    + destruct (xs_receive s) as [|r l]; [done|]. right; right; right; left. cbn. right. by left.
    + right; right; right; right. apply elem_of_list_In, in_flat_map. exists o. split; [by apply elem_of_list_In|]. apply elem_of_list_In, elem_of_app.
      destruct H as [[H1 H2]|[-> H]].
      * left. unfold sending_uses. rewrite H1. destruct v3; [rewrite H2 by done|]; cbn; rewrite ?orb_true_r; set_solver.
      * right. unfold requesting_uses. destruct (xo_reply o); [set_solver|done].
Qed.
Print Assumptions C98_fmt.
Example C98_fmt_example : let send := mkXOp true false false false None false in
  forall v3 us, file_uses (fun l => l) v3 true false (mkParts true false false) (mkDoc (mkSide [] [send]) (mkSide [] []) [] [] [] []) = Some us -> ("fmt" ∈ us <-> v3 = false).
Proof.
  cbn zeta. intros v3 us [= <-]. split; destruct v3; try done; intros H; [exfalso; revert H|]; apply (bool_decide_unpack _); vm_compute; exact I.
Qed.
(** "context" stays when a side is generated, "extensions" when anything is. *)
Theorem C98_context order v3 dates force p d us :
  (forall l, order l ≡ₚ l) -> file_uses order v3 dates force p d = Some us -> ~ custom_use d "context" ->
  "context" ∈ us <-> p_application p = true \/ p_user p = true.
Proof.
  intros Ho Hf Hn. assert (forall s, "context" ∈ side_uses v3 s) as Hs by (intros s; unfold side_uses, base_uses; rewrite !elem_of_app; set_solver).
  pose proof Hf as Hf'. unfold file_uses in Hf'. apply bind_Some in Hf' as (t & Ht & [= <-]). rewrite !elem_of_app, !whenever_in. split.
  - intros [[? _]|[[? _]|H]]; [by left|by right|]. exfalso. destruct (p_types p); [|injection Ht as <-; by apply elem_of_nil in H].
    destruct (types_uses_in order Ho _ _ _ _ _ _ _ _ Ht H) as [[=]|[[=]|[K|[(x & Hx & K)|[(s & Hs' & y & Hy & K)|(x & Hx & K)]]]]].
    + unfold def_use, dates_use in K. destruct K as [[=]|[[=]|[_ [[=]|[=]]]]].
    + unfold message_use, conv_use, dates_use in K. destruct K as [[[=]|[[=]|[[=]|[[_ [=]]|[[[=] _]|[[=] _]]]]]]|[[_ [[=]|[=]]]|[[=] _]]].
    + apply Hn. exists s, y. split; [|done]. destruct Hs' as [?|?]; [by left|by right; left].
    + apply Hn. destruct K as [(y & Hy & K)|(s & r & Hh & y & Hy & K)].
      * eexists _, y. split; [right; right; exists x; split; [done|by left]|done].
      * exists s, y. split; [right; right; exists x; split; [done|right; eauto]|done].
  - intros [E|E]; [left|right; left]; done.
Qed.
Theorem C98_extensions order v3 dates force p d us :
  file_uses order v3 dates force p d = Some us ->
  "extensions" ∈ us <-> p_application p = true \/ p_user p = true \/ p_types p = true.
Proof.
  intros Hf. assert (forall s, "extensions" ∈ side_uses v3 s) as Hs by (intros s; unfold side_uses, base_uses; rewrite !elem_of_app; set_solver).
  unfold file_uses in Hf. apply bind_Some in Hf as (t & Ht & [= <-]). rewrite !elem_of_app, !whenever_in. destruct (p_types p).
  - split; [auto|]. intros _. right; right. unfold types_uses in Ht. apply bind_Some in Ht as (? & _ & Ht).
    apply bind_Some in Ht as (? & _ & Ht). apply bind_Some in Ht as (? & _ & [= <-]). left.
  - injection Ht as <-. split; [intros [[? _]|[[? _]|H]]; [auto|auto|by apply elem_of_nil in H]|].
    intros [E|[E|E]]; [left; done|right; left; done|done].
Qed.
Print Assumptions C98_context.
Print Assumptions C98_extensions.
Example C98_context_example : forall us, file_uses (fun l => l) true true false (mkParts false false true) (mkDoc (mkSide [] []) (mkSide [] []) [] [] [] []) = Some us ->
  "context" ∉ us /\ "extensions" ∈ us.
Proof. intros us [= <-]. split; apply (bool_decide_unpack _); vm_compute; exact I. Qed.
Theorem C98_no_dates order v3 force p d us u :
  (forall l, order l ≡ₚ l) -> file_uses order v3 false force p d = Some us -> u = "time" \/ u = "civil" -> ~ custom_use d u -> u ∉ us.
Proof.
  intros Ho Hf Hd Hn Hu. destruct (file_uses_in order Ho _ _ _ _ _ _ _ Hf Hu) as [K|K]; [|done].
  unfold file_use, dates_use in K. destruct Hd as [-> | ->]; destruct K as [K|[[K _]|[[K _]|[[K _]|[K _]]]]]; try discriminate; set_solver.
Qed.

(** Two different lines that declare a name which is used are never accepted, formatted or not. *)
Theorem C98_clash_never package_name find formatting l us i j :
  i ∈ l -> j ∈ l -> i <> j -> declares package_name i = declares package_name j -> declares package_name i ∈ us ->
  ~ accepted (declares package_name) (generated_imports package_name find formatting l us) us.
Proof.
  intros Hi Hj Hn E Hu [_ _ Ho]. apply Hn.
  assert (i ∈ generated_imports package_name find formatting l us /\ j ∈ generated_imports package_name find formatting l us) as [Pi Pj].
  { unfold generated_imports, process. destruct formatting; [|done]. rewrite !elem_of_app, !elem_of_list_filter, !elem_of_remove_dups. rewrite <- E. tauto. }
  apply elem_of_list_lookup in Pi as (a & Ha). apply elem_of_list_lookup in Pj as (b & Hb).
  assert (a = b) as ->; [|congruence].
  eapply NoDup_lookup; [exact Ho|..]; erewrite list_lookup_fmap; [by rewrite Ha|rewrite Hb; simpl; by rewrite E].
Qed.

(** ** Examples *)
(** The name of a package is the last part of its path. *)
Fixpoint last_part (word : string) (s : string) : string :=
  match s with
  | EmptyString => word
  | String a r => if Ascii.eqb a "/" then last_part "" r else last_part (String.append word (String a "")) r
  end.
Definition by_path (p : string) : string := last_part "" p.
Example knows_example : knows by_path.
Proof.
  intros p n H. assert (Forall (fun a : string * string => by_path a.1 = a.2) packages) as HF by (apply (bool_decide_unpack _); vm_compute; exact I).
  rewrite Forall_forall in HF. exact (HF _ H).
Qed.
Definition prim (t f : string) : gschema := GSchema "" t f "" [] None None None.
(** A message with a payload of that type and an identifier; an application that receives it and replies. *)
Definition with_payload (s : gschema) : xmessage :=
  mkX (mkMessage (mkPart s None) (Some [mkHeader "id" false false false (mkPart (prim "string" "") None)]))
    (Some (GSchema "H" "object" "" "" [("id", (false, prim "string" ""))] None None None, false)) true.
Definition receives : xop := mkXOp false true true false (Some (true, false)) false.
Definition replies : xop := mkXOp false false true true None false.
Definition doc (s : gschema) (custom : list (string * string)) : document :=
  mkDoc (mkSide [receives] [replies]) (mkSide [replies] [receives]) [] [with_payload s] [prim "string" "date-time"] custom.
Definition all_parts : parts := mkParts true true true.
Definition same_order : visit := fun l => l.
Lemma same_order_ok l : same_order l ≡ₚ l. Proof. done. Qed.
Definition uses_of (s : gschema) : list string := default [] (file_uses same_order true true false all_parts (doc s [])).
Example C98_uses_example : file_uses same_order true true false all_parts (doc (prim "integer" "int32") []) = Some (uses_of (prim "integer" "int32")) /\
  filter (fun n => n ∈ uses_of (prim "integer" "int32")) packages.*2%list = ["json"; "time"; "fmt"; "context"; "binary"; "extensions"; "uuid"].
Proof. split; vm_compute; reflexivity. Qed.
Lemma no_custom s custom u : (forall x, inside s x -> g_ext x = "") -> ~ custom_use (doc s custom) u.
Proof.
  intros Hs (s' & x & Hin & Hx & b & c & E & _).
  assert (g_ext x = "") as He; [|rewrite He in E; by destruct b; [destruct (list_ascii_of_string u)|]].
  assert (forall n t f r y, inside (GSchema n t f "" [] None None r) y -> g_ext y = "") as Hleaf.
  { intros n t f r y Hy. inversion Hy as [|? c' ? Hc]; subst; [done|]. inversion Hc as [? ? ? ? ? ? ? ? ? ? ? Hp| |]; subst. by apply elem_of_nil in Hp. }
  destruct Hin as [H|[H|(m & Hm & H)]]; simpl in *.
  - by apply elem_of_nil in H.
  - apply elem_of_list_singleton in H as ->. by eapply Hleaf.
  - apply elem_of_list_singleton in Hm as ->. simpl in H. destruct H as [->|(r & [= <- <-])]; [by apply Hs|].
    inversion Hx as [|? c' ? Hc Hi]; subst; [done|]. inversion Hc as [? ? ? ? ? ? ? ? ? ? ? Hp| |]; subst.
    apply elem_of_list_singleton in Hp as [= -> -> ->]. by eapply Hleaf.
Qed.
Lemma prim_no_custom t f x : inside (prim t f) x -> g_ext x = "".
Proof. intros Hx. inversion Hx as [|? c' ? Hc]; subst; [done|]. inversion Hc as [? ? ? ? ? ? ? ? ? ? ? Hp| |]; subst. by apply elem_of_nil in Hp. Qed.
(** That document: not accepted unformatted, accepted formatted; of the packages "errors", "math" and "civil" go. *)
Example C98_unformatted_example :
  ~ accepted (declares by_path) (generated_imports by_path (fun _ => None) false (import_block []) (uses_of (prim "integer" "int32"))) (uses_of (prim "integer" "int32")).
Proof.
  apply (C98_unformatted_refuted by_path (fun _ => None) same_order true true false all_parts (doc (prim "integer" "int32") []) _ same_order_ok knows_example
    (proj1 C98_uses_example)). apply no_custom, prim_no_custom.
Qed.
Example C98_formatted_example :
  accepted (declares by_path) (generated_imports by_path (fun _ => None) true (import_block []) (uses_of (prim "integer" "int32"))) (uses_of (prim "integer" "int32")).
Proof.
  apply (C98_plain by_path (fun _ => None) same_order true true false all_parts (doc (prim "integer" "int32") []) _ same_order_ok knows_example
    (proj1 C98_uses_example)); [done|]. intros u. apply no_custom, prim_no_custom.
Qed.
Example C98_math_example : "math" ∈ uses_of (prim "number" "float") /\ "math" ∉ uses_of (prim "integer" "int32").
Proof. split; apply (bool_decide_unpack _); vm_compute; exact I. Qed.

(** A document with a custom type [uuid.UUID] from another package than the one of the templates. CustomImports finds no fault in it (C47), and the
    generated file declares [uuid] twice, formatted or not. *)
Definition gofrs : go_import := mkImport "" "github.com/gofrs/uuid".
Definition custom_components : components := mkComponents [("Key", ISchema [] None [] (Some gofrs))] [] [].
Definition custom_list : list (string * string) := [("github.com/gofrs/uuid", "")].
Definition custom_doc : document :=
  mkDoc (mkSide [] []) (mkSide [] []) [] [with_payload (prim "string" "")] [GSchema "Key" "string" "" "uuid.UUID" [] None None None] custom_list.
Theorem C98_clash_refuted :
  ~ (forall package_name find order v3 dates force p d us, (forall l, order l ≡ₚ l) -> knows package_name -> file_uses order v3 dates force p d = Some us ->
      (forall u, custom_use d u -> exists i, i ∈ import_block (d_custom d) /\ declares package_name i = u) ->
      (exists iter c, custom_imports iter (negb v3) c = Ok (map (fun i => import_line (imp_path i) (imp_name i)) (custom_block (d_custom d)))) ->
      accepted (declares package_name) (generated_imports package_name find true (import_block (d_custom d)) us) us).
Proof.
  intros H.
  destruct (file_uses same_order true true false all_parts custom_doc) as [us|] eqn:E; [|vm_compute in E; discriminate].
  refine (C98_clash_never by_path (fun _ => None) true (import_block custom_list) us (mkImp "" "github.com/google/uuid") (mkImp "" "github.com/gofrs/uuid")
    _ _ _ _ _ (H by_path (fun _ => None) same_order true true false all_parts custom_doc us same_order_ok knows_example E _ _)).
  - apply (bool_decide_unpack _). vm_compute. exact I.
  - apply (bool_decide_unpack _). vm_compute. exact I.
  - done.
  - done.
  - vm_compute in E. injection E as <-. apply (bool_decide_unpack _). vm_compute. exact I.
  - intros u (s & x & Hin & Hx & Hq). exists (mkImp "" "github.com/gofrs/uuid").
    split; [apply (bool_decide_unpack _); vm_compute; exact I|]. apply qualifiers_spec in Hq.
    assert (g_ext x = "" \/ g_ext x = "uuid.UUID") as [He|He]; [|rewrite He in Hq; vm_compute in Hq; by apply elem_of_nil in Hq
      |rewrite He in Hq; change (qualifiers "uuid.UUID") with ["uuid"] in Hq; by apply elem_of_list_singleton in Hq].
    assert (forall n t f e r y, inside (GSchema n t f e [] None None r) y -> g_ext y = e) as Hleaf.
    { intros n t f e r y Hy. inversion Hy as [|? c' ? Hc]; subst; [done|]. inversion Hc as [? ? ? ? ? ? ? ? ? ? ? Hp| |]; subst. by apply elem_of_nil in Hp. }
    destruct Hin as [Hs|[Hs|(m & Hm & Hs)]]; simpl in *.
    + by apply elem_of_nil in Hs.
    + apply elem_of_list_singleton in Hs as ->. right. by eapply Hleaf.
    + left. apply elem_of_list_singleton in Hm as ->. simpl in Hs. destruct Hs as [->|(r & [= <- <-])]; [by eapply Hleaf|].
      inversion Hx as [|? c' ? Hc Hi]; subst; [done|]. inversion Hc as [? ? ? ? ? ? ? ? ? ? ? Hp| |]; subst.
      apply elem_of_list_singleton in Hp as [= -> -> ->]. by eapply Hleaf.
  - exists map_to_list, custom_components. vm_compute. reflexivity.
Qed.

Print Assumptions C98_unformatted_refuted.
Print Assumptions C98_imported.
Print Assumptions C98_formatted.
Print Assumptions C98_plain.
Print Assumptions C98_math.
Print Assumptions C98_binary.
Print Assumptions C98_uuid.
Print Assumptions C98_no_dates.
Print Assumptions C98_clash_never.
Print Assumptions C98_clash_refuted.
