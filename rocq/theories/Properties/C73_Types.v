(** C73-C78: the generated Go types. *)
From stdpp Require Import list strings.
From Coq Require Import String.
From Verif.Model Require Import Types.
From Verif.Spec Require Import TypesSpec.
From Verif.Proof Require Import TypesProof.
Local Open Scope string_scope.

(** ** C73: every type that is used is defined, once. *)
(** Missing from the full claim (no hypothesis on [cs]): arrays of arrays, and references to something else than
    a component. *)
Theorem C73_defined_partial order dates force cs env : (forall l, order l ≡ₚ l) ->
  define_all order dates force cs = Some env ->
  (forall c, c ∈ cs -> shallow c) ->
  (forall c u, c ∈ cs -> refers c u -> exists c', c' ∈ cs /\ g_name c' = u) ->
  forall n d u, (n, d) ∈ env -> uses d u -> u ∈ env.*1%list.
Proof.
  intros Ho He Hs Hr n d u Hnd Hu. apply (define_all_elem _ _ _ _ _ He) in Hnd as (c & ds & Hc & Hd & Hin).
  destruct (definition_uses order Ho _ _ _ _ Hd (Hs c Hc) n d u Hin Hu) as [Hdef|Href].
  - apply elem_of_list_fmap in Hdef as (nd & -> & Hnd). apply elem_of_list_fmap. exists nd. split; [done|].
    apply (define_all_elem _ _ _ _ _ He). by exists c, ds.
  - destruct (Hr c u Hc Href) as (c' & Hc' & <-).
    unfold define_all in He. destruct (mapM _ cs) as [ls|] eqn:Em; [|done]. simpl in He. injection He as <-.
    apply mapM_Some in Em. apply elem_of_list_lookup in Hc' as (i & Hc').
    destruct (Forall2_lookup_l _ _ _ _ _ Em Hc') as (l & Hl & Hd').
    apply (definition_name order Ho) in Hd'. apply elem_of_list_fmap in Hd' as (nd & -> & Hnd).
    apply elem_of_list_fmap. exists nd. split; [done|]. apply elem_of_list_In, in_concat. exists l.
    rewrite <- !elem_of_list_In. split; [by eapply elem_of_list_lookup_2|done].
Qed.
Print Assumptions C73_defined_partial.

(** Exactly the names that are defined: those of the components, and of the objects inside that are not behind an array of arrays. *)
Theorem C73_names_exact order dates force cs env : (forall l, order l ≡ₚ l) ->
  define_all order dates force cs = Some env ->
  forall n, n ∈ env.*1%list <-> exists c x, c ∈ cs /\ given c x /\ g_name x = n.
Proof.
  intros Ho He n. split.
  - intros Hn. apply elem_of_list_fmap in Hn as (nd & -> & Hn). apply (define_all_elem _ _ _ _ _ He) in Hn as (c & ds & Hc & Hd & Hin).
    destruct (proj1 (definition_names order Ho _ _ _ _ Hd nd.1)) as (x & Hx & Hxn); [apply elem_of_list_fmap; by exists nd|]. by exists c, x.
  - intros (c & x & Hc & Hx & <-). assert (exists ds, schema_definition order dates force c = Some ds) as (ds & Hd).
    { unfold define_all in He. destruct (mapM _ cs) as [ls|] eqn:Em; [|done]. apply mapM_Some in Em.
      apply elem_of_list_lookup in Hc as (i & Hc). destruct (Forall2_lookup_l _ _ _ _ _ Em Hc) as (l & _ & Hl). by exists l. }
    assert (g_name x ∈ ds.*1%list) as Hn by (apply (definition_names order Ho _ _ _ _ Hd); by exists x).
    apply elem_of_list_fmap in Hn as (nd & -> & Hn). apply elem_of_list_fmap. exists nd. split; [done|].
    apply (define_all_elem _ _ _ _ _ He). by exists c, ds.
Qed.
Print Assumptions C73_names_exact.
(** Missing from the full claim: names that are not distinct, of which C34 tells how they come about. *)
Theorem C73_once_partial order dates force cs env : (forall l, order l ≡ₚ l) ->
  define_all order dates force cs = Some env ->
  NoDup (List.concat (map all_names cs)) -> NoDup env.*1%list.
Proof.
  intros Ho He Hn. pose proof (define_all_sublist order Ho _ _ _ _ He) as Hs.
  apply submseteq_Permutation in Hs as (k & Hk). rewrite Hk in Hn. by apply NoDup_app in Hn as [? _].
Qed.
Print Assumptions C73_once_partial.

(** A user with an optional address, a required list of tags, each an object, and a reference to a group of users. *)
Definition ex_street := GSchema "Street" "string" "" "" [] None None None.
Definition ex_address := GSchema "Address" "object" "" "" [("street", (true, ex_street))] None None None.
Definition ex_label := GSchema "Label" "string" "" "" [] None None None.
Definition ex_tag := GSchema "Tag" "object" "" "" [("label", (false, ex_label))] None None None.
Definition ex_tags := GSchema "Tags" "array" "" "" [] (Some ex_tag) None None.
Definition ex_group_ref := GSchema "GroupRef" "" "" "" [] None None (Some "Group").
Definition ex_user := GSchema "User" "object" "" "" [("address", (false, ex_address)); ("group", (false, ex_group_ref)); ("tags", (true, ex_tags))] None None None.
Definition ex_user_ref := GSchema "UserRef" "" "" "" [] None None (Some "User").
Definition ex_group := GSchema "Group" "object" "" "" [("owner", (true, ex_user_ref))] None None None.
Definition ex_env : list (string * gdef) :=
  [("User", DStruct [mkField "address" true (TNamed "Address"); mkField "group" true (TNamed "Group"); mkField "tags" false (TSlice (TNamed "Tag"))] None);
   ("Address", DStruct [mkField "street" false TString] None);
   ("Tag", DStruct [mkField "label" true TString] None);
   ("Group", DStruct [mkField "owner" false (TNamed "User")] None)].

Ltac children H := repeat match type of H with
  | child (GSchema _ _ _ _ _ _ _ _) _ => apply child_inv in H as [(? & ? & H)|[H|H]]
  | _ ∈ [] => by apply elem_of_nil in H
  | _ ∈ _ :: _ => apply elem_of_cons in H as [H|H]
  | (_, (_, _)) = (_, (_, _)) => injection H as -> -> ->
  | Some _ = Some _ => injection H as <-
  | None = Some _ => discriminate H
  end.
Lemma ex_inside x s : inside s x -> x = s \/ exists c, child s c /\ inside c x.
Proof. intros H. inversion H; subst; eauto. Qed.

Example C73_defined_ex :
  define_all id true false [ex_user; ex_group] = Some ex_env /\
  (forall c, c ∈ [ex_user; ex_group] -> shallow c) /\
  (forall c u, c ∈ [ex_user; ex_group] -> refers c u -> exists c', c' ∈ [ex_user; ex_group] /\ g_name c' = u) /\
  NoDup (List.concat (map all_names [ex_user; ex_group])).
Proof.
  split; [reflexivity|]. split; [|split].
  - intros c Hc. apply elem_of_cons in Hc as [->|Hc]; [|apply elem_of_list_singleton in Hc as ->];
      (split; [vm_compute; lia|]).
    + intros o c Ho Hn Hc. apply ex_inside in Ho as [->|(c1 & H1 & Ho)]; unfold ex_user in *; children H1; children Hc; try (vm_compute; lia);
      unfold ex_address, ex_group_ref, ex_tags in Ho; apply ex_inside in Ho as [->|(c2 & H2 & Ho)]; children H2; children Hc; try (vm_compute; lia);
      unfold ex_street, ex_tag in Ho; apply ex_inside in Ho as [->|(c3 & H3 & Ho)]; children H3; children Hc; try (vm_compute; lia);
      unfold ex_label in Ho; apply ex_inside in Ho as [->|(c4 & H4 & Ho)]; children H4; children Hc; vm_compute; lia.
    + intros o c Ho Hn Hc. apply ex_inside in Ho as [->|(c1 & H1 & Ho)]; unfold ex_group in *; children H1; children Hc; try (vm_compute; lia);
      unfold ex_user_ref in Ho; apply ex_inside in Ho as [->|(c2 & H2 & Ho)]; children H2; children Hc; vm_compute; lia.
  - intros c u Hc (x & Hx & Hr). apply elem_of_cons in Hc as [->|Hc]; [|apply elem_of_list_singleton in Hc as ->].
    + exists ex_group. split; [right; left|].
      apply ex_inside in Hx as [->|(c1 & H1 & Hx)]; [by destruct Hr|]; unfold ex_user in *; children H1;
      unfold ex_address, ex_group_ref, ex_tags in Hx; (apply ex_inside in Hx as [->|(c2 & H2 & Hx)]; [destruct Hr as (H & _ & E); try done; by injection E|]); children H2;
      unfold ex_street, ex_tag in Hx; (apply ex_inside in Hx as [->|(c3 & H3 & Hx)]; [by destruct Hr|]); children H3;
      unfold ex_label in Hx; (apply ex_inside in Hx as [->|(c4 & H4 & Hx)]; [by destruct Hr|]); children H4.
    + exists ex_user. split; [left|].
      apply ex_inside in Hx as [->|(c1 & H1 & Hx)]; [by destruct Hr|]; unfold ex_group in *; children H1;
      unfold ex_user_ref in Hx; (apply ex_inside in Hx as [->|(c2 & H2 & Hx)]; [destruct Hr as (H & _ & E); by injection E|]); children H2.
  - apply (bool_decide_unpack _). vm_compute. exact I.
Qed.

(** A property that is an array of arrays of objects: the type of the objects is used and not defined. *)
Definition ex_cell := GSchema "Cell" "object" "" "" [("label", (true, ex_label))] None None None.
Definition ex_row := GSchema "Row" "array" "" "" [] (Some ex_cell) None None.
Definition ex_rows := GSchema "Rows" "array" "" "" [] (Some ex_row) None None.
Definition ex_table := GSchema "Table" "object" "" "" [("rows", (true, ex_rows))] None None None.
(** The tag of a user is given a definition, the cells of a table of rows are not. *)
Example C73_names_ex : given ex_user ex_tag /\ ~ given ex_table ex_cell.
Proof.
  split.
  - eapply (given_items _ ex_tags); [by left| |done..|constructor]. eapply child_prop. right. right. left.
  - assert (forall s x, given s x -> s = x \/ exists c, child s c /\ (g_type c = "object" \/ exists i, g_items c = Some i /\ g_type i = "object")) as G
      by (intros s x []; eauto 8).
    intros H. destruct (G _ _ H) as [[=]|(c & Hc & Ho)]. apply child_inv in Hc as [(k & b & Hin)|[[=]|[=]]].
    apply elem_of_list_singleton in Hin. injection Hin as -> -> ->. destruct Ho as [[=]|(i & [= <-] & [=])].
Qed.
Theorem C73_nested_refuted :
  exists env d, define_all id true false [ex_table] = Some env /\ ("Table", d) ∈ env /\ uses d "Cell" /\
    (forall u, ~ refers ex_table u) /\ "Cell" ∉ env.*1%list.
Proof.
  exists [("Table", DStruct [mkField "rows" false (TSlice (TSlice (TNamed "Cell")))] None)], (DStruct [mkField "rows" false (TSlice (TSlice (TNamed "Cell")))] None).
  split; [reflexivity|]. split; [left|]. split; [left; eexists; split; [left|]; simpl; repeat constructor|]. split.
  - intros u (x & Hx & Hr). apply ex_inside in Hx as [->|(c1 & H1 & Hx)]; [by destruct Hr|]. unfold ex_table in H1; children H1.
    unfold ex_rows in Hx. apply ex_inside in Hx as [->|(c2 & H2 & Hx)]; [by destruct Hr|]. children H2.
    unfold ex_row in Hx. apply ex_inside in Hx as [->|(c3 & H3 & Hx)]; [by destruct Hr|]. children H3.
    unfold ex_cell in Hx. apply ex_inside in Hx as [->|(c4 & H4 & Hx)]; [by destruct Hr|]. children H4.
    unfold ex_label in Hx. apply ex_inside in Hx as [->|(c5 & H5 & Hx)]; [by destruct Hr|]. children H5.
  - apply (bool_decide_unpack _). vm_compute. exact I.
Qed.
Print Assumptions C73_nested_refuted.

(** A reference to a property that is a string: its name is used and not defined. *)
Definition ex_street_ref := GSchema "Home" "" "" "" [] None None (Some "Street").
Definition ex_person := GSchema "Person" "object" "" "" [("home", (true, ex_street_ref))] None None None.
Theorem C73_reference_refuted :
  exists env d, define_all id true false [ex_address; ex_person] = Some env /\
    (exists x, node_of [ex_address; ex_person] x /\ g_name x = "Street") /\
    ("Person", d) ∈ env /\ uses d "Street" /\ "Street" ∉ env.*1%list.
Proof.
  exists [("Address", DStruct [mkField "street" false TString] None); ("Person", DStruct [mkField "home" false (TNamed "Street")] None)],
    (DStruct [mkField "home" false (TNamed "Street")] None).
  split; [reflexivity|]. split.
  { exists ex_street. split; [|done]. exists ex_address. split; [left|]. eapply inside_child; [eapply child_prop; left|constructor]. }
  split; [right; left|]. split; [left; eexists; split; [left|]; simpl; constructor|].
  apply (bool_decide_unpack _). vm_compute. exact I.
Qed.
Print Assumptions C73_reference_refuted.

(** ** C74: the functions that encode and decode dates compile and are there when needed. *)
(** Missing from the full claim ([converts_to_time t] without condition): schemas with a date format that are not strings with
    format date-time. *)
Theorem C74_time_partial order dates force s ds n t m : (forall l, order l ≡ₚ l) ->
  schema_definition order dates force s = Some ds -> (n, DType t m) ∈ ds ->
  (m = true -> (converts_to_time t <-> let 'GSchema _ ty f e _ _ _ _ := s in ty = "string" /\ f = "date-time" /\ e = "")) /\
  (converts_to_time t -> m = true).
Proof.
  intros Ho H Hin. destruct (definition_type order Ho _ _ _ _ _ _ _ H Hin) as (Ht & -> & Hn & Hm).
  destruct s as [nm ty f e ps it ad r]. simpl in *. unfold converts_to_time.
  destruct (String.eqb_spec e "") as [->|He]; simpl in Hn.
  2: { injection Hn as <-. split; [|discriminate]. intros _. split; [discriminate|]. intros (_ & _ & ?). done. }
  assert (t = TTime <-> ty = "string" /\ is_date_generated dates f = true /\ f = "date-time") as E.
  { destruct (String.eqb_spec ty "") as [->|Hty]; simpl in Hn.
    { destruct r; injection Hn as <-; split; [discriminate|by intros (? & _)|discriminate|by intros (? & _)]. }
    destruct (String.eqb_spec ty "object") as [->|_]; [done|].
    destruct (String.eqb_spec ty "boolean") as [->|_]; [injection Hn as <-; split; [discriminate|by intros (? & _)]|].
    destruct (String.eqb_spec ty "string") as [->|Hs].
    { destruct (is_date_generated dates f); simpl in Hn.
      - destruct (String.eqb_spec f "date") as [->|Hd]; [injection Hn as <-; split; [discriminate|by intros (_ & _ & ?)]|].
        destruct (String.eqb_spec f "date-time") as [->|Hd']; injection Hn as <-; [done|split; [discriminate|by intros (_ & _ & ?)]].
      - injection Hn as <-; split; [discriminate|by intros (_ & ? & _)]. }
    split; [|by intros (? & _)]. intros ->. exfalso.
    destruct (String.eqb ty "integer"); [by destruct (String.eqb f _)|].
    destruct (String.eqb ty "array"); [destruct it as [i|]; [by destruct (schema_name dates i)|done]|].
    destruct (String.eqb ty "number"); [by destruct (String.eqb f _)|done]. }
  rewrite E, Hm. split; [tauto|tauto].
Qed.
Print Assumptions C74_time_partial.
Example C74_time_ex :
  schema_definition id true false (GSchema "Birth" "string" "date-time" "" [] None None None) = Some [("Birth", DType TTime true)].
Proof. reflexivity. Qed.

(** A component of format date: the functions convert a civil.Date to a time.Time. *)
Theorem C74_date_refuted :
  exists t, schema_definition id true false (GSchema "Birthday" "string" "date" "" [] None None None) = Some [("Birthday", DType t true)] /\
    ~ converts_to_time t.
Proof. exists TDate. split; [reflexivity|]. discriminate. Qed.
Print Assumptions C74_date_refuted.

(** ** C75: every schema has definitions. *)
(** Exactly the components for which the execution of the templates fails: those that are given, themselves or inside, a definition that
    needs the type of an array without items. *)
Theorem C75_fails_exact order dates force cs : (forall l, order l ≡ₚ l) ->
  define_all order dates force cs = None <-> exists c x, c ∈ cs /\ given c x /\ needs_itemless x.
Proof.
  intros Ho. unfold define_all. rewrite fmap_None, mapM_None, Exists_exists. split.
  - intros (c & Hc & Hn). apply (definition_none order Ho) in Hn as (x & Hx & Hb). by exists c, x.
  - intros (c & x & Hc & Hx & Hb). exists c. split; [done|]. apply (definition_none order Ho). by exists x.
Qed.
Print Assumptions C75_fails_exact.
(** An object in an object that has a list of lists of unknown things. *)
Example C75_fails_ex :
  let lists := GSchema "Lists" "array" "" "" [] (Some (GSchema "List" "array" "" "" [] None None None)) None None in
  let inner := GSchema "Inner" "object" "" "" [("lists", (true, lists))] None None None in
  let outer := GSchema "Outer" "object" "" "" [("inner", (false, inner))] None None None in
  given outer inner /\ needs_itemless inner /\ define_all id true false [ex_user; outer] = None.
Proof.
  split; [|split; [|reflexivity]].
  - eapply given_object; [by left|eapply child_prop; left|done|constructor].
  - left. do 3 eexists. split; [left|]. repeat constructor.
Qed.

(** Missing from the full claim: arrays without items, and types that the templates do not know. *)
Theorem C75_definitions_partial order dates force s : (forall l, order l ≡ₚ l) -> (forall x, inside s x -> known_type x) ->
  exists ds, schema_definition order dates force s = Some ds /\
    forall n d t, (n, d) ∈ ds -> written d t -> well_formed t.
Proof.
  intros Ho Hk. destruct (definition_total order dates force s Hk) as (ds & Hds). exists ds. split; [done|].
  intros n d t Hin Hw. destruct (definition_source order Ho _ _ _ _ _ Hds Hin) as (x & Hx & Hown).
  destruct (own_definition_known dates force x) as (nd & Hnd & Hwf).
  { intros y Hy. apply Hk. by eapply inside_trans. }
  rewrite Hown in Hnd. injection Hnd as <-. by apply Hwf.
Qed.
Print Assumptions C75_definitions_partial.
Example C75_definitions_ex : forall x, inside ex_group x -> known_type x.
Proof.
  intros x Hx. apply ex_inside in Hx as [->|(c1 & H1 & Hx)]; [right; left; right; left|]. unfold ex_group in *; children H1.
  unfold ex_user_ref in *. apply ex_inside in Hx as [->|(c2 & H2 & Hx)]; [right; left; left|]. children H2.
Qed.

(** A property that is an array of anything: the generation fails. *)
Theorem C75_items_refuted :
  schema_definition id true false (GSchema "List" "object" "" "" [("all", (true, GSchema "All" "array" "" "" [] None None None))] None None None) = None.
Proof. reflexivity. Qed.
Print Assumptions C75_items_refuted.
(** A property that can only be null: a field without type. *)
Theorem C75_null_refuted :
  exists d, schema_definition id true false (GSchema "Nothing" "object" "" "" [("none", (true, GSchema "None" "null" "" "" [] None None None))] None None None) = Some [("Nothing", d)] /\
    written d TBroken /\ ~ well_formed TBroken.
Proof.
  eexists. split; [reflexivity|]. split; [left; eexists; split; [left|done]|]. intros H. inversion H. done.
Qed.
Print Assumptions C75_null_refuted.

(** ** C76: no type contains itself, for schemas that have values. *)
Theorem C76_layout order dates cs env : (forall l, order l ≡ₚ l) ->
  define_all order dates false cs = Some env ->
  (forall x y, node_of cs x -> node_of cs y -> g_name x = g_name y -> x = y) ->
  (forall x y, node_of cs x -> reference_of x (g_name y) -> node_of cs y -> exists v, valid (node_of cs) v y) ->
  forall n, finite_layout env n.
Proof.
  intros Ho He Hn Hv. apply (layout order Ho dates cs env He Hn). intros x y m Hx Hr Hy <-. exact (Hv x y Hx Hr Hy).
Qed.
Print Assumptions C76_layout.

(** Users with a group and groups with an owner that is a user; the group of a user is optional. *)
Lemma ex_nodes x : node_of [ex_user; ex_group] x ->
  x ∈ [ex_user; ex_address; ex_street; ex_group_ref; ex_tags; ex_tag; ex_label; ex_group; ex_user_ref].
Proof.
  intros (c & Hc & Hx). rewrite !elem_of_cons.
  apply elem_of_cons in Hc as [->|Hc]; [|apply elem_of_list_singleton in Hc as ->].
  - apply ex_inside in Hx as [->|(c1 & H1 & Hx)]; [tauto|]; unfold ex_user in *; children H1;
      unfold ex_address, ex_group_ref, ex_tags in Hx; (apply ex_inside in Hx as [->|(c2 & H2 & Hx)]; [tauto|]); children H2;
      unfold ex_street, ex_tag in Hx; (apply ex_inside in Hx as [->|(c3 & H3 & Hx)]; [tauto|]); children H3;
      unfold ex_label in Hx; (apply ex_inside in Hx as [->|(c4 & H4 & Hx)]; [tauto|]); children H4.
  - apply ex_inside in Hx as [->|(c1 & H1 & Hx)]; [tauto|]; unfold ex_group in *; children H1;
      unfold ex_user_ref in Hx; (apply ex_inside in Hx as [->|(c2 & H2 & Hx)]; [tauto|]); children H2.
Qed.
Lemma ex_user_valid : valid (node_of [ex_user; ex_group]) (JObject [("tags", JArray [])]) ex_user.
Proof.
  constructor. intros k p Hin. rewrite !elem_of_cons, elem_of_nil in Hin. destruct Hin as [Hin|[Hin|[Hin|[]]]]; try discriminate.
  injection Hin as -> ->. exists (JArray []). split; [left|]. constructor; discriminate.
Qed.
Example C76_layout_ex :
  define_all id true false [ex_user; ex_group] = Some ex_env /\
  (forall x y, node_of [ex_user; ex_group] x -> node_of [ex_user; ex_group] y -> g_name x = g_name y -> x = y) /\
  (forall x y, node_of [ex_user; ex_group] x -> reference_of x (g_name y) -> node_of [ex_user; ex_group] y -> exists v, valid (node_of [ex_user; ex_group]) v y).
Proof.
  split; [reflexivity|]. split.
  - intros x y Hx%ex_nodes Hy%ex_nodes. rewrite !elem_of_cons, elem_of_nil in Hx, Hy.
    destruct Hx as [->|[->|[->|[->|[->|[->|[->|[->|[->|[]]]]]]]]]];
      destruct Hy as [->|[->|[->|[->|[->|[->|[->|[->|[->|[]]]]]]]]]]; done.
  - intros x y _ _ Hy%ex_nodes.
    assert (exists v, valid (node_of [ex_user; ex_group]) v ex_group) as Hg.
    { exists (JObject [("owner", JObject [("tags", JArray [])])]). constructor. intros k p Hin.
      apply elem_of_list_singleton in Hin. injection Hin as -> ->. exists (JObject [("tags", JArray [])]). split; [left|].
      apply (valid_reference _ _ _ _ _ _ _ _ ex_user); [exists ex_user; split; [left|constructor]|done|apply ex_user_valid]. }
    rewrite !elem_of_cons, elem_of_nil in Hy.
    destruct Hy as [->|[->|[->|[->|[->|[->|[->|[->|[->|[]]]]]]]]]]; try done;
      try (exists JScalar; constructor; discriminate).
    + exists (JObject [("tags", JArray [])]). apply ex_user_valid.
    + exists (JObject [("street", JScalar)]). constructor. intros k p Hin. apply elem_of_list_singleton in Hin. injection Hin as -> ->.
      exists JScalar. split; [left|]. constructor; discriminate.
    + destruct Hg as (v & Hg). exists v. apply (valid_reference _ _ _ _ _ _ _ _ ex_group); [|done|done].
      exists ex_group. split; [right; left|constructor].
    + exists (JObject []). constructor. intros k p Hin. apply elem_of_list_singleton in Hin. discriminate.
    + exists (JObject [("tags", JArray [])]). apply (valid_reference _ _ _ _ _ _ _ _ ex_user); [|done|apply ex_user_valid].
      exists ex_user. split; [left|constructor].
Qed.
(** Without values the layout is infinite: a node with a required next node. *)
Example C76_layout_needs_values :
  let next := GSchema "Next" "" "" "" [] None None (Some "Node") in
  let node := GSchema "Node" "object" "" "" [("next", (true, next))] None None None in
  exists env, define_all id true false [node] = Some env /\ ~ finite_layout env "Node".
Proof.
  simpl. eexists. split; [reflexivity|].
  assert (forall env a, embeds env a a -> ~ finite_layout env a) as G.
  { intros env a Hs H. induction H as [b H IH]. exact (IH b Hs Hs). }
  apply G. eexists. split; [left|]. eexists. split; [left|done].
Qed.

(** ** C77: the generated types do not depend on the order of iteration over maps. *)
(** Missing from the full claim ([ds1 = ds2]): the definitions are the same, not their order. *)
Theorem C77_order_partial o1 o2 dates force s : (forall l, o1 l ≡ₚ l) -> (forall l, o2 l ≡ₚ l) ->
  match schema_definition o1 dates force s, schema_definition o2 dates force s with
  | Some ds1, Some ds2 => ds1 ≡ₚ ds2
  | None, None => True
  | _, _ => False
  end.
Proof. exact (definition_operm o1 o2 dates force s). Qed.
Print Assumptions C77_order_partial.
Example C77_order_ex : forall l : list (list (string * gdef)), rev l ≡ₚ l.
Proof. intros l. symmetry. apply Permutation_rev. Qed.

(** Two properties that are objects: two runs can write different files. *)
Theorem C77_order_refuted :
  exists s, (forall l : list (list (string * gdef)), rev l ≡ₚ l) /\
    schema_definition id true false s <> schema_definition (@rev _) true false s.
Proof.
  exists (GSchema "Pair" "object" "" "" [("one", (true, ex_address)); ("two", (true, ex_tag))] None None None).
  split; [apply C77_order_ex|]. discriminate.
Qed.
Print Assumptions C77_order_refuted.

(** ** C78: a component that refers to another encodes its values in the same way. *)
(** Missing from the full claim: components that are references themselves. *)
Theorem C78_alias_partial order dates force cs env : (forall l, order l ≡ₚ l) ->
  define_all order dates force cs = Some env -> (forall c m, c ∈ cs -> ~ reference_of c m) ->
  forall a b m, (a, DType (TNamed b) m) ∉ env.
Proof.
  intros Ho He Hr a b m Hin. apply (define_all_elem _ _ _ _ _ He) in Hin as (c & ds & Hc & Hd & Hin).
  destruct (definition_type order Ho _ _ _ _ _ _ _ Hd Hin) as (Ht & _ & Hn & _).
  apply schema_name_named in Hn as [[? _]|Hn]; [done|]. by apply (Hr c b Hc).
Qed.
Print Assumptions C78_alias_partial.
(** Exactly: a type without fields or methods of its own is defined from another named type for the components that are references, for
    no others, and it is named after the component. *)
Theorem C78_exact order dates force cs env : (forall l, order l ≡ₚ l) ->
  define_all order dates force cs = Some env ->
  forall a b, (exists m, (a, DType (TNamed b) m) ∈ env) <-> exists c, c ∈ cs /\ g_name c = a /\ reference_of c b.
Proof.
  intros Ho He a b. split.
  - intros (m & Hin). apply (define_all_elem _ _ _ _ _ He) in Hin as (c & ds & Hc & Hd & Hin).
    destruct (definition_type order Ho _ _ _ _ _ _ _ Hd Hin) as (Ht & -> & Hn & _). exists c. split; [done|]. split; [done|].
    apply schema_name_named in Hn as [[? _]|Hn]; done.
  - intros (c & Hc & <- & Hr). destruct c as [nm ty f e ps it ad r]. destruct Hr as (-> & -> & ->).
    exists (is_date_generated dates f). apply (define_all_elem _ _ _ _ _ He).
    exists (GSchema nm "" f "" ps it ad (Some b)), [(nm, DType (TNamed b) (is_date_generated dates f))]. split; [done|]. split; [reflexivity|]. left.
Qed.
Print Assumptions C78_exact.

Example C78_alias_ex : forall c m, c ∈ [ex_user; ex_group] -> ~ reference_of c m.
Proof. intros c m Hc H. apply elem_of_cons in Hc as [->|Hc]; [by destruct H|]. apply elem_of_list_singleton in Hc as ->. by destruct H. Qed.

(** A component that refers to one with additional properties: its type has the same fields and not the functions that
    put the additional properties in the message. *)
Definition ex_open := GSchema "Open" "object" "" "" [("label", (true, ex_label))] None (Some (GSchema "Rest" "string" "" "" [] None None None)) None.
Definition ex_alias := GSchema "Alias" "" "" "" [] None None (Some "Open").
Theorem C78_alias_refuted :
  exists env m, define_all id true false [ex_alias; ex_open] = Some env /\
    ("Alias", DType (TNamed "Open") m) ∈ env /\ own_json env "Open" /\ ~ own_json env "Alias".
Proof.
  exists [("Alias", DType (TNamed "Open") false); ("Open", DStruct [mkField "label" false TString] (Some TString))], false.
  split; [reflexivity|]. split; [left|]. split.
  - eexists. split; [right; left|]. discriminate.
  - intros (d & Hd & Hj). rewrite !elem_of_cons, elem_of_nil in Hd. destruct Hd as [Hd|[Hd|[]]]; [|discriminate].
    injection Hd as ->. discriminate.
Qed.
Print Assumptions C78_alias_refuted.
