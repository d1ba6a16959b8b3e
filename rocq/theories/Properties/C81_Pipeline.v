(** C81: from the component schemas of a document to Go types that are defined once. *)
From stdpp Require Import gmap list strings sorting.
From Coq Require Import NArith Ascii String.
From Verif.Model Require Import Slices Reference Schema Naming Names Types Pipeline.
From Verif.Spec Require Import NamingSpec NamesSpec SchemaSpec TypesSpec PipelineSpec.
From Verif.Proof Require Import SchemaProof NamingProof NamesProof TypesProof PipelineProof.
From Verif.Properties Require Import C73_Types.
Local Open Scope string_scope.
Local Open Scope nat_scope.

Local Notation document_of listing pattern_key fuel h cs :=
  (ts ← mapM (fun c : string * nat => t ← tree_of listing pattern_key fuel h c.2; Some (list_ascii_of_string c.1, t)) cs; Some (mkDocument [] [] ts)).

(** Whatever the order of maps, the references, the formats and the custom types: the types written for the components have different names.
    Missing from the full claim: compositions (C81_allof_refuted, C81_order_refuted), messages, and the documents where C79 fails. *)
Theorem C81_once_partial listing pattern_key name format ext ul ud uu iter resolve v2 order dates force fuel porder cs h d names env :
  (forall m, listing m ≡ₚ map_to_list m) -> (forall l, order l ≡ₚ l) ->
  uncomposed h -> document_of listing pattern_key fuel h cs = Some d -> clear_document d ->
  document_names ul ud uu d = Some names -> carries name h cs names ->
  document_types listing name format ext iter resolve v2 porder order dates force fuel cs.*2%list h = Some env ->
  NoDup env.*1%list.
Proof.
  intros Hl Ho Hu Hd Hc Hn Hcar Ht. unfold document_types in Ht.
  destruct (process iter resolve v2 fuel porder h) as [| |h'] eqn:Hp; [done|done|]. apply bind_Some in Hd as (ts & Hts & E). injection E as <-.
  apply (process_same _ _ (fun _ => True) h) in Hp; [|done|done]. destruct (document_names_spec ul ud uu _ Hc) as (ws & (l & El & Ml) & Hg). rewrite Hn in El. injection El as <-.
  assert (Nd : NoDup names.*2%list) by (rewrite Ml; by apply join_nodup).
  unfold document_names in Hn. apply bind_Some in Hn as (l1 & L1 & Hn). apply bind_Some in Hn as (l2 & L2 & Hn). apply bind_Some in Hn as (l3 & L3 & Hn).
  injection Hn as <-. injection L1 as <-. injection L2 as <-. cbn [app d_schemas] in *.
  apply bind_Some in Ht as (gs & Hgs & He). pose proof (define_all_sublist order Ho _ _ _ _ He) as Hs.
  pose proof (component_names listing Hl pattern_key name format ext ul ud uu _ h h' cs fuel Hp ts l3 gs Hts 0 L3 Hcar Hgs) as Hsub.
  assert (Nn : NoDup (map (fun x : place * list ascii => text x.2) l3)).
  { rewrite <- (map_map snd text). apply NoDup_fmap_2_strong; [|done]. intros a b _ _ E. unfold text in E.
    by rewrite <- (list_ascii_of_string_of_list_ascii a), <- (list_ascii_of_string_of_list_ascii b), E. }
  apply submseteq_Permutation in Hsub as (k & Hk). rewrite Hk in Nn. apply NoDup_app in Nn as [Nn _].
  apply submseteq_Permutation in Hs as (k' & Hk'). rewrite Hk' in Nn. by apply NoDup_app in Nn as [? _].
Qed.
Print Assumptions C81_once_partial.

(** Every type that is used is defined, when the references lead to components, there is no array of arrays and nothing is composed. *)
Theorem C81_defined_partial listing name format ext iter resolve v2 order dates force fuel porder cs h env : (forall l, order l ≡ₚ l) ->
  uncomposed h -> flat h -> (forall l, s_refto (cell h l) = None) ->
  (forall h1 l x, s_ref (cell h l) <> "" -> resolve h1 (s_ref (cell h l)) = Ok x -> x ∈ cs) ->
  document_types listing name format ext iter resolve v2 porder order dates force fuel cs h = Some env ->
  forall n d u, (n, d) ∈ env -> uses d u -> u ∈ env.*1%list.
Proof.
  intros Ho Hu Hf Hr Hres Ht. unfold document_types in Ht. destruct (process iter resolve v2 fuel porder h) as [| |h'] eqn:Hp; [done|done|].
  apply (process_same _ _ (.∈ cs) h) in Hp; [|done|done]. apply bind_Some in Ht as (gs & Hgs & He).
  assert (Hc : forall c, c ∈ gs -> exists s, s ∈ cs /\ reify listing name format ext fuel h' s = Some c).
  { intros c H. apply mapM_Some in Hgs. apply elem_of_list_lookup in H as (j & H). destruct (Forall2_lookup_r _ _ _ _ _ Hgs H) as (s & Hs & E).
    exists s. split; [by eapply elem_of_list_lookup_2|done]. }
  apply (C73_defined_partial order dates force gs env Ho He).
  - intros c (s & _ & E)%Hc. eapply reify_shallow; [by eapply same_flat|done].
  - intros c u (s & _ & E)%Hc (x & Hx & Href). destruct (reify_inside _ _ _ _ _ _ _ _ _ E Hx) as (f & l & El).
    destruct (reify_head _ _ _ _ _ _ _ _ El) as (_ & _ & H). destruct (H u Href) as (r & Er & ->).
    destruct Hp as (_ & _ & HP). destruct (HP l r Er) as [E'|Hin]; [rewrite Hr in E'; discriminate|].
    apply mapM_Some in Hgs. apply elem_of_list_lookup in Hin as (j & Hj). destruct (Forall2_lookup_l _ _ _ _ _ Hgs Hj) as (g & Hg & Eg).
    exists g. split; [by eapply elem_of_list_lookup_2|]. by apply reify_head in Eg as (-> & _).
Qed.
Print Assumptions C81_defined_partial.

(** The structure of a component that is an object has a field for each property of the processed document and no other; the field is a pointer exactly
    when it is not an array and, unless pointers are forced, neither the list of the component nor its own flag makes it mandatory. No hypothesis on the
    document: compositions are covered, in terms of what the processing leaves. *)
Theorem C81_fields listing name format ext iter resolve v2 order dates force fuel porder cs h h' env s :
  process iter resolve v2 fuel porder h = Done h' -> s ∈ cs -> s_type (cell h' s) = "object" ->
  document_types listing name format ext iter resolve v2 porder order dates force fuel cs h = Some env ->
  exists fs a, (name s, DStruct fs a) ∈ env /\
    Forall2 (fun (kv : string * nat) f => f_key f = kv.1 /\
        (f_pointer f = true <->
          s_type (cell h' kv.2) <> "array" /\
          (force = true \/ (~ In kv.1 (s_required (cell h' s)) /\ s_isreq (cell h' kv.2) = false))))
      (listing (map_at h' (s_props (cell h' s)))) fs.
Proof.
  intros Hp Hin Hty Ht. unfold document_types in Ht. rewrite Hp in Ht. apply bind_Some in Ht as (gs & Hgs & He).
  apply mapM_Some in Hgs. apply elem_of_list_lookup in Hin as (j & Hj). destruct (Forall2_lookup_l _ _ _ _ _ Hgs Hj) as (g & Hg & Eg).
  unfold define_all in He. apply fmap_Some in He as (dss & Hds & ->). apply mapM_Some in Hds.
  destruct (Forall2_lookup_l _ _ _ _ _ Hds Hg) as (ds & Hd & Ed).
  destruct fuel as [|fuel]; [done|]. cbn [reify] in Eg.
  apply bind_Some in Eg as (props & Hprops & Eg). apply bind_Some in Eg as (items & _ & Eg). apply bind_Some in Eg as (addl & _ & Eg). injection Eg as <-.
  cbn [schema_definition] in Ed. apply bind_Some in Ed as (own & Hown & Ed). apply bind_Some in Ed as (subs & _ & Ed). injection Ed as <-.
  unfold own_definition in Hown. rewrite Hty in Hown. cbn [String.eqb Ascii.eqb Bool.eqb] in Hown.
  apply bind_Some in Hown as (fs & Hfs & Hown).
  exists fs. assert (exists a, own = (name s, DStruct fs a)) as (a & ->).
  { destruct addl as [ad|]; [apply bind_Some in Hown as (t & _ & [= <-]) | injection Hown as <-]; eauto. }
  exists a. split.
  { apply elem_of_list_In, in_concat. exists ((name s, DStruct fs a) :: subs). split; [|by left]. apply elem_of_list_In. by eapply elem_of_list_lookup_2. }
  apply mapM_Some in Hprops, Hfs. clear - Hprops Hfs. revert fs Hfs.
  induction Hprops as [|[k v] [k' [b gp]] l l' Hkv _ IH]; intros fs Hfs; inversion Hfs as [|? f ? fs' Hf Hfs']; subst; constructor; [|by apply IH].
  cbn in Hkv. apply bind_Some in Hkv as (g & Eg & [= <- <- <-]). cbn in Hf. apply bind_Some in Hf as (t & _ & [= <-]). cbn.
  split; [done|]. apply reify_head in Eg as (_ & Et & _). unfold is_field_pointer. rewrite Et.
  assert (Hr : forall r : list string, is_in_slice r k = true <-> In k r).
  { intros r. induction r as [|x r IHr]; cbn; [split; [discriminate|done]|]. destruct (String.eqb_spec x k) as [->|Hn]; [split; auto|].
    rewrite IHr. split; [by right|]. by intros [?|?]. }
  specialize (Hr (s_required (cell h' s))).
  destruct (String.eqb_spec (s_type (cell h' v)) "array") as [->|Ha]; cbn.
  { destruct force; cbn; rewrite ?andb_false_r; split; [discriminate|by intros [? _]|discriminate|by intros [? _]]. }
  destruct force; cbn; [split; auto|]. rewrite andb_true_r.
  destruct (is_in_slice (s_required (cell h' s)) k).
  { cbn. split; [discriminate|]. intros [_ [?|[H1 _]]]; [discriminate|]. exfalso. by apply H1, Hr. }
  destruct (s_isreq (cell h' v)); cbn.
  - split; [discriminate|]. by intros [_ [?|[_ ?]]].
  - split; [|done]. intros _. split; [done|]. right. split; [|done]. intros H. by apply Hr in H.
Qed.
Print Assumptions C81_fields.

Definition listing (m : gmap string nat) : list (string * nat) := map_to_list m.
Definition iter (_ : nat) (m : gmap string nat) : list (string * nat) := map_to_list m.
Definition no_key (_ : nat) : string := "".
Definition s_string : sch := with_type "string" empty_sch.
Definition s_ref_to (k : string) : sch := mkSch "" ("#/components/schemas/" ++ k) None None [] None [] None [] [] [] [] None [] false None.
Definition s_object (p : nat) : sch := with_props (Some p) (with_type "object" empty_sch).
Definition s_array (i : nat) : sch := mkSch "array" "" None None [] None [] (Some i) [] [] [] [] None [] false None.
Definition comps_of (l : list (string * nat)) : spec := mkSpec (fun k => if String.eqb k "schemas" then list_to_map l else ∅) ∅ ∅.
Definition no_world : world := mkWorld (fun _ => comps_of []) (fun _ => ∅) (fun _ => None) (fun _ => None) (fun _ => ∅).

(** Team (1): {members (2): array of {id (4)} (3)}; Group (5): {team (6): $ref Team, size (7): object {}}. *)
Definition ex_heap : heap := mkHeap
  (list_to_map [(1, s_object 100); (2, s_array 3); (3, s_object 101); (4, s_string); (5, s_object 102); (6, s_ref_to "Team"); (7, s_object 103)])
  (list_to_map [(100, {["members" := 2]}); (101, {["id" := 4]}); (102, {["team" := 6; "size" := 7]}); (103, ∅)]) 200.
Definition ex_components : list (string * nat) := [("Team", 1); ("Group", 5)]%nat.
Definition ex_name (l : nat) : string :=
  match l with
  | 1 => "TeamSchema" | 2 => "MembersPropertyFromTeamSchema" | 3 => "ItemFromMembersPropertyFromTeamSchema"
  | 4 => "IdPropertyFromItemFromMembersPropertyFromTeamSchema"
  | 5 => "GroupSchema" | 6 => "TeamPropertyFromGroupSchema" | 7 => "SizePropertyFromGroupSchema" | _ => ""
  end%nat.

Local Ltac names := match goal with |- exists names, document_names ?a ?b ?c ?d = Some names /\ _ =>
  let x := eval vm_compute in (document_names a b c d) in match x with Some ?l => exists l end end;
  match goal with |- ?x = Some ?l /\ _ => assert (x = Some l) by (vm_compute; reflexivity); split; [assumption|] end.

Example C81_example ul ud uu : uncomposed ex_heap /\
  exists d, document_of listing no_key 10%nat ex_heap ex_components = Some d /\ clear_document d /\
  exists names, document_names ul ud uu d = Some names /\ carries ex_name ex_heap ex_components names /\
  exists env, document_types listing ex_name no_key no_key iter (resolve_in false no_world (comps_of ex_components)) false [5; 1] id true false 10 [1; 5] ex_heap = Some env /\
    env.*1%list = ["TeamSchema"; "ItemFromMembersPropertyFromTeamSchema"; "GroupSchema"; "SizePropertyFromGroupSchema"].
Proof.
  split; [apply uncomposed_check; vm_compute; reflexivity|].
  eexists. split; [vm_compute; reflexivity|]. split; [apply schemas_check; vm_compute; reflexivity|].
  names. split; [apply carries_check; vm_compute; reflexivity|].
  eexists. split; vm_compute; reflexivity.
Qed.

(** User (1): {id (2), name (3)}, id being required: a value for the former, a pointer for the latter. *)
Definition req_heap : heap := mkHeap
  (list_to_map [(1, mkSch "object" "" None (Some 100) [] None [] None [] [] [] [] None ["id"] false None); (2, s_string); (3, s_string)])
  (list_to_map [(100, {["id" := 2; "name" := 3]})]) 200.
Example C81_fields_example : exists h', process iter (resolve_in false no_world (comps_of [("User", 1)])) false 10 [1] req_heap = Done h' /\
  s_type (cell h' 1) = "object" /\
  document_types listing ex_name no_key no_key iter (resolve_in false no_world (comps_of [("User", 1)])) false [1] id true false 10 [1] req_heap =
    Some [("TeamSchema", DStruct [mkField "name" true TString; mkField "id" false TString] None)].
Proof. eexists. split; [vm_compute; reflexivity|]. split; vm_compute; reflexivity. Qed.

Lemma ex_cell l : cell ex_heap l ∈ empty_sch :: map snd (map_to_list (cells ex_heap)).
Proof.
  unfold cell. destruct (cells ex_heap !! l) as [c|] eqn:E; [right|left]. apply elem_of_list_fmap. exists (l, c). split; [done|]. by apply elem_of_map_to_list.
Qed.
Lemma each_cell (P : sch -> Prop) `{forall c, Decision (P c)} : bool_decide (Forall P (empty_sch :: map snd (map_to_list (cells ex_heap)))) = true ->
  forall l, P (cell ex_heap l).
Proof. intros B l. apply bool_decide_eq_true in B. rewrite Forall_forall in B. apply B, ex_cell. Qed.
Example C81_defined_example : uncomposed ex_heap /\ flat ex_heap /\ (forall l, s_refto (cell ex_heap l) = None) /\
  (forall h1 l x, s_ref (cell ex_heap l) <> "" -> resolve_in false no_world (comps_of ex_components) h1 (s_ref (cell ex_heap l)) = Ok x -> x ∈ ex_components.*2%list).
Proof.
  split; [apply uncomposed_check; vm_compute; reflexivity|]. split; [|split].
  - intros l i Ht Hi. assert (i = 3) as ->; [|vm_compute; discriminate].
    revert Ht Hi. apply (each_cell (fun c => s_type c = "array" -> s_items c = Some i -> i = 3)). apply bool_decide_eq_true.
    repeat (constructor; [vm_compute; try discriminate; try congruence|]). constructor.
  - apply (each_cell (fun c => s_refto c = None)). vm_compute. reflexivity.
  - intros h1 l x Hr. assert (s_ref (cell ex_heap l) = "#/components/schemas/Team") as ->.
    { revert Hr. apply (each_cell (fun c => s_ref c <> "" -> s_ref c = "#/components/schemas/Team")). vm_compute. reflexivity. }
    intros E. vm_compute in E. injection E as <-. left.
Qed.

(** Base (1): {tags (2): array of {} (3)}; Composed (4): allOf [$ref Base (5)]. The processing makes the property of Composed the schema of the
    property of Base itself: the type of its items is written for both. *)
Definition allof_heap : heap := mkHeap
  (list_to_map [(1, s_object 100); (2, s_array 3); (3, s_object 101); (4, with_allof [5] empty_sch); (5, s_ref_to "Base")])
  (list_to_map [(100, {["tags" := 2]}); (101, ∅)]) 200.
Definition allof_components : list (string * nat) := [("Base", 1); ("Composed", 4)].
Definition allof_name (l : nat) : string :=
  match l with
  | 1 => "BaseSchema" | 2 => "TagsPropertyFromBaseSchema" | 3 => "ItemFromTagsPropertyFromBaseSchema"
  | 4 => "ComposedSchema" | 5 => "AllOfFromComposedSchema" | _ => ""
  end.
Theorem C81_allof_refuted ul ud uu : exists h cs d names name,
  document_of listing no_key 10%nat h cs = Some d /\ clear_document d /\
  document_names ul ud uu d = Some names /\ carries name h cs names /\
  forall porder, porder ≡ₚ cs.*2%list -> exists env,
    document_types listing name no_key no_key iter (resolve_in false no_world (comps_of cs)) false porder id true false 10 cs.*2%list h = Some env /\
    ~ NoDup env.*1%list.
Proof.
  exists allof_heap, allof_components.
  let x := eval vm_compute in (document_of listing no_key 10%nat allof_heap allof_components) in match x with Some ?d => exists d;
    let y := eval vm_compute in (document_names ul ud uu d) in match y with Some ?l => exists l;
      assert (document_names ul ud uu d = Some l) by (vm_compute; reflexivity) end end.
  exists allof_name. split; [vm_compute; reflexivity|]. split; [apply schemas_check; vm_compute; reflexivity|]. split; [assumption|].
  split; [apply carries_check; vm_compute; reflexivity|]. intros porder P.
  assert (Hp : In porder (permutations [1; 4])) by (apply elem_of_list_In, permutations_Permutation; symmetry; exact P). vm_compute in Hp.
  repeat (destruct Hp as [<-|Hp]; [eexists; split; [vm_compute; reflexivity|]; apply (bool_decide_unpack _); vm_compute; exact I|]). destruct Hp.
Qed.
Print Assumptions C81_allof_refuted.

(** Base (1): {size (2): allOf [{} (3)]}; Composed (4): allOf [$ref Base (5)]. The type of size is written once when Base is processed first,
    twice otherwise. *)
Definition order_heap : heap := mkHeap
  (list_to_map [(1, s_object 100); (2, with_allof [3] empty_sch); (3, s_object 101); (4, with_allof [5] empty_sch); (5, s_ref_to "Base")])
  (list_to_map [(100, {["size" := 2]}); (101, ∅)]) 200.
Definition order_name (l : nat) : string :=
  match l with
  | 1 => "BaseSchema" | 2 => "SizePropertyFromBaseSchema" | 3 => "AllOfFromSizePropertyFromBaseSchema"
  | 4 => "ComposedSchema" | 5 => "AllOfFromComposedSchema" | _ => ""
  end.
Theorem C81_order_refuted ul ud uu : exists h cs d names name,
  document_of listing no_key 10%nat h cs = Some d /\ clear_document d /\
  document_names ul ud uu d = Some names /\ carries name h cs names /\
  exists o1 o2 env1 env2, o1 ≡ₚ cs.*2%list /\ o2 ≡ₚ cs.*2%list /\
    document_types listing name no_key no_key iter (resolve_in false no_world (comps_of cs)) false o1 id true false 10 cs.*2%list h = Some env1 /\
    document_types listing name no_key no_key iter (resolve_in false no_world (comps_of cs)) false o2 id true false 10 cs.*2%list h = Some env2 /\
    NoDup env1.*1%list /\ ~ NoDup env2.*1%list.
Proof.
  exists order_heap, allof_components.
  let x := eval vm_compute in (document_of listing no_key 10%nat order_heap allof_components) in match x with Some ?d => exists d;
    let y := eval vm_compute in (document_names ul ud uu d) in match y with Some ?l => exists l;
      assert (document_names ul ud uu d = Some l) by (vm_compute; reflexivity) end end.
  exists order_name. split; [vm_compute; reflexivity|]. split; [apply schemas_check; vm_compute; reflexivity|]. split; [assumption|].
  split; [apply carries_check; vm_compute; reflexivity|]. exists [1; 4], [4; 1]. eexists _, _.
  split; [reflexivity|]. split; [apply perm_swap|].
  split; [vm_compute; reflexivity|]. split; [vm_compute; reflexivity|]. split; apply (bool_decide_unpack _); vm_compute; exact I.
Qed.
Print Assumptions C81_order_refuted.
