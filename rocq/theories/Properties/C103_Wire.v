(** C103: what a schema admits, the generated type reads, and what is written comes back. *)
From stdpp Require Import list strings.
From Coq Require Import ZArith Lia String.
From Verif.Spec Require Import TypesSpec.
From Verif.Model Require Import Decoding Types Wire.
From Verif.Spec Require Import WireSpec.
From Verif.Proof Require Import WireProof.
Local Open Scope string_scope.
Local Open Scope list_scope.

(** The definitions are those of Types.v with the tags. *)
Definition without_tags (d : wdef) : gdef :=
  match d with
  | WStruct fs a => DStruct (map (fun f => mkField (w_key f) (w_pointer f) (w_type f)) fs) a
  | WType t m => DType t m
  end.
Theorem C103_same_types : forall namify omitempty dates force s,
  own_definition dates force s = (fun d => (g_name s, without_tags d)) <$> wire_definition (fun k => k) namify omitempty dates force s.
Proof.
  intros namify omitempty dates force [n t f e ps it ad r]. unfold own_definition, wire_definition. destruct (String.eqb t "object").
  - set (F := fun kp : string * (bool * gschema) => t ← schema_name dates kp.2.2; Some (mkField kp.1 (is_field_pointer force kp.2.1 kp.2.2) t)).
    set (W := wire_field (fun k => k) namify omitempty dates force).
    assert (H : mapM F ps = map (fun f => mkField (w_key f) (w_pointer f) (w_type f)) <$> mapM W ps).
    { induction ps as [|[k [b p]] ps IH]; [done|].
      change (mapM F ((k, (b, p)) :: ps)) with (y ← F (k, (b, p)); ys ← mapM F ps; Some (y :: ys)).
      change (mapM W ((k, (b, p)) :: ps)) with (y ← W (k, (b, p)); ys ← mapM W ps; Some (y :: ys)).
      rewrite IH. destruct (mapM W ps); unfold F, W, wire_field; cbn; by destruct (schema_name dates p). }
    rewrite H. destruct (mapM W ps); [|done]. cbn. destruct ad as [a|]; [|done]. by destruct (schema_name dates a).
  - by destruct (schema_name dates (GSchema n t f e ps it ad r)).
Qed.
Print Assumptions C103_same_types.

(** A type reads exactly the JSON that fits in it: the members of the right kind, those of fields whose name is the same up to case included. *)
Theorem C103_read : forall env fuel float32 float64 date time any date0 time0,
  good_env env -> ranked env fuel -> all_known env -> forall t j, known env t ->
  is_Some (decode env fuel float32 float64 date time any date0 time0 j t) <-> fits env float32 float64 date time (fun _ _ => True) t j.
Proof. intros. split; [by apply decode_fits|by apply fits_decode]. Qed.
Print Assumptions C103_read.

(** If no key comes twice and none is that of a property up to case only, the value holds what the JSON says. *)
Theorem C103_arrives : forall env fuel float32 float64 date time any date0 time0,
  good_env env -> ranked env fuel -> all_known env -> forall t j,
  fits env float32 float64 date time clear_keys t j ->
  exists v, decode env fuel float32 float64 date time any date0 time0 j t = Some v /\ arrives env float32 float64 date time any date0 time0 t j v.
Proof.
  intros env fuel float32 float64 date time any date0 time0 G R K t j F.
  destruct (fits_decode env fuel float32 float64 date time any date0 time0 G R _ t j K F) as [v E]. exists v. split; [exact E|].
  exact (decode_arrives env fuel float32 float64 date time any date0 time0 G R t j v K F E).
Qed.
Print Assumptions C103_arrives.

(** A value is written and read back the same, if it has no pointer to nil, no empty slice that is omitted, and no additional property whose key is that of a
    property up to case. *)
Theorem C103_back : forall env fuel float32 float64 date time any date0 time0,
  good_env env -> ranked env fuel -> all_known env -> forall t v,
  has_type env float32 float64 date time any kept_field (fun _ => True) kept_extra t v ->
  exists j, encode env fuel v t = Some j /\ decode env fuel float32 float64 date time any date0 time0 j t = Some v.
Proof. intros. by apply comes_back. Qed.
Print Assumptions C103_back.

(** All that a schema of the document admits, its type reads, and all of it arrives: with integers of the size of their format, and other keys than the declared ones
    that differ from them not only by case. *)
Theorem C103_admitted : forall env fuel float32 float64 date time any date0 time0 convert namify omitempty dates force nodes defs,
  good_env env -> ranked env fuel -> types_of convert namify omitempty dates force nodes defs env ->
  forall s j, nodes s -> admits defs float32 float64 date time dates sized apart_from s j ->
  exists t v, schema_name dates s = Some t /\ decode env fuel float32 float64 date time any date0 time0 j t = Some v /\
    arrives env float32 float64 date time any date0 time0 t j v.
Proof.
  intros env fuel float32 float64 date time any date0 time0 convert namify omitempty dates force nodes defs G R T s j N A.
  destruct (node_type env convert namify omitempty dates force nodes defs T s N) as [t Et]. exists t.
  pose proof (types_known env fuel date time G R convert namify omitempty dates force nodes defs T) as K.
  destruct (C103_arrives env fuel float32 float64 date time any date0 time0 G R K t j) as (v & E & Ar).
  { exact (admitted_fits env fuel float32 float64 date time G R convert namify omitempty dates force nodes defs T s j A t N Et). }
  by exists v.
Qed.
Print Assumptions C103_admitted.

(** What is written for a value of the type is admitted by the schema, if nothing in it is nil but what is omitted. *)
Theorem C103_written : forall env fuel float32 float64 date time any convert namify omitempty dates force nodes defs,
  good_env env -> ranked env fuel -> types_of convert namify omitempty dates force nodes defs env ->
  forall s t v, nodes s -> schema_name dates s = Some t -> v <> VNil ->
  has_type env float32 float64 date time any filled_field filled_item kept_extra t v ->
  exists j, encode env fuel v t = Some j /\ admits defs float32 float64 date time dates sized apart_from s j.
Proof.
  intros env fuel float32 float64 date time any convert namify omitempty dates force nodes defs G R T s t v N Et Nv H.
  exact (proj1 (filled_written env fuel float32 float64 date time any G R convert namify omitempty dates force nodes defs T v) s t N Et H Nv).
Qed.
Print Assumptions C103_written.

(** ** A document *)
Definition id_property := GSchema "IdProperty" "integer" "int32" "" [] None None None.
Definition text := GSchema "Text" "string" "" "" [] None None None.
Definition names_property := GSchema "NamesProperty" "array" "" "" [] (Some text) None None.
Definition pet_property := GSchema "PetProperty" "" "" "" [] None None (Some "PetSchema").
Definition person := GSchema "PersonSchema" "object" "" "" [("id", (true, id_property)); ("names", (false, names_property)); ("pet", (false, pet_property))] None None None.
Definition pet := GSchema "PetSchema" "object" "" "" [("kind", (true, text))] None (Some text) None.
Definition people (x : gschema) : Prop := x ∈ [person; pet; id_property; names_property; pet_property; text].
Definition person_type : wdef :=
  WStruct [mkW "id" "Id" false false TInt32; mkW "names" "Names" false true (TSlice TString); mkW "pet" "Pet" true true (TNamed "PetSchema")] None.
Definition pet_type : wdef := WStruct [mkW "kind" "Kind" false false TString] (Some TString).
Definition people_types (n : string) : option wdef := if String.eqb n "PersonSchema" then Some person_type else if String.eqb n "PetSchema" then Some pet_type else None.
Definition people_defs (n : string) : option gschema := if String.eqb n "PersonSchema" then Some person else if String.eqb n "PetSchema" then Some pet else None.
Definition titled (k : string) : string :=
  if String.eqb k "id" then "Id" else if String.eqb k "names" then "Names" else if String.eqb k "pet" then "Pet" else "Kind".

Ltac cases_of H := repeat (apply elem_of_cons in H as [H|H]); [..|apply elem_of_nil in H; destruct H].
Lemma people_good : good_env people_types.
Proof.
  split.
  - intros n fs a. unfold people_types. destruct (String.eqb n "PersonSchema"); [|destruct (String.eqb n "PetSchema"); [|discriminate]]; intros [= <- <-].
    all: split; [apply (bool_decide_unpack _); vm_compute; exact I|]. all: repeat (constructor; [split; [reflexivity|discriminate]|]); constructor.
  - intros n fs ta. unfold people_types. destruct (String.eqb n "PersonSchema"); [discriminate|destruct (String.eqb n "PetSchema"); [|discriminate]]. intros [= <- <-].
    right. repeat constructor.
  - intros n t m. unfold people_types. by destruct (String.eqb n "PersonSchema"), (String.eqb n "PetSchema").
Qed.
Lemma people_ranked : ranked people_types 2.
Proof.
  exists (fun n => if String.eqb n "PersonSchema" then 1 else 0). split; [|split].
  - intros n. destruct (String.eqb n "PersonSchema"); lia.
  - intros n b m. unfold people_types. by destruct (String.eqb n "PersonSchema"), (String.eqb n "PetSchema").
  - intros n fs a f b. unfold people_types. destruct (String.eqb n "PersonSchema"); [|destruct (String.eqb n "PetSchema"); [|discriminate]]; intros [= <- <-] Hf.
    all: cases_of Hf; by subst.
Qed.
Lemma people_of : types_of (fun k => k) titled (fun _ => None) true false people people_defs people_types.
Proof.
  split.
  - intros x c Hx Hc. unfold people in Hx. cases_of Hx; subst; inversion Hc; subst; try (match goal with H : _ ∈ _ |- _ => cases_of H end; try discriminate).
    all: repeat match goal with H : (_, (_, _)) = _ |- _ => injection H as -> -> -> end; apply (elem_of_list_In _ _); cbn; tauto.
  - intros n t f e ps it ad r Hx. unfold people in Hx. cases_of Hx; injection Hx as -> -> -> -> -> -> -> ->; (split; [reflexivity|]); cbn; right.
    all: try (left; apply (bool_decide_unpack _); vm_compute; exact I). right. split; [reflexivity|by eexists].
  - intros x Hx. unfold people in Hx. cases_of Hx; subst; intros Ht; try discriminate Ht; reflexivity.
  - intros x m Hx. unfold people in Hx. cases_of Hx; subst; intros (Ht & _ & Hr); try discriminate. injection Hr as <-. by eexists.
  - intros m c. unfold people_defs. destruct (String.eqb_spec m "PersonSchema") as [->|_]; [|destruct (String.eqb_spec m "PetSchema") as [->|_]; [|discriminate]].
    all: intros [= <-]; split; [apply (elem_of_list_In _ _); cbn; tauto|]; split; reflexivity.
  - intros n d. unfold people_types. destruct (String.eqb n "PersonSchema"); [|destruct (String.eqb n "PetSchema"); [|discriminate]]; intros [= <-].
    + exists person. split; [apply (elem_of_list_In _ _); cbn; tauto|reflexivity].
    + exists pet. split; [apply (elem_of_list_In _ _); cbn; tauto|reflexivity].
  - reflexivity.
  - discriminate.
Qed.
Notation read := (decode people_types 2 Some Some Some Some (fun j => j) "0000-00-00" "0001-01-01T00:00:00Z").
Notation write := (encode people_types 2).
Definition ada_json : json :=
  JObj [("id", JNum (Int 7)); ("names", JArr [JStr "Ada"; JStr "Lovelace"]); ("pet", JObj [("kind", JStr "cat"); ("colour", JStr "black")])].
Definition ada : gv :=
  VStruct [VInt 7; VSlice [VStr "Ada"; VStr "Lovelace"]; VPtr (VStruct [VStr "cat"] [("colour", VStr "black")])] [].
Example C103_ada : read ada_json (TNamed "PersonSchema") = Some ada /\ write ada (TNamed "PersonSchema") = Some ada_json.
Proof. split; reflexivity. Qed.
Lemma ada_admitted : admits people_defs Some Some Some Some true sized apart_from person ada_json.
Proof.
  constructor.
  - apply (bool_decide_unpack _). vm_compute. exact I.
  - intros k p Hin. cases_of Hin; try discriminate. injection Hin as -> _. left.
  - intros k b p x Hp Hx. cases_of Hp; injection Hp as -> -> ->; cases_of Hx; try discriminate; injection Hx as ->.
    + constructor. cbv. split; [discriminate|reflexivity].
    + constructor. intros x Hx. cases_of Hx; subst; constructor; discriminate.
    + eapply admits_reference; [done|reflexivity|]. constructor.
      * apply (bool_decide_unpack _). vm_compute. exact I.
      * intros k p Hin. cases_of Hin. injection Hin as -> _. left.
      * intros k b p x Hp Hx. cases_of Hp; injection Hp as -> -> ->; cases_of Hx; try discriminate; injection Hx as ->; constructor; discriminate.
      * intros k x a Hx _ [= <-]. cases_of Hx; injection Hx as -> ->; constructor; discriminate.
      * intros k Hk Nk. cases_of Hk; subst; [destruct Nk; left|]. repeat constructor. discriminate.
  - discriminate.
  - intros k Hk Nk. destruct Nk. cases_of Hk; subst; apply (elem_of_list_In _ _); cbn; tauto.
Qed.
Example C103_admitted_ex : exists t v, schema_name true person = Some t /\ read ada_json t = Some v /\
  arrives people_types Some Some Some Some (fun j => j) "0000-00-00" "0001-01-01T00:00:00Z" t ada_json v.
Proof.
  apply (C103_admitted _ _ _ _ _ _ _ _ _ _ _ _ _ _ _ _ people_good people_ranked people_of person ada_json); [|exact ada_admitted].
  apply (elem_of_list_In _ _). cbn. tauto.
Qed.
Lemma ada_type (ok : wfield -> gv -> Prop) (item : gv -> Prop) :
  (forall f v, v <> VNil -> v <> VPtr VNil -> v <> VSlice [] -> ok f v) -> (forall v, v <> VNil -> item v) ->
  has_type people_types Some Some Some Some (fun j => j) ok item kept_extra (TNamed "PersonSchema") ada.
Proof.
  intros Hok Hi. eapply ht_struct; [reflexivity| |reflexivity|discriminate|constructor]. constructor; [|constructor; [|constructor; [|constructor]]].
  - split; [|by apply Hok]. apply ft_value; [reflexivity|]. constructor. cbn. lia.
  - split; [|by apply Hok]. apply ft_value; [reflexivity|]. constructor. repeat (constructor; [split; [constructor|by apply Hi]|]). constructor.
  - split; [|by apply Hok]. apply ft_pointer; [reflexivity|]. eapply ht_struct; [reflexivity| |discriminate| |apply (bool_decide_unpack _); vm_compute; exact I].
    + constructor; [|constructor]. split; [|by apply Hok]. apply ft_value; [reflexivity|constructor].
    + intros ta [= <-]. constructor; [|constructor]. split; [constructor|]. split; [by apply Hi|]. repeat constructor. discriminate.
Qed.
Example C103_back_ex : exists j, write ada (TNamed "PersonSchema") = Some j /\ read j (TNamed "PersonSchema") = Some ada.
Proof.
  apply C103_back; [exact people_good|exact people_ranked|exact (types_known _ _ Some Some people_good people_ranked _ _ _ _ _ _ _ people_of)|].
  apply ada_type; [|done]. intros f v _ Hp Hs. by split.
Qed.
Example C103_written_ex : exists j, write ada (TNamed "PersonSchema") = Some j /\ admits people_defs Some Some Some Some true sized apart_from person j.
Proof.
  apply (C103_written _ _ _ _ _ _ (fun j => j) _ _ _ _ _ _ _ people_good people_ranked people_of person); [|reflexivity|discriminate|].
  - apply (elem_of_list_In _ _). cbn. tauto.
  - apply ada_type; [|done]. intros f v Hn Hp _. by split.
Qed.
(** A null leaves a field unset; integers that are too large and additional properties of another type are not read. *)
Example C103_read_ex :
  read (JObj [("id", JNum (Int 7)); ("PET", JNull); ("other", JNum (Int 3))]) (TNamed "PersonSchema") = Some (VStruct [VInt 7; VNil; VNil] []) /\
  read (JObj [("id", JNum (Int (2 ^ 31)))]) (TNamed "PersonSchema") = None /\
  read (JObj [("kind", JStr "cat"); ("age", JNum (Int 3))]) (TNamed "PetSchema") = None.
Proof. split; [|split]; reflexivity. Qed.

(** ** What does not hold *)
Notation typed env := (has_type env Some Some Some Some (fun j => j) (fun _ _ => True) (fun _ => True)).
Definition people_known : all_known people_types := types_known _ _ Some Some people_good people_ranked _ _ _ _ _ _ _ people_of.

(** Not every value comes back: an empty slice of an optional property is omitted and comes back nil. *)
Definition nameless : gv := VStruct [VInt 7; VSlice []; VNil] [].
Theorem C103_empty_slice_refuted :
  ~ (forall env fuel, good_env env -> ranked env fuel -> all_known env -> forall t v, typed env kept_extra t v ->
     exists j, encode env fuel v t = Some j /\ decode env fuel Some Some Some Some (fun j => j) "0000-00-00" "0001-01-01T00:00:00Z" j t = Some v).
Proof.
  intros H. destruct (H _ _ people_good people_ranked people_known (TNamed "PersonSchema") nameless) as (j & E & D).
  - eapply ht_struct; [reflexivity| |reflexivity|discriminate|constructor]. constructor; [|constructor; [|constructor; [|constructor]]]; (split; [|exact I]).
    + apply ft_value; [reflexivity|]. constructor. cbn. lia.
    + apply ft_value; [reflexivity|]. constructor. constructor.
    + by apply ft_nil.
  - vm_compute in E. injection E as <-. vm_compute in D. discriminate D.
Qed.
Print Assumptions C103_empty_slice_refuted.

(** An additional property whose key is that of a property up to case takes its place when it comes back. *)
Definition shouting : gv := VStruct [VStr "cat"] [("KIND", VStr "dog")].
Theorem C103_additional_case_refuted :
  ~ (forall env fuel, good_env env -> ranked env fuel -> all_known env -> forall t v,
     has_type env Some Some Some Some (fun j => j) kept_field (fun _ => True) (fun fs k => k ∉ keys fs) t v ->
     exists j, encode env fuel v t = Some j /\ decode env fuel Some Some Some Some (fun j => j) "0000-00-00" "0001-01-01T00:00:00Z" j t = Some v).
Proof.
  intros H. destruct (H _ _ people_good people_ranked people_known (TNamed "PetSchema") shouting) as (j & E & D).
  - eapply ht_struct; [reflexivity| |discriminate| |apply (bool_decide_unpack _); vm_compute; exact I].
    + constructor; [|constructor]. split; [apply ft_value; [reflexivity|constructor]|]. split; [discriminate|discriminate].
    + intros ta [= <-]. constructor; [|constructor]. split; [constructor|]. split; [exact I|]. apply (bool_decide_unpack _). vm_compute. exact I.
  - vm_compute in E. injection E as <-. vm_compute in D. discriminate D.
Qed.
Print Assumptions C103_additional_case_refuted.

(** So does an undeclared member of an object that is read: the value of the property is not that of its key. *)
Definition two_ids : json := JObj [("id", JNum (Int 1)); ("ID", JNum (Int 2))].
Theorem C103_case_refuted :
  ~ (forall env fuel, good_env env -> ranked env fuel -> all_known env -> forall t j v,
     fits env Some Some Some Some (fun _ ks => NoDup ks) t j -> decode env fuel Some Some Some Some (fun j => j) "0000-00-00" "0001-01-01T00:00:00Z" j t = Some v ->
     arrives env Some Some Some Some (fun j => j) "0000-00-00" "0001-01-01T00:00:00Z" t j v).
Proof.
  intros H. pose proof (H _ _ people_good people_ranked people_known (TNamed "PersonSchema") two_ids (VStruct [VInt 2; VNil; VNil] [])) as A. clear H.
  assert (F : fits people_types Some Some Some Some (fun _ ks => NoDup ks) (TNamed "PersonSchema") two_ids).
  { eapply fits_struct; [reflexivity| |discriminate|apply (bool_decide_unpack _); vm_compute; exact I].
    intros k x f Hx Hf. assert (Ef : w_type f = TInt32).
    { assert (Hk : fold (w_key f) = fold k) by (inversion Hf; subst; congruence).
      assert (Hin : f ∈ [mkW "id" "Id" false false TInt32; mkW "names" "Names" false true (TSlice TString); mkW "pet" "Pet" true true (TNamed "PetSchema")]).
      { inversion Hf as [? Hin|l1 ? l2 _ El _ _]; subst; [exact Hin|]. rewrite El. apply elem_of_app. right. left. }
      cases_of Hin; subst f; [reflexivity| |]; cases_of Hx; injection Hx as -> ->; vm_compute in Hk; discriminate Hk. }
    rewrite Ef. cases_of Hx; injection Hx as -> ->; constructor; cbn; lia. }
  specialize (A F eq_refl). inversion A as [| | | | | | | | | |? ? ? ? ? ? E Fv _ _|? ? ? ? ? E]; subst; [|discriminate E]. injection E as <- <-.
  inversion Fv as [|? ? ? ? [(x & Hx & Ar)|[Nk _]] _]; subst; [|destruct Nk; left].
  cases_of Hx; [|discriminate Hx]. injection Hx as ->. inversion Ar as [|? ? ? ? ? Av|? ? ? ? Av]; subst. inversion Av.
Qed.
Print Assumptions C103_case_refuted.

(** An integer without a format is one of any size for the schema, not for the type. *)
Definition count := GSchema "CountSchema" "integer" "" "" [] None None None.
Definition count_types (n : string) : option wdef := if String.eqb n "CountSchema" then Some (WType TInt64 false) else None.
Definition count_defs (n : string) : option gschema := if String.eqb n "CountSchema" then Some count else None.
Lemma count_good : good_env count_types.
Proof.
  split; intros n; unfold count_types; destruct (String.eqb n "CountSchema"); try discriminate. by intros t m [= <- <-].
Qed.
Lemma count_ranked : ranked count_types 1.
Proof. exists (fun _ => 0). split; [intros; lia|]. split; intros n; unfold count_types; destruct (String.eqb n "CountSchema"); discriminate. Qed.
Lemma count_of : types_of (fun k => k) titled (fun _ => None) true false (fun x => x = count) count_defs count_types.
Proof.
  split.
  - intros x c -> Hc. inversion Hc; subst. match goal with H : _ ∈ [] |- _ => by apply elem_of_nil in H end.
  - intros n t f e ps it ad r Hx. injection Hx as -> -> -> -> -> -> -> ->. split; [reflexivity|]. right. left. apply (bool_decide_unpack _). vm_compute. exact I.
  - intros x -> Ht. discriminate Ht.
  - intros x m -> (Ht & _). discriminate Ht.
  - intros m c. unfold count_defs. destruct (String.eqb_spec m "CountSchema") as [->|_]; [|discriminate]. by intros [= <-].
  - intros n d. unfold count_types. destruct (String.eqb n "CountSchema"); [|discriminate]. intros [= <-]. by exists count.
  - reflexivity.
  - discriminate.
Qed.
Theorem C103_integers_refuted :
  ~ (forall env fuel convert namify omitempty dates force nodes defs,
     good_env env -> ranked env fuel -> types_of convert namify omitempty dates force nodes defs env ->
     forall s j t, nodes s -> schema_name dates s = Some t -> admits defs Some Some Some Some dates (fun _ _ => True) apart_from s j ->
     is_Some (decode env fuel Some Some Some Some (fun j => j) "0000-00-00" "0001-01-01T00:00:00Z" j t)).
Proof.
  intros H. destruct (H _ _ _ _ _ _ _ _ _ count_good count_ranked count_of count (JNum (Int (2 ^ 63))) TInt64 eq_refl eq_refl) as [v E].
  - by constructor.
  - vm_compute in E. discriminate E.
Qed.
Print Assumptions C103_integers_refuted.

(** Next to additional properties, the declared ones are read as such too: a number among strings is an error. *)
Definition tagged_property := GSchema "SizeProperty" "integer" "" "" [] None None None.
Definition box := GSchema "BoxSchema" "object" "" "" [("size", (true, tagged_property))] None (Some text) None.
Definition box_types (n : string) : option wdef := if String.eqb n "BoxSchema" then Some (WStruct [mkW "size" "Kind" false false TInt64] (Some TString)) else None.
Definition box_defs (n : string) : option gschema := if String.eqb n "BoxSchema" then Some box else None.
Lemma box_of : types_of (fun k => k) titled (fun _ => None) true false (fun x => x ∈ [box; tagged_property; text]) box_defs box_types.
Proof.
  split.
  - intros x c Hx Hc. cases_of Hx; subst; inversion Hc; subst; try (match goal with H : _ ∈ _ |- _ => cases_of H end).
    all: repeat match goal with H : (_, (_, _)) = _ |- _ => injection H as -> -> -> end; apply (elem_of_list_In _ _); cbn; tauto.
  - intros n t f e ps it ad r Hx. cases_of Hx; injection Hx as -> -> -> -> -> -> -> ->; (split; [reflexivity|]); cbn; right; left; apply (bool_decide_unpack _); vm_compute; exact I.
  - intros x Hx. cases_of Hx; subst; intros Ht; try discriminate Ht; reflexivity.
  - intros x m Hx. cases_of Hx; subst; intros (Ht & _ & Hr); discriminate.
  - intros m c. unfold box_defs. destruct (String.eqb_spec m "BoxSchema") as [->|_]; [|discriminate]. intros [= <-]. split; [left|]. split; reflexivity.
  - intros n d. unfold box_types. destruct (String.eqb n "BoxSchema"); [|discriminate]. intros [= <-]. exists box. split; [left|reflexivity].
  - reflexivity.
  - discriminate.
Qed.
Lemma box_ranked : ranked box_types 1.
Proof.
  exists (fun _ => 0). split; [intros; lia|]. split.
  - intros n b m. unfold box_types. by destruct (String.eqb n "BoxSchema").
  - intros n fs a f b. unfold box_types. destruct (String.eqb n "BoxSchema"); [|discriminate]. intros [= <- <-] Hf. cases_of Hf. by subst.
Qed.
Theorem C103_declared_additional_refuted :
  ~ (forall env fuel convert namify omitempty dates force nodes defs,
     (forall n fs a, env n = Some (WStruct fs a) -> good_keys fs) -> ranked env fuel -> types_of convert namify omitempty dates force nodes defs env ->
     forall s j t, nodes s -> schema_name dates s = Some t -> admits defs Some Some Some Some dates sized apart_from s j ->
     is_Some (decode env fuel Some Some Some Some (fun j => j) "0000-00-00" "0001-01-01T00:00:00Z" j t)).
Proof.
  intros H. assert (Gt : forall n fs a, box_types n = Some (WStruct fs a) -> good_keys fs).
  { intros n fs a. unfold box_types. destruct (String.eqb n "BoxSchema"); [|discriminate]. intros [= <- <-].
    split; [apply (bool_decide_unpack _); vm_compute; exact I|]. repeat (constructor; [split; [reflexivity|discriminate]|]); constructor. }
  destruct (H _ _ _ _ _ _ _ _ _ Gt box_ranked box_of box (JObj [("size", JNum (Int 3))]) (TNamed "BoxSchema")) as [v E].
  - left.
  - reflexivity.
  - constructor.
    + apply (bool_decide_unpack _). vm_compute. exact I.
    + intros k p Hin. cases_of Hin. injection Hin as -> _. left.
    + intros k b p x Hp Hx. cases_of Hp; injection Hp as -> -> ->. cases_of Hx. injection Hx as ->. constructor. cbv. split; [discriminate|reflexivity].
    + intros k x a Hx Nk _. destruct Nk. cases_of Hx. injection Hx as -> ->. left.
    + intros k Hk Nk. destruct Nk. cases_of Hk. subst. left.
  - vm_compute in E. discriminate E.
Qed.
Print Assumptions C103_declared_additional_refuted.

(** A required array that is nil is written null, which the schema does not admit. *)
Definition list_schema := GSchema "ListSchema" "object" "" "" [("names", (true, names_property))] None None None.
Definition list_types (n : string) : option wdef := if String.eqb n "ListSchema" then Some (WStruct [mkW "names" "Names" false false (TSlice TString)] None) else None.
Definition list_defs (n : string) : option gschema := if String.eqb n "ListSchema" then Some list_schema else None.
Lemma list_good : good_env list_types.
Proof.
  split; intros n; unfold list_types; destruct (String.eqb n "ListSchema"); try discriminate. intros fs a [= <- <-].
  split; [apply (bool_decide_unpack _); vm_compute; exact I|]. repeat (constructor; [split; [reflexivity|discriminate]|]); constructor.
Qed.
Lemma list_ranked : ranked list_types 1.
Proof.
  exists (fun _ => 0). split; [intros; lia|]. split.
  - intros n b m. unfold list_types. by destruct (String.eqb n "ListSchema").
  - intros n fs a f b. unfold list_types. destruct (String.eqb n "ListSchema"); [|discriminate]. intros [= <- <-] Hf. cases_of Hf. by subst.
Qed.
Lemma list_of : types_of (fun k => k) titled (fun _ => None) true false (fun x => x ∈ [list_schema; names_property; text]) list_defs list_types.
Proof.
  split.
  - intros x c Hx Hc. cases_of Hx; subst; inversion Hc; subst; try (match goal with H : _ ∈ _ |- _ => cases_of H end).
    all: repeat match goal with H : (_, (_, _)) = _ |- _ => injection H as -> -> -> end; apply (elem_of_list_In _ _); cbn; tauto.
  - intros n t f e ps it ad r Hx. cases_of Hx; injection Hx as -> -> -> -> -> -> -> ->; (split; [reflexivity|]); cbn; right.
    all: try (left; apply (bool_decide_unpack _); vm_compute; exact I). right. split; [reflexivity|by eexists].
  - intros x Hx. cases_of Hx; subst; intros Ht; try discriminate Ht; reflexivity.
  - intros x m Hx. cases_of Hx; subst; intros (Ht & _ & Hr); discriminate.
  - intros m c. unfold list_defs. destruct (String.eqb_spec m "ListSchema") as [->|_]; [|discriminate]. intros [= <-]. split; [left|]. split; reflexivity.
  - intros n d. unfold list_types. destruct (String.eqb n "ListSchema"); [|discriminate]. intros [= <-]. exists list_schema. split; [left|reflexivity].
  - reflexivity.
  - discriminate.
Qed.
Theorem C103_null_refuted :
  ~ (forall env fuel convert namify omitempty dates force nodes defs,
     good_env env -> ranked env fuel -> types_of convert namify omitempty dates force nodes defs env ->
     forall s t v, nodes s -> schema_name dates s = Some t -> v <> VNil -> typed env kept_extra t v ->
     exists j, encode env fuel v t = Some j /\ admits defs Some Some Some Some dates sized apart_from s j).
Proof.
  intros H. destruct (H _ _ _ _ _ _ _ _ _ list_good list_ranked list_of list_schema (TNamed "ListSchema") (VStruct [VNil] [])) as (j & E & A).
  - left.
  - reflexivity.
  - discriminate.
  - eapply ht_struct; [reflexivity| |reflexivity|discriminate|constructor]. constructor; [|constructor]. split; [|exact I]. apply ft_value; [reflexivity|constructor].
  - vm_compute in E. injection E as <-. inversion A; subst; [match goal with Rf : reference_of _ _ |- _ => by destruct Rf as [Rf _] end|].
    assert (A' : admits list_defs Some Some Some Some true sized apart_from names_property JNull).
    { match goal with Hp : forall k b p x, _ -> _ -> admits _ _ _ _ _ _ _ _ p x |- _ => apply (Hp "names" true names_property JNull) end; left. }
    inversion A'; subst. match goal with Rf : reference_of _ _ |- _ => by destruct Rf as [Rf _] end.
Qed.
Print Assumptions C103_null_refuted.

(** Without additional properties in the schema, undeclared members are admitted and not kept: written again, the object lacks them. *)
Theorem C103_undeclared_refuted :
  ~ (forall env fuel convert namify omitempty dates force nodes defs,
     good_env env -> ranked env fuel -> types_of convert namify omitempty dates force nodes defs env ->
     forall s t kvs, nodes s -> schema_name dates s = Some t -> admits defs Some Some Some Some dates sized apart_from s (JObj kvs) ->
     forall v kvs', decode env fuel Some Some Some Some (fun j => j) "0000-00-00" "0001-01-01T00:00:00Z" (JObj kvs) t = Some v ->
     encode env fuel v t = Some (JObj kvs') -> forall k, k ∈ map fst kvs -> k ∈ map fst kvs').
Proof.
  intros H. pose proof (H _ _ _ _ _ _ _ _ _ people_good people_ranked people_of person (TNamed "PersonSchema")
    [("id", JNum (Int 7)); ("age", JNum (Int 36))] (elem_of_list_here _ _) eq_refl) as K. clear H.
  assert (A : admits people_defs Some Some Some Some true sized apart_from person (JObj [("id", JNum (Int 7)); ("age", JNum (Int 36))])).
  { constructor.
    - apply (bool_decide_unpack _). vm_compute. exact I.
    - intros k p Hin. cases_of Hin; try discriminate. injection Hin as -> _. left.
    - intros k b p x Hp Hx. cases_of Hp; injection Hp as -> -> ->; cases_of Hx; try discriminate; injection Hx as ->. constructor. cbv. split; [discriminate|reflexivity].
    - discriminate.
    - intros k Hk Nk. cases_of Hk; subst; [destruct Nk; left|]. repeat (constructor; [discriminate|]). constructor. }
  specialize (K A _ [("id", JNum (Int 7))] eq_refl eq_refl "age"). assert (F : "age" ∈ ["id"]); [apply K; right; left|]. cases_of F. discriminate F.
Qed.
Print Assumptions C103_undeclared_refuted.

(** A required property called "-" has no place in the JSON of its type: the tag hides the field. *)
Definition dash_types (n : string) : option wdef := if String.eqb n "DashSchema" then Some (WStruct [mkW "-" "Minus" false false TString] None) else None.
(** Two keys that are converted to the same have none either. *)
Definition twin_types (n : string) : option wdef :=
  if String.eqb n "TwinSchema" then Some (WStruct [mkW "first_name" "FirstName" false false TString; mkW "first_name" "FirstNameB" false false TString] None) else None.
(** Nor have the additional properties of a type in one that is defined from it, nor the time of one defined from a date-time. *)
Definition alias_types (n : string) : option wdef :=
  if String.eqb n "PetSchema" then Some pet_type else if String.eqb n "AliasSchema" then Some (WType (TNamed "PetSchema") false)
  else if String.eqb n "MomentSchema" then Some (WType TTime true) else if String.eqb n "LaterSchema" then Some (WType (TNamed "MomentSchema") false) else None.
Lemma only_one n : (forall fs a d, (fun m => if String.eqb m n then Some (WStruct fs a) else None) = d -> Forall (fun f => forall b, w_type f <> TNamed b) fs -> ranked d 1).
Proof.
  intros fs a d <- F. exists (fun _ => 0). split; [intros; lia|]. split.
  - intros m b k. by destruct (String.eqb m n).
  - intros m fs' a' f b. destruct (String.eqb m n); [|discriminate]. intros [= <- <-] Hf _ Et. rewrite Forall_forall in F. by destruct (F f Hf b).
Qed.
Lemma alias_ranked : ranked alias_types 2.
Proof.
  exists (fun n => if String.eqb n "AliasSchema" then 1 else if String.eqb n "LaterSchema" then 1 else 0). split; [|split].
  - intros n. destruct (String.eqb n "AliasSchema"), (String.eqb n "LaterSchema"); lia.
  - intros n b m. unfold alias_types. destruct (String.eqb_spec n "PetSchema") as [->|_]; [discriminate|]. destruct (String.eqb n "AliasSchema"); [intros [= <- _]; cbn; lia|].
    destruct (String.eqb n "MomentSchema"); [discriminate|]. destruct (String.eqb n "LaterSchema"); [|discriminate]. intros [= <- _]. cbn. lia.
  - intros n fs a f b. unfold alias_types. destruct (String.eqb n "PetSchema"); [intros [= <- <-] Hf; cases_of Hf; by subst|].
    by destruct (String.eqb n "AliasSchema"), (String.eqb n "MomentSchema"), (String.eqb n "LaterSchema").
Qed.
Theorem C103_lost_refuted :
  ~ (forall env fuel, ranked env fuel -> forall t v, has_type env Some Some Some Some (fun j => j) kept_field (fun _ => True) kept_extra t v ->
     exists j, encode env fuel v t = Some j /\ decode env fuel Some Some Some Some (fun j => j) "0000-00-00" "0001-01-01T00:00:00Z" j t = Some v) /\
  (exists env fuel v, ranked env fuel /\ has_type env Some Some Some Some (fun j => j) kept_field (fun _ => True) kept_extra (TNamed "DashSchema") v /\
     encode env fuel v (TNamed "DashSchema") = Some (JObj [])) /\
  (exists env fuel v, ranked env fuel /\ has_type env Some Some Some Some (fun j => j) kept_field (fun _ => True) kept_extra (TNamed "TwinSchema") v /\
     encode env fuel v (TNamed "TwinSchema") = Some (JObj [])) /\
  (exists env fuel v, ranked env fuel /\ has_type env Some Some Some Some (fun j => j) kept_field (fun _ => True) kept_extra (TNamed "AliasSchema") v /\
     encode env fuel v (TNamed "AliasSchema") = Some (JObj [("kind", JStr "cat")]) /\ encode env fuel v (TNamed "PetSchema") <> encode env fuel v (TNamed "AliasSchema")) /\
  (exists env fuel s, ranked env fuel /\ has_type env Some Some Some Some (fun j => j) kept_field (fun _ => True) kept_extra (TNamed "LaterSchema") (VAtom s) /\
     encode env fuel (VAtom s) (TNamed "MomentSchema") = Some (JStr s) /\ encode env fuel (VAtom s) (TNamed "LaterSchema") = Some (JObj [])).
Proof.
  assert (D : exists env fuel v, ranked env fuel /\ has_type env Some Some Some Some (fun j => j) kept_field (fun _ => True) kept_extra (TNamed "DashSchema") v /\
     encode env fuel v (TNamed "DashSchema") = Some (JObj []) /\ decode env fuel Some Some Some Some (fun j => j) "0000-00-00" "0001-01-01T00:00:00Z" (JObj []) (TNamed "DashSchema") <> Some v).
  { exists dash_types, 1, (VStruct [VStr "minus"] []). split; [|split; [|split; [reflexivity|discriminate]]].
    - eapply only_one; [reflexivity|]. repeat (constructor; [discriminate|]). constructor.
    - eapply ht_struct; [reflexivity| |reflexivity|discriminate|constructor]. constructor; [|constructor]. split; [apply ft_value; [reflexivity|constructor]|]. split; discriminate. }
  split; [|split; [|split; [|split]]].
  - destruct D as (env & fuel & v & R & T & E & N). intros H. destruct (H env fuel R _ v T) as (j & E' & D). rewrite E in E'. injection E' as <-. by apply N.
  - destruct D as (env & fuel & v & R & T & E & N). by exists env, fuel, v.
  - exists twin_types, 1, (VStruct [VStr "Ada"; VStr "Grace"] []). split; [|split; [|reflexivity]].
    + eapply only_one; [reflexivity|]. repeat (constructor; [discriminate|]). constructor.
    + eapply ht_struct; [reflexivity| |reflexivity|discriminate|constructor].
      repeat (constructor; [split; [apply ft_value; [reflexivity|constructor]|split; discriminate]|]). constructor.
  - exists alias_types, 2, (VStruct [VStr "cat"] [("colour", VStr "black")]). split; [exact alias_ranked|]. split; [|split; [reflexivity|discriminate]].
    eapply ht_defined; [reflexivity|]. eapply ht_struct; [reflexivity| |discriminate| |apply (bool_decide_unpack _); vm_compute; exact I].
    + constructor; [|constructor]. split; [apply ft_value; [reflexivity|constructor]|]. split; discriminate.
    + intros ta [= <-]. constructor; [|constructor]. split; [constructor|]. split; [exact I|]. repeat constructor. discriminate.
  - exists alias_types, 2, "2024-01-01T00:00:00Z". split; [exact alias_ranked|]. split; [|split; reflexivity].
    eapply ht_defined; [reflexivity|]. eapply ht_defined; [reflexivity|]. by constructor.
Qed.
Print Assumptions C103_lost_refuted.
