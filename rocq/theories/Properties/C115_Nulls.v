(** C115: documents with empty entries (null): which of them crash the generator. *)
From stdpp Require Import gmap list strings.
From Coq Require Import ZArith Ascii String.
From Verif.Model Require Import GoStrings Reference Parser Decoding Nulls.
From Verif.Spec Require Import DecodingSpec NullsSpec.
From Verif.Proof Require Import DecodingProof NullsProof.
Local Open Scope string_scope.

Definition document (m : major) (j : json) (v : value) : Prop :=
  tidy (fields m) (TStruct "Specification") j /\ unmarshal m j = Some v.
Lemma neat_document m j v : neat j = true -> unmarshal m j = Some v -> document m j v.
Proof. intros Hn Hu. split; [|done]. apply neat_tidy; [done|]. by exists v. Qed.

(** Version 2. Process panics exactly if an entry is null where the metadata is written without a test, if the
    message of an operation is a reference with less than three slashes, or if the location of a correlation
    identifier has no path. *)
Theorem C115_v2 j v :
  document V2 j v ->
  (metadata2 v = true <->
   null_entry places2 j \/
   (exists o, stands places2 "Specification" j "Operation" o /\ short_reference o) \/
   (exists m, stands places2 "Specification" j "Message" m /\ no_path m)).
Proof.
  intros [Ht Hd]. rewrite (metadata2_bad j v Ht Hd). split.
  - intros (o & y & Hs & [[[-> H]|[-> H]]|(kvs & k & o' & x & -> & H)]); [right; left; eauto|right; right; eauto|].
    left. by exists o, kvs, k, o', x.
  - intros [(o & kvs & k & o' & x & Hs & H)|[(o & Hs & H)|(m & Hs & H)]].
    + exists o, (JObj kvs). split; [done|]. right. by exists kvs, k, o', x.
    + exists "Operation", o. split; [done|]. left. by left.
    + exists "Message", m. split; [done|]. left. by right.
Qed.
Print Assumptions C115_v2.

(** A channel with nothing, a property with nothing, a publish with nothing. *)
Definition doc2 (channel property publish : json) : json :=
  JObj [("asyncapi", JStr "2.6.0");
        ("channels", JObj [("pings", JObj [("Publish", publish)]); ("pongs", channel)]);
        ("components", JObj [("schemas", JObj [("Ping", JObj [("type", JStr "object");
                                                              ("properties", JObj [("id", property)])])])])].
Definition read_as (m : major) (j : json) : value := default VZero (unmarshal m j).
Definition is_read (m : major) (j : json) : Prop := document m j (read_as m j).
Ltac read_document := apply neat_document; vm_compute; reflexivity.
Example C115_v2_ex :
  is_read V2 (doc2 (JObj []) (JObj []) JNull) /\ metadata2 (read_as V2 (doc2 (JObj []) (JObj []) JNull)) = false /\
  is_read V2 (doc2 JNull (JObj []) JNull) /\ metadata2 (read_as V2 (doc2 JNull (JObj []) JNull)) = true /\
  is_read V2 (doc2 (JObj []) JNull JNull) /\ metadata2 (read_as V2 (doc2 (JObj []) JNull JNull)) = true.
Proof. repeat (split; [first [read_document|vm_compute; reflexivity]|]). vm_compute. reflexivity. Qed.
Example C115_v2_null_ex : null_entry places2 (doc2 (JObj []) JNull JNull).
Proof.
  exists "Schema", [("type", JStr "object"); ("properties", JObj [("id", JNull)])], "properties", "Schema",
    (JObj [("id", JNull)]). split.
  - eapply (stands_one places2 "Specification" _ "components" "Components"); [apply (bool_decide_unpack _); vm_compute; exact I| |].
    + exists "components". split; [|reflexivity]. do 2 right. left.
    + eapply (stands_several places2 "Components" _ "schemas" "Schema").
      * right. apply (bool_decide_unpack _). vm_compute. exact I.
      * exists "schemas". split; [left|reflexivity].
      * exists "Ping". left.
      * constructor.
  - split; [apply (bool_decide_unpack _); vm_compute; exact I|]. split.
    + exists "properties". split; [right; left|reflexivity].
    + exists "id". left.
Qed.
(** A reference that is too short, and a location without a path. *)
Example C115_v2_other_ex :
  let doc message :=
    JObj [("channels", JObj [("pings", JObj [("subscribe", JObj [("message", JObj message)])])])] in
  let short := doc [("$ref", JStr "#/Ping")] in
  let lost := doc [("correlationId", JObj [("location", JStr "$message.header#id")])] in
  let good := doc [("$ref", JStr "#/components/messages/Ping");
                   ("correlationId", JObj [("location", JStr "$message.header#/id")])] in
  is_read V2 short /\ metadata2 (read_as V2 short) = true /\
  is_read V2 lost /\ metadata2 (read_as V2 lost) = true /\
  is_read V2 good /\ metadata2 (read_as V2 good) = false.
Proof. repeat (split; [first [read_document|vm_compute; reflexivity]|]). vm_compute. reflexivity. Qed.

(** Version 3, metadata: every entry may be null; what panics is a location without a path, and one that goes
    through a property that is null. *)
Theorem C115_v3_locations j v :
  document V3 j v ->
  (metadata3 v = true <->
   exists m, stands messages3 "Specification" j "Message" m /\ (no_path m \/ lost_location m)).
Proof.
  intros [Ht Hd]. rewrite (metadata3_bad j v Ht Hd). split.
  - intros (o & y & Hs & [[-> H]|(kvs & k & o' & x & _ & H & _)]); [eauto|by apply elem_of_nil in H].
  - intros (m & Hs & H). exists "Message", m. split; [done|]. by left.
Qed.
Print Assumptions C115_v3_locations.
Definition doc3 (location : string) (id : json) : json :=
  JObj [("components", JObj [("messages", JObj
    [("Ping", JObj [("correlationId", JObj [("location", JStr location)]);
                    ("headers", JObj [("type", JStr "object"); ("properties", JObj [("id", id)])])])])])].
Example C115_v3_locations_ex :
  is_read V3 (doc3 "$message.header#/id" JNull) /\ metadata3 (read_as V3 (doc3 "$message.header#/id" JNull)) = false /\
  is_read V3 (doc3 "$message.header#/id/of" JNull) /\
  metadata3 (read_as V3 (doc3 "$message.header#/id/of" JNull)) = true /\
  is_read V3 (doc3 "$message.header#/id/of" (JObj [])) /\
  metadata3 (read_as V3 (doc3 "$message.header#/id/of" (JObj []))) = false /\
  is_read V3 (doc3 "$message.header#" (JObj [])) /\ metadata3 (read_as V3 (doc3 "$message.header#" (JObj []))) = true.
Proof. repeat (split; [first [read_document|vm_compute; reflexivity]|]). vm_compute. reflexivity. Qed.

(** Version 3, dependencies: exactly a null among alternatives or traits panics, if no error comes first. *)
Theorem C115_v3_composed j v :
  document V3 j v -> (dependencies3 v = true <-> null_entry composed3 j).
Proof. intros [Ht Hd]. by apply dependencies3_bad. Qed.
Print Assumptions C115_v3_composed.
(** Version 3, imports, for any generation: a component or one of its properties that is null. *)
Theorem C115_v3_imports j v :
  document V3 j v -> (imports3 v = true <-> null_entry components3 j).
Proof. intros [Ht Hd]. by apply imports3_bad. Qed.
Print Assumptions C115_v3_imports.
(** Version 3, generation of an application or a user: an operation that is null. *)
Theorem C115_v3_operations j v :
  document V3 j v -> (operations3 v = true <-> null_entry operations_of3 j).
Proof. intros [Ht Hd]. by apply operations3_bad. Qed.
Print Assumptions C115_v3_operations.
(** A schema with nothing as a component, as an alternative and as a pattern; an operation with nothing. *)
Definition doc3s (component alternative pattern operation : json) : json :=
  JObj [("operations", JObj [("sendPing", operation)]);
        ("components", JObj [("schemas", JObj
           [("Ping", JObj [("allOf", JArr [JObj [("type", JStr "object")]; alternative]);
                           ("patternProperties", JObj [("^x", pattern)])]);
            ("Pong", component)])])].
Example C115_v3_ex :
  let some := JObj [] in
  Forall (is_read V3) [doc3s JNull some some some; doc3s some JNull some some; doc3s some some JNull some;
                       doc3s some some some JNull] /\
  map (fun d => let v := read_as V3 d in (metadata3 v, dependencies3 v, imports3 v, operations3 v))
    [doc3s JNull some some some; doc3s some JNull some some; doc3s some some JNull some; doc3s some some some JNull] =
  [(false, false, true, false); (false, true, false, false); (false, false, false, false);
   (false, false, false, true)].
Proof.
  split; [|vm_compute; reflexivity].
  apply Forall_cons_2; [read_document|]. apply Forall_cons_2; [read_document|].
  apply Forall_cons_2; [read_document|]. apply Forall_cons_2; [read_document|]. apply Forall_nil_2.
Qed.

(** Documents where no entry of a map or list is null: only references that are too short (version 2) and locations
    without a path are left. *)
Theorem C115_full2 j v :
  document V2 j v -> full (fields V2) (TStruct "Specification") j -> metadata2 v = true ->
  (exists o, stands places2 "Specification" j "Operation" o /\ short_reference o) \/
  (exists m, stands places2 "Specification" j "Message" m /\ no_path m).
Proof.
  intros Hd Hf H. apply (C115_v2 j v Hd) in H as [H|H]; [|done]. exfalso. revert H.
  apply (full_no_null (fields V2) places2); [vm_compute; reflexivity..|done].
Qed.
Print Assumptions C115_full2.
Theorem C115_full3 j v :
  document V3 j v -> full (fields V3) (TStruct "Specification") j ->
  dependencies3 v = false /\ imports3 v = false /\ operations3 v = false /\
  (metadata3 v = true -> exists m, stands messages3 "Specification" j "Message" m /\ no_path m).
Proof.
  intros Hd Hf. split; [|split; [|split]].
  - apply not_true_iff_false. intros H. apply (C115_v3_composed j v Hd) in H. revert H.
    apply (full_no_null (fields V3) composed3); [vm_compute; reflexivity..|done].
  - apply not_true_iff_false. intros H. apply (C115_v3_imports j v Hd) in H. revert H.
    apply (full_no_null (fields V3) components3); [vm_compute; reflexivity..|done].
  - apply not_true_iff_false. intros H. apply (C115_v3_operations j v Hd) in H. revert H.
    apply (full_no_null (fields V3) operations_of3); [vm_compute; reflexivity..|done].
  - intros H. apply (C115_v3_locations j v Hd) in H as (m & Hs & [H|H]); [eauto|]. exfalso. revert H.
    apply full_not_lost. apply (full_stands (fields V3) messages3) in Hs; [done|vm_compute; reflexivity..|done].
Qed.
Print Assumptions C115_full3.
Example C115_full_ex :
  let doc2 := doc2 (JObj []) (JObj []) (JObj []) in
  let doc3 := doc3 "$message.header#/id/of" (JObj []) in
  is_read V2 doc2 /\ full (fields V2) (TStruct "Specification") doc2 /\ metadata2 (read_as V2 doc2) = false /\
  is_read V3 doc3 /\ full (fields V3) (TStruct "Specification") doc3 /\ metadata3 (read_as V3 doc3) = false.
Proof.
  intros d2 d3. split; [read_document|]. split; [apply solid_full; [vm_compute; reflexivity|eexists; vm_compute; reflexivity]|].
  split; [vm_compute; reflexivity|].
  split; [read_document|]. split; [apply solid_full; [vm_compute; reflexivity|eexists; vm_compute; reflexivity]|].
  vm_compute. reflexivity.
Qed.
