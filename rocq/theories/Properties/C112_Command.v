(** C112: a run of the command succeeds exactly when the flags are right, the documents readable, the text made and written; nothing else is touched,
    and a run that fails leaves the files as they were. *)
From stdpp Require Import gmap list strings.
From Coq Require Import ZArith Ascii String.
From Verif.Model Require Import GoStrings Reference Parser Options Command.
From Verif.Spec Require Import ParserSpec OptionsSpec CommandSpec.
From Verif.Proof Require Import CommandProof.
Local Open Scope string_scope.
Local Open Scope list_scope.

Theorem C112_success csv writing_to reading content format args w w' :
  run csv writing_to reading content format args w = (Success, w') <->
  exists path deps out pkg xs raw o c text,
    wanted csv args path deps out pkg xs raw o /\ documents reading w path deps c /\ makes content format c pkg xs raw o text /\
    writing_to out = Written /\ w' = <[out := text]> w.
Proof. exact (run_success csv writing_to reading content format args w w'). Qed.
Print Assumptions C112_success.

(** A run that does not succeed changes nothing, unless writing the output stopped midway. *)
Theorem C112_kept_partial csv writing_to reading content format args w x w' :
  run csv writing_to reading content format args w = (x, w') -> x <> Success ->
  w' = w \/ x = Failure /\ exists path deps out pkg xs raw o c text n,
    wanted csv args path deps out pkg xs raw o /\ documents reading w path deps c /\ makes content format c pkg xs raw o text /\
    writing_to out = Cut n /\ w' = <[out := first n text]> w.
Proof. exact (run_unchanged csv writing_to reading content format args w x w'). Qed.
Print Assumptions C112_kept_partial.

(** It crashes exactly without any input, or where the generators do. *)
Theorem C112_crash csv writing_to reading content format args w w' :
  run csv writing_to reading content format args w = (Crash, w') <->
  w' = w /\ (Forall (allowed csv) args /\ inputs csv args [] \/
    exists path deps out pkg xs raw o c p, wanted csv args path deps out pkg xs raw o /\ documents reading w path deps c /\ accepted o /\
      (forall x, chosen p x <-> x ∈ xs) /\ content c (asked o) pkg p = Panic).
Proof. exact (run_crash csv writing_to reading content format args w w'). Qed.
Print Assumptions C112_crash.

(** Examples: a document and a dependency, both in YAML; the text made is the documents one after the other. *)
Definition no_csv (v : string) : option (list string) := None.
Definition written (p : string) : writing := if String.eqb p "full" then Cut 3 else if String.eqb p "closed" then Refused else Written.
Definition two (v : string) : document := mkDocument (Some {["asyncapi" := MString v]}) (fun m => match m with V2 => true | V3 => false end).
Definition parsed (t : string) : file := if String.eqb t "broken" then mkFile None None else mkFile None (Some (two t)).
Definition made (c : codegen) (s : settings) (pkg : string) (p : parts) : res string :=
  if String.eqb pkg "bug" then Panic else Ok ("package " +:+ pkg +:+ (if p_user p then " user" else "") +:+ (if p_types p then " types" else "") +:+ (if g_pointers s then " pointers" else "")
    +:+ String.concat "" (map snd (c_dependencies c))).
Definition formatted (t : string) : option string := Some (t +:+ "!").
Definition disk : files := {["asyncapi.yaml" := "2.6.0"; "dep.yml" := "2.0.0"; "old.go" := "old"; "bad.yaml" := "broken"; "full" := "previous"]}.
Definition command := run no_csv written parsed made formatted.

Example C112_success_ex :
  command [] disk = (Success, <["asyncapi.gen.go" := "package asyncapi user types!"]> disk) /\
  command [("input", "asyncapi.yaml,dep.yml"); ("generate", "types"); ("output", "x"); ("output", "old.go"); ("disable-formatting", "1"); ("force-pointers", "true"); ("package", "p")] disk
    = (Success, <["old.go" := "package p types pointers2.0.0"]> disk) /\
  command [("input", "asyncapi.yaml"); ("input", "dep.yml")] disk = (Success, <["asyncapi.gen.go" := "package asyncapi user types2.0.0!"]> disk).
Proof. repeat (split; [vm_compute; reflexivity|]). vm_compute. reflexivity. Qed.
Example C112_wanted_ex : exists path deps out pkg xs raw o c text,
  wanted no_csv [("input", "asyncapi.yaml,dep.yml"); ("generate", "types"); ("disable-formatting", "1")] path deps out pkg xs raw o /\
  documents parsed disk path deps c /\ makes made formatted c pkg xs raw o text /\ written out = Written /\ xs = [Types] /\ deps = ["dep.yml"] /\ raw = true.
Proof.
  exists "asyncapi.yaml", ["dep.yml"], "asyncapi.gen.go", "asyncapi", [Types], true, (mkOptions "none" "none" false false), (mkCodegen V2 "2.6.0" [("dep.yml", "2.0.0")]), "package asyncapi types2.0.0".
  split; [apply wanted_spec; eexists; split; [vm_compute; reflexivity|]; repeat (split; [vm_compute; reflexivity|]); vm_compute; reflexivity|].
  split; [apply (proj1 (from_files_spec no_csv written _ _ _ _ _)); vm_compute; reflexivity|]. split; [|done]. split; [split; apply (bool_decide_unpack _); vm_compute; exact I|].
  exists (mkParts false false true), "package asyncapi types2.0.0". split; [|split; [vm_compute; reflexivity|reflexivity]].
  intros x. split; [intros H; apply elem_of_list_singleton|intros H; apply elem_of_list_singleton in H]; destruct x; cbn in *; congruence.
Qed.
Example C112_kept_ex :
  command [("input", "none.yaml")] disk = (Failure, disk) /\ command [("input", "bad.yaml")] disk = (Failure, disk) /\
  command [("generate", "client")] disk = (Failure, disk) /\ command [("convert-keys", "upper")] disk = (Failure, disk) /\
  command [("output", "closed")] disk = (Failure, disk) /\ command [("force-pointers", "yes")] disk = (Failure, disk) /\
  command [("broker", "nats")] disk = (Failure, disk) /\ command [("input", "asyncapi.yaml,bad.yaml")] disk = (Failure, disk).
Proof. repeat (split; [vm_compute; reflexivity|]). vm_compute. reflexivity. Qed.
Example C112_crash_ex : command [("package", "bug")] disk = (Crash, disk) /\ command [("input", "")] disk = (Crash, disk).
Proof. repeat (split; [vm_compute; reflexivity|]). vm_compute. reflexivity. Qed.

(** Claim: a run that does not succeed leaves the output as it was. Refuted: it is emptied before the text is written to it. *)
Theorem C112_cut_refuted : exists args w w' out,
  run no_csv written parsed made formatted args w = (Failure, w') /\ value_of args "output" "asyncapi.gen.go" out /\ w !! out = Some "previous" /\ w' !! out = Some "pac".
Proof.
  exists [("output", "full")], disk. eexists _, "full". split; [vm_compute; reflexivity|]. split; [left; exists [], []; split; [done|]; intros v; apply not_elem_of_nil|]. split; vm_compute; reflexivity.
Qed.
Print Assumptions C112_cut_refuted.

(** Claim: whatever the flags, the command ends with success or an error. Refuted: with an empty list of inputs it reads the first of none. *)
Theorem C112_empty_input_refuted csv writing_to reading content format args w : Forall (allowed csv) args ->
  (forall v, ("input", v) ∈ args -> v = "") -> ("input", "") ∈ args ->
  run csv writing_to reading content format args w = (Crash, w).
Proof.
  intros F H I. apply C112_crash. split; [done|]. left. split; [done|]. left. split; [|intros N; by apply (N "")].
  clear F I. induction args as [|[n v] r IH]; [constructor|]. assert (K : inputs_given csv r []) by (apply IH; intros v' Hv; apply H; by right).
  destruct (decide (n = "input")) as [->|N]; [|by constructor]. rewrite (H v) by left. apply (inputs_cons csv "" [] r []); [by left|done].
Qed.
Print Assumptions C112_empty_input_refuted.
Example C112_empty_input_ex : command [("output", "old.go"); ("input", ""); ("package", "p"); ("input", "")] disk = (Crash, disk).
Proof. repeat (split; [vm_compute; reflexivity|]). vm_compute. reflexivity. Qed.

(** Claim: the documents are left as they are. Refuted: the output may be one of them. *)
Theorem C112_over_refuted : exists args w w' path deps out pkg xs raw o t,
  run no_csv written parsed made formatted args w = (Success, w') /\ wanted no_csv args path deps out pkg xs raw o /\ w !! path = Some t /\ w' !! path <> Some t.
Proof.
  exists [("output", "asyncapi.yaml")], disk. eexists _, "asyncapi.yaml", [], "asyncapi.yaml", "asyncapi", [User; Application; Types], false, (mkOptions "none" "none" false false), "2.6.0".
  split; [vm_compute; reflexivity|]. split; [apply wanted_spec; eexists; split; [vm_compute; reflexivity|]; repeat (split; [vm_compute; reflexivity|]); vm_compute; reflexivity|]. split; [vm_compute; reflexivity|]. vm_compute. discriminate.
Qed.
Print Assumptions C112_over_refuted.

(** Only the output can change, whatever happens. *)
Theorem C112_only_output csv writing_to reading content format args w x w' p :
  run csv writing_to reading content format args w = (x, w') -> w' !! p <> w !! p -> value_of args "output" "asyncapi.gen.go" p.
Proof.
  intros E N. destruct x.
  - apply C112_success in E as (path & deps & out & pkg & xs & raw & o & c & text & W & _ & _ & _ & ->). destruct (decide (p = out)) as [->|D]; [apply W|]. exfalso. apply N. exact (lookup_insert_ne (M := gmap string) w out p text (fun E => D (eq_sym E))).
  - apply C112_kept_partial in E as [->|(_ & path & deps & out & pkg & xs & raw & o & c & text & n & W & _ & _ & _ & ->)]; [done| |done].
    destruct (decide (p = out)) as [->|D]; [apply W|]. exfalso. apply N. exact (lookup_insert_ne (M := gmap string) w out p (first n text) (fun E => D (eq_sym E))).
  - apply C112_crash in E as [-> _]. done.
Qed.
Print Assumptions C112_only_output.
Example C112_only_output_ex : exists w', command [("output", "full")] disk = (Failure, w') /\ w' !! "full" <> disk !! "full".
Proof. eexists. split; [vm_compute; reflexivity|]. vm_compute. discriminate. Qed.
