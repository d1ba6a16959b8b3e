(** C48, C65: which documents are accepted. *)
From stdpp Require Import gmap list strings.
From Coq Require Import ZArith String.
From Verif.Model Require Import Reference Parser.
From Verif.Spec Require Import ParserSpec.
From Verif.Proof Require Import ParserProof.
Local Open Scope string_scope.

(** Without a forced major version a document is accepted exactly when it declares one of the
    supported versions and has the shape of that major version, which is then the one used. *)
Theorem C48_accepted d m : from_json 0 d = Ok m <-> exists v, declares d v /\ version_of v m /\ fits d m = true.
Proof. exact (from_json_spec d m). Qed.
Definition doc_of (v : string) : document := mkDocument (Some {["asyncapi" := MString v]}) (fun _ => true).
Example C48_accepted_ex :
  from_json 0 (doc_of "2.4.0") = Ok V2 /\ from_json 0 (doc_of "3.0.0") = Ok V3 /\
  from_json 0 (doc_of "2.7.0") = Err /\ from_json 0 (doc_of "3.0.1") = Err /\ from_json 0 (doc_of "") = Err /\
  from_json 0 (mkDocument (Some ∅) (fun _ => true)) = Err /\ from_json 0 (mkDocument None (fun _ => true)) = Err.
Proof. repeat split; vm_compute; reflexivity. Qed.

(** With a major version asked for (dependencies), the document is read in that version, if there is one. *)
Theorem C48_forced forced d m : forced <> 0%Z -> from_json forced d = Ok m <-> forced = major_number m /\ fits d m = true.
Proof.
  intros N. unfold from_json. apply Z.eqb_neq in N. rewrite N. split.
  - destruct (Z.eqb_spec forced 2) as [->|]; [destruct (fits d V2) eqn:F; [|discriminate]; intros [= <-]; auto|].
    destruct (Z.eqb_spec forced 3) as [->|]; [destruct (fits d V3) eqn:F; [|discriminate]; intros [= <-]; auto|discriminate].
  - intros [-> F]. destruct m; cbn; now rewrite F.
Qed.
Example C48_forced_ex :
  from_json 3 (doc_of "2.4.0") = Ok V3 /\ from_json 4 (doc_of "3.0.0") = Err /\ from_json 2 (mkDocument None (fun _ => false)) = Err.
Proof. repeat split; vm_compute; reflexivity. Qed.
Print Assumptions C48_forced.

(** A file is accepted exactly when its name has a known extension and its content, read in that
    format, is accepted. *)
Theorem C48_files path forced f m : from_file path forced f = Ok m <->
  (exists d, as_yaml f = Some d /\ (named path ".yaml" \/ named path ".yml") /\ from_json forced d = Ok m) \/
  (exists d, as_json f = Some d /\ named path ".json" /\ from_json forced d = Ok m).
Proof. exact (from_file_spec path forced f m). Qed.
Example C48_files_ex :
  let f := mkFile (Some (doc_of "2.0.0")) (Some (doc_of "3.0.0")) in
  from_file "a.json/b.yml" 0 f = Ok V3 /\ from_file "a.yaml.json" 0 f = Ok V2 /\ from_file "a.txt" 0 f = Err /\
  from_file "json" 0 f = Err.
Proof. repeat split; vm_compute; reflexivity. Qed.

(** The choice of the version never panics: the version string is never empty when sliced. *)
Theorem C48_no_panic path forced f : from_file path forced f <> Panic.
Proof. exact (from_file_not_panic path forced f). Qed.

(** C65: a dependency of another major version is refused. Refuted: dependencies are read with the
    major version of the specification, whatever they declare. *)
Theorem C65_refuted : exists path f deps l,
  load path f deps = Ok (V3, l) /\
  exists p df d, (p, df) ∈ deps /\ as_yaml df = Some d /\ declares d "2.6.0" /\ (p, V3) ∈ l.
Proof.
  exists "main.yaml", (mkFile None (Some (doc_of "3.0.0"))), [("dep.yaml", mkFile None (Some (doc_of "2.6.0")))],
    [("dep.yaml", V3)].
  split; [vm_compute; reflexivity|]. exists "dep.yaml", (mkFile None (Some (doc_of "2.6.0"))), (doc_of "2.6.0").
  split; [apply elem_of_list_singleton; reflexivity|]. split; [reflexivity|]. split; [|apply elem_of_list_singleton; reflexivity].
  exists {["asyncapi" := MString "2.6.0"]}. split; reflexivity.
Qed.

(** What does hold: the specification and all its dependencies are read with the same major version,
    which is the one the specification declares. *)
Theorem C65_same_major path f deps m l : load path f deps = Ok (m, l) ->
  Forall (fun pv => pv.2 = m) l /\ l.*1 = deps.*1 /\ from_file path 0 f = Ok m.
Proof.
  unfold load. destruct (from_file path 0 f) as [| |k]; try discriminate.
  destruct (read_dependencies k deps) as [| |r] eqn:E; try discriminate. intros [= <- <-].
  destruct (dependencies_major _ _ _ E). auto.
Qed.
(** Exactly what is loaded: what the dependencies declare, or whether they declare anything, is of no account; they only have to be in a known
    format and of the shape that the specification has. *)
Theorem C65_exact path f deps m l : load path f deps = Ok (m, l) <->
  from_file path 0 f = Ok m /\ l = map (fun pf => (fst pf, m)) deps /\
  Forall (fun pf => exists d, fits d m = true /\
    ((as_yaml (snd pf) = Some d /\ (named (fst pf) ".yaml" \/ named (fst pf) ".yml")) \/ (as_json (snd pf) = Some d /\ named (fst pf) ".json"))) deps.
Proof.
  assert (D : forall p df, from_file p (major_number m) df = Ok m <-> exists d, fits d m = true /\
    ((as_yaml df = Some d /\ (named p ".yaml" \/ named p ".yml")) \/ (as_json df = Some d /\ named p ".json"))).
  { intros p df. rewrite C48_files. assert (N : (major_number m <> 0)%Z) by (destruct m; discriminate). split.
    - intros [(d & A & B & H)|(d & A & B & H)]; apply (C48_forced _ _ _ N) in H as [_ H]; exists d; split; [exact H|left; split; assumption|exact H|right; split; assumption].
    - intros (d & H & [[A B]|[A B]]); [left|right]; exists d; (split; [exact A|]); (split; [exact B|]); apply (C48_forced _ _ _ N); split; [reflexivity|exact H|reflexivity|exact H]. }
  assert (R : forall l, read_dependencies m deps = Ok l <-> l = map (fun pf => (fst pf, m)) deps /\ Forall (fun pf => from_file (fst pf) (major_number m) (snd pf) = Ok m) deps).
  { clear l D. induction deps as [|[p df] deps IH]; intros l; cbn [read_dependencies map fst snd].
    - split; [intros [= <-]; split; [reflexivity|constructor]|intros [-> _]; reflexivity].
    - split.
      + destruct (from_file p (major_number m) df) as [| |v] eqn:E; try discriminate. destruct (read_dependencies m deps) as [| |l'] eqn:E'; try discriminate.
        intros [= <-]. destruct (proj1 (IH l') eq_refl) as [-> HF].
        assert (v = m) as -> by (apply C48_files in E as [(d & _ & _ & E)|(d & _ & _ & E)]; apply C48_forced in E as [E _]; [destruct v, m; (reflexivity || discriminate)|destruct m; discriminate|destruct v, m; (reflexivity || discriminate)|destruct m; discriminate]).
        split; [reflexivity|]. constructor; [exact E|exact HF].
      + intros [-> HF]. inversion HF as [|? ? A B]. subst. cbn in A. rewrite A. rewrite (proj2 (IH _) (conj eq_refl B)). reflexivity. }
  unfold load. split.
  - destruct (from_file path 0 f) as [| |v] eqn:E; try discriminate. destruct (read_dependencies v deps) as [| |l'] eqn:E'; try discriminate.
    intros [= -> ->]. apply R in E' as [-> HF]. split; [reflexivity|]. split; [reflexivity|]. eapply Forall_impl; [exact HF|]. intros [p df] A. apply D, A.
  - intros (-> & -> & HF). rewrite (proj2 (R (map (fun pf => (fst pf, m)) deps))); [reflexivity|]. split; [reflexivity|]. eapply Forall_impl; [exact HF|]. intros [p df] A. apply D, A.
Qed.
Print Assumptions C65_exact.
Example C65_same_major_ex :
  load "m.json" (mkFile (Some (doc_of "2.0.0")) None) [("a.yaml", mkFile None (Some (doc_of "2.6.0"))); ("b.json", mkFile (Some (doc_of "2.1.0")) None)]
  = Ok (V2, [("a.yaml", V2); ("b.json", V2)]).
Proof. vm_compute. reflexivity. Qed.

Print Assumptions C48_accepted.
Print Assumptions C48_files.
Print Assumptions C48_no_panic.
Print Assumptions C65_refuted.
Print Assumptions C65_same_major.
