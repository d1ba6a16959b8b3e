(** What a run of the command should do. *)
From stdpp Require Import gmap list strings.
From Coq Require Import ZArith Ascii String.
From Verif.Model Require Import Reference Parser Options Command.
From Verif.Spec Require Import ParserSpec OptionsSpec.
Local Open Scope string_scope.
Local Open Scope list_scope.

(** The value of a flag: the last one given, or the default. *)
Definition never (name : string) (args : list (string * string)) : Prop := forall v, (name, v) ∉ args.
Definition value_of (args : list (string * string)) (name by_default v : string) : Prop :=
  (exists before_ after_, args = before_ ++ (name, v) :: after_ /\ never name after_) \/ (never name args /\ v = by_default).
(** The same for flags that are true or false. *)
Definition says (v : string) (b : bool) : Prop :=
  if b then v ∈ ["1"; "t"; "T"; "true"; "TRUE"; "True"] else v ∈ ["0"; "f"; "F"; "false"; "FALSE"; "False"].
Definition on (args : list (string * string)) (name : string) (b : bool) : Prop := exists v, value_of args name "false" v /\ says v b.

(** A list of paths: separated by commas, none in an empty text; with quotes or lines, as csv has it. *)
Definition letter_in (c : ascii) (s : string) : Prop := c ∈ list_ascii_of_string s.
Definition unusual (v : string) : Prop := letter_in """" v \/ letter_in "010" v \/ letter_in "013" v.
Definition listed (csv : string -> option (list string)) (v : string) (l : list string) : Prop :=
  (v = "" /\ l = []) \/ (v <> "" /\ unusual v /\ csv v = Some l) \/
  (v <> "" /\ ~ unusual v /\ comma_separated l = v /\ l <> [] /\ Forall (fun x => ~ letter_in "," x) l).
(** The inputs: all those given, in order, or asyncapi.yaml. *)
Inductive inputs_given (csv : string -> option (list string)) : list (string * string) -> list string -> Prop :=
| inputs_nil : inputs_given csv [] []
| inputs_cons v l r rest : listed csv v l -> inputs_given csv r rest -> inputs_given csv (("input", v) :: r) (l ++ rest)
| inputs_other n v r rest : n <> "input" -> inputs_given csv r rest -> inputs_given csv ((n, v) :: r) rest.
Definition inputs (csv : string -> option (list string)) (args : list (string * string)) (l : list string) : Prop :=
  inputs_given csv args l /\ ~ never "input" args \/ never "input" args /\ l = ["asyncapi.yaml"].

(** Flags that exist, with values they can have. *)
Definition text_flags : list string := ["output"; "package"; "generate"; "convert-keys"; "naming-scheme"].
Definition switches : list string := ["disable-formatting"; "ignore-string-format"; "force-pointers"].
Definition allowed (csv : string -> option (list string)) (nv : string * string) : Prop :=
  nv.1 ∈ text_flags \/ (nv.1 ∈ switches /\ exists b, says nv.2 b) \/ (nv.1 = "input" /\ exists l, listed csv nv.2 l).

(** What is asked for. *)
Record wanted (csv : string -> option (list string)) (args : list (string * string)) (path : string) (deps : list string) (out pkg : string) (xs : list part)
    (raw : bool) (o : options) : Prop := {
  wt_flags : Forall (allowed csv) args;
  wt_inputs : inputs csv args (path :: deps);
  wt_output : value_of args "output" "asyncapi.gen.go" out;
  wt_package : value_of args "package" "asyncapi" pkg;
  wt_parts : exists v, value_of args "generate" "user,application,types" v /\ v = comma_separated (map word xs);
  wt_raw : on args "disable-formatting" raw;
  wt_convert : value_of args "convert-keys" "none" (o_convert o);
  wt_naming : value_of args "naming-scheme" "none" (o_namify o);
  wt_ignore : on args "ignore-string-format" (o_ignore o);
  wt_force : on args "force-pointers" (o_force o);
}.

(** The documents: each readable, of the kind its name says; the first says its version, and all have the form of that version. *)
Definition read_as (path : string) (f : file) (d : document) : Prop :=
  as_yaml f = Some d /\ (named path ".yaml" \/ named path ".yml") \/ as_json f = Some d /\ named path ".json".
Record documents (reading : string -> file) (w : files) (path : string) (deps : list string) (c : codegen) : Prop := {
  dc_file : w !! path = Some (c_text c);
  dc_version : exists d v, read_as path (reading (c_text c)) d /\ declares d v /\ version_of v (c_major c) /\ fits d (c_major c) = true;
  dc_dependencies : Forall2 (fun p pt => pt.1 = p /\ w !! p = Some pt.2 /\ exists d, read_as p (reading pt.2) d /\ fits d (c_major c) = true) deps (c_dependencies c);
}.

(** What is written: the text generated for the documents and the options, formatted unless told otherwise. *)
Definition makes (content : codegen -> settings -> string -> parts -> res string) (format : string -> option string)
    (c : codegen) (pkg : string) (xs : list part) (raw : bool) (o : options) (text : string) : Prop :=
  accepted o /\ exists p t, (forall x, chosen p x <-> x ∈ xs) /\ content c (asked o) pkg p = Ok t /\ (if raw then text = t else format t = Some text).
