(** Choice of the parser.
    Modelled code: pkg/asyncapi/parser/parse.go:43-182, pkg/asyncapi/versions.go:4-26 and
    pkg/codegen/codegen.go:29-54 (FromFile). Not modelled: the JSON and YAML readers themselves and
    reading files; a document is what they give. *)
From stdpp Require Import gmap list strings.
From Coq Require Import ZArith Ascii String.
From Verif.Model Require Import GoStrings Reference.
Local Open Scope string_scope.

Inductive major := V2 | V3.

(** A member of the JSON object: a string or something else. *)
Inductive member := MString (s : string) | MOther.

(** What json.Unmarshal gives: the members of the object ([None]: not an object), and whether the
    document can be stored in the structure of the major version. *)
Record document := mkDocument { members : option (gmap string member); fits : major -> bool }.

(** pkg/asyncapi/versions.go:4-14 *)
Definition supported_versions : list string :=
  ["2.0.0"; "2.1.0"; "2.2.0"; "2.3.0"; "2.4.0"; "2.5.0"; "2.6.0"; "3.0.0"].

(** versions.go:17-25 *)
Fixpoint is_version_supported (l : list string) (version : string) : bool :=
  match l with
  | [] => false
  | v :: r => if String.eqb v version then true else is_version_supported r version
  end.

(** parse.go:142-168 *)
Definition version_from_json (d : document) : res string :=
  match members d with
  | None => Err
  | Some m =>
      match m !! "asyncapi" with
      | None => Err
      | Some MOther => Err
      | Some (MString v) => if is_version_supported supported_versions v then Ok v else Err
      end
  end.

(** strconv.Atoi on one byte. *)
Definition atoi1 (c : ascii) : res Z :=
  let n := Z.of_nat (nat_of_ascii c) in
  if (Z.leb 48 n && Z.leb n 57)%bool then Ok (n - 48)%Z else Err.

(** parse.go:170-182; slicing an empty string panics. *)
Definition major_version_from_json (d : document) : res Z :=
  match version_from_json d with
  | Ok "" => Panic
  | Ok (String c _) => atoi1 c
  | Err => Err
  | Panic => Panic
  end.

(** parse.go:111-140 *)
Definition from_json (forced : Z) (d : document) : res major :=
  let v := if (forced =? 0)%Z then major_version_from_json d else Ok forced in
  let read m := if fits d m then Ok m else Err in
  match v with
  | Panic => Panic
  | Err => Err
  | Ok n => if (n =? 2)%Z then read V2 else if (n =? 3)%Z then read V3 else Err
  end.

(** filepath.Ext: the suffix beginning at the last dot of the last element. *)
Fixpoint ext_from (s : string) (acc : string) : string :=
  match s with
  | "" => acc
  | String c r =>
      if Ascii.eqb c "/" then ext_from r ""
      else if Ascii.eqb c "." then ext_from r s
      else ext_from r acc
  end.
Definition ext (path : string) : string := ext_from path "".

(** parse.go:43-63; [file]: the content read as JSON or as YAML, [None] if that failed (59: the
    error of an unknown extension). *)
Record file := mkFile { as_json : option document; as_yaml : option document }.
Definition from_file (path : string) (forced : Z) (f : file) : res major :=
  let go d := match d with Some d => from_json forced d | None => Err end in
  let e := ext path in
  if (String.eqb e ".yaml" || String.eqb e ".yml")%bool then go (as_yaml f)
  else if String.eqb e ".json" then go (as_json f)
  else Err.

Definition major_number (m : major) : Z := match m with V2 => 2 | V3 => 3 end.

(** codegen.go:29-54: the dependencies are read with the major version of the specification. The
    result is the major version of the specification and of every dependency. *)
Fixpoint read_dependencies (m : major) (deps : list (string * file)) : res (list (string * major)) :=
  match deps with
  | [] => Ok []
  | (p, f) :: r =>
      match from_file p (major_number m) f with
      | Ok v => match read_dependencies m r with Ok l => Ok ((p, v) :: l) | e => e end
      | Err => Err
      | Panic => Panic
      end
  end.
Definition load (path : string) (f : file) (deps : list (string * file)) : res (major * list (string * major)) :=
  match from_file path 0 f with
  | Ok m => match read_dependencies m deps with Ok l => Ok (m, l) | Err => Err | Panic => Panic end
  | Err => Err
  | Panic => Panic
  end.
