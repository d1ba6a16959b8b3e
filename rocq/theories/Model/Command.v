(** The command asyncapi-codegen: its flags, what it reads and what it writes.
    Modelled code: cmd/asyncapi-codegen/main.go:12-47, config.go:17-101, pkg/codegen/codegen.go:29-54 and 84-124.
    Not modelled: cobra and pflag, which find the flags in the arguments and call Set for each in turn (the model begins there; help and completion are
    not modelled, other arguments are ignored); csv with quotes or several lines ([csv]); the formatting of Go code ([format]); what Process and the
    generators do ([content]: see the other models). *)
From stdpp Require Import gmap list strings.
From Coq Require Import ZArith Ascii String.
From Verif.Model Require Import GoStrings Reference Parser Options.
Local Open Scope string_scope.

(** config.go:17-52, without Broker, which nothing sets or reads. *)
Record flags := mkFlags {
  f_input : list string; f_output : string; f_package : string; f_generate : string;
  f_disable : bool; f_convert : string; f_naming : string; f_ignore : bool; f_force : bool;
  (* pflag's stringSliceValue.changed *)
  f_changed : bool }.
(** config.go:55-70: the defaults. *)
Definition default_flags : flags :=
  mkFlags ["asyncapi.yaml"] "asyncapi.gen.go" "asyncapi" "user,application,types" false "none" "none" false false false.

(** strconv.ParseBool *)
Definition parse_bool (v : string) : option bool :=
  if bool_decide (v ∈ ["1"; "t"; "T"; "TRUE"; "true"; "True"]) then Some true
  else if bool_decide (v ∈ ["0"; "f"; "F"; "FALSE"; "false"; "False"]) then Some false
  else None.

Fixpoint contains (c : ascii) (s : string) : bool :=
  match s with "" => false | String a r => (Ascii.eqb a c || contains c r)%bool end.

Section command.
  (** encoding/csv on a text with quotes or line ends. *)
  Variable csv : string -> option (list string).

  (** pflag's readAsCSV. *)
  Definition read_as_csv (v : string) : option (list string) :=
    if String.eqb v "" then Some []
    else if (contains """" v || contains "010" v || contains "013" v)%bool then csv v
    else Some (split "," v).

  (** config.go:55-70, the names, and pflag's Set for each type of flag. [None]: an error. *)
  Definition set_flag (name value : string) (f : flags) : option flags :=
    if String.eqb name "input" then
      l ← read_as_csv value;
      Some (mkFlags (if f_changed f then f_input f ++ l else l)%list (f_output f) (f_package f) (f_generate f) (f_disable f) (f_convert f) (f_naming f) (f_ignore f) (f_force f) true)
    else if String.eqb name "output" then
      Some (mkFlags (f_input f) value (f_package f) (f_generate f) (f_disable f) (f_convert f) (f_naming f) (f_ignore f) (f_force f) (f_changed f))
    else if String.eqb name "package" then
      Some (mkFlags (f_input f) (f_output f) value (f_generate f) (f_disable f) (f_convert f) (f_naming f) (f_ignore f) (f_force f) (f_changed f))
    else if String.eqb name "generate" then
      Some (mkFlags (f_input f) (f_output f) (f_package f) value (f_disable f) (f_convert f) (f_naming f) (f_ignore f) (f_force f) (f_changed f))
    else if String.eqb name "disable-formatting" then
      b ← parse_bool value;
      Some (mkFlags (f_input f) (f_output f) (f_package f) (f_generate f) b (f_convert f) (f_naming f) (f_ignore f) (f_force f) (f_changed f))
    else if String.eqb name "convert-keys" then
      Some (mkFlags (f_input f) (f_output f) (f_package f) (f_generate f) (f_disable f) value (f_naming f) (f_ignore f) (f_force f) (f_changed f))
    else if String.eqb name "naming-scheme" then
      Some (mkFlags (f_input f) (f_output f) (f_package f) (f_generate f) (f_disable f) (f_convert f) value (f_ignore f) (f_force f) (f_changed f))
    else if String.eqb name "ignore-string-format" then
      b ← parse_bool value;
      Some (mkFlags (f_input f) (f_output f) (f_package f) (f_generate f) (f_disable f) (f_convert f) (f_naming f) b (f_force f) (f_changed f))
    else if String.eqb name "force-pointers" then
      b ← parse_bool value;
      Some (mkFlags (f_input f) (f_output f) (f_package f) (f_generate f) (f_disable f) (f_convert f) (f_naming f) (f_ignore f) b (f_changed f))
    else None.
  Fixpoint set_flags (args : list (string * string)) (f : flags) : option flags :=
    match args with
    | [] => Some f
    | (n, v) :: r => f' ← set_flag n v f; set_flags r f'
    end.

  (** options.go:14-43: what Generate is given. config.go:73-101. *)
  Record asked_for := mkAsked { a_output : string; a_package : string; a_parts : parts; a_disable : bool; a_options : options }.
  Definition to_codegen_options (f : flags) : option asked_for :=
    p ← to_options (f_generate f);
    Some (mkAsked (f_output f) (f_package f) p (f_disable f) (mkOptions (f_convert f) (f_naming f) (f_ignore f) (f_force f))).

  (** Files: their contents by path; a path that cannot be read has none. What os.WriteFile does with a path: it cannot be opened, it is written, or
      writing stops after some bytes (the file was emptied when it was opened). *)
  Definition files := gmap string string.
  Inductive writing := Refused | Written | Cut (n : nat).
  Variable writing_to : string -> writing.
  Fixpoint first (n : nat) (s : string) : string :=
    match n, s with S n, String a r => String a (first n r) | _, _ => "" end.
  Definition write_file (path text : string) (w : files) : bool * files :=
    match writing_to path with
    | Refused => (false, w)
    | Written => (true, <[path := text]> w)
    | Cut n => (false, <[path := first n text]> w)
    end.

  (** What the readers make of a content (Parser.v). *)
  Variable reading : string -> file.
  (** codegen.go:29-54; parse.go:43-47: os.ReadFile. Each file is read when its turn comes. *)
  Fixpoint dependencies (w : files) (m : major) (paths : list string) : res (list (string * string)) :=
    match paths with
    | [] => Ok []
    | p :: r =>
        match w !! p with
        | None => Err
        | Some t =>
            match from_file p (major_number m) (reading t) with
            | Ok _ => match dependencies w m r with Ok l => Ok ((p, t) :: l) | Err => Err | Panic => Panic end
            | Err => Err
            | Panic => Panic
            end
        end
    end.
  (** A code generator: the version, the content of the document, the dependencies with theirs. *)
  Record codegen := mkCodegen { c_major : major; c_text : string; c_dependencies : list (string * string) }.
  Definition from_files (w : files) (path : string) (deps : list string) : res codegen :=
    match w !! path with
    | None => Err
    | Some t =>
        match from_file path 0 (reading t) with
        | Ok m => match dependencies w m deps with Ok l => Ok (mkCodegen m t l) | Err => Err | Panic => Panic end
        | Err => Err
        | Panic => Panic
        end
    end.

  (** Process and the generators: the text, from the documents, the settings, the package and the parts. *)
  Variable content : codegen -> settings -> string -> parts -> res string.
  (** imports.Process *)
  Variable format : string -> option string.

  Inductive outcome := Success | Failure | Crash.
  (** codegen.go:84-124 *)
  Definition generate_to (w : files) (c : codegen) (a : asked_for) : outcome * files :=
    match (generate (a_options a) initial).2 with
    | None => (Failure, w)
    | Some g =>
        match content c g (a_package a) (a_parts a) with
        | Panic => (Crash, w)
        | Err => (Failure, w)
        | Ok t =>
            match (if a_disable a then Some t else format t) with
            | None => (Failure, w)
            | Some t =>
                match write_file (a_output a) t w with
                | (true, w') => (Success, w')
                | (false, w') => (Failure, w')
                end
            end
        end
    end.
  (** main.go:22-47: [flags.InputPaths[0]] of no paths panics; Failure: the exit status is 1. *)
  Definition run (args : list (string * string)) (w : files) : outcome * files :=
    match set_flags args default_flags with
    | None => (Failure, w)
    | Some f =>
        match f_input f with
        | [] => (Crash, w)
        | path :: deps =>
            match from_files w path deps with
            | Panic => (Crash, w)
            | Err => (Failure, w)
            | Ok c =>
                match to_codegen_options f with
                | None => (Failure, w)
                | Some a => generate_to w c a
                end
            end
        end
    end.
End command.
