(** Options of a generation.
    Modelled code: cmd/asyncapi-codegen/config.go:73-101 (ToCodegenOptions, the generated parts),
    pkg/codegen/generators/v3/generator.go:21-49 (Generate; v2/generator.go is the same),
    pkg/codegen/codegen.go:84-100 with pkg/utils/template/helpers.go:14-30, 87-108, 147-154 and
    generators/v2/templates/helpers.go, v3/templates/helpers.go:130-139 (process-wide settings). *)
From stdpp Require Import list strings.
From Coq Require Import Ascii String.
From Verif.Model Require Import GoStrings.
Local Open Scope string_scope.

(** pkg/codegen/options/options.go:4-11 *)
Record parts := mkParts { p_application : bool; p_user : bool; p_types : bool }.
Definition no_parts : parts := mkParts false false false.

(** config.go:84-97: [None] is ErrInvalidGenerate. *)
Fixpoint select (words : list string) (p : parts) : option parts :=
  match words with
  | [] => Some p
  | w :: r =>
      if String.eqb w "application" then select r (mkParts true (p_user p) (p_types p))
      else if String.eqb w "user" then select r (mkParts (p_application p) true (p_types p))
      else if String.eqb w "types" then select r (mkParts (p_application p) (p_user p) true)
      else None
  end.
(** config.go:73-101 *)
Definition to_options (generate : string) : option parts :=
  if String.eqb generate "" then Some no_parts else select (split "," generate) no_parts.

(** What is written. *)
Inductive part := Application | User | Types.

(** generator.go:27-46: each turn of the loop writes one part and clears its option. [fails]: the
    generation of this part returns an error. [None]: an error; four turns are enough. *)
Fixpoint write (fuel : nat) (fails : part -> bool) (p : parts) : option (list part) :=
  match fuel with
  | 0 => None
  | S fuel =>
      let go x p := if fails x then None else match write fuel fails p with Some l => Some (x :: l) | None => None end in
      if p_application p then go Application (mkParts false (p_user p) (p_types p))
      else if p_user p then go User (mkParts (p_application p) false (p_types p))
      else if p_types p then go Types (mkParts (p_application p) (p_user p) false)
      else Some []
  end.

(** *** Process-wide settings *)
(** The variables convertKey and namify (by the name of their function), isDateOrDateTimeGenerated
    (does it give dates) and isFieldPointer (is it the forced one). *)
Record settings := mkSettings { g_convert : string; g_namify : string; g_dates : bool; g_pointers : bool }.
Definition initial : settings := mkSettings "none" "none" true false.

Record options := mkOptions { o_convert : string; o_namify : string; o_ignore : bool; o_force : bool }.

Definition convert_names : list string := ["snake"; "kebab"; "camel"; "none"].
Definition namify_names : list string := ["camel"; "none"].

(** codegen.go:84-100: the settings afterwards, and those the rest of the generation works with
    ([None]: Generate returned an error before). *)
Definition generate (o : options) (g : settings) : settings * option settings :=
  if bool_decide (o_convert o ∈ convert_names) then
    let g := mkSettings (o_convert o) (g_namify g) (g_dates g) (g_pointers g) in
    if bool_decide (o_namify o ∈ namify_names) then
      let g := mkSettings (g_convert g) (o_namify o) (g_dates g) (g_pointers g) in
      let g := if o_ignore o then mkSettings (g_convert g) (g_namify g) false (g_pointers g) else g in
      let g := if o_force o then mkSettings (g_convert g) (g_namify g) (g_dates g) true else g in
      (g, Some g)
    else (g, None)
  else (g, None).

(** The settings after a sequence of generations. *)
Definition after (os : list options) (g : settings) : settings :=
  fold_left (fun g o => fst (generate o g)) os g.
