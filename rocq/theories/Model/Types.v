(** The generated Go types: pkg/codegen/generators/v3/templates/schema_definition.tmpl, schema_name.tmpl,
    marshaling/time.tmpl and helpers.go:17-41, 130-132 (the same in v2), pkg/utils/template/helpers.go:147-154. *)
From stdpp Require Import list strings.
From Coq Require Import String.
Local Open Scope string_scope.

(** A schema after processing, as the templates see it: its name (already in the form given by
    Namify), type ("" when absent), format, custom Go type ("" when absent), properties by increasing
    key, the order in which text/template visits a map, with whether the field is required, items, additional properties, and
    the name of the schema it refers to.  Simplifications: [anyOf], [oneOf] and [allOf] have been merged by
    the processing, which sets the type to object (schema.go:326), so that the branch of
    schema_name.tmpl:53-68 is not reached; descriptions and tags are elsewhere (Validations.v). *)
Inductive gschema :=
  GSchema (name type format ext : string) (props : list (string * (bool * gschema)))
    (items addl : option gschema) (ref : option string).
Definition g_name (s : gschema) : string := let 'GSchema n _ _ _ _ _ _ _ := s in n.
Definition g_type (s : gschema) : string := let 'GSchema _ t _ _ _ _ _ _ := s in t.
Definition g_props (s : gschema) := let 'GSchema _ _ _ _ p _ _ _ := s in p.
Definition g_items (s : gschema) := let 'GSchema _ _ _ _ _ i _ _ := s in i.

(** Go types. [TBroken]: only a comment is written. *)
Inductive gotype :=
| TNamed (n : string) | TBool | TString | TDate | TTime | TInt32 | TInt64 | TFloat32 | TFloat64
| TSlice (t : gotype) | TCustom (t : string) | TInterface | TBroken.

(** pkg/utils/template/helpers.go:147-154; [dates] is false when the generation of dates is disabled. *)
Definition is_date_generated (dates : bool) (format : string) : bool :=
  dates && (String.eqb format "date" || String.eqb format "date-time").

(** schema_name.tmpl:1-81. [None]: the execution of the template fails, when an array has no items
    (39: a field of a nil pointer is evaluated). *)
Fixpoint schema_name (dates : bool) (s : gschema) : option gotype :=
  match s with
  | GSchema name type format ext _ items _ ref =>
      if negb (String.eqb ext "") then Some (TCustom ext)
      else if negb (String.eqb type "") then
        if String.eqb type "object" then Some (TNamed name)
        else if String.eqb type "boolean" then Some TBool
        else if String.eqb type "string" then
          if is_date_generated dates format && String.eqb format "date" then Some TDate
          else if is_date_generated dates format && String.eqb format "date-time" then Some TTime
          else Some TString
        else if String.eqb type "integer" then Some (if String.eqb format "int32" then TInt32 else TInt64)
        else if String.eqb type "array" then
          match items with Some it => TSlice <$> schema_name dates it | None => None end
        else if String.eqb type "number" then Some (if String.eqb format "float" then TFloat32 else TFloat64)
        else Some TBroken
      else match ref with Some n => Some (TNamed n) | None => Some TInterface end
  end.

(** helpers.go:130-132 [isFieldPointer]; [force]: after ForcePointerOnFields (135-139). *)
Definition is_field_pointer (force : bool) (required : bool) (p : gschema) : bool :=
  if force then negb (String.eqb (g_type p) "array")
  else negb required && negb (String.eqb (g_type p) "array").

Record field := mkField { f_key : string; f_pointer : bool; f_type : gotype }.
(** A type definition: a structure with its fields and the type of its additional properties, or another type and whether the
    marshalling functions of marshaling/time.tmpl follow. *)
Inductive gdef :=
| DStruct (fields : list field) (addl : option gotype)
| DType (t : gotype) (time_marshalling : bool).

(** schema_definition.tmpl:11-42: the definition itself. *)
Definition own_definition (dates force : bool) (s : gschema) : option (string * gdef) :=
  match s with
  | GSchema name type format _ props _ addl _ =>
      if String.eqb type "object" then
        fs ← mapM (fun kp : string * (bool * gschema) =>
               t ← schema_name dates kp.2.2;
               Some (mkField kp.1 (is_field_pointer force kp.2.1 kp.2.2) t)) props;
        match addl with
        | Some a => t ← schema_name dates a; Some (name, DStruct fs (Some t))
        | None => Some (name, DStruct fs None)
        end
      else t ← schema_name dates s; Some (name, DType t (is_date_generated dates format))
  end.

(** helpers.go:30-38: which definition a child gives rise to, if any. *)
Definition child_definition {A} (define : gschema -> option (list A)) (c : gschema) : option (list A) :=
  match c with
  | GSchema _ type _ _ _ items _ _ =>
      if String.eqb type "object" then define c
      else if String.eqb type "array" then
        match items with
        | Some it => if String.eqb (g_type it) "object" then define it else Some []
        | None => Some []
        end
      else Some []
  end.

(** schema_definition.tmpl:1-51 with helpers.go:17-41 [GetChildrenObjectSchemas] inlined. [order]: the order
    in which MapToList (pkg/utils/map.go:4-10) visits the properties. *)
Definition visit := list (list (string * gdef)) -> list (list (string * gdef)).
Fixpoint schema_definition (order : visit) (dates force : bool) (s : gschema) : option (list (string * gdef)) :=
  match s with
  | GSchema name type format ext props items addl ref =>
      own ← own_definition dates force s;
      subs ← (if String.eqb type "object" || String.eqb type "array" then
                ps ← mapM (fun kp => child_definition (schema_definition order dates force) kp.2.2) props;
                is ← match items with Some it => child_definition (schema_definition order dates force) it | None => Some [] end;
                as_ ← match addl with Some a => child_definition (schema_definition order dates force) a | None => Some [] end;
                Some (List.concat (order ps) ++ is ++ as_)%list
              else Some []);
      Some (own :: subs)
  end.

(** types.tmpl:83-85: the schemas of the components. *)
Definition define_all (order : visit) (dates force : bool) (cs : list gschema) : option (list (string * gdef)) :=
  @List.concat _ <$> mapM (schema_definition order dates force) cs.
