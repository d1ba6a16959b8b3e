(** Validation constraints of a schema and the struct tags generated from them.
    Modelled code: pkg/asyncapi/schema.go:5-99 (Validations, Merge) and
    pkg/codegen/generators/helpers.go:11-98 (tags). *)
From stdpp Require Import list strings.
From Coq Require Import NArith Ascii String.

(** A JSON value in [enum] or [const]: a string or anything else. *)
Inductive jany := JString (s : string) | JOther.

(** schema.go:5-30. [F]: float64; [T]: pointers to schemas. A nil slice and an empty slice are
    both [[]]; a nil [Const] is [None]. *)
Record validations {F T : Type} := mkValidations {
  vRequired : list string;
  vMultipleOf : list string;
  vMaximum : F;
  vExclusiveMaximum : F;
  vMinimum : F;
  vExclusiveMinimum : F;
  vMaxLength : N;
  vMinLength : N;
  vPattern : string;
  vMaxItems : N;
  vMinItems : N;
  vUniqueItems : bool;
  vMaxProperties : N;
  vMinProperties : N;
  vEnum : list jany;
  vConst : option jany;
  vAllOf : list T;
  vAnyOf : list T;
  vOneOf : list T;
  vIsRequired : bool;
  vShouldOmitEmpty : option bool;
}.
Arguments validations : clear implicits.

Section validations.
  Context {F T : Type}.
  (** [is0 x]: the Go comparison [x == 0]. *)
  Variable is0 : F -> bool.

  Definition over_list {A} (old new : list A) : list A :=
    if (0 <? List.length new)%nat then new else old.
  Definition over_float (old new : F) : F := if negb (is0 new) then new else old.
  Definition over_uint (old new : N) : N := if negb (new =? 0)%N then new else old.
  Definition over_string (old new : string) : string := if negb (String.eqb new "") then new else old.
  Definition over_bool (old new : bool) : bool := if new then new else old.
  Definition over_ptr {A} (old new : option A) : option A :=
    match new with Some _ => new | None => old end.

  (** schema.go:35-99, one assignment per field. *)
  Definition merge (v new : validations F T) : validations F T :=
    {| vRequired := over_list (vRequired v) (vRequired new);
       vMultipleOf := over_list (vMultipleOf v) (vMultipleOf new);
       vMaximum := over_float (vMaximum v) (vMaximum new);
       vExclusiveMaximum := over_float (vExclusiveMaximum v) (vExclusiveMaximum new);
       vMinimum := over_float (vMinimum v) (vMinimum new);
       vExclusiveMinimum := over_float (vExclusiveMinimum v) (vExclusiveMinimum new);
       vMaxLength := over_uint (vMaxLength v) (vMaxLength new);
       vMinLength := over_uint (vMinLength v) (vMinLength new);
       vPattern := over_string (vPattern v) (vPattern new);
       vMaxItems := over_uint (vMaxItems v) (vMaxItems new);
       vMinItems := over_uint (vMinItems v) (vMinItems new);
       vUniqueItems := over_bool (vUniqueItems v) (vUniqueItems new);
       vMaxProperties := over_uint (vMaxProperties v) (vMaxProperties new);
       vMinProperties := over_uint (vMinProperties v) (vMinProperties new);
       vEnum := over_list (vEnum v) (vEnum new);
       vConst := over_ptr (vConst v) (vConst new);
       vAllOf := over_list (vAllOf v) (vAllOf new);
       vAnyOf := over_list (vAnyOf v) (vAnyOf new);
       vOneOf := over_list (vOneOf v) (vOneOf new);
       vIsRequired := over_bool (vIsRequired v) (vIsRequired new);
       vShouldOmitEmpty := over_ptr (vShouldOmitEmpty v) (vShouldOmitEmpty new) |}.

  (** ** Tags (generators/helpers.go) *)

  (** [show]: fmt.Sprintf("%g", x); [of_uint]: float64(n); [convert]: the configured
      template.ConvertKey. *)
  Variable show : F -> string.
  Variable of_uint : N -> F.
  Variable convert : string -> string.

  Local Open Scope string_scope.

  (** 11-16 *)
  Definition directive_if_defined (name : string) (x : F) : list string :=
    if negb (is0 x) then [name ++ "=" ++ show x] else [].

  (** 31-37 *)
  Definition should_add_omit_empty (v : validations F T) : bool :=
    if vIsRequired v then
      match vShouldOmitEmpty v with Some b => b | None => false end
    else
      match vShouldOmitEmpty v with Some b => b | None => true end.

  (** strings.Join(_, ","): [String.concat] with the separator. *)
  Definition join (sep : string) (l : list string) : string := String.concat sep l.

  Definition quote : string := String """" "".

  (** 19-29 *)
  Definition json_tag (v : validations F T) (field : string) : string :=
    "json:" ++ quote ++
    join "," (convert field :: if should_add_omit_empty v then ["omitempty"] else []) ++ quote.

  (** 82-98: [enumsStr] keeps the strings; the directive is generated when nothing was dropped. *)
  Definition enum_strings (l : list jany) : list string :=
    flat_map (fun e => match e with JString s => ["'" ++ s ++ "'"] | JOther => [] end) l.
  Definition enum_directives (v : validations F T) : list string :=
    if (0 <? List.length (vEnum v))%nat then
      let e := enum_strings (vEnum v) in
      if (List.length (vEnum v) =? List.length e)%nat then ["oneof=" ++ join " " e] else []
    else [].

  Definition const_directives (v : validations F T) : list string :=
    match vConst v with Some (JString s) => ["eq=" ++ s] | _ => [] end.

  (** 41-75 without the formatting of the tag. *)
  Definition validate_directives (v : validations F T) (is_pointer : bool) (schema_type : string)
    : list string :=
    ((if (vIsRequired v && (is_pointer || String.eqb schema_type "array"))%bool then ["required"] else []) ++
     directive_if_defined "min" (of_uint (vMinLength v)) ++
     directive_if_defined "max" (of_uint (vMaxLength v)) ++
     directive_if_defined "gte" (vMinimum v) ++
     directive_if_defined "lte" (vMaximum v) ++
     directive_if_defined "gt" (vExclusiveMinimum v) ++
     directive_if_defined "lt" (vExclusiveMaximum v) ++
     (if vUniqueItems v then ["unique"] else []) ++
     enum_directives v ++
     const_directives v)%list.

  (** 66-74 *)
  Definition validate_tag (v : validations F T) (is_pointer : bool) (schema_type : string) : string :=
    let ds := validate_directives v is_pointer schema_type in
    if (0 <? List.length ds)%nat then
      " validate:" ++ quote ++ join "," (if vIsRequired v then ds else "omitempty" :: ds) ++ quote
    else "".

  (** v3/templates/schema_definition.tmpl:18 (and v2): what stands between the back quotes. *)
  Definition field_tag (v : validations F T) (field : string) (is_pointer : bool) (schema_type : string)
    : string := json_tag v field ++ validate_tag v is_pointer schema_type.
End validations.
