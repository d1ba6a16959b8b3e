(** The types of fields along a path, when reads and writes compile, and the values of a type. *)
From stdpp Require Import list strings.
From Coq Require Import String.
From Verif.Model Require Import Types Accessors.
Local Open Scope string_scope.

Section spec.
  Variable defs : string -> option gdef.

  (** From the type [name], the fields of [path] lead to a field which is a pointer or not, of the type [t]; [through]: one of the fields before the last
      is a pointer. *)
  Inductive leads : string -> list string -> bool -> bool -> gotype -> Prop :=
  | leads_last name fs a k f : defs name = Some (DStruct fs a) -> find_field fs k = Some f -> leads name [k] false (f_pointer f) (f_type f)
  | leads_step name fs a k f name' r through p t :
      defs name = Some (DStruct fs a) -> find_field fs k = Some f -> f_type f = TNamed name' -> leads name' r through p t -> r <> [] ->
      leads name (k :: r) (f_pointer f || through) p t.

  (** Go: a string or its address is assigned to the field; the field, or what it points to, is returned as a string. *)
  Inductive compiles (name : string) : access -> Prop :=
  | set_value path through : leads name path through false TString -> compiles name (Set_ path false)
  | set_value_any path through : leads name path through false TInterface -> compiles name (Set_ path false)
  | set_address path through : leads name path through true TString -> compiles name (Set_ path true)
  | set_address_any path through : leads name path through false TInterface -> compiles name (Set_ path true)
  | get_value path through : leads name path through false TString -> compiles name (Get path false)
  | get_star path through : leads name path through true TString -> compiles name (Get path true).

  (** The values of a type: a pointer may be nil. *)
  Inductive typed : bool -> gotype -> value -> Prop :=
  | typed_nil t : typed true t Nil
  | typed_pointer t v : typed false t v -> typed true t (Pointer v)
  | typed_text s : typed false TString (Text s)
  | typed_struct n fs a g : defs n = Some (DStruct fs a) ->
      (forall k f, find_field fs k = Some f -> typed (f_pointer f) (f_type f) (g k)) -> typed false (TNamed n) (Struct g)
  | typed_other t v : t <> TString -> (forall n fs a, t = TNamed n -> defs n <> Some (DStruct fs a)) -> typed false t v.
End spec.

(** Neither path is the beginning of the other. *)
Inductive apart : list string -> list string -> Prop :=
| apart_here k l r s : k <> l -> apart (k :: r) (l :: s)
| apart_next k r s : apart r s -> apart (k :: r) (k :: s).
