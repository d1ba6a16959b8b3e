(** The conversion functions with the JSON of the generated types: what json.Marshal and json.Unmarshal do where Conversion.v calls them.
    Modelled code: v3/templates/message.tmpl:91, 124, 144, 187, 242, 255 and v2/templates/message.tmpl:82, 115, 131, 170, 224, 237 (the calls), with the types
    of Wire.v and the text of JsonText.v. Simplified: structures, slices and other values that only JSON handles are given with their type; a value that JSON
    writes but whose type is a string, a number or a time has no meaning here (the templates do not marshal those). *)
From stdpp Require Import list strings.
From Coq Require Import String.
From Verif.Model Require Import Decoding Types Wire JsonText Conversion.
From Verif.Spec Require Import ConversionSpec GoRun.
Local Open Scope string_scope.

Section typed.
  Context {T E : Type}.
  Variable env : string -> option wdef.
  Variable fuel : nat.
  Variables float32 float64 : num -> option num.
  Variables date time : string -> option string.
  Variable any : json -> json.
  Variables date0 time0 : string.
  (** json.UnsupportedTypeError; json.SyntaxError and json.UnmarshalTypeError. *)
  Variables (err_write err_read : E).

  (** The types that the package declares, by what they are made of. *)
  Fixpoint made_of (n : nat) (t : gotype) : option gotype :=
    match t with
    | TNamed x =>
        match n, env x with
        | S _, Some (WStruct _ _) => Some (TNamed x)
        | S n', Some (WType t' _) => made_of n' t'
        | _, _ => None
        end
    | _ => Some t
    end.
  Definition package : package_types := fun x => made_of fuel (TNamed x).

  Definition tvalue : Type := GoRun.value (gotype * gv) T.
  Definition marshal (v : tvalue) : string + E :=
    match v with
    | GoRun.VJson (t, w) => match encode env fuel w t with Some j => inl (print j) | None => inr err_write end
    | _ => inr err_write
    end.
  Definition unmarshal (t : xtype) (b : string) : tvalue + E :=
    match t, parse b with
    | X t, Some j =>
        match decode env fuel float32 float64 date time any date0 time0 j t with Some w => inl (GoRun.VJson (t, w)) | None => inr err_read end
    | XPointer (X t), Some JNull => inl GoRun.VNil
    | XPointer (X t), Some j =>
        match decode env fuel float32 float64 date time any date0 time0 j t with Some w => inl (GoRun.VPtr (GoRun.VJson (t, w))) | None => inr err_read end
    | _, _ => inr err_read
    end.
End typed.
