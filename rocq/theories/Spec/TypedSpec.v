(** The messages that can be sent: of their types, with what JSON tells apart. *)
From stdpp Require Import list strings.
From Coq Require Import NArith String.
From Verif.Model Require Import Decoding Types Wire Conversion.
From Verif.Spec Require Import ConversionSpec GoRun WireSpec JsonTextSpec.
Local Open Scope string_scope.

Section sendable.
  Context {T E : Type}.
  Variable env : string -> option wdef.
  Variables float32 float64 : num -> option num.
  Variables date time : string -> option string.
  Variable any : json -> json.
  Variables (tformat : T -> string) (tparse : string -> T + E).
  (** What a value of a type is written as. *)
  Variable written_as : gv -> gotype -> option json.

  (** UTF-8 that is not nested too deep. *)
  Definition plain (j : json) : Prop := sound utf8 j /\ nested (N.to_nat 10000) j.
  (** A value of type [t] without a pointer to nil, an empty slice that is omitted, or an additional property that is a declared one up to case. *)
  Definition typed (t : gotype) (v : GoRun.value (gotype * gv) T) : Prop :=
    exists w, v = GoRun.VJson (t, w) /\ has_type env float32 float64 date time any kept_field (fun _ => True) kept_extra t w /\
      forall j, written_as w t = Some j -> plain j.
  Definition exact_time (v : GoRun.value (gotype * gv) T) : Prop :=
    match v with GoRun.VTime t | GoRun.VPtr (GoRun.VTime t) => tparse (tformat t) = inl t | _ => True end.

  Variable force : bool.
  Variable types : place -> option xtype.
  (** An object or an array, and headers: the mandatory ones are set, objects are mandatory, times are those that RFC 3339 can write. *)
  Record sendable (m : message) (σ : place -> GoRun.value (gotype * gv) T) : Prop := {
    send_kind : g_type (followed (m_payload m)) = "object" \/ g_type (followed (m_payload m)) = "array";
    send_payload : exists t, types Payload = Some (X t) /\ typed t (σ Payload);
    send_objects : forall hs h, m_headers m = Some hs -> h ∈ hs -> g_type (own (h_part h)) = "object" ->
      force = false /\ h_flag h = true /\ exists t, types (Header (h_key h)) = Some (X t) /\ typed t (σ (Header (h_key h)));
    send_others : forall hs h, m_headers m = Some hs -> h ∈ hs -> g_type (own (h_part h)) <> "object" ->
      (h_flag h = true -> σ (Header (h_key h)) <> GoRun.VNil) /\ exact_time (σ (Header (h_key h))) }.
End sendable.

(** What a type is made of: a structure is itself, a type declared as another is made of what that is. *)
Inductive underlying (env : string -> option wdef) : gotype -> gotype -> Prop :=
| underlying_struct n fs a : env n = Some (WStruct fs a) -> underlying env (TNamed n) (TNamed n)
| underlying_type n t u m : env n = Some (WType t m) -> underlying env t u -> underlying env (TNamed n) u
| underlying_other t : (forall n, t <> TNamed n) -> underlying env t t.
