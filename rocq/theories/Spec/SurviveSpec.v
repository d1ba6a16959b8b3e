(** The messages that come back unchanged from the conversion to a broker message and back. *)
From stdpp Require Import gmap list strings.
From Coq Require Import String ZArith.
From Verif.Model Require Import Types Codec Conversion.
From Verif.Spec Require Import CodecSpec ConversionSpec GoRun.
Local Open Scope string_scope.

Section survive.
  Context {J T E : Type}.
  Notation value := (value J T).
  Variables (marshal : value -> string + E) (unmarshal : xtype -> string -> value + E).
  Variables (tformat : T -> string) (tparse : string -> T + E).
  Variables dates force : bool.

  (** By JSON. *)
  Definition json_survives (t : xtype) (w v : value) : Prop := exists b, marshal w = inl b /\ unmarshal t b = inl v.
  (** By RFC 3339. *)
  Definition time_survives (t : T) : Prop := tparse (tformat t) = inl t.

  (** The payload [v] of type [t], declared by [p]. Integers are written with the most significant byte first and read with the least
      significant one first; written on 8 bytes and read on 4 when only the referenced schema says int32, the other way round when only
      the reference does. What has a type but by two references is written as it is and read as JSON. *)
  Definition payload_survives (p : part) (t : xtype) (v : value) : Prop :=
    let s := followed p in
    let int32 (s : gschema) := String.eqb (g_format s) "int32" in
    if String.eqb (g_type s) "object" || String.eqb (g_type s) "array" then json_survives t v v
    else if String.eqb (g_type s) "integer" then
      exists n z, v = VInt n z /\
        (if Bool.eqb (int32 (own p)) (int32 s) then palindrome (if int32 s then 4 else 8)%nat z
         else int32 s = true /\ (z = 0 \/ z = -1)%Z)
    else if String.eqb (g_type s) "string" then match v with VTime t => time_survives t | _ => True end
    else match v with VStr x => unmarshal t x = inl v | _ => False end.

  (** The header [v] of type [t], declared by [h]. An object is read into the pointer that the field holds, which is nil. *)
  Definition header_survives (h : header) (t : xtype) (v : value) : Prop :=
    match v with
    | VNil => True
    | _ =>
        let w := match v with VPtr w => w | _ => v end in
        if String.eqb (g_type (own (h_part h))) "object" then
          is_field_pointer force (h_listed h || h_flag h) (own (h_part h)) = false /\ json_survives t w v
        else match w with VTime t => time_survives t | _ => True end
    end.

  (** The messages that can be written: no mandatory header is nil, and JSON accepts what is written by it. *)
  Definition writable (m : message) (σ : place -> value) : Prop :=
    let object (s : gschema) := String.eqb (g_type s) "object" in
    (object (followed (m_payload m)) || String.eqb (g_type (followed (m_payload m))) "array" = true -> exists b, marshal (σ Payload) = inl b) /\
    forall hs h, m_headers m = Some hs -> h ∈ hs ->
      (h_flag h = true -> σ (Header (h_key h)) <> VNil) /\
      (object (own (h_part h)) = true -> σ (Header (h_key h)) = VNil \/
         exists b, marshal (match σ (Header (h_key h)) with VPtr w => w | _ => σ (Header (h_key h)) end) = inl b).
End survive.

(** The fields of a message hold values of their types. *)
Definition well_typed {J T} (env : package_types) (types : place -> option xtype) (m : place -> value J T) : Prop :=
  forall f t, types f = Some t -> holds env t (m f).
(** The zero values: of their types, nil for pointers. *)
Definition zero_values {J T} (env : package_types) (types : place -> option xtype) (m : place -> value J T) : Prop :=
  well_typed env types m /\ forall f t, types f = Some (XPointer t) -> m f = VNil.
(** Two messages with the same fields. *)
Definition same_message {J T} (types : place -> option xtype) (a b : place -> value J T) : Prop :=
  forall f t, types f = Some t -> a f = b f.

(** The broker message is too short for the integer that is read from it, on 4 bytes if its format is int32, on 8 otherwise. *)
Definition too_short (p : part) (b : string) : Prop :=
  g_type (followed p) = "integer" /\ (String.length b < if String.eqb (g_format (followed p)) "int32" then 4 else 8)%nat.
