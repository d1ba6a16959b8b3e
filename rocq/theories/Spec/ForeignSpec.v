(** The broker messages of any producer: those that follow the document, and what they mean. Texts of JSON are those of JsonGrammar.v, texts of RFC 3339 those of
    DatesSpec.v. *)
From stdpp Require Import list strings.
From Coq Require Import NArith ZArith String.
From Verif.Model Require Import Decoding Types Wire Conversion.
From Verif.Model Require Dates.
From Verif.Spec Require Import ConversionSpec GoRun WireSpec JsonTextSpec JsonGrammar SurviveSpec.
From Verif.Spec Require DatesSpec.
Local Open Scope string_scope.

Section foreign.
  Variable env : string -> option wdef.
  Variables float32 float64 : num -> option num.
  Variables date time : string -> option string.
  Variable any : json -> json.
  Variables date0 time0 : string.
  Variable dates : bool.
  Notation value := (GoRun.value (gotype * gv) Dates.time).
  Notation object s := (g_type s = "object").

  (** A text of JSON that is not nested too deep. *)
  Definition text_of (mended : Prop) (j : json) (x : string) : Prop := json_text mended x j /\ nested (N.to_nat 10000) j.
  (** A value of type [t] in JSON; [mended]: bytes that are no character may stand for U+FFFD. *)
  Definition json_for (mended : Prop) (ok_keys : list wfield -> list string -> Prop) (t : gotype) (x : string) : Prop :=
    exists j, text_of mended j x /\ fits env float32 float64 date time ok_keys t j.
  (** A value that the schema [s] admits, in JSON. *)
  Definition json_of (defs : string -> option gschema) (s : gschema) (x : string) : Prop :=
    exists j, text_of False j x /\ admits defs float32 float64 date time dates sized apart_from s j.
  (** What a text of JSON means as a value of type [t]. *)
  Definition json_means (t : gotype) (x : string) (w : gv) : Prop :=
    exists j, json_text False x j /\ arrives env float32 float64 date time any date0 time0 t j w.
  Definition is_stamp (x : string) (t : Dates.time) : Prop := DatesSpec.stamp t (list_ascii_of_string x).
  Definition is_loose_stamp (x : string) (t : Dates.time) : Prop := DatesSpec.loose_stamp t (list_ascii_of_string x).
  Definition date_schema (s : gschema) : Prop := is_date_generated dates (g_format s) = true.

  (** ** Exactly what is read *)
  (** [t]: the type of the payload, declared by [p]. *)
  Definition payload_readable (p : part) (t : gotype) (x : string) : Prop :=
    let s := followed p in
    (g_type s = "integer" -> ~ too_short p x) /\
    (g_type s = "string" -> date_schema s -> exists tm, is_loose_stamp x tm) /\
    (g_type s <> "integer" -> g_type s <> "string" -> json_for True (fun _ _ => True) t x).
  (** Objects are read only if the field is no pointer where it is read. *)
  Definition header_readable (force : bool) (h : header) (t : gotype) (y : string) : Prop :=
    let s := own (h_part h) in
    (object s -> is_field_pointer force (h_listed h || h_flag h) s = false /\ json_for True (fun _ _ => True) t y) /\
    (~ object s -> date_schema s -> exists tm, is_loose_stamp y tm).

  (** ** What follows the types, and what it means *)
  (** An object or an array is a text of JSON, a time one of RFC 3339, other strings are any bytes: they are not written as JSON. Integers are not among them.
      [json_ok]: what is asked of texts of JSON. *)
  Inductive payload_proper (json_ok : string -> Prop) (s : gschema) (x : string) : Prop :=
  | proper_json : object s \/ g_type s = "array" -> json_ok x -> payload_proper json_ok s x
  | proper_stamp tm : g_type s = "string" -> date_schema s -> is_stamp x tm -> payload_proper json_ok s x
  | proper_bytes : g_type s = "string" -> ~ date_schema s -> payload_proper json_ok s x.
  Inductive payload_means (s : gschema) (t : gotype) (x : string) : value -> Prop :=
  | means_json w : object s \/ g_type s = "array" -> json_means t x w -> payload_means s t x (GoRun.VJson (t, w))
  | means_stamp tm : g_type s = "string" -> date_schema s -> is_stamp x tm -> payload_means s t x (GoRun.VTime tm)
  | means_bytes : g_type s = "string" -> ~ date_schema s -> payload_means s t x (GoRun.VStr x).
  (** A header that may be left out is held by a pointer; [null] is the same as none. *)
  Inductive header_proper (json_ok : string -> Prop) (s : gschema) (y : string) : Prop :=
  | proper_object : object s -> json_ok y -> header_proper json_ok s y
  | proper_time tm : ~ object s -> date_schema s -> is_stamp y tm -> header_proper json_ok s y
  | proper_text : ~ object s -> ~ date_schema s -> header_proper json_ok s y.
  Inductive header_means (s : gschema) (y : string) : xtype -> value -> Prop :=
  | means_object t w : object s -> json_means t y w -> header_means s y (X t) (GoRun.VJson (t, w))
  | means_null t : object s -> json_text False y JNull -> header_means s y (XPointer (X t)) GoRun.VNil
  | means_pointer t w : object s -> ~ json_text False y JNull -> json_means t y w -> header_means s y (XPointer (X t)) (GoRun.VPtr (GoRun.VJson (t, w)))
  | means_time t tm : ~ object s -> date_schema s -> is_stamp y tm -> header_means s y (X t) (GoRun.VTime tm)
  | means_text t : ~ object s -> ~ date_schema s -> header_means s y (X t) (GoRun.VStr y)
  | means_time_pointer t tm : ~ object s -> date_schema s -> is_stamp y tm -> header_means s y (XPointer (X t)) (GoRun.VPtr (GoRun.VTime tm))
  | means_text_pointer t : ~ object s -> ~ date_schema s -> header_means s y (XPointer (X t)) (GoRun.VPtr (GoRun.VStr y)).
End foreign.
