(** What is needed for typed requests to be answered. *)
From stdpp Require Import list strings.
From Coq Require Import String.
From Verif.Model Require Import Types Conversion Transport TypedRequest.
From Verif.Spec Require Import ConversionSpec GoRun SurviveSpec TransportSpec.
Local Open Scope string_scope.

(** The identifier is a header that is a string, by its own schema; the field is a pointer unless it is required. *)
Definition identifier_header (dates force : bool) (m : message) (key : string) (required : bool) : Prop :=
  (exists hs h, m_headers m = Some hs /\ h ∈ hs /\ h_key h = key /\ g_type (own (h_part h)) = "string") /\
  Conversion.field_type dates force m (Header key) = Some (if required then X TString else XPointer (X TString)).
(** NATS keeps the identifiers. *)
Definition id_kept (b : broker) (key1 key2 id : string) : Prop := b = Nats -> kept key1 id /\ kept key2 id.
