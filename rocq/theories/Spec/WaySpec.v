(** Messages whose headers survive NATS. *)
From stdpp Require Import list strings.
From Coq Require Import String.
From Verif.Model Require Import Conversion.
From Verif.Spec Require Import GoRun TransportSpec.

Section way.
  Context {J T : Type}.
  Variable tformat : T -> string.
  (** The text of a header that is a string or a time. *)
  Definition header_text (v : GoRun.value J T) : option string :=
    match v with
    | VStr s | VPtr (VStr s) => Some s
    | VTime t | VPtr (VTime t) => Some (tformat t)
    | _ => None
    end.
  (** The names of the headers are tokens; their texts are lines without white space at the ends. *)
  Definition light (m : message) (σ : place -> GoRun.value J T) : Prop :=
    forall hs h, m_headers m = Some hs -> h ∈ hs -> token (h_key h) /\ forall s, header_text (σ (Header (h_key h))) = Some s -> kept (h_key h) s.
End way.
