(** Which documents are AsyncAPI documents of a supported version. *)
From stdpp Require Import gmap strings.
From Coq Require Import String.
From Verif.Model Require Import Parser.
Local Open Scope string_scope.

(** Versions 2.0.0 to 2.6.0 belong to the second major version, 3.0.0 to the third. *)
Definition digit (n : nat) : string :=
  match n with 0 => "0" | 1 => "1" | 2 => "2" | 3 => "3" | 4 => "4" | 5 => "5" | _ => "6" end.
Definition version_of (v : string) (m : major) : Prop :=
  match m with
  | V2 => exists n, n <= 6 /\ v = "2." +:+ digit n +:+ ".0"
  | V3 => v = "3.0.0"
  end.

(** The document says so itself. *)
Definition declares (d : document) (v : string) : Prop :=
  exists g, members d = Some g /\ g !! "asyncapi" = Some (MString v).

(** A file name with the given extension. *)
Definition named (path : string) (e : string) : Prop := exists base, path = base +:+ e.
