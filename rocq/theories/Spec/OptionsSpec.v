(** What the options mean. *)
From stdpp Require Import list strings.
From Coq Require Import String.
From Verif.Model Require Import Options.
Local Open Scope string_scope.

Definition word (x : part) : string :=
  match x with Application => "application" | User => "user" | Types => "types" end.

(** A comma-separated list of words. *)
Fixpoint comma_separated (ws : list string) : string :=
  match ws with
  | [] => ""
  | [w] => w
  | w :: r => w +:+ "," +:+ comma_separated r
  end.

(** The parts chosen by the options. *)
Definition chosen (p : parts) (x : part) : Prop :=
  match x with Application => p_application p = true | User => p_user p = true | Types => p_types p = true end.

(** The settings the options ask for. *)
Definition asked (o : options) : settings :=
  mkSettings (o_convert o) (o_namify o) (negb (o_ignore o)) (o_force o).

(** Options that Generate does not refuse. *)
Definition accepted (o : options) : Prop :=
  o_convert o ∈ ["snake"; "kebab"; "camel"; "none"] /\ o_namify o ∈ ["camel"; "none"].
