(** What it means for values to survive the wire, without reference to the model's helpers. *)
From stdpp Require Import gmap strings list.
From Coq Require Import ZArith.
Open Scope Z_scope.

(** [i]-th byte of a (two's complement) integer, 0 being the least significant. *)
Definition zbyte (x : Z) (i : nat) : Z := Z.shiftr x (8 * Z.of_nat i) mod 256.

(** The [w] bytes of [x] read the same in both directions. *)
Definition palindrome (w : nat) (x : Z) : Prop :=
  forall i, (i < w)%nat -> zbyte x i = zbyte x (w - 1 - i).

(** [y] has the [w] bytes of [x] in the opposite order. *)
Definition swapped (w : nat) (x y : Z) : Prop :=
  forall i, (i < w)%nat -> zbyte y i = zbyte x (w - 1 - i).

(** The map a list of header lines stands for when the last line of a key counts. *)
Definition last_value (k : string) (l : list (string * string)) : option string :=
  last (omap (fun kv => if bool_decide (kv.1 = k) then Some kv.2 else None) l).
