(** The fields of a nested structure and their order. *)
From stdpp Require Import list strings.
From Coq Require Import String.
From Verif.Model Require Import Reflect.

(** [v], behind any pointers, is the structure with fields [fs]. *)
Inductive has_fields : gval -> list gfield -> Prop :=
| has_struct fs : has_fields (GStruct fs) fs
| has_ptr v fs : has_fields v fs -> has_fields (GPtr (Some v)) fs.

(** A field found in a value: its name, its value, whether it may be read. *)
Record found := mkFound { f_name : string; f_value : gval; f_readable : bool }.

(** [at_path hid v p f]: following the field numbers [p] from [v] gives the field [f]; [hid] says
    whether [v] itself is behind an unexported field that is not embedded. *)
Inductive at_path : bool -> gval -> list nat -> found -> Prop :=
| at_last (hid : bool) v fs i n vis w : has_fields v fs -> fs !! i = Some (n, vis, w) ->
    at_path hid v [i] (mkFound n w (match hid, vis with false, Exported => true | _, _ => false end))
| at_more (hid : bool) v fs i n vis w p f : has_fields v fs -> fs !! i = Some (n, vis, w) ->
    at_path (match vis with Hidden => true | _ => hid end) w p f -> at_path hid v (i :: p) f.

(** Breadth first: less deep, or as deep and to the left. *)
Inductive lefter : list nat -> list nat -> Prop :=
| lefter_here i j p q : i < j -> lefter (i :: p) (j :: q)
| lefter_same i p q : lefter p q -> lefter (i :: p) (i :: q).
Definition before (p q : list nat) : Prop :=
  List.length p < List.length q \/ (List.length p = List.length q /\ lefter p q).

Section Search.
  Context (probe : gval -> option bool) (name : string).
  (** The search stops at a field of that name which may not be read or has the type. *)
  Definition stops (f : found) : Prop :=
    f_name f = name /\ (f_readable f = false \/ probe (f_value f) <> None).
  Definition first_stop (v : gval) (f : found) : Prop :=
    exists p, at_path false v p f /\ stops f /\
      forall p' f', at_path false v p' f' -> stops f' -> p' = p \/ before p p'.
End Search.

(** Number of structures, pointers and other values of a value. *)
Fixpoint gsize (v : gval) : nat :=
  match v with
  | GStruct fs => S (fold_right (fun f n => gsize f.2 + n) 0 fs)
  | GPtr (Some w) => S (gsize w)
  | _ => 1
  end.
