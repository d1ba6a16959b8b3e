(** What calls made at once on a controller should amount to. *)
From stdpp Require Import gmap strings.
From Verif.Model Require Import Controller Concurrent.
From Verif.Spec Require Import ControllerSpec.

(** No two calls on the same address are under way at once: a call on an address begins only when no
    other one on it is under way. *)
Fixpoint one_at_a_time (s : kst) (xs : list act) : Prop :=
  match xs with
  | [] => True
  | x :: r =>
      match x with
      | Begin _ c => forall t a p, kcalls s !! t = Some (a, p) -> a <> call_addr c
      | Next _ _ => True
      end /\
      match kstep s x with Some s' => one_at_a_time s' r | None => True end
  end.

(** No call on the address is under way. *)
Definition idle (s : kst) (a : string) : Prop := forall t p, kcalls s !! t <> Some (a, p).

(** Calls one after the other: the final state and the answers of the subscribe calls. *)
Fixpoint in_sequence (c : cst) (os : list cop) : cst * list (string * cres) :=
  match os with
  | [] => (c, [])
  | o :: r =>
      let '(c1, res) := cstep [] c o in
      let '(c2, l) := in_sequence c1 r in
      (c2, match o with OSubscribe a _ => (a, res) :: l | _ => l end)
  end.
Definition single (o : cop) : Prop :=
  match o with OSubscribe _ _ | OUnsubscribe _ => True | _ => False end.

(** A subscription of the broker that is alive and that the controller has lost: no entry of its map
    is the subscription and no call under way knows it. *)
Definition stray (s : kst) (a : string) (i : nat) : Prop :=
  (a, i) ∈ live (klog s) /\ i < knext s /\
  (forall b, kmap s !! b <> Some i) /\
  (forall t b, kcalls s !! t <> Some (b, SStore i)) /\ (forall t b, kcalls s !! t <> Some (b, UCancel i)).

(** Two goroutines are about to access the map, at least one of them to write it. *)
Definition data_race (s : kst) : Prop :=
  exists t t' a a' p p', t <> t' /\ kcalls s !! t = Some (a, p) /\ kcalls s !! t' = Some (a', p') /\
    map_access p = Writes /\ map_access p' <> NoAccess.
