(** What a controller's subscriptions should be, judged from the calls the broker received. *)
From stdpp Require Import gmap strings.
From Verif.Model Require Import Controller.

(** Broker subscriptions alive after a history of broker calls. *)
Definition live_step (l : list (string * nat)) (e : cev) : list (string * nat) :=
  match e with
  | CSub a i => l ++ [(a, i)]
  | CRefused _ => l
  | CCancel i => filter (fun p => p.2 <> i) l
  end.
Definition live (h : list cev) : list (string * nat) := fold_left live_step h [].

(** Addresses with a live broker subscription. *)
Definition subscribed (h : list cev) : list string := (live h).*1.

(** Answer and broker calls expected from one call of the user. *)
Inductive sub_expected (h : list cev) : cop -> cres -> list cev -> Prop :=
| SE_already a b : a ∈ subscribed h -> sub_expected h (OSubscribe a b) CrAlready []
| SE_ok a i : a ∉ subscribed h -> (forall c, CSub c i ∉ h) ->
    sub_expected h (OSubscribe a true) CrOk [CSub a i]
| SE_refused a : a ∉ subscribed h -> sub_expected h (OSubscribe a false) CrBroker [CRefused a]
| SE_unsub a i : (a, i) ∈ live h -> sub_expected h (OUnsubscribe a) CrOk [CCancel i]
| SE_unsub_none a : a ∉ subscribed h -> sub_expected h (OUnsubscribe a) CrOk [].
