(** Abstract version switch: a set of (channel, version) pairs. *)
From stdpp Require Import gmap strings.
From Verif.Model Require Import BrokerMessage Versioning.

Definition spec_st := gset (string * string).

(** Version a message is for: its non-empty version header, else the default version. *)
Definition addressed (key : string) (default : option string) (m : bmsg) (v : string) : Prop :=
  (header m key = Some v /\ v <> "") \/
  ((header m key = None \/ header m key = Some "") /\ default = Some v).

Definition on_channel (S : spec_st) (ch : string) : Prop := exists v, (ch, v) ∈ S.

(** What each operation should answer and do. *)
Inductive spec_step (cfg : wcfg) (S : spec_st) : wop -> wout -> spec_st -> Prop :=
| SS_noversion ch ver bok :
    ver = None \/ ver = Some "" -> spec_step cfg S (VSubscribe ch ver bok) OErrNoVersion S
| SS_already ch v bok :
    v <> "" -> (ch, v) ∈ S -> spec_step cfg S (VSubscribe ch (Some v) bok) OErrAlready S
| SS_broker_error ch v :
    v <> "" -> ~ on_channel S ch -> spec_step cfg S (VSubscribe ch (Some v) false) OErrBroker S
| SS_subscribed ch v bok :
    v <> "" -> (ch, v) ∉ S -> (on_channel S ch \/ bok = true) ->
    spec_step cfg S (VSubscribe ch (Some v) bok) OOk ({[(ch, v)]} ∪ S)
| SS_cancel ch v : (ch, v) ∈ S -> spec_step cfg S (VCancel ch v) OOk (S ∖ {[(ch, v)]})
| SS_cancel_none ch v : (ch, v) ∉ S -> spec_step cfg S (VCancel ch v) ONoSuch S
| SS_not_received ch m : ~ on_channel S ch -> spec_step cfg S (VMsg ch m) ONotReceived S
| SS_unversioned ch m :
    on_channel S ch -> (forall v, ~ addressed (vkey cfg) (vdefault cfg) m v) ->
    spec_step cfg S (VMsg ch m) OUnversioned S
| SS_delivered ch m v :
    addressed (vkey cfg) (vdefault cfg) m v -> (ch, v) ∈ S ->
    spec_step cfg S (VMsg ch m) (ODelivered v) S
| SS_unregistered ch m v :
    on_channel S ch -> addressed (vkey cfg) (vdefault cfg) m v -> (ch, v) ∉ S ->
    spec_step cfg S (VMsg ch m) OUnregistered S.

Inductive spec_run (cfg : wcfg) : spec_st -> list wop -> list wout -> spec_st -> Prop :=
| SR_nil S : spec_run cfg S [] [] S
| SR_cons S o r S1 os rs S2 :
    spec_step cfg S o r S1 -> spec_run cfg S1 os rs S2 -> spec_run cfg S (o :: os) (r :: rs) S2.

(** Number of broker subscriptions alive on a channel, from the history of broker calls. *)
Fixpoint alive (ch : string) (l : list bev) : Z :=
  match l with
  | [] => 0%Z
  | BSub c :: l' => ((if decide (c = ch) then 1 else 0) + alive ch l')%Z
  | BCancel c :: l' => ((if decide (c = ch) then -1 else 0) + alive ch l')%Z
  end.

(** The (channel, version) pairs subscribed, judged by the users: a Subscribe that returned
    without error adds its pair, a Cancel that returned removes it. *)
Definition active_step (S : gset (string * string)) (x : wop * wout) : gset (string * string) :=
  match x with
  | (VSubscribe ch (Some v) _, OOk) => {[(ch, v)]} ∪ S
  | (VCancel ch v, OOk) => S ∖ {[(ch, v)]}
  | _ => S
  end.
Definition active (os : list wop) (rs : list wout) : gset (string * string) :=
  fold_left active_step (zip os rs) ∅.

(** A channel is blocked by a message of a version nobody subscribed to, and by a cancellation that did not return; the whole wrapper by a
    subscription that did not return. *)
Definition blocked (l : list (wop * wout)) (ch : string) : Prop :=
  (exists m, (VMsg ch m, OUnregistered) ∈ l) \/ (exists v, (VCancel ch v, OHang) ∈ l).
Definition all_blocked (l : list (wop * wout)) : Prop :=
  exists ch v bok, (VSubscribe ch v bok, OHang) ∈ l.
