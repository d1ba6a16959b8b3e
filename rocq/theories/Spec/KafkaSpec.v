(** Expectations on the Kafka controller. *)
From stdpp Require Import gmap strings list.
From Verif.Model Require Import Ack Kafka.

(** ** The configuration asked for by a list of options: the last TLS and SASL option count. *)
Definition asked_tls (os : list kopt) : option (option nat) :=
  last (omap (fun o => match o with KTLS t => Some t | _ => None end) os).
Definition asked_sasl (os : list kopt) : option (option nat) :=
  last (omap (fun o => match o with KSasl t => Some t | _ => None end) os).
Definition asked (os : list kopt) : dialer :=
  mkDialer (default None (asked_tls os)) (default None (asked_sasl os)).

(** ** Runs of Publish that are allowed: retries only after an unknown topic whose check
    succeeded; stop at the first success or other error. *)
Inductive publish_run {E} : list (kcall E) -> kres E -> Prop :=
| pr_ok : publish_run [KWrite WOk] KOk
| pr_err e : publish_run [KWrite (WFail e)] (KErr e)
| pr_check_err e : publish_run [KWrite WUnknownTopic; KCheck (KErr e)] (KErr e)
| pr_retry l r : publish_run l r -> publish_run (KWrite WUnknownTopic :: KCheck KOk :: l) r.

(** ** Settlement: messages in the order of their first Ack/Nak call. A call on a message that was
    not fetched does not exist. *)
Fixpoint first_settled (fetched : nat) (seen : list nat) (os : list kop) : list nat :=
  match os with
  | [] => []
  | KFetch :: os' => first_settled (S fetched) seen os'
  | KSettle i _ :: os' =>
      if bool_decide (i < fetched) && bool_decide (i ∉ seen) then i :: first_settled fetched (i :: seen) os'
      else first_settled fetched seen os'
  end.
