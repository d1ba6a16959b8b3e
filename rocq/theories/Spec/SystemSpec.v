(** What several requests at once may expect: each gets the answer to itself. *)
From stdpp Require Import list.
From Coq Require Import String.
From Verif.Model Require Import System.

Section spec.
  Context {M D : Type}.
  Variable corr : D -> string.
  Variable set_corr : string -> D -> D.
  Variable zero : D.
  Variable answer : D -> D -> D.
  (** What becomes of a message on its way. *)
  Variable arrived : D -> D.

  (** [sent] is the message [d] as it leaves, identified. *)
  Definition identified (uuid : string) (d sent : D) : Prop :=
    (corr d <> ""%string /\ sent = d) \/ (corr d = ""%string /\ sent = set_corr uuid d).

  (** [d] is what arrives of the answer of the responder to [sent]: its function, on what arrived and on a new message with the identifier of the request. *)
  Definition answer_to (sent d : D) : Prop :=
    exists newid, d = arrived (answer (arrived sent) (set_corr (corr sent) (set_corr newid zero))).

  (** The identifiers of the requests of a schedule: those of the messages given and those generated. *)
  Definition names_in (o : sop D) : list string :=
    match o with
    | SSubscribe _ d => if string_dec (corr d) "" then [] else [corr d]
    | SSend _ uuid => [uuid]
    | _ => []
    end.
  Definition identifiers (os : list (sop D)) : list string := List.concat (map names_in os).
  Definition distinct (os : list (sop D)) : Prop := NoDup (identifiers os) /\ ""%string ∉ identifiers os.

  (** Requests are begun with messages that can be sent, and the identifiers generated can be. *)
  Definition fit (good : D -> Prop) (fine : string -> Prop) (os : list (sop D)) : Prop :=
    (forall i d, In (SSubscribe i d) os -> good d) /\ (forall i uuid, In (SSend i uuid) os -> fine uuid).

  (** Nothing is on its way. *)
  Definition drained (s : sys M D) : Prop :=
    requests s = [] /\ replies s = [] /\ forall i sent, requester s i = RWaiting sent -> inbox s i = [].

  Definition waiting (s : sys M D) (i : nat) : Prop := exists sent, requester s i = RWaiting sent.

  (** The responder, the broker or a waiting request has something to do with [o]. *)
  Definition possible (mode : sharing) (s : sys M D) (o : sop D) : Prop :=
    match o with
    | SServe _ _ => requests s <> []
    | SDeliver i => replies s <> [] /\ (mode = OneOfGroup -> live (requester s i) = true \/ forall j, live (requester s j) = false)
    | SReceive i => waiting s i /\ inbox s i <> []
    | _ => False
    end.

  (** A schedule of things that had to be done, one after the other; until nothing is left. *)
  Fixpoint busy (step : sys M D -> sop D -> sys M D) (mode : sharing) (s : sys M D) (os : list (sop D)) : Prop :=
    match os with
    | [] => True
    | o :: rest => possible mode s o /\ busy step mode (step s o) rest
    end.
  Definition idle (mode : sharing) (s : sys M D) : Prop := forall o, ~ possible mode s o.

  (** At most one request is subscribed. *)
  Definition alone (s : sys M D) : Prop := forall i j, live (requester s i) = true -> live (requester s j) = true -> i = j.
End spec.
