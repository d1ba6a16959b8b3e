(** When a message of a stream may be acknowledged. *)
From Coq Require Import List.
From stdpp Require Import gmap strings list.
From Verif.Model Require Import Ack Middleware Listener JetStream Durable.
From Verif.Spec Require Import JetStreamSpec.

Section Spec.
  Context {C M E D : Type}.
  Variable handler : E -> list settle * bool.

  (** The callback was called and succeeded, or the error handler acknowledged the message. *)
  Definition approved (fn : C -> D -> result E) (x : lst C E D) : Prop :=
    (exists c d, In (LCallback c d) (llog x) /\ fn c d = ROk None) \/
    (exists e, In (LHandler e) (llog x) /\ In SAck (fst (handler e))).

  Definition about (i : nat) (r : drec C E D) : Prop := match r with DDropped j _ | DHandled j _ _ => j = i end.

  (** No channel listed then matches the subject. *)
  Definition unwanted (subject : string) (l : list jev) : Prop := forall ch, listed l ch -> ~ subject_match ch subject.

  (** The message was acknowledged: told so while it was handled, or not wanted. *)
  Definition done_with (r : drec C E D) : Prop :=
    match r with DDropped _ _ => True | DHandled _ _ x => In (LTold SAck) (llog x) end.
End Spec.
