(** What a requester expects of the replies. *)
From Coq Require Import List String.
From Verif.Model Require Import Ack Middleware Request.
Import ListNotations.

Section Spec.
  Context {C M E D : Type}.
  Variable decode : M -> D * option E.
  Variable corr : D -> string.

  (** The received broker message carries this correlation ID. *)
  Definition carries (id : string) (m : M) : Prop := corr (fst (decode m)) = id.

  (** The middlewares let the message pass, and what they leave decodes into [d]. *)
  Definition passes (mws : list (middleware C M E)) (c : C) (m : M) (d : D) : Prop :=
    exists s, execute mws None c m tt = (s, ROk None) /\ decode (msg s) = (d, None).

  Definition panics (mws : list (middleware C M E)) (c : C) (m : M) : Prop :=
    exists s, execute mws None c m tt = (s, RPanic).

  (** [m] is an answer to the request, giving [d]. *)
  Definition answers (id : string) (mws : list (middleware C M E)) (c : C) (m : M) (d : D) : Prop :=
    carries id m /\ passes mws c m d.

  (** Nothing in [evs] ends the request: no answer and no panic. *)
  Definition inconclusive (id : string) (mws : list (middleware C M E)) (c : C) (evs : list (wev M)) : Prop :=
    forall m, In (WRecv m) evs ->
      (forall d, ~ answers id mws c m d) /\ ~ (carries id m /\ panics mws c m).

  (** Every message consumed among the events is acknowledged once; nothing else is told. *)
  Definition acknowledged (evs : list (wev M)) (told : list (list settle)) : Prop :=
    told = map (fun ev => match ev with WRecv _ => [SAck] | _ => [] end) evs.
End Spec.
