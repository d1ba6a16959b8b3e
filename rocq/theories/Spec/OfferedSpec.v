(** What programs can call: the methods of the generated controllers, and those that a program has to write to be given messages. *)
From stdpp Require Import list strings.
From Coq Require Import NArith Ascii String.
From Verif.Model Require Import Operations Package Package2.
From Verif.Spec Require Import NamingSpec OperationsSpec PackageSpec Package2Spec.
Local Open Scope string_scope.
Local Open Scope list_scope.

(** A name that other packages can use. *)
Definition visible (n : string) : Prop := exists a r, n = String a r /\ a ∈ uppers.
(** The words of a side in the generated names. *)
Definition word (s : side) : string := match s with Application => "App" | User => "User" end.
Definition as_or_to (s : side) : string := match s with Application => "As" | User => "To" end.
Definition optional (b : bool) (t : ty) : list ty := if b then [t] else [].

(** ** Version 2
    The message handled on a channel, and the one published on it (which message this should be: C88). *)
Definition handled2 (c : chan2) (m : nat) : Prop :=
  (exists o, h2_subscribe c = Some o /\ o2_message o = m) \/ (h2_subscribe c = None /\ exists o, h2_publish c = Some o /\ o2_message o = m).
Definition published2 (c : chan2) (m : nat) : Prop :=
  (exists o, h2_publish c = Some o /\ o2_message o = m) \/ (h2_publish c = None /\ exists o, h2_subscribe c = Some o /\ o2_message o = m).

Section version2.
  (** The names of the operations of channels, of the types of the parameters of channels, of the types of messages. *)
  Variable operation_named : chan2 -> string.
  Variable parameters_named : string -> string.
  Variable message_named : nat -> string.
  Variable cs : list (string * chan2).
  Definition parameters2 (kc : string * chan2) : list ty := optional (h2_params kc.2) (TyName (parameters_named kc.1)).

  (** For each channel that a side receives on: to subscribe and to unsubscribe; for each that it publishes on: to publish; to wait for an answer on those
      of the user whose message says where its correlation ID is; for all channels together when there are; and to stop. *)
  Inductive offered2 (s : side) : string -> list ty -> list ty -> Prop :=
  | offered2_close : offered2 s "Close" [TyCtx] []
  | offered2_subscribe kc m : kc ∈ cs -> is_Some (received_by s kc.2) -> handled2 kc.2 m ->
      offered2 s ("Subscribe" +:+ operation_named kc.2) (TyCtx :: parameters2 kc ++ [TyHandler (message_named m)]) [TyError]
  | offered2_unsubscribe kc : kc ∈ cs -> is_Some (received_by s kc.2) ->
      offered2 s ("Unsubscribe" +:+ operation_named kc.2) (TyCtx :: parameters2 kc) []
  | offered2_publish kc m : kc ∈ cs -> is_Some (received_by (other_side s) kc.2) -> published2 kc.2 m ->
      offered2 s ("Publish" +:+ operation_named kc.2) (TyCtx :: parameters2 kc ++ [TyName (message_named m)]) [TyError]
  | offered2_wait kc o : kc ∈ cs -> s = User -> h2_subscribe kc.2 = Some o -> o2_located o = true ->
      offered2 s ("WaitFor" +:+ operation_named kc.2)
        (TyCtx :: parameters2 kc ++ [TyName "MessageWithCorrelationID"; TyOther "func(context.Context) error"]) [TyName (message_named (o2_message o)); TyError]
  | offered2_subscribe_all kc : kc ∈ cs -> is_Some (received_by s kc.2) -> offered2 s "SubscribeAll" [TyCtx; TyName (word s +:+ "Subscriber")] [TyError]
  | offered2_unsubscribe_all kc : kc ∈ cs -> is_Some (received_by s kc.2) -> offered2 s "UnsubscribeAll" [TyCtx] [].

  (** For each channel that a side receives on: a handler. *)
  Inductive asked2 (s : side) : string -> list ty -> list ty -> Prop :=
  | asked2_handler kc m : kc ∈ cs -> is_Some (received_by s kc.2) -> handled2 kc.2 m -> asked2 s (operation_named kc.2) [TyCtx; TyName (message_named m)] [TyError].
End version2.

(** ** Version 3 *)
Section version3.
  Variable info : details.
  Variable parameters_named : string -> string.
  Variable message_named : nat -> string.
  Variable ops : list (string * operation).
  Definition parameters (ch : channel) : list ty := optional (has_params info ch) (TyName (parameters_named (ch_name ch))).
  Definition address (ch : channel) : list ty := optional (no_address info ch) TyText.

  (** An operation of which it is clear what it is about: not a reference, with a name of Go; its message and that of the channel on which it is answered
      are determined. *)
  Record determined (o : operation) : Prop := {
    dt_plain : o_refers o = None;
    dt_name : exported_text (o_name o);
    dt_message : exists m, only_message o m;
    dt_reply : forall ch, answered_on o ch -> exists rm, ch_messages ch = [rm];
  }.

  (** For each operation that a side receives: to subscribe, to unsubscribe, and, if it is answered, to send an answer, and to send the answer to a request;
      for each that it sends: to send, and, if it is answered, to request; for all channels together when there are; and to stop. *)
  Inductive offered (s : side) : string -> list ty -> list ty -> Prop :=
  | offered_close : offered s "Close" [TyCtx] []
  | offered_subscribe k o m : (k, o) ∈ ops -> receives s o -> only_message o m ->
      offered s ("SubscribeTo" +:+ o_name o) (TyCtx :: parameters (o_channel o) ++ [TyHandler (message_named m)]) [TyError]
  | offered_unsubscribe k o : (k, o) ∈ ops -> receives s o -> offered s ("UnsubscribeFrom" +:+ o_name o) (TyCtx :: parameters (o_channel o)) []
  | offered_answer k o m ch rm : (k, o) ∈ ops -> receives s o -> only_message o m -> answered_on o ch -> ch_messages ch = [rm] ->
      offered s ("ReplyTo" +:+ o_name o) [TyCtx; TyName (message_named m); TyFiller (message_named rm)] [TyError]
  | offered_send_answer k o ch rm : (k, o) ∈ ops -> receives s o -> answered_on o ch -> ch_messages ch = [rm] ->
      offered s ("Send" +:+ as_or_to s +:+ "ReplyTo" +:+ o_name o) (TyCtx :: parameters ch ++ address ch ++ [TyName (message_named rm)]) [TyError]
  | offered_send k o m : (k, o) ∈ ops -> sends s o -> only_message o m ->
      offered s ("Send" +:+ as_or_to s +:+ o_name o) (TyCtx :: parameters (o_channel o) ++ address (o_channel o) ++ [TyName (message_named m)]) [TyError]
  | offered_request k o m ch rm : (k, o) ∈ ops -> sends s o -> only_message o m -> answered_on o ch -> ch_messages ch = [rm] ->
      offered s ("Request" +:+ as_or_to s +:+ o_name o) (TyCtx :: parameters (o_channel o) ++ [TyName (message_named m)]) [TyName (message_named rm); TyError]
  | offered_subscribe_all k o : (k, o) ∈ ops -> receives s o -> offered s "SubscribeToAllChannels" [TyCtx; TyName (word s +:+ "Subscriber")] [TyError]
  | offered_unsubscribe_all k o : (k, o) ∈ ops -> receives s o -> offered s "UnsubscribeFromAllChannels" [TyCtx] [].

  Inductive asked (s : side) : string -> list ty -> list ty -> Prop :=
  | asked_handler k o m : (k, o) ∈ ops -> receives s o -> only_message o m -> asked s (o_name o +:+ "Received") [TyCtx; TyName (message_named m)] [TyError].
End version3.
