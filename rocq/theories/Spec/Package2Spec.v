(** What the code generated for a document of version 2 should be. *)
From stdpp Require Import list strings.
From Coq Require Import NArith Ascii String.
From Verif.Model Require Import Naming Names Operations Package Package2.
From Verif.Spec Require Import NamingSpec PackageSpec.
Local Open Scope string_scope.

(** The operations of a channel. *)
Definition operation_of (c : chan2) (o : operation2) : Prop := h2_publish c = Some o \/ h2_subscribe c = Some o.
(** The messages that are generated: those written with their payload in an operation, and those of the components. *)
Definition generated (cs : list (string * chan2)) (messages : list (nat * bool)) (m : nat) : Prop :=
  (exists kc o, kc ∈ cs /\ operation_of kc.2 o /\ o2_inline o = Some m) \/ (m, true) ∈ messages.

(** A channel that can be served: its messages are generated, the name of the type of its parameters is the same whether taken from its
    key or its name, and the message that answers are waited with has the correlation ID of the message it refers to. *)
Record served2 (without_params : string -> string) (info : details) (cs : list (string * chan2)) (messages : list (nat * bool)) (kc : string * chan2) : Prop := {
  s2_params : h2_params kc.2 = true -> without_params kc.1 = without_params (h2_name kc.2);
  s2_message : forall o, operation_of kc.2 o -> generated cs messages (o2_message o) /\ exported_text (message_name info (o2_message o));
  s2_correlated : forall o, h2_subscribe kc.2 = Some o -> o2_located o = true -> correlated info (o2_message o) = true;
}.

(** Publish is written for those who send to the application: the application receives its messages. *)
Definition received_by (s : side) (c : chan2) : option operation2 := match s with Application => h2_publish c | User => h2_subscribe c end.
Definition other_side (s : side) : side := match s with Application => User | User => Application end.

(** Names that the templates write whatever the document. *)
Definition reserved : list string :=
  ["AsyncAPIVersion"; "ControllerOption"; "WithLogger"; "WithMiddlewares"; "WithErrorHandler"; "MessageWithCorrelationID"; "Error"; "ChannelsPaths";
   "AppSubscriber"; "AppController"; "NewAppController"; "UserSubscriber"; "UserController"; "NewUserController"].
(** Names that the templates make from the messages and schemas: their types, and the constructors of messages. *)
Definition made (info : details) (messages : list nat) (schemas : list string) : list string :=
  (map (message_name info) messages ++ schemas ++ map (fun m => "New" +:+ message_name info m) messages)%list.

(** The names that the document gives are names of Go, and differ: those of the operations that are written alike, those of the channels, those of
    messages and schemas, which are neither reserved nor end like the names made from channels. *)
Record named_apart2 (info : details) (op_name : chan2 -> string) (cs : list (string * chan2)) (messages : list nat) (schemas : list string) : Prop := {
  n2_operations : forall kc kc', kc ∈ cs -> kc' ∈ cs -> op_name kc.2 = op_name kc'.2 ->
    is_Some (h2_publish kc.2) /\ is_Some (h2_publish kc'.2) \/ is_Some (h2_subscribe kc.2) /\ is_Some (h2_subscribe kc'.2) -> kc = kc';
  n2_all : forall kc, kc ∈ cs -> op_name kc.2 <> "All";
  n2_channel : forall kc, kc ∈ cs -> exported_text (h2_name kc.2);
  n2_channels : NoDup (map (fun kc => h2_name kc.2) cs);
  n2_message : forall m, m ∈ messages -> exported_text (message_name info m);
  n2_schema : forall t, t ∈ schemas -> exported_text t;
  n2_made : forall t, t ∈ made info messages schemas -> t ∉ reserved /\ (forall p, t <> p +:+ "Path") /\ (forall p, t <> p +:+ "Parameters");
  n2_types : NoDup (made info messages schemas);
}.
