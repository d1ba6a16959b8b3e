(** What makes generated Go code compile as far as declarations and uses go. *)
From stdpp Require Import list strings.
From Coq Require Import NArith Ascii String.
From Verif.Model Require Import Naming Names Operations Package.
From Verif.Spec Require Import NamingSpec NamesSpec OperationsSpec.

(** What Go does not allow to declare twice: a name at the top of a package, a method of a type. *)
Definition declared_name (d : decl) : option string * string :=
  match d with
  | DeclType n | DeclValue n | DeclFunc n _ _ => (None, n)
  | DeclMethod r n _ _ => (Some r, n)
  end.
Definition declared_once (ds : list decl) : Prop := NoDup (map declared_name ds).

(** A use is backed by a declaration of the same name and types. *)
Definition backed (ds : list decl) (u : use) : Prop :=
  match u with
  | UseType n => DeclType n ∈ ds
  | UseValue n => DeclValue n ∈ ds
  | UseFunc n a r => DeclFunc n a r ∈ ds
  | UseMethod t n a r => DeclMethod t n a r ∈ ds
  end.
Definition all_backed (c : code) : Prop := Forall (backed c.1) c.2.

(** The only message that an operation can be about. *)
Definition only_message (o : operation) (m : nat) : Prop :=
  head (o_messages o) = Some m \/ o_messages o = [] /\ ch_messages (o_channel o) = [m].

(** A text that is an exported Go name. *)
Definition exported_text (s : string) : Prop := exported (list_ascii_of_string s).

(** An operation that the generated code can serve on both sides: its message is determined and generated, the parameters of its
    channel are those of a channel of the document; when it is answered, it is sent to an address known beforehand, and it is answered
    on a channel with one message, no parameters, whose address is that of the channel exactly when the reply gives none, and answers can
    be correlated when requests are. *)
Record served (info : details) (cs : list named_channel) (messages : list nat) (o : operation) : Prop := {
  sv_plain : o_refers o = None;
  sv_name : exported_text (o_name o);
  sv_params : has_params info (o_channel o) = true -> exists nc, nc ∈ cs /\ nc_params nc = true /\ nc_name nc = ch_name (o_channel o);
  sv_message : exists m, only_message o m /\ m ∈ messages;
  sv_reply : forall r, o_reply o = Some r -> exists ch rm, r_channel r = Some ch /\ ch_messages ch = [rm] /\ rm ∈ messages /\
    has_params info ch = false /\ no_address info ch = (reply_address info o && negb (inline_address info o))%bool /\
    no_address info (o_channel o) = false /\
    (forall m, only_message o m -> correlated info m = true -> correlated info rm = true);
}.

(** All of this can be computed. *)
Global Instance ty_eq_dec : EqDecision ty.
Proof. solve_decision. Defined.
Global Instance decl_eq_dec : EqDecision decl.
Proof. solve_decision. Defined.
Global Instance use_eq_dec : EqDecision use.
Proof. solve_decision. Defined.
Global Instance backed_dec ds u : Decision (backed ds u).
Proof. destruct u; cbn [backed]; apply _. Defined.
Global Instance all_backed_dec c : Decision (all_backed c).
Proof. unfold all_backed. apply _. Defined.
Global Instance declared_once_dec ds : Decision (declared_once ds).
Proof. unfold declared_once. apply _. Defined.

(** ** Names that do not meet *)
(** How the names of the types made for messages and schemas end (Names.v). *)
Definition type_name (t : string) : Prop :=
  exported_text t /\ exists p e, e ∈ ["Message"; "Channel"; "Schema"; "Payload"]%string /\ t = p +:+ e.
Definition type_names (info : details) (messages : list nat) (schemas : list string) : list string := map (message_name info) messages ++ schemas.

(** The names that the document gives to its operations, channels and types are names of Go, and differ; no operation has the name of the
    answers to another, no type the name of the constructor of a message. *)
Record named_apart (info : details) (ops : list (string * operation)) (cs : list named_channel) (messages : list nat) (schemas : list string) : Prop := {
  na_operation : forall k o, (k, o) ∈ ops -> o_refers o = None /\ exported_text (o_name o) /\ exists p, o_name o = p +:+ "Operation";
  na_operations : NoDup (map (fun ko => o_name ko.2) ops);
  na_replies : forall k o k' o', (k, o) ∈ ops -> (k', o') ∈ ops -> o_name o <> "ReplyTo" +:+ o_name o';
  na_channel : forall nc, nc ∈ cs -> exported_text (nc_name nc) /\ nc_follow nc = nc_name nc;
  na_channels : NoDup (map nc_name cs);
  na_type : forall t, t ∈ type_names info messages schemas -> type_name t;
  na_types : NoDup (type_names info messages schemas);
  na_new : forall m t, m ∈ messages -> t ∈ type_names info messages schemas -> t <> "New" +:+ message_name info m;
}.

(** The names that a document gives (specification.go, channel.go:45-58, operation.go:84-104, Names.v): those of its channels, operations, messages
    and schemas. The types generated are among the named messages and schemas. *)
Record named_by (d : document) (names : list (list ascii)) (info : details) (ops : list (string * operation)) (cs : list named_channel)
    (messages : list nat) (schemas : list string) : Prop := {
  nb_channels : map (fun nc => list_ascii_of_string (nc_name nc)) cs = kind_names "Channel" ((d_channels d).*1);
  nb_no_reference : forall nc, nc ∈ cs -> nc_follow nc = nc_name nc;
  nb_operations : map (fun ko => list_ascii_of_string (o_name ko.2)) ops = kind_names "Operation" (map (fun ko => list_ascii_of_string ko.1) ops);
  nb_types : map list_ascii_of_string (type_names info messages schemas) ⊆+ names;
}.
(** None of the texts is the second one with something before it. *)
Definition never_prefixed (p : string) (texts by_ : list string) : Prop := forall a b, a ∈ texts -> b ∈ by_ -> a <> p +:+ b.
