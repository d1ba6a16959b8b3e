(** What the references of the objects of a document designate, which objects there are, and what a document must be for its processing to succeed. *)
From stdpp Require Import gmap list strings.
From Coq Require Import Ascii String.
From Verif.Model Require Import Reference Linking.
From Verif.Spec Require Import ReferenceSpec.
Local Open Scope string_scope.

(** The objects of a field. *)
Definition holds (o : object) (f : string) (c : object) : Prop := exists l, (f, l) ∈ o_fields o /\ c ∈ l.

(** The structure of a document: the fields are those of the Go structures, each occurs once, and the objects in it are of its kind. The document itself,
    its components and its information are not references. *)
Inductive conforms : object -> Prop :=
| conform o :
    NoDup (map fst (o_fields o)) ->
    (forall f c, holds o f c -> (f, o_kind c) ∈ declares (o_kind o)) ->
    (o_kind o = KSpecification \/ o_kind o = KComponents \/ o_kind o = KInfo -> o_ref o = "") ->
    (forall f c, holds o f c -> conforms c) ->
    conforms o.

(** The objects inside of an object, however deep; and those that can be reached without going through a field that is never visited. *)
Inductive inside : object -> object -> Prop :=
| inside_here o : inside o o
| inside_field o f c x : holds o f c -> inside c x -> inside o x.
Definition blind (k : kind) (f : string) : Prop :=
  (k = KMessage /\ f = "correlationID") \/ (k = KMessageTrait /\ f = "correlationID") \/ (k = KOperation /\ f = "tags").
Inductive sighted : object -> object -> Prop :=
| sighted_here o : sighted o o
| sighted_field o f c x : holds o f c -> ~ blind (o_kind o) f -> sighted c x -> sighted o x.

(** The objects of a document and of those it refers to, each with the document it is in. *)
Inductive in_file : file -> spec -> object -> Prop :=
| in_root s root others x : sighted root x -> in_file (File s root others) s x
| in_other s root others f s' x : f ∈ others -> in_file f s' x -> in_file (File s root others) s' x.
Inductive files : file -> spec -> object -> Prop :=
| file_root s root others : files (File s root others) s root
| file_other s root others f s' x : f ∈ others -> files f s' x -> files (File s root others) s' x.
Inductive anywhere : file -> spec -> object -> Prop :=
| any_root s root others x : inside root x -> anywhere (File s root others) s x
| any_other s root others f s' x : f ∈ others -> anywhere f s' x -> anywhere (File s root others) s' x.
(** Each object has its own address. *)
Definition distinct (f : file) : Prop := forall s x s' y, anywhere f s x -> anywhere f s' y -> o_id x = o_id y -> s = s' /\ x = y.

(** A reference that is to be linked: schemas are elsewhere (C84). *)
Definition refers (x : object) : Prop := o_ref x <> "" /\ o_kind x <> KSchema.

(** Channels by steps: as for other components, what is written behind the name of a component is not looked at. *)
Inductive channel_steps (s : spec) : list string -> nat -> Prop :=
| channel_component n l behind : comps s "channels" !! n = Some l -> channel_steps s ("components" :: "channels" :: n :: behind) l
| channel_root n l : channels s !! n = Some l -> channel_steps s ["channels"; n] l.

(** What a reference of an object of kind [k] is to designate: an object of the same kind. *)
Definition name_of (k : kind) : string :=
  match k with
  | KServer => "servers" | KServerVariable => "serverVariables" | KParameter => "parameters" | KMessageTrait => "messageTraits"
  | KOperation => "operations" | KOperationTrait => "operationTraits" | KReply => "replies" | KReplyAddress => "replyAddresses"
  | KCorrelationID => "correlationIds" | KTag => "tags" | KDocs => "externalDocs" | KSecurity => "securitySchemes"
  | KServerBindings => "serverBindings" | KChannelBindings => "channelBindings" | KOperationBindings => "operationBindings"
  | KMessageBindings => "messageBindings"
  | _ => ""
  end.
Definition designated (w : world) (s : spec) (k : kind) (ref : string) (p : nat) : Prop :=
  match k with
  | KChannel => designates channel_steps w s ref p
  | KMessage => designates (message_steps true w) w s ref p
  | KMessageExample | KSpecification | KComponents | KInfo | KSchema => False
  | _ => designates (other_steps (name_of k)) w s ref p
  end.

(** ** What a document must be *)
Section document.
  Variable w : world.
  Variable at_address : nat -> option object.
  Variable schema : nat -> res unit.

  (** The object that an object stands for. *)
  Inductive stands_for (s : spec) (o : object) : object -> Prop :=
  | for_itself : o_ref o = "" -> stands_for s o o
  | for_target p o' : o_ref o <> "" -> designated w s (o_kind o) (o_ref o) p -> at_address p = Some o' -> stands_for s o o'.

  (** After "$message.header#" or "$message.payload#" something is written. *)
  Definition has_path (location : string) : Prop :=
    forall r, (location = "$message.header#" ++ r \/ location = "$message.payload#" ++ r) -> "/"%char ∈ list_ascii_of_string r.

  (** An operation in which a reply address can be located: it lists messages, or its channel has some. *)
  Definition has_messages (s : spec) (op : object) : Prop :=
    (exists m, holds op "messages" m) \/ (exists ch ch' m, holds op "channel" ch /\ stands_for s ch ch' /\ holds ch' "messages" m).

  Definition address_of (op a : object) : Prop := exists r, holds op "reply" r /\ holds r "address" a.
  Definition address_of_components (c a : object) : Prop := holds c "replyAddresses" a \/ exists r, holds c "replies" r /\ holds r "address" a.

  Record acceptable (f : file) : Prop := mkAcceptable {
    acc_references : forall s x, in_file f s x -> refers x -> o_kind x <> KCorrelationID -> exists p, designated w s (o_kind x) (o_ref x) p;
    acc_correlations : forall s x, in_file f s x -> refers x -> o_kind x = KCorrelationID -> exists p, designated w s KChannel (o_ref x) p;
    acc_schemas : forall s x, in_file f s x -> o_kind x = KSchema -> schema (o_id x) = Ok tt;
    acc_replies : forall s op r, in_file f s op -> o_kind op = KOperation -> holds op "reply" r -> exists ch, holds r "channel" ch;
    acc_located : forall s op a, in_file f s op -> o_kind op = KOperation -> address_of op a -> o_location a <> "" ->
      has_path (o_location a) /\ has_messages s op;
    acc_components : forall s c a, in_file f s c -> o_kind c = KComponents -> address_of_components c a -> o_location a = "";
  }.

  (** Pointers hold one object; what stands for something else has no fields; a reference that designates something leads to an object of the documents. *)
  Record regular (f : file) : Prop := mkRegular {
    reg_conforms : forall s root, files f s root -> o_kind root = KSpecification /\ conforms root;
    reg_distinct : distinct f;
    reg_single : forall s op g, in_file f s op -> g = "reply" \/ g = "channel" \/ g = "correlationID" -> forall c d, holds op g c -> holds op g d -> c = d;
    reg_alone : forall s op r, in_file f s op -> o_kind op = KOperation -> holds op "reply" r -> o_ref op = "";
    reg_address : forall s ch p, in_file f s ch -> designated w s (o_kind ch) (o_ref ch) p ->
      exists o s', at_address p = Some o /\ o_id o = p /\ o_kind o = o_kind ch /\ in_file f s' o;
  }.

  (** The correlation identifier of a message: its own, or that of the first trait that has one. *)
  Inductive carries (s : spec) (m : object) : object -> Prop :=
  | carries_own c : holds m "correlationID" c -> carries s m c
  | carries_trait before t after t' c :
      (forall d, ~ holds m "correlationID" d) -> ("traits", before ++ t :: after)%list ∈ o_fields m ->
      stands_for s t t' -> holds t' "correlationID" c ->
      (forall u u' d, u ∈ before -> stands_for s u u' -> ~ holds u' "correlationID" d) ->
      carries s m c.
End document.
