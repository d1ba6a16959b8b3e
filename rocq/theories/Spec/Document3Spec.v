(** What a document of version 3 must be for the code generated from it to be complete and free of double declarations. *)
From stdpp Require Import gmap list strings.
From Coq Require Import NArith Ascii String.
From Verif.Model Require Import Reference Linking Naming Operations Package Document3.
From Verif.Spec Require Import ReferenceSpec NamingSpec NamesSpec LinkingSpec PackageSpec.
Local Open Scope string_scope.
Local Open Scope list_scope.

Definition ascii_key (k : string) : Prop := Forall is_ascii (list_ascii_of_string k).

(** ** Names, as texts *)
Definition word_of (k kind : string) : string := string_of_list_ascii (NamingSpec.name_of (list_ascii_of_string k)) +:+ kind.

(** The objects of a document that get a name: its channels and those of its components, their messages, operations, the messages of the components;
    and the name, for keys in ASCII. *)
Inductive part_of : file -> object -> Prop :=
| part_root s root others : part_of (File s root others) root
| part_components s root others c : holds root "components" c -> part_of (File s root others) c
| part_other s root others g p : g ∈ others -> part_of g p -> part_of (File s root others) p.
Inductive called (t : texts) (f : file) : object -> string -> Prop :=
| called_channel p c : part_of f p -> holds p "channels" c -> called t f c (word_of (key_of t (o_id c)) "Channel")
| called_in_channel p c m : part_of f p -> holds p "channels" c -> holds c "messages" m ->
    called t f m (word_of (key_of t (o_id m)) "Message" +:+ "From" +:+ word_of (key_of t (o_id c)) "Channel")
| called_operation p o : part_of f p -> holds p "operations" o -> called t f o (word_of (key_of t (o_id o)) "Operation")
| called_message p m : part_of f p -> holds p "messages" m -> called t f m (word_of (key_of t (o_id m)) "Message").

(** Messages stand in one place. *)
Record placed (f : file) : Prop := {
  pl_one : forall p c p' c' m, part_of f p -> part_of f p' -> holds p "channels" c -> holds p' "channels" c' ->
    holds c "messages" m -> holds c' "messages" m -> c = c';
  pl_other : forall p c p' m, part_of f p -> part_of f p' -> holds p "channels" c -> holds c "messages" m -> ~ holds p' "messages" m;
}.
(** Keys of what gets a name are ASCII. *)
Definition ascii_keys (t : texts) (f : file) : Prop :=
  forall p, part_of f p ->
    (forall c, holds p "channels" c -> ascii_key (key_of t (o_id c)) /\ forall m, holds c "messages" m -> ascii_key (key_of t (o_id m))) /\
    (forall o, holds p "operations" o -> ascii_key (key_of t (o_id o))) /\
    (forall m, holds p "messages" m -> ascii_key (key_of t (o_id m))).

Section spec.
  Variable w : world.
  Variable at_address : nat -> option object.
  Variable t : texts.
  Variable f : file.
  Definition here : spec := let 'File s _ _ := f in s.
  Notation root := (root_of f).
  Notation stands := (stands_for w at_address here).

  (** Messages of which a type is made: those written in the channels and the components of the document. *)
  Definition written (m : object) : Prop :=
    o_ref m = "" /\ ((exists c, holds root "channels" c /\ holds c "messages" m) \/ (exists k, holds root "components" k /\ holds k "messages" m)).
  (** A channel of the document that is not a reference. *)
  Definition own_channel (c : object) : Prop := holds root "channels" c /\ o_ref c = "".
  (** The channel of an operation or reply. *)
  Definition on_channel (o c : object) : Prop := exists ch, holds o "channel" ch /\ stands ch c.
  (** What a message of a channel stands for, in one step or two. *)
  Definition reaches (m m' : object) : Prop := exists s m1, in_file f s m1 /\ stands m m1 /\ stands_for w at_address s m1 m'.
  (** The only message of a channel. *)
  Definition sole_message (c m : object) : Prop := exists x, ("messages", [x]) ∈ o_fields c /\ reaches x m.
  (** The message of an operation: the first one listed, or the only one of its channel. *)
  Inductive about (o m : object) : Prop :=
  | about_listed x rest : ("messages", x :: rest) ∈ o_fields o -> stands x m -> about o m
  | about_channel c : (forall x, ~ holds o "messages" x) -> on_channel o c -> sole_message c m -> about o m.
  Definition correlates (m : object) : Prop := exists c, carries w at_address here m c /\ o_location c <> "".

  (** An operation that is answered as it should. *)
  Record answered (o r : object) : Prop := {
    an_channel : exists ch c m, holds r "channel" ch /\ stands ch c /\ own_channel c /\ sole_message c m /\ written m /\
      (forall p, ~ holds c "parameters" p) /\
      (address_text t (o_id c) = "" <-> (exists a, holds r "address" a) /\ address_text t (o_id ch) = "") /\
      (forall q, about o q -> correlates q -> correlates m);
    an_request : forall c, on_channel o c -> address_text t (o_id c) <> "";
  }.
  Definition same_action (o o' : object) : Prop :=
    action_of t (o_id o) = action_of t (o_id o') /\ (action_of t (o_id o) = "send" \/ action_of t (o_id o) = "receive").

  Record complete : Prop := {
    co_operation : forall o, holds root "operations" o -> o_ref o = "" /\ (exists c, on_channel o c /\ own_channel c) /\ (exists m, about o m /\ written m);
    co_reply : forall o r, holds root "operations" o -> holds o "reply" r -> answered o r;
    (** No two operations with the same action are answered on the same channel, and no operation has the name of a channel on which another one is answered as its key. *)
    co_alone : forall o o' r r' c, holds root "operations" o -> holds root "operations" o' -> same_action o o' ->
      holds o "reply" r -> holds o' "reply" r' -> on_channel r c -> on_channel r' c -> o = o';
    co_key : forall o o' r c, holds root "operations" o -> holds root "operations" o' -> holds o "reply" r -> on_channel r c ->
      key_of t (o_id o') <> word_of (key_of t (o_id c)) "Channel";
  }.

  (** What AsyncAPI asks for, beside that: references, however many, lead to the channel and the message of an operation. *)
  Inductive finally : spec -> object -> spec -> object -> Prop :=
  | finally_here s x : o_ref x = "" -> finally s x s x
  | finally_step s x y s' s'' z : o_ref x <> "" -> stands_for w at_address s x y -> in_file f s' y -> finally s' y s'' z -> finally s x s'' z.
  Definition determined (o : object) : Prop :=
    exists ch s c, holds o "channel" ch /\ finally here ch s c /\
      ((exists x rest s' m, ("messages", x :: rest) ∈ o_fields o /\ finally here x s' m) \/
       ((forall x, ~ holds o "messages" x) /\ exists x s' m, ("messages", [x]) ∈ o_fields c /\ finally s x s' m)).
  Definition plain_operations : Prop :=
    forall o, holds root "operations" o -> o_ref o = "" /\ (forall r, ~ holds o "reply" r) /\ determined o.

  (** The names of channels and operations differ. *)
  Definition keys (o : object) (g : string) : list (list ascii) := map (fun c => list_ascii_of_string (key_of t (o_id c))) (in_field o g).
  Record differ : Prop := {
    di_channels : NoDup (kind_names "Channel" (keys root "channels"));
    di_operations : NoDup (kind_names "Operation" (keys root "operations"));
  }.
  (** Those of messages, too, and no channel is a reference: no name contains "From", which separates the names of messages from those of their channels. *)
  Record legible : Prop := {
    le_plain : forall c, holds root "channels" c -> o_ref c = "";
    le_channels : readable (keys root "channels");
    le_channel_messages : forall c, holds root "channels" c -> readable (keys c "messages") /\ NoDup (kind_names "Message" (keys c "messages"));
    le_messages : forall k, holds root "components" k -> readable (keys k "messages") /\ NoDup (kind_names "Message" (keys k "messages"));
    le_one : (List.length (in_field root "components") <= 1)%nat;
  }.
End spec.

(** The types made for schemas, beside those of messages: their names are names of types and are not those of messages; none of these is "New" and the
    name of a message, and no operation is called "ReplyTo" and the name of another one. *)
Record schemas_apart (t : texts) (f : file) (schemas : list string) : Prop := {
  sc_types : Forall type_name schemas;
  sc_differ : NoDup schemas;
  sc_messages : forall m n, called t f m n -> o_kind m = KMessage -> n ∉ schemas;
  sc_new : forall m n, called t f m n -> o_kind m = KMessage -> "New" +:+ n ∉ schemas;
  sc_new_messages : forall m n m' n', called t f m n -> called t f m' n' -> o_kind m = KMessage -> o_kind m' = KMessage -> n <> "New" +:+ n';
  sc_reply : forall o n o' n', called t f o n -> called t f o' n' -> o_kind o = KOperation -> o_kind o' = KOperation -> n <> "ReplyTo" +:+ n';
}.

(** A document that has been processed: it is regular, its objects are where their addresses say, its messages stand in one place, its keys are in ASCII
    and give different names to channels and to operations. *)
Record processed (w : world) (at_address : nat -> option object) (schema : nat -> res unit) (t : texts) (f : file) (l : links) : Prop := {
  pr_regular : regular w at_address f;
  pr_stored : forall s x, in_file f s x -> at_address (o_id x) = Some x;
  pr_placed : placed f;
  pr_ascii : ascii_keys t f;
  pr_done : set_all w at_address schema f ∅ = Ok l;
  pr_differ : differ t f;
}.
