(** When the generated names of a document can be told apart. *)
From stdpp Require Import list strings.
From Coq Require Import NArith Ascii String.
From Verif.Model Require Import Naming Names.
From Verif.Spec Require Import NamingSpec.

Local Notation lit := list_ascii_of_string.

(** "From" occurs in the text. *)
Definition has_from (s : list ascii) : Prop := exists a b, s = a ++ lit "From" ++ b.

(** The Go names made from a key and a kind of thing: "id" as a property gives "IdProperty". *)
Definition kind_names (kind : string) (keys : list (list ascii)) : list (list ascii) :=
  map (fun k => name_of (k ++ "_"%char :: lit kind)) keys.

(** Keys in ASCII, none of whose names has "From" in it. *)
Definition readable (keys : list (list ascii)) : Prop :=
  Forall (Forall is_ascii) keys /\ Forall (fun k => ~ has_from (name_of k)) keys.

(** A schema whose names can be told apart: the names of the properties of one schema differ, there is at most one alternative of
    each sort, there is no [contains]. *)
Inductive clear : tree -> Prop :=
| clear_intro props patterns addl additems items anyof oneof allof not_ :
    readable (props.*1) -> readable (patterns.*1) ->
    NoDup (kind_names "Property" (props.*1) ++ kind_names "Pattern_Property" (patterns.*1)) ->
    (List.length anyof <= 1)%nat -> (List.length oneof <= 1)%nat -> (List.length allof <= 1)%nat ->
    (forall t, (exists k, (k, t) ∈ props ++ patterns) \/ t ∈ additems ++ anyof ++ oneof ++ allof \/ addl = Some t \/ items = Some t \/ not_ = Some t ->
       clear t) ->
    clear (Tree props patterns addl additems items [] anyof oneof allof not_).

(** A message whose headers and payload are there when the correlation identifier is in them. *)
Inductive clear_message : mtree -> Prop :=
| clear_message_intro payload headers oneof correlation :
    (forall t, payload = Some t \/ headers = Some t -> clear t) ->
    (forall m, m ∈ oneof -> clear_message m) ->
    (correlation = Some true -> headers <> None) -> (correlation = Some false -> payload <> None) ->
    clear_message (MTree payload headers oneof correlation).

Definition clear_messages (ms : list (list ascii * mtree)) : Prop :=
  readable (ms.*1) /\ NoDup (kind_names "Message" (ms.*1)) /\ (forall k m, (k, m) ∈ ms -> clear_message m).

Record clear_document (d : document) : Prop := {
  cd_channels : readable ((d_channels d).*1);
  cd_channels_differ : NoDup (kind_names "Channel" ((d_channels d).*1));
  cd_channel_messages : forall c ms, (c, ms) ∈ d_channels d -> clear_messages ms;
  cd_messages : clear_messages (d_messages d);
  cd_schemas : readable ((d_schemas d).*1);
  cd_schemas_differ : NoDup (kind_names "Schema" ((d_schemas d).*1));
  cd_schema : forall k t, (k, t) ∈ d_schemas d -> clear t;
}.

(** The parts of a schema, by the way to them. *)
Inductive part : tree -> list step -> tree -> Prop :=
| part_here t : part t [] t
| part_step t s c p x : next t s c -> part c p x -> part t (s :: p) x
with next : tree -> step -> tree -> Prop :=
| next_prop a b c d e f g h i j k t : (k, t) ∈ a -> next (Tree a b c d e f g h i j) (SProperty k) t
| next_pattern a b c d e f g h i j k t : (k, t) ∈ b -> next (Tree a b c d e f g h i j) (SPattern k) t
| next_addl a b d e f g h i j t : next (Tree a b (Some t) d e f g h i j) SAddl t
| next_additem a b c d e f g h i j n t : d !! n = Some t -> next (Tree a b c d e f g h i j) (SAddItem n) t
| next_items a b c d f g h i j t : next (Tree a b c d (Some t) f g h i j) SItems t
| next_contains a b c d e f g h i j n t : f !! n = Some t -> next (Tree a b c d e f g h i j) (SContains n) t
| next_anyof a b c d e f g h i j n t : g !! n = Some t -> next (Tree a b c d e f g h i j) (SAnyOf n) t
| next_oneof a b c d e f g h i j n t : h !! n = Some t -> next (Tree a b c d e f g h i j) (SOneOf n) t
| next_allof a b c d e f g h i j n t : i !! n = Some t -> next (Tree a b c d e f g h i j) (SAllOf n) t
| next_not a b c d e f g h i t : next (Tree a b c d e f g h i (Some t)) SNot t.

(** The messages inside a message. *)
Inductive variant : mtree -> list nat -> mtree -> Prop :=
| variant_here m : variant m [] m
| variant_alt p h o c i m alt x : o !! i = Some m -> variant m alt x -> variant (MTree p h o c) (i :: alt) x.

Definition m_payload (m : mtree) := let 'MTree p _ _ _ := m in p.
Definition m_headers (m : mtree) := let 'MTree _ h _ _ := m in h.

(** What the document has messages at. *)
Definition message_of (d : document) (b : base) (m : mtree) : Prop :=
  match b with
  | BComponent k => (k, m) ∈ d_messages d
  | BChannel c k => exists ms, (c, ms) ∈ d_channels d /\ (k, m) ∈ ms
  end.
(** What a document is made of. *)
Inductive in_document (d : document) : place -> Prop :=
| in_schema k t p x : (k, t) ∈ d_schemas d -> part t p x -> in_document d (PSchema k p)
| in_message b m alt x : message_of d b m -> variant m alt x -> in_document d (PMessage b alt)
| in_payload b m alt x t p y : message_of d b m -> variant m alt x -> m_payload x = Some t -> part t p y -> in_document d (PPayload b alt p)
| in_headers b m alt x t p y : message_of d b m -> variant m alt x -> m_headers x = Some t -> part t p y -> in_document d (PHeaders b alt p).
