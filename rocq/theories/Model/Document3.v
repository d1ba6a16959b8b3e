(** What the templates are given after the processing of a document of version 3 (Linking.v): names, channels, operations, messages.
    Modelled code: pkg/asyncapi/v3 specification.go:84-124, components.go:33-60, 104-125, channel.go:45-58, 148-161, message.go:66-73, 490-495, 599-601,
    operation.go:50-56, 170-192, 238-243 and utils.go:11-29; codegen/generators/v3/templates/types.tmpl:57-100, message.tmpl:1-9, helpers.go:72-96, 103-107,
    and what controller.tmpl and subscriber.tmpl ask of operations and channels (Package.v).
    Simplified: templates know channels by their names, operations likewise (in the code they are the objects themselves): of two channels with one name
    the first is taken. The key under which an answer is stored is the name of its channel followed twice (in the code: once, common.go:46); both are the
    same when no channel of the document is a reference. Names written in messages (overwritten but in the lists of operations, where messages are
    references) and names of alternatives are left out. A missing channel of an operation, which panics, is a channel without messages, which does too. *)
From stdpp Require Import gmap list strings.
From Coq Require Import NArith Ascii String.
From Verif.Model Require Import GoStrings Reference Linking Naming Names Operations Package.
Local Open Scope string_scope.
Local Open Scope list_scope.

(** What else is written in the objects, by their addresses: the key of the map in which a channel, operation or message stands; the action of an
    operation; the address of a channel. *)
Record texts := mkTexts { key_of : nat -> string; action_of : nat -> string; address_text : nat -> string }.

Definition in_field (o : object) (f : string) : list object := entry (o_fields o) f.
Definition some {A} (l : list A) : bool := match l with [] => false | _ :: _ => true end.

Section document3.
  Variable ul ud : N -> bool.
  Variable uu : N -> bytes.
  Variable t : texts.

  (** ** generateMetadata *)
  (** utils.go:11-29; a panic of the naming function gives the empty name. *)
  Definition full (parent name type : string) : string :=
    match full_name ul ud uu (list_ascii_of_string parent) (list_ascii_of_string name) (list_ascii_of_string type) None with
    | Some r => string_of_list_ascii r
    | None => ""
    end.
  (** message.go:66-73, operation.go:50-56, channel.go:45-58 *)
  Definition meta_message (parent : string) (m : object) : nat * string := (o_id m, full parent (key_of t (o_id m)) "Message").
  Definition meta_operation (o : object) : nat * string := (o_id o, full "" (key_of t (o_id o)) "Operation").
  Definition channel_name (c : object) : string := full "" (key_of t (o_id c)) "Channel".
  Definition meta_channel (c : object) : list (nat * string) := (o_id c, channel_name c) :: map (meta_message (channel_name c)) (in_field c "messages").
  (** components.go:104-125; specification.go:106-124 (which has no messages). *)
  Definition meta_part (o : object) : list (nat * string) :=
    List.concat (map meta_channel (in_field o "channels")) ++ map meta_operation (in_field o "operations") ++ map (meta_message "") (in_field o "messages").
  (** specification.go:84-124: the documents referred to, the components, the document. *)
  Fixpoint meta_file (f : file) : list (nat * string) :=
    let 'File _ root others := f in
    List.concat (map meta_file others) ++ List.concat (map meta_part (in_field root "components")) ++ meta_part root.
  Definition names_of (f : file) : gmap nat string := list_to_map (reverse (meta_file f)).

  (** ** What the templates are given *)
  Variable at_address : nat -> option object.
  Variable f : file.
  Variable l : links.
  Definition root_of : object := let 'File _ root _ := f in root.
  Definition name_at (i : nat) : string := default "" (names_of f !! i).
  Notation fl := (followed at_address l).

  (** channel.go:156-161, helpers.go:72-90, message.go:599-601: GetMessage follows the message, the templates follow it once more. *)
  Definition channel_of (c : object) : channel := mkChannel (name_at (o_id c)) (map (fun m => o_id (fl (fl m))) (in_field c "messages")).
  (** operation.go:176-182: the channel of a reply is followed, the templates follow it once more. *)
  Definition reply_of (r : object) : reply :=
    mkReply (match in_field r "channel" with [] => None | ch :: _ => Some (channel_of (fl (fl ch))) end) (map (fun m => o_id (fl m)) (in_field r "messages")).
  (** operation.go:26-49, 186-192: messages listed in the operation are followed by the templates only. *)
  Definition own_operation (o : object) (refers : option operation) : operation :=
    mkOperation (name_at (o_id o)) (action_of t (o_id o)) (match in_field o "channel" with [] => mkChannel "" [] | ch :: _ => channel_of (fl ch) end)
      (map (fun m => o_id (fl m)) (in_field o "messages")) (option_map reply_of (head (in_field o "reply"))) refers.
  Definition operation_of (o : object) : operation :=
    own_operation o (p ← l !! o_id o; q ← at_address p; Some (own_operation q None)).
  Definition operations3 : list (string * operation) := map (fun o => (key_of t (o_id o), operation_of o)) (in_field root_of "operations").

  (** types.tmpl:57-100 *)
  Definition channels3 : list named_channel :=
    map (fun c => mkNamed (name_at (o_id c)) (some (in_field c "parameters")) (name_at (o_id (fl c)))) (in_field root_of "channels").
  (** types.tmpl:67-80, message.tmpl:3-8: the messages of the channels and of the components, if they are no references. *)
  Definition messages3 : list nat :=
    map o_id (List.filter (fun m => String.eqb (o_ref m) "")
      (List.concat (map (fun c => in_field c "messages") (in_field root_of "channels")) ++
       List.concat (map (fun c => in_field c "messages") (in_field root_of "components")))).

  Fixpoint all_channels (g : file) : list object :=
    let 'File _ root others := g in
    in_field root "channels" ++ List.concat (map (fun c => in_field c "channels") (in_field root "components")) ++ List.concat (map all_channels others).
  Definition find_channel (ch : channel) : option object := List.find (fun c => String.eqb (name_at (o_id c)) (ch_name ch)) (all_channels f).
  Definition find_operation (o : operation) : option object := List.find (fun x => String.eqb (name_at (o_id x)) (o_name o)) (in_field root_of "operations").
  (** message.go:490-495, correlation_id.go:50-53: of a message that has been followed. *)
  Definition has_correlation (i : nat) : bool :=
    match at_address i with
    | Some m => match correlation_of at_address l m with c :: _ => negb (String.eqb (o_location c) "") | [] => false end
    | None => false
    end.
  Definition details3 : details :=
    mkDetails
      (fun ch => match find_channel ch with Some c => some (in_field c "parameters") | None => false end)
      (fun ch => match find_channel ch with Some c => String.eqb (address_text t (o_id c)) "" | None => true end)
      (fun o => match find_operation o with
                | Some x => match in_field x "reply" with r :: _ => some (in_field r "address") | [] => false end
                | None => false
                end)
      (fun o => match find_operation o with
                | Some x => match in_field x "reply" with
                            | r :: _ => match in_field r "channel" with ch :: _ => negb (String.eqb (address_text t (o_id ch)) "") | [] => false end
                            | [] => false
                            end
                | None => false
                end)
      name_at has_correlation.
  (** generator.go:21-51 *)
  Definition generated3 (order : nat -> channel -> list nat) (schemas : list string) : option code :=
    package ul ud uu details3 order operations3 channels3 messages3 schemas.
End document3.
