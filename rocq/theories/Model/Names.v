(** The names given to schemas and messages, from which come the names of the generated Go types.
    Modelled code: pkg/asyncapi/v3/utils.go:11-29, schema.go:82-166, message.go:66-108, 217-247, 325-345,
    channel.go:45-58, components.go:33-60, specification.go:84-127, codegen/generators/v3/templates/types.tmpl:58-85. *)
From stdpp Require Import list strings pretty.
From Coq Require Import NArith Ascii String.
From Verif.Model Require Import Naming.

(** A schema as far as its names go: its parts, maps being lists in some order. Null entries, which are skipped, are left out. *)
Inductive tree :=
  Tree (props patterns : list (bytes * tree)) (addl : option tree) (additems : list tree) (items : option tree)
    (contains anyof oneof allof : list tree) (not_ : option tree).

(** From a schema to one of its parts. *)
Inductive step :=
| SProperty (k : bytes) | SPattern (k : bytes) | SAddl | SAddItem (i : nat) | SItems | SContains (i : nat)
| SAnyOf (i : nat) | SOneOf (i : nat) | SAllOf (i : nat) | SNot.

(** A message: its payload, headers and alternatives, and where its correlation identifier is, when it has one: in the headers ([true])
    or in the payload. *)
Inductive mtree := MTree (payload headers : option tree) (oneof : list mtree) (correlation : option bool).

(** A document: the messages of the channels, those of the components, the schemas of the components.
    Simplifications: no reference (a message that is a reference is not generated, message.tmpl:3-8); the schemas and messages of the
    dependencies and of [components.channels], which are not generated, are left out. *)
Record document := mkDocument {
  d_channels : list (bytes * list (bytes * mtree));
  d_messages : list (bytes * mtree);
  d_schemas : list (bytes * tree);
}.

(** What a name is given to. *)
Inductive base := BComponent (k : bytes) | BChannel (c k : bytes).
Inductive place :=
| PSchema (k : bytes) (at_ : list step)
| PMessage (b : base) (alt : list nat)
| PPayload (b : base) (alt : list nat) (at_ : list step)
| PHeaders (b : base) (alt : list nat) (at_ : list step).

Section names.
  Variable ul ud : N -> bool.
  Variable uu : N -> bytes.
  Local Notation nam := (namify ul ud uu).
  Local Notation lit := list_ascii_of_string.

  (** fmt.Sprintf("%d") on an index. *)
  Definition itoa (i : nat) : bytes := lit (pretty i).

  (** utils.go:11-29 [generateFullName]. [None] is a panic of Namify. *)
  Definition full_name (parent name type : bytes) (number : option nat) : option bytes :=
    parent ← nam parent; name ← nam name; type ← nam type;
    let type := match number with Some i => type ++ "_"%char :: itoa i | None => type end in
    let parent := match parent with [] => [] | _ => lit "From_" ++ parent end in
    nam (name ++ "_"%char :: type ++ "_"%char :: parent).

  (** All the names of the parts of a list, [f] being given the position. *)
  Definition each {A B} (f : nat -> A -> option (list B)) : nat -> list A -> option (list B) :=
    fix each i l :=
      match l with
      | [] => Some []
      | a :: r => x ← f i a; y ← each (S i) r; Some (x ++ y)
      end.
  Definition one {A B} (f : A -> option (list B)) (o : option A) : option (list B) :=
    match o with Some a => f a | None => Some [] end.

  (** schema.go:82-166 [generateMetadata]: the names, with the way from the root, which is [at_] for the schema itself. *)
  Fixpoint schema_names (parent name : bytes) (number : option nat) (at_ : list step) (t : tree) : option (list (list step * bytes)) :=
    match t with
    | Tree props patterns addl additems items contains anyof oneof allof not_ =>
        me ← full_name parent name [] number;
        l1 ← each (fun _ kp => schema_names me (kp.1 ++ lit "_Property") None (at_ ++ [SProperty kp.1]) kp.2) 0 props;
        l2 ← each (fun _ kp => schema_names me (kp.1 ++ lit "_Pattern_Property") None (at_ ++ [SPattern kp.1]) kp.2) 0 patterns;
        l3 ← one (schema_names me (lit "Additional_Properties") None (at_ ++ [SAddl])) addl;
        l4 ← each (fun i => schema_names me (lit "Additional_Item") (Some i) (at_ ++ [SAddItem i])) 0 additems;
        l5 ← one (schema_names [] (lit "Item_From_" ++ me) None (at_ ++ [SItems])) items;
        l6 ← each (fun i => schema_names [] (me ++ lit "_Content") (Some i) (at_ ++ [SContains i])) 0 contains;
        l7 ← each (fun i => schema_names me (lit "Any_Of") None (at_ ++ [SAnyOf i])) 0 anyof;
        l8 ← each (fun i => schema_names me (lit "One_Of") None (at_ ++ [SOneOf i])) 0 oneof;
        l9 ← each (fun i => schema_names me (lit "All_Of") None (at_ ++ [SAllOf i])) 0 allof;
        l10 ← one (schema_names me (lit "Not_Schema") None (at_ ++ [SNot])) not_;
        Some ((at_, me) :: l1 ++ l2 ++ l3 ++ l4 ++ l5 ++ l6 ++ l7 ++ l8 ++ l9 ++ l10)
    end.

  (** message.go:66-108. The headers or payload that the correlation identifier needs and that are absent are created with the name "header"
      (335-345), which the template gives to Namify; their own parts, of which no type is made, are left out (Location.v). *)
  Fixpoint message_names (parent name : bytes) (number : option nat) (b : base) (alt : list nat) (m : mtree) : option (list (place * bytes)) :=
    match m with
    | MTree payload headers oneof correlation =>
        me ← full_name parent name (lit "Message") number;
        pl ← one (fun t => l ← schema_names [] (me ++ lit "_Payload") None [] t; Some (map (fun x => (PPayload b alt x.1, x.2)) l)) payload;
        hd ← one (fun t => l ← schema_names me (lit "Headers") None [] t; Some (map (fun x => (PHeaders b alt x.1, x.2)) l)) headers;
        os ← each (fun i => message_names me [] (Some i) b (alt ++ [i])) 0 oneof;
        created ← nam (lit "header");
        let cr := match correlation, headers, payload with
                  | Some true, None, _ => [(PHeaders b alt [], created)]
                  | Some false, _, None => [(PPayload b alt [], created)]
                  | _, _, _ => []
                  end in
        Some ((PMessage b alt, me) :: pl ++ hd ++ os ++ cr)
    end.

  (** channel.go:45-58, components.go:33-60 and specification.go:84-127, in the order of types.tmpl:58-85. *)
  Definition channel_names (c : bytes) (ms : list (bytes * mtree)) : option (list (place * bytes)) :=
    me ← full_name [] c (lit "Channel") None;
    each (fun _ kp => message_names me kp.1 None (BChannel c kp.1) [] kp.2) 0 ms.
  Definition document_names (d : document) : option (list (place * bytes)) :=
    l1 ← each (fun _ c => channel_names c.1 c.2) 0 (d_channels d);
    l2 ← each (fun _ kp => message_names [] kp.1 None (BComponent kp.1) [] kp.2) 0 (d_messages d);
    l3 ← each (fun _ kp => l ← schema_names [] (kp.1 ++ lit "_Schema") None [] kp.2; Some (map (fun x => (PSchema kp.1 x.1, x.2)) l)) 0 (d_schemas d);
    Some (l1 ++ l2 ++ l3).
End names.
