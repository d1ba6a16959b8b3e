(** Tags and security schemes, whose names are overwritten before duplicates are looked for.
    Modelled code: pkg/asyncapi/v3/tag.go:20-31, security_scheme.go:54-62, message.go:180-184, 264-285, 542-544,
    message_trait.go:34-58, operation.go:58-63, 72-75, 216-222, operation_trait.go:25-48. *)
From stdpp Require Import list strings.
From Coq Require Import NArith Ascii String.
From Verif.Model Require Import Naming Names Slices.

(** A tag or a security scheme: the name it has in the document, and the field Name, which is read from the document and overwritten by generateMetadata. *)
Record label := mkLabel { l_declared : bytes; l_name : bytes }.

Section labels.
  Variable ul ud : N -> bool.
  Variable uu : N -> bytes.
  Local Notation lit := list_ascii_of_string.

  (** tag.go:27 and security_scheme.go:61 for each element of a list, from the position [i]. *)
  Fixpoint rename (parent : bytes) (kind : string) (i : nat) (ls : list bytes) : option (list label) :=
    match ls with
    | [] => Some []
    | x :: r =>
        n ← full_name ul ud uu parent [] (lit kind) (Some i);
        r' ← rename parent kind (S i) r;
        Some (mkLabel x n :: r')
    end.

  (** message_trait.go:41 and operation_trait.go:32: the traits of a list, from the position [i], named after their parent, and their labels. *)
  Fixpoint rename_traits (parent : bytes) (kind : string) (i : nat) (ts : list (list bytes)) : option (list (list label)) :=
    match ts with
    | [] => Some []
    | t :: r =>
        n ← full_name ul ud uu parent [] (lit "Trait") (Some i);
        t' ← rename n kind 0 t;
        r' ← rename_traits parent kind (S i) r;
        Some (t' :: r')
    end.

  (** setTraitsDependencies: each trait is applied in turn, appending its labels and removing duplicates (message.go:543-544, operation.go:217-218).
      [own]: the labels of the message or operation; [parent]: its name. Simplification: the traits are in the message or operation, not in the components. *)
  Definition apply_labels (parent : bytes) (kind : string) (own : list bytes) (traits : list (list bytes)) : option (list label) :=
    own' ← rename parent kind 0 own;
    ts ← rename_traits parent kind 0 traits;
    Some (fold_left (fun acc t => dedup_by l_name (acc ++ t)) ts own').

  (** operation.go:51-83 and 221-222: the tags of an operation are not renamed, those of its traits are. *)
  Definition apply_operation_tags (parent : bytes) (own : list bytes) (traits : list (list bytes)) : option (list label) :=
    ts ← rename_traits parent "Tag" 0 traits;
    Some (fold_left (fun acc t => dedup_by l_name (acc ++ t)) ts (map (fun x => mkLabel x x) own)).
End labels.
