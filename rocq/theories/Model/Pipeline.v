(** From the component schemas of a document to Go types: metadata (Names.v), processing (Schema.v), templates (Types.v).
    Modelled code: pkg/asyncapi/v3/specification.go:84-127 and components.go:33-78 as far as schemas go,
    pkg/codegen/generators/v3/templates/types.tmpl:83-85, pkg/codegen/generators/v3/templates/helpers.go:130-132. *)
From stdpp Require Import gmap list strings.
From Coq Require Import NArith Ascii String.
From Verif.Model Require Import Slices Reference Schema Naming Names Types.

Section pipeline.
  (** The properties of a map in the order of their keys, which is that of text/template. *)
  Variable listing : gmap string nat -> list (string * nat).
  (** The key of a pattern property, which Schema.v does not keep. *)
  Variable pattern_key : nat -> string.

  Local Notation props_of h c := (listing (map_at h (s_props c))).

  (** The schema that a pointer leads to, as Names.v has it. [None]: too deep for the fuel. *)
  Fixpoint tree_of (fuel : nat) (h : heap) (s : nat) : option tree :=
    match fuel with
    | 0%nat => None
    | S fuel =>
        let c := cell h s in
        let go := tree_of fuel h in
        let opt o := match o with Some x => t ← go x; Some (Some t) | None => Some None end in
        props ← mapM (fun kv : string * nat => t ← go kv.2; Some (list_ascii_of_string kv.1, t)) (props_of h c);
        patterns ← mapM (fun p => t ← go p; Some (list_ascii_of_string (pattern_key p), t)) (s_pattern c);
        addl ← opt (s_addprops c);
        additems ← mapM go (s_additems c);
        items ← opt (s_items c);
        contains ← mapM go (s_contains c);
        anyof ← mapM go (s_anyof c);
        oneof ← mapM go (s_oneof c);
        allof ← mapM go (s_allof c);
        not_ ← opt (s_not c);
        Some (Tree props patterns addl additems items contains anyof oneof allof not_)
    end.

  (** The names (field Name, "" when the schema was made by the processing), formats and custom types of the schemas. *)
  Variable name format ext : nat -> string.

  (** What the templates read from a pointer. *)
  Fixpoint reify (fuel : nat) (h : heap) (s : nat) : option gschema :=
    match fuel with
    | 0%nat => None
    | S fuel =>
        let c := cell h s in
        let opt o := match o with Some x => t ← reify fuel h x; Some (Some t) | None => Some None end in
        props ← mapM (fun kv : string * nat =>
                  g ← reify fuel h kv.2; Some (kv.1, (is_in_slice (s_required c) kv.1 || s_isreq (cell h kv.2), g)))%bool (props_of h c);
        items ← opt (s_items c);
        addl ← opt (s_addprops c);
        Some (GSchema (name s) (s_type c) (format s) (ext s) props items addl (name <$> s_refto c))
    end.

  (** types.tmpl:83-85 on the processed components. *)
  Definition component_types (order : visit) (dates force : bool) (fuel : nat) (components : list nat) (h : heap) : option (list (string * gdef)) :=
    gs ← mapM (reify fuel h) components; define_all order dates force gs.

  (** The processing (Schema.v) in the order [porder], then the types; [None] also when the processing fails. *)
  Definition document_types (iter : nat -> gmap string nat -> list (string * nat)) (resolve : heap -> string -> res nat) (v2 : bool) (porder : list nat)
      (order : visit) (dates force : bool) (fuel : nat) (components : list nat) (h : heap) : option (list (string * gdef)) :=
    match process iter resolve v2 fuel porder h with
    | Done h' => component_types order dates force fuel components h'
    | _ => None
    end.
End pipeline.
