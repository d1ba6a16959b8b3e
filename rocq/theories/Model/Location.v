(** The fields designated by runtime expressions such as "$message.header#/correlationId".
    Modelled code: pkg/asyncapi/v3/message.go:286-383, pkg/asyncapi/v2/message.go:204-304 (the same
    up to the message's own fields), pkg/asyncapi/v3/schema.go NewSchema, IsFieldRequired.
    Simplified: only the two schema fields of the message are involved. *)
From stdpp Require Import gmap list strings.
From Coq Require Import Ascii String.
From Verif.Model Require Import GoStrings Reference Slices Schema.
Local Open Scope string_scope.

(** The Headers and Payload pointers of a message. *)
Record parts := mkParts { p_headers : option nat; p_payload : option nat }.

(** schema.go:71-78, with a type. *)
Definition new_schema (t : string) (h : heap) : nat * heap :=
  let '(m, h) := alloc_map h in alloc (with_props (Some m) (with_type t empty_sch)) h.

(** message.go:371-374: [parent.Properties[k] = child]. *)
Definition put_property (parent : nat) (k : string) (child : nat) (h : heap) : heap :=
  match s_props (cell h parent) with
  | Some m => set_map m (<[k := child]> (map_at h (Some m))) h
  | None =>
      let '(m, h) := alloc_map h in
      let h := upd parent (with_props (Some m)) h in
      set_map m {[k := child]} h
  end.

(** message.go:352-380, downToLocation: the parent of the last step (nil for no step). *)
Fixpoint down (path : list string) (child : nat) (h : heap) : option nat * heap :=
  match path with
  | [] => (None, h)
  | v :: rest =>
      let '(next, h) :=
        match map_at h (s_props (cell h child)) !! v with
        | Some c => (c, h)
        | None =>
            let '(c, h) := new_schema (match rest with [] => "string" | _ => "header" end) h in
            (c, put_property child v c h)
        end in
      match rest with [] => (Some child, h) | _ => down rest next h end
  end.

(** message.go:324-350: a missing schema is created, a reference is followed. *)
Definition create_from (get : parts -> option nat) (put : option nat -> parts -> parts) (location : string)
    (m : parts) (h : heap) : option nat * parts * heap :=
  let path := tl (split "/" location) in
  match get m with
  | Some root =>
      let child := match s_refto (cell h root) with Some r => r | None => root end in
      let '(p, h) := down path child h in (p, m, h)
  | None =>
      let '(root, h) := new_schema "object" h in
      let '(p, h) := down path root h in (p, put (Some root) m, h)
  end.

(** message.go:305-322 *)
Definition create_tree (location : string) (m : parts) (h : heap) : option nat * parts * heap :=
  if String.eqb location "" then let '(p, h) := new_schema "" h in (Some p, m, h)
  else if has_prefix "$message.header#" location then
    create_from p_headers (fun p m => mkParts p (p_payload m)) location m h
  else if has_prefix "$message.payload#" location then
    create_from p_payload (fun p m => mkParts (p_headers m) p) location m h
  else let '(p, h) := new_schema "" h in (Some p, m, h).

(** message.go:286-303: createCorrelationIDFieldIfMissing then isCorrelationIDRequired; the latter
    works on a copy of the message, whose pointers are then all set. [None]: nil dereference. *)
Definition correlation_id (location : option string) (m : parts) (h : heap) : option (bool * parts * heap) :=
  match location with
  | None => Some (false, m, h)
  | Some loc =>
      let '(_, m, h) := create_tree loc m h in
      if String.eqb loc "" then Some (false, m, h)
      else
        let '(p, _, h) := create_tree loc m h in
        match p with
        | Some parent => Some (is_in_slice (s_required (cell h parent)) (List.last (split "/" loc) ""), m, h)
        | None => None
        end
  end.

(** The path the templates use for a location (pkg/codegen/generators/v3/templates/helpers.go:49-72
    and v2): referenceToSlicePath, then the step "header" is spelled "headers" and every step is
    turned into a Go name ([namify], Model/Naming.v). *)
Fixpoint replace_char (a : ascii) (b : string) (s : string) : string :=
  match s with "" => "" | String c r => (if Ascii.eqb c a then b else String c "") ++ replace_char a b r end.
Definition slice_path (location : string) : list string :=
  tl (split "/" (replace_char "#" "" (replace_char "." "/" location))).
Definition attribute_steps (location : string) : list string :=
  map (fun v => if String.eqb v "header" then "headers" else v) (slice_path location).
