(** Names used and defined by Go type definitions; schemas and their values. *)
From stdpp Require Import list strings.
From Coq Require Import String.
From Verif.Model Require Import Types.
Local Open Scope string_scope.

(** The named types a Go type is made of. *)
Inductive mentions : gotype -> string -> Prop :=
| mentions_named n : mentions (TNamed n) n
| mentions_slice t n : mentions t n -> mentions (TSlice t) n.
Definition uses (d : gdef) (n : string) : Prop :=
  match d with
  | DStruct fs a => (exists f, f ∈ fs /\ mentions (f_type f) n) \/ (exists t, a = Some t /\ mentions t n)
  | DType t _ => mentions t n
  end.

(** The schemas a schema is made of. *)
Inductive child : gschema -> gschema -> Prop :=
| child_prop n t f e ps it ad r k b p : (k, (b, p)) ∈ ps -> child (GSchema n t f e ps it ad r) p
| child_items n t f e ps it ad r : child (GSchema n t f e ps (Some it) ad r) it
| child_addl n t f e ps it ad r : child (GSchema n t f e ps it (Some ad) r) ad.
Inductive inside : gschema -> gschema -> Prop :=
| inside_here s : inside s s
| inside_child s c x : child s c -> inside c x -> inside s x.

(** A schema that is only a reference to the one of that name; one is inside. *)
Definition reference_of (x : gschema) (m : string) : Prop :=
  let 'GSchema _ t _ e _ _ _ r := x in t = "" /\ e = "" /\ r = Some m.
Definition refers (s : gschema) (n : string) : Prop := exists x, inside s x /\ reference_of x n.

(** The schemas that are given a definition with a component: itself; and in objects and arrays that are given one the objects that it is
    made of, and those that are the items of arrays that it is made of. *)
Inductive given : gschema -> gschema -> Prop :=
| given_here s : given s s
| given_object s c x : g_type s = "object" \/ g_type s = "array" -> child s c -> g_type c = "object" -> given c x -> given s x
| given_items s c i x : g_type s = "object" \/ g_type s = "array" -> child s c -> g_type c = "array" -> g_items c = Some i -> g_type i = "object" ->
    given i x -> given s x.

(** An array without items, or of such arrays; custom Go types need none. *)
Inductive itemless : gschema -> Prop :=
| itemless_none n f ps ad r : itemless (GSchema n "array" f "" ps None ad r)
| itemless_some n f ps i ad r : itemless i -> itemless (GSchema n "array" f "" ps (Some i) ad r).
(** A schema whose own definition needs the type of one: a property or the additional properties of an object, or itself. *)
Definition needs_itemless (s : gschema) : Prop :=
  let 'GSchema _ t _ _ ps _ ad _ := s in
  if String.eqb t "object" then (exists k b p, (k, (b, p)) ∈ ps /\ itemless p) \/ (exists a, ad = Some a /\ itemless a) else itemless s.

(** How many arrays are around the elements. *)
Fixpoint array_depth (s : gschema) : nat :=
  match s with
  | GSchema _ t _ _ _ it _ _ =>
      if String.eqb t "array" then match it with Some i => S (array_depth i) | None => 1 end else 0
  end.
(** No array of arrays, except that the schema itself may be an array of arrays of something else. *)
Definition shallow (s : gschema) : Prop :=
  (array_depth s <= 2)%nat /\
  forall o c, inside s o -> g_type o <> "array" -> child o c -> (array_depth c <= 1)%nat.

(** All the names of a schema, one for each schema inside. *)
Fixpoint all_names (s : gschema) : list string :=
  match s with
  | GSchema n _ _ _ ps it ad _ =>
      (n :: (List.concat (map (fun kp => all_names kp.2.2) ps)
             ++ (match it with Some i => all_names i | None => [] end)
             ++ (match ad with Some a => all_names a | None => [] end)))%list
  end.

(** The types on which the functions of marshaling/time.tmpl compile: time.Time(t) is a conversion of a
    value whose underlying type is that of time.Time. *)
Definition converts_to_time (t : gotype) : Prop := t = TTime.

(** The type has its own functions to encode and decode JSON, which a type defined from it by
    [type A B] does not inherit. *)
Definition own_json (env : list (string * gdef)) (n : string) : Prop :=
  exists d, (n, d) ∈ env /\ match d with DStruct _ a => a <> None | DType _ m => m = true end.

(** The types written in a definition. *)
Definition written (d : gdef) (t : gotype) : Prop :=
  match d with
  | DStruct fs a => (exists f, f ∈ fs /\ f_type f = t) \/ a = Some t
  | DType t' _ => t' = t
  end.
Inductive well_formed : gotype -> Prop :=
| wf_slice t : well_formed t -> well_formed (TSlice t)
| wf_other t : t <> TBroken -> (forall t', t <> TSlice t') -> well_formed t.
(** The types the templates know, arrays having items. *)
Definition known_type (s : gschema) : Prop :=
  let 'GSchema _ t _ e _ it _ _ := s in
  e <> "" \/ t ∈ [""; "object"; "boolean"; "string"; "integer"; "number"] \/ (t = "array" /\ is_Some it).

(** * Values *)
Inductive json := JNull | JScalar | JArray (l : list json) | JObject (l : list (string * json)).
(** A necessary condition for a value to be valid: an object has its required properties, with
    valid values; a reference is followed. [nodes]: the schemas of the document. *)
Inductive valid (nodes : gschema -> Prop) : json -> gschema -> Prop :=
| valid_object n f e ps it ad r l :
    (forall k p, (k, (true, p)) ∈ ps -> exists v, (k, v) ∈ l /\ valid nodes v p) ->
    valid nodes (JObject l) (GSchema n "object" f e ps it ad r)
| valid_reference v n f ps it ad m c :
    nodes c -> g_name c = m -> valid nodes v c -> valid nodes v (GSchema n "" f "" ps it ad (Some m))
| valid_other v n t f e ps it ad r :
    t <> "object" -> (t = "" -> e <> "" \/ r = None) -> valid nodes v (GSchema n t f e ps it ad r).

(** [b] is part of the memory layout of [a]. *)
Definition embeds (env : list (string * gdef)) (a b : string) : Prop :=
  exists d, (a, d) ∈ env /\
    match d with
    | DStruct fs _ => exists f, f ∈ fs /\ f_pointer f = false /\ f_type f = TNamed b
    | DType t _ => t = TNamed b
    end.
(** Go rejects a type whose layout is infinite: every descent through embedded types must stop. *)
Definition finite_layout (env : list (string * gdef)) (n : string) : Prop := Acc (fun b a => embeds env a b) n.

Definition node_of (cs : list gschema) (x : gschema) : Prop := exists c, c ∈ cs /\ inside c x.
