(** Which custom imports a specification asks for. *)
From stdpp Require Import gmap list strings.
From Coq Require Import String.
From Verif.Model Require Import Imports.

(** A schema asks for an import: itself, a property or its items do. *)
Inductive asks : ischema -> go_import -> Prop :=
| asks_own props items others i : asks (ISchema props items others (Some i)) i
| asks_property props items others imp k p i : (k, p) ∈ props -> asks p i -> asks (ISchema props items others imp) i
| asks_items props it others imp i : asks it i -> asks (ISchema props (Some it) others imp) i.

(** Any schema inside, including alternatives and additional properties. *)
Inductive asks_anywhere : ischema -> go_import -> Prop :=
| any_own props items others i : asks_anywhere (ISchema props items others (Some i)) i
| any_property props items others imp k p i : (k, p) ∈ props -> asks_anywhere p i -> asks_anywhere (ISchema props items others imp) i
| any_items props it others imp i : asks_anywhere it i -> asks_anywhere (ISchema props (Some it) others imp) i
| any_other props items others imp o i : o ∈ others -> asks_anywhere o i -> asks_anywhere (ISchema props items others imp) i.

(** The schemas that are looked at. *)
Definition looked_at (v2 : bool) (c : components) (s : ischema) : Prop :=
  (exists k, (k, s) ∈ c_schemas c) \/
  (exists k m, (k, m) ∈ c_messages c /\ (im_payload m = Some s \/ im_headers m = Some s)) \/
  (v2 = true /\ exists k, (k, Some s) ∈ c_parameters c).
Definition asked_for (v2 : bool) (c : components) (i : go_import) : Prop :=
  exists s, looked_at v2 c s /\ asks s i.
Definition conflict (v2 : bool) (c : components) : Prop :=
  exists i j, asked_for v2 c i /\ asked_for v2 c j /\ i_path i = i_path j /\ i_name i <> i_name j.

(** The same components, the maps being iterated in another order. *)
Inductive reorders : ischema -> ischema -> Prop :=
| reorders_intro props props' items items' others imp :
    reorders_props props props' -> reorders_items items items' ->
    reorders (ISchema props items others imp) (ISchema props' items' others imp)
with reorders_props : list (string * ischema) -> list (string * ischema) -> Prop :=
| reorders_nil : reorders_props [] []
| reorders_insert k p p' l l1 l2 : reorders p p' -> reorders_props l (l1 ++ l2) ->
    reorders_props ((k, p) :: l) (l1 ++ (k, p') :: l2)
with reorders_items : option ischema -> option ischema -> Prop :=
| reorders_none : reorders_items None None
| reorders_some a b : reorders a b -> reorders_items (Some a) (Some b).
Inductive reorders_message : imessage -> imessage -> Prop :=
| reorders_msg p p' h h' : reorders_items p p' -> reorders_items h h' ->
    reorders_message (mkIMessage p h) (mkIMessage p' h').
Inductive reorders_map {A} (R : A -> A -> Prop) : list (string * A) -> list (string * A) -> Prop :=
| rmap_nil : reorders_map R [] []
| rmap_insert k a a' l l1 l2 : R a a' -> reorders_map R l (l1 ++ l2) ->
    reorders_map R ((k, a) :: l) (l1 ++ (k, a') :: l2).
Definition reorders_components (c c' : components) : Prop :=
  reorders_map reorders (c_schemas c) (c_schemas c') /\
  reorders_map reorders_message (c_messages c) (c_messages c') /\
  reorders_map reorders_items (c_parameters c) (c_parameters c').

(** The line of an import declaration. *)
Definition import_text (i : go_import) : string :=
  if String.eqb (i_name i) "" then ("""" +:+ i_path i +:+ """")%string
  else (i_name i +:+ " """ +:+ i_path i +:+ """")%string.
(** An import name without blanks around. *)
Definition starts_plainly (s : string) : Prop :=
  match s with EmptyString => True | String a _ => is_space a = false end.

(** Nothing inside asks for an import but through properties and items. *)
Definition only_visible (s : ischema) : Prop := forall i, asks_anywhere s i -> asks s i.
