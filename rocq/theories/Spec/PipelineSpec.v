(** Where the schemas of a document are, and which names they have. *)
From stdpp Require Import gmap list strings.
From Coq Require Import NArith Ascii String.
From Verif.Model Require Import Schema Names.

(** From a schema to a part of it, in the document as it was read. *)
Inductive leads (h : heap) : nat -> list step -> nat -> Prop :=
| leads_here s : leads h s [] s
| leads_prop s k v p l : map_at h (s_props (cell h s)) !! k = Some v -> leads h v p l -> leads h s (SProperty (list_ascii_of_string k) :: p) l
| leads_addl s v p l : s_addprops (cell h s) = Some v -> leads h v p l -> leads h s (SAddl :: p) l
| leads_items s v p l : s_items (cell h s) = Some v -> leads h v p l -> leads h s (SItems :: p) l.

(** [name] gives each schema of the components the name that its place has in [names]. *)
Definition carries (name : nat -> string) (h : heap) (components : list (string * nat)) (names : list (place * list ascii)) : Prop :=
  forall k s p l n, (k, s) ∈ components -> leads h s p l -> (PSchema (list_ascii_of_string k) p, n) ∈ names -> name l = string_of_list_ascii n.

(** A document without anyOf, oneOf and allOf. *)
Definition uncomposed (h : heap) : Prop := forall l, s_anyof (cell h l) = [] /\ s_oneof (cell h l) = [] /\ s_allof (cell h l) = [].

(** No array of arrays. *)
Definition flat (h : heap) : Prop :=
  forall l i, s_type (cell h l) = "array"%string -> s_items (cell h l) = Some i -> s_type (cell h i) <> "array"%string.
