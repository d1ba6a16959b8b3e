(** Which operations each side of the generated code should have. *)
From stdpp Require Import gmap list strings.
From Coq Require Import String.
From Verif.Model Require Import Operations.

Definition opposite (s : side) : side := match s with Application => User | User => Application end.

(** The action of the document is written for the application; the user has the other one. *)
Definition receives (s : side) (o : operation) : Prop :=
  match s with
  | Application => o_action (follow o) = "receive"%string
  | User => o_action (follow o) = "send"%string
  end.
Definition sends (s : side) (o : operation) : Prop := receives (opposite s) o.

(** The operation is answered on that channel. *)
Definition answered_on (o : operation) (ch : channel) : Prop :=
  exists r, o_reply (follow o) = Some r /\ r_channel r = Some ch.

(** No operation is a reference to another one. *)
Definition no_reference (ops : list (string * operation)) : Prop := forall k o, (k, o) ∈ ops -> o_refers o = None.

(** The keys under which the operations to send of a side are put are different. *)
Definition no_clash (s : side) (ops : list (string * operation)) : Prop :=
  forall k o ch, (k, o) ∈ ops -> receives s o -> answered_on o ch ->
    (forall k' o', (k', o') ∈ ops -> sends s o' -> k' <> ch_name ch) /\
    (forall k' o' ch', (k', o') ∈ ops -> receives s o' -> answered_on o' ch' -> ch_name ch' = ch_name ch -> k' = k).

(** The same, but operations without any difference may share a reply channel. *)
Definition no_mixture (s : side) (ops : list (string * operation)) : Prop :=
  forall k o ch, (k, o) ∈ ops -> receives s o -> answered_on o ch ->
    (forall k' o', (k', o') ∈ ops -> sends s o' -> k' <> ch_name ch) /\
    (forall k' o' ch', (k', o') ∈ ops -> receives s o' -> answered_on o' ch' -> ch_name ch' = ch_name ch -> o' = o).

(** Version 2: publish is written for those who send to the application. *)
Definition receives2 (s : side) (c : channel2) : Prop :=
  match s with Application => c2_publish c = true | User => c2_subscribe c = true end.
