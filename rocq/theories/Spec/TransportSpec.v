(** Headers over NATS: what of them arrives. *)
From stdpp Require Import gmap list strings.
From Coq Require Import Ascii String.
Local Open Scope string_scope.

Definition letters : string := "abcdefghijklmnopqrstuvwxyzABCDEFGHIJKLMNOPQRSTUVWXYZ0123456789!#$%&'*+-.^_`|~".
(** RFC 7230, 3.2.6: a token. *)
Definition token (s : string) : Prop := s <> "" /\ Forall (fun a => a ∈ list_ascii_of_string letters) (list_ascii_of_string s).
Definition newline (a : ascii) : Prop := a = "010"%char \/ a = "013"%char.
Definition white (a : ascii) : Prop := a = " "%char \/ a = "009"%char \/ newline a.
(** Without white space at its ends. *)
Definition bare (l : list ascii) : Prop := (forall a r, l = a :: r -> ~ white a) /\ (forall a r, l = (r ++ [a])%list -> ~ white a).
(** [w] is [v] on one line, with spaces for the newlines inside and without white space at the ends. *)
Definition cleaned (v w : string) : Prop :=
  exists a b, Forall2 (fun x y => newline x /\ y = " "%char \/ ~ newline x /\ y = x) (list_ascii_of_string v) (a ++ list_ascii_of_string w ++ b)%list /\
    Forall white a /\ Forall white b /\ bare (list_ascii_of_string w).
(** [h'] is what arrives of [h]: the headers that have a token as their name, with their values cleaned. *)
Definition thinned (h h' : gmap string string) : Prop :=
  forall k w, h' !! k = Some w <-> token k /\ exists v, h !! k = Some v /\ cleaned v w.
(** A header that NATS keeps as it is. *)
Definition kept (k v : string) : Prop :=
  token k /\ Forall (fun a => ~ newline a) (list_ascii_of_string v) /\ bare (list_ascii_of_string v).
