(** What taking off a suffix should do. *)
From stdpp Require Import list.
From Coq Require Import Ascii.

Definition ends_with (s suf : list ascii) : Prop := exists r, s = r ++ suf.

(** [r] is [s] without the suffix, written with or without "_" before it; a name without it is left. *)
Inductive without (suf s : list ascii) : list ascii -> Prop :=
| W_joined r : s = r ++ "_"%char :: suf -> without suf s r
| W_plain r : s = r ++ suf -> ~ ends_with s ("_"%char :: suf) -> without suf s r
| W_none : ~ ends_with s suf -> without suf s s.
