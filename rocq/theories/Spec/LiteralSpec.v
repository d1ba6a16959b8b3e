(** String literals of Go (The Go Programming Language Specification, "String literals" and "Rune literals"; NUL and a byte order mark inside of a
    file are refused, as the specification allows and the compiler does). *)
From stdpp Require Import list.
From Coq Require Import NArith.
From Verif.Model Require Import Additional.
From Verif.Spec Require Import JsonSpec ShowSpec.
Local Open Scope N_scope.
Local Open Scope list_scope.

(** The bytes of a string. *)
Definition utf8 (r : N) : list N :=
  if r <? 128 then [r]
  else if r <? 2048 then [192 + r / 64; 128 + r mod 64]
  else if r <? 65536 then [224 + r / 4096; 128 + r / 64 mod 64; 128 + r mod 64]
  else [240 + r / 262144; 128 + r / 4096 mod 64; 128 + r / 64 mod 64; 128 + r mod 64].
Definition bytes_of (s : gostring) : list N := List.concat (map (fun c => match c with Rune r => utf8 r | BadByte b => [b] end) s).

(** A number written with digits. *)
Inductive digits (base : N) : list N -> N -> Prop :=
| digits_nil : digits base [] 0
| digits_snoc l n c d : digits base l n -> hexval c d -> d < base -> digits base (l ++ [c]) (base * n + d).

(** What a source file may contain. *)
Definition in_source (r : N) : Prop := real_char (Rune r) /\ r <> 0 /\ r <> 65279.
(** One character of an interpreted literal, and the bytes it stands for. *)
Inductive go_char : gostring -> list N -> Prop :=
| go_plain r : in_source r -> r <> 34 -> r <> 92 -> r <> 10 -> go_char [Rune r] (utf8 r)
| go_simple e v : (e, v) ∈ [(97, 7); (98, 8); (102, 12); (110, 10); (114, 13); (116, 9); (118, 11); (92, 92); (34, 34)] -> go_char [Rune 92; Rune e] [v]
| go_hex h n : List.length h = 2%nat -> digits 16 h n -> go_char (map Rune ([92; 120] ++ h)) [n]
| go_octal h n : List.length h = 3%nat -> digits 8 h n -> n <= 255 -> go_char (map Rune ([92] ++ h)) [n]
| go_little h n : List.length h = 4%nat -> digits 16 h n -> real_char (Rune n) -> go_char (map Rune ([92; 117] ++ h)) (utf8 n)
| go_big h n : List.length h = 8%nat -> digits 16 h n -> real_char (Rune n) -> go_char (map Rune ([92; 85] ++ h)) (utf8 n).
Definition literal (t : gostring) (v : list N) : Prop :=
  exists parts, t = [Rune 34] ++ List.concat (map fst parts) ++ [Rune 34] /\ v = List.concat (map snd parts) /\ Forall (fun p => go_char p.1 p.2) parts.
(** A raw literal: carriage returns are left out. *)
Definition raw_literal (t : gostring) (v : list N) : Prop :=
  exists s, t = [Rune 96] ++ s ++ [Rune 96] /\ Forall (fun c => exists r, c = Rune r /\ in_source r /\ r <> 96) s /\
    v = bytes_of (List.filter (fun c => match c with Rune r => negb (r =? 13) | BadByte _ => true end) s).

(** The text [out] is [before], a literal for [s], and [after]. *)
Definition holds (out before_ : gostring) (s : gostring) (after_ : gostring) : Prop :=
  exists lit, out = before_ ++ lit ++ after_ /\ literal lit (bytes_of s).

(** No quote, backslash, newline or what may not stand in a file. *)
Definition plain (s : gostring) : Prop := Forall (fun c => exists r, c = Rune r /\ in_source r /\ r <> 34 /\ r <> 92 /\ r <> 10) s.
Definition plain_tag (s : gostring) : Prop := Forall (fun c => exists r, c = Rune r /\ in_source r /\ r <> 96 /\ r <> 13) s.
