(** Suffixes of names, as taken off for the documentation comments of v3.
    Modelled code: pkg/utils/template/helpers.go:141-145 (CutSuffix), with strings.CutSuffix of the standard library. *)
From stdpp Require Import list strings.
From Coq Require Import Ascii.
From Verif.Model Require Import Naming.

(** strings.HasSuffix: len(s) >= len(suffix) && s[len(s)-len(suffix):] == suffix *)
Definition has_suffix (s suf : bytes) : bool :=
  Nat.leb (List.length suf) (List.length s) && bool_decide (drop (List.length s - List.length suf) s = suf).

(** The first result of strings.CutSuffix. *)
Definition cut_once (s suf : bytes) : bytes :=
  if has_suffix s suf then take (List.length s - List.length suf) s else s.

(** helpers.go:141-145 *)
Definition cut_suffix (s suf : bytes) : bytes :=
  let s := cut_once s suf in
  cut_once s ("_"%char :: suf).
