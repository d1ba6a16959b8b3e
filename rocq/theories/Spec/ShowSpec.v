(** What the text of a broker message should tell. *)
From stdpp Require Import list strings.
From Coq Require Import NArith.
From Verif.Model Require Import Additional.
From Verif.Spec Require Import JsonSpec.
Local Open Scope N_scope.

(** A Go string: code points without surrogates, and bytes beyond ASCII that are not part of a valid sequence. *)
Definition real_char (c : gochar) : Prop :=
  match c with Rune r => r <= 1114111 /\ ~ surrogate r | BadByte b => 128 <= b < 256 end.
Definition real (s : gostring) : Prop := Forall real_char s.
Definition real_entry (kv : gostring * gostring) : Prop := real kv.1 /\ real kv.2.

(** The entries that %q writes as JSON, and the JSON value of a message. *)
Definition clean_entry (printable : N -> bool) (e : gostring * gostring) : Prop := clean printable e.1 /\ clean printable e.2.
Definition value_of (hs : list (gostring * gostring)) (v : json) : json :=
  JObj (match hs with [] => [] | _ => [(txt "headers", JObj (map (fun e => (runes e.1, JStr (runes e.2))) hs))] end ++ [(txt "payload", v)])%list.
