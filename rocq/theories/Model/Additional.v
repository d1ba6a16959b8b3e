(** Marshalling of additional properties:
    pkg/codegen/generators/v3/templates/marshaling/additional_properties.tmpl and its v2 counterpart.
    Texts are lists of Unicode code points. *)
From stdpp Require Import list.
From Coq Require Import NArith String Ascii.
Local Open Scope N_scope.

Definition text := list N.
Definition txt (s : string) : text := map N_of_ascii (list_ascii_of_string s).

(** A Go string: code points, and bytes that are not part of a valid UTF-8 sequence. *)
Inductive gochar := Rune (r : N) | BadByte (b : N).
Definition gostring := list gochar.

Section Quote.
  (** strconv.IsPrint beyond ASCII. *)
  Context (printable : N -> bool).
  Definition is_print (r : N) : bool :=
    if r <? 128 then (32 <=? r) && (r <=? 126) else printable r.

  (** lower-case hexadecimal, most significant digit first *)
  Definition hexdigit (n : N) : N := if n <? 10 then 48 + n else 87 + n.
  Fixpoint hex (digits : nat) (n : N) : text :=
    match digits with
    | O => []
    | S d => hex d (n / 16) ++ [hexdigit (n mod 16)]
    end%list.

  (** The verb %q on a string (package fmt: fmtQ; package strconv: appendEscapedRune). *)
  Definition quote_rune (r : N) : text :=
    if (r =? 34) || (r =? 92) then [92; r]
    else if is_print r then [r]
    else if r =? 7 then txt "\a"
    else if r =? 8 then txt "\b"
    else if r =? 12 then txt "\f"
    else if r =? 10 then txt "\n"
    else if r =? 13 then txt "\r"
    else if r =? 9 then txt "\t"
    else if r =? 11 then txt "\v"
    else if (r <? 32) || (r =? 127) then (txt "\x" ++ hex 2 r)%list
    else if r <? 65536 then (txt "\u" ++ hex 4 r)%list
    else (txt "\U" ++ hex 8 r)%list.
  Definition quote_char (c : gochar) : text :=
    match c with Rune r => quote_rune r | BadByte b => (txt "\x" ++ hex 2 b)%list end.
  Definition quote (s : gostring) : text := ([34] ++ List.concat (map quote_char s) ++ [34])%list.

  (** v3: additional_properties.tmpl:4-35. [b]: json.Marshal of the structure without its additional
      properties; [adds]: the additional properties in the order of the map iteration, each with its
      json.Marshal (an error of json.Marshal is not represented). *)
  Fixpoint append_v3 (sep : bool) (b : text) (adds : list (gostring * text)) : text :=
    match adds with
    | [] => b
    | (k, v) :: r =>
        let b := if sep then (b ++ [44])%list else b in
        append_v3 true (b ++ quote k ++ [58] ++ v)%list r
    end.
  Definition marshal_v3 (b : text) (adds : list (gostring * text)) : text :=
    let b := removelast b in
    (append_v3 (Nat.ltb 1 (List.length b)) b adds ++ [125])%list.

  (** v2: the value of an additional property is formatted with %q whatever its type: strings are
      quoted, integers become a character literal, booleans and floats are reported as wrong operands.
      Simplification: values of other types (structures, lists, maps) are not represented. *)
  Inductive v2value :=
  | V2String (s : gostring)
  | V2Int (literal : text)
  | V2Other (shown : text).
  Definition fmt_q (v : v2value) : text :=
    match v with
    | V2String s => quote s
    | V2Int t => ([39] ++ t ++ [39])%list
    | V2Other t => (txt "%!q(" ++ t ++ txt ")")%list
    end.
  (** v2 additional_properties.tmpl:4-23 *)
  Definition marshal_v2 (b : text) (adds : list (gostring * v2value)) : text :=
    (fold_left (fun b kv => b ++ [44] ++ quote kv.1 ++ [58] ++ fmt_q kv.2) adds (removelast b) ++ [125])%list.
End Quote.
