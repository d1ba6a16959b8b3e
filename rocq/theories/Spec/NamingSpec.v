(** What generated names, addresses and comments should look like, without indices, runes or
    regular expressions. *)
From stdpp Require Import list strings.
From Coq Require Import NArith Ascii String.
From Verif.Spec Require Import JsonTextSpec.

(** Characters, by enumeration. *)
Definition lowers : list ascii := list_ascii_of_string "abcdefghijklmnopqrstuvwxyz".
Definition uppers : list ascii := list_ascii_of_string "ABCDEFGHIJKLMNOPQRSTUVWXYZ".
Definition digits : list ascii := list_ascii_of_string "0123456789".
Definition word_char (a : ascii) : Prop := a ∈ lowers \/ a ∈ uppers \/ a ∈ digits.
#[global] Instance word_char_dec a : Decision (word_char a).
Proof. unfold word_char. apply _. Defined.

(** An exported Go identifier made of ASCII letters and digits. *)
Definition exported (s : list ascii) : Prop :=
  exists c r, s = c :: r /\ c ∈ uppers /\ Forall word_char r.

(** Upper case, by position in the alphabet. *)
Fixpoint upper_by (ls us : list ascii) (a : ascii) : ascii :=
  match ls, us with
  | l :: ls', u :: us' => if decide (a = l) then u else upper_by ls' us' a
  | _, _ => a
  end.
Definition uppercase (a : ascii) : ascii := upper_by lowers uppers a.

(** The letters and digits of a string. *)
Fixpoint word_chars (s : list ascii) : list ascii :=
  match s with
  | [] => []
  | c :: r => if decide (word_char c) then c :: word_chars r else word_chars r
  end.

Fixpoint drop_digits (s : list ascii) : list ascii :=
  match s with
  | c :: r => if decide (c ∈ digits) then drop_digits r else s
  | [] => []
  end.

(** The letters and digits of a string, those that do not follow a letter or digit in upper
    case. [in_word]: a letter or digit came just before. *)
Fixpoint camel (in_word : bool) (s : list ascii) : list ascii :=
  match s with
  | [] => []
  | c :: r =>
      if decide (word_char c) then (if in_word then c else uppercase c) :: camel true r
      else camel false r
  end.

Definition capitalise (s : list ascii) : list ascii :=
  match s with [] => [] | c :: r => uppercase c :: r end.

(** The name of an ASCII string. *)
Definition name_of (s : list ascii) : list ascii := capitalise (drop_digits (camel false s)).

(** ASCII strings. *)
Definition is_ascii (a : ascii) : Prop := (N_of_ascii a < 128)%N.

(** Strings, given by their characters, where only ASCII characters start words; [in_word] tells
    letters and digits. *)
Fixpoint starts_ascii (in_word : N -> bool) (rs : list (nat * N)) (prev : N) : Prop :=
  match rs with
  | [] => True
  | (_, r) :: rs' => (in_word prev = false -> (r < 128)%N) /\ starts_ascii in_word rs' r
  end.

(** ** Addresses: literal text and parameters *)
Inductive segment := Text (t : list ascii) | Param (p : list ascii).

Definition render1 (sg : segment) : list ascii :=
  match sg with Text t => t | Param p => "{"%char :: p ++ ["}"%char] end.
Definition render (sgs : list segment) : list ascii := List.concat (map render1 sgs).

Definition subst1 (val : list ascii -> list ascii) (sg : segment) : list ascii :=
  match sg with Text t => t | Param p => val p end.
Definition subst (val : list ascii -> list ascii) (sgs : list segment) : list ascii :=
  List.concat (map (subst1 val) sgs).

Definition no_brace (s : list ascii) : Prop := "{"%char ∉ s /\ "}"%char ∉ s.
Definition wf_segment (sg : segment) : Prop :=
  match sg with Text t => no_brace t | Param p => no_brace p end.

(** The parameters of any address, from the left: "{", a text without braces and "}"; everything
    else is literal text. *)
Inductive pieces : list ascii -> list segment -> Prop :=
| pieces_nil : pieces [] []
| pieces_param p r sgs : no_brace p -> pieces r sgs ->
    pieces (("{"%char :: p) ++ "}"%char :: r) (Param p :: sgs)
| pieces_text c r sgs : (forall p r', no_brace p -> c :: r <> ("{"%char :: p) ++ "}"%char :: r') -> pieces r sgs ->
    pieces (c :: r) (Text [c] :: sgs).

Definition no_percent (sg : segment) : Prop :=
  match sg with Text t => "%"%char ∉ t | Param _ => True end.

(** ** Lines *)
Definition newline : ascii := "010"%char.

(** The lines of a text: [split] cuts at every newline. *)
Fixpoint lines_of (s : list ascii) : list (list ascii) :=
  match s with
  | [] => [[]]
  | c :: r =>
      if decide (c = newline) then [] :: lines_of r
      else match lines_of r with
           | l :: ls => (c :: l) :: ls
           | [] => [[c]]
           end
  end.

Definition comment_prefix : list ascii := ["/"%char; "/"%char; " "%char].

(** Text from lines. *)
Fixpoint unlines (ls : list (list ascii)) : list ascii :=
  match ls with
  | [] => []
  | [l] => l
  | l :: ls' => l ++ newline :: unlines ls'
  end.

(** The characters of a string with their places, from [off] on: the code points that bytes encode (RFC 3629), U+FFFD for a byte with which no encoding
    begins. *)
Inductive characters : nat -> list ascii -> list (nat * N) -> Prop :=
| characters_nil off : characters off [] []
| characters_cons off n p s l : encodes n (string_of_list_ascii p) -> characters (off + List.length p) s l -> characters off (p ++ s) ((off, n) :: l)
| characters_bad off a s l : (forall n p r, encodes n (string_of_list_ascii p) -> a :: s <> p ++ r) -> characters (S off) s l ->
    characters off (a :: s) ((off, 65533%N) :: l).
