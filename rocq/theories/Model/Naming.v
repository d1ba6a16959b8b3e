(** Generated Go names, parameter removal and comments.
    Modelled code: pkg/utils/template/helpers.go:30-72 and 128-133.
    A Go string is a list of bytes (Coq [ascii]). *)
From stdpp Require Import list strings.
From Coq Require Import NArith Ascii String.
Open Scope N_scope.

Notation bytes := (list ascii).

Definition bval (a : ascii) : N := N_of_ascii a.
Definition in_range (lo hi x : N) : bool := (lo <=? x) && (x <=? hi).

Definition lower_b (a : ascii) : bool := in_range 97 122 (bval a).
Definition upper_b (a : ascii) : bool := in_range 65 90 (bval a).
Definition digit_b (a : ascii) : bool := in_range 48 57 (bval a).
Definition alnum_b (a : ascii) : bool := lower_b a || upper_b a || digit_b a.

(** strings.ToUpper on one ASCII byte. *)
Definition upcase (a : ascii) : ascii :=
  if lower_b a then ascii_of_N (bval a - 32) else a.

(** ** Runes: the decoding done by [for i, r := range s] (unicode/utf8.DecodeRuneInString) *)
Definition rune_error : N := 65533.

Definition cont (lo hi : N) (a : ascii) : bool := in_range lo hi (bval a).
Definition cbits (a : ascii) : N := bval a - 128.

(** Rune and width at the head of a non-empty string. *)
Definition decode (b0 : ascii) (r : bytes) : N * nat :=
  let x := bval b0 in
  if x <? 128 then (x, 1%nat)
  else if x <? 194 then (rune_error, 1%nat)
  else if x <? 224 then
    match r with
    | b1 :: _ => if cont 128 191 b1 then ((x - 192) * 64 + cbits b1, 2%nat) else (rune_error, 1%nat)
    | _ => (rune_error, 1%nat)
    end
  else if x <? 240 then
    match r with
    | b1 :: b2 :: _ =>
        if cont (if x =? 224 then 160 else 128) (if x =? 237 then 159 else 191) b1 && cont 128 191 b2
        then ((x - 224) * 4096 + cbits b1 * 64 + cbits b2, 3%nat) else (rune_error, 1%nat)
    | _ => (rune_error, 1%nat)
    end
  else if x <? 245 then
    match r with
    | b1 :: b2 :: b3 :: _ =>
        if cont (if x =? 240 then 144 else 128) (if x =? 244 then 143 else 191) b1
           && cont 128 191 b2 && cont 128 191 b3
        then ((x - 240) * 262144 + cbits b1 * 4096 + cbits b2 * 64 + cbits b3, 4%nat)
        else (rune_error, 1%nat)
    | _ => (rune_error, 1%nat)
    end
  else (rune_error, 1%nat).

(** The pairs (i, r) of [range s], [off] being the offset of the first byte. Every step consumes
    at least one byte, so [length s] steps are enough. *)
Fixpoint runes_from (fuel : nat) (off : nat) (s : bytes) : list (nat * N) :=
  match fuel, s with
  | S fuel', b0 :: r =>
      let (c, w) := decode b0 r in
      (off, c) :: runes_from fuel' (off + w)%nat (drop (w - 1) r)
  | _, _ => []
  end.
Definition runes (s : bytes) : list (nat * N) := runes_from (List.length s) 0 s.

(** ** DefaultNamifier (42-72)

    For runes from 128 on, unicode.IsLetter, unicode.IsDigit and strings.ToUpper(string(r)) are
    given by tables of the Go standard library: the section variables. *)
Section namify.
  Variable uni_letter uni_digit : N -> bool.
  Variable uni_upper : N -> bytes.

  Definition is_letter (r : N) : bool :=
    if r <? 128 then in_range 97 122 r || in_range 65 90 r else uni_letter r.
  Definition is_digit (r : N) : bool :=
    if r <? 128 then in_range 48 57 r else uni_digit r.
  Definition to_upper (r : N) : bytes :=
    if r <? 128 then [upcase (ascii_of_N r)] else uni_upper r.

  (** 52: [sentence[:i] + u + sentence[i+1:]]; [None] is the slice-bounds panic. *)
  Definition set_at (i : nat) (u s : bytes) : option bytes :=
    if (i <? List.length s)%nat then Some (take i s ++ u ++ drop (S i) s) else None.

  (** 49-55: the indices and runes are those of the string before the loop, the slices are taken
      from the string being rewritten. *)
  Fixpoint upper_loop (rs : list (nat * N)) (previous : N) (s : bytes) : option bytes :=
    match rs with
    | [] => Some s
    | (i, r) :: rs' =>
        if negb (is_letter previous) && negb (is_digit previous) then
          match set_at i (to_upper r) s with
          | Some s' => upper_loop rs' r s'
          | None => None
          end
        else upper_loop rs' r s
    end.

  (** 62-63: [^[0-9]+]. *)
  Fixpoint strip_digits (s : bytes) : bytes :=
    match s with
    | c :: r => if digit_b c then strip_digits r else s
    | [] => []
    end.

  (** 42-72. 58-59: [[^a-zA-Z0-9]] removed (byte by byte: the bytes of a multi-byte or invalid
      rune are all outside the class). 69: [sentence[:1]] is one ASCII letter. *)
  Definition namify (s : bytes) : option bytes :=
    match s with
    | [] => Some []
    | _ =>
        match upper_loop (runes s) 95 s with
        | None => None
        | Some s1 =>
            match strip_digits (List.filter alnum_b s1) with
            | [] => Some []
            | c :: r => Some (upcase c :: r)
            end
        end
    end.

  (** ** NamifyWithoutParams (33-39) *)

  (** The longest match of [[^()]*}] at the head of [s]: the offset of its last byte. *)
  Fixpoint last_close (s : bytes) : option nat :=
    match s with
    | [] => None
    | c :: r =>
        if Ascii.eqb c "("%char || Ascii.eqb c ")"%char then None
        else match last_close r with
             | Some k => Some (S k)
             | None => if Ascii.eqb c "}"%char then Some O else None
             end
    end.

  (** ReplaceAll of the leftmost-longest matches of [{[^()]*}] by "_". *)
  Fixpoint remove_params_from (fuel : nat) (s : bytes) : bytes :=
    match fuel, s with
    | S fuel', c :: r =>
        if Ascii.eqb c "{"%char then
          match last_close r with
          | Some k => "_"%char :: remove_params_from fuel' (drop (S k) r)
          | None => c :: remove_params_from fuel' r
          end
        else c :: remove_params_from fuel' r
    | _, _ => []
    end.
  Definition remove_params (s : bytes) : bytes := remove_params_from (List.length s) s.

  Definition namify_without_params (s : bytes) : option bytes := namify (remove_params s).
End namify.

(** ** MultiLineComment (130-133) *)
Definition nl : ascii := "010"%char.

(** strings.TrimSuffix(s, "\n"). *)
Fixpoint trim_newline (s : bytes) : bytes :=
  match s with
  | [] => []
  | [c] => if Ascii.eqb c nl then [] else [c]
  | c :: r => c :: trim_newline r
  end.

(** strings.ReplaceAll(s, "\n", "\n// "). *)
Fixpoint comment_newlines (s : bytes) : bytes :=
  match s with
  | [] => []
  | c :: r =>
      if Ascii.eqb c nl then nl :: "/"%char :: "/"%char :: " "%char :: comment_newlines r
      else c :: comment_newlines r
  end.

Definition multi_line_comment (s : bytes) : bytes := comment_newlines (trim_newline s).
