(** The grammar of JSON (RFC 8259), and the value that a text denotes. *)
From stdpp Require Import list strings.
From Coq Require Import ZArith NArith Ascii String.
From Verif.Model Require Import Decoding.
From Verif.Spec Require Import JsonTextSpec.
Local Open Scope string_scope.

(** White space: blanks, tabs, line feeds and carriage returns. *)
Definition white (s : string) : Prop := Forall (fun a => N_of_ascii a ∈ [32; 9; 10; 13]%N) (list_ascii_of_string s).

(** ** Numbers *)
Definition read_as (s : string) : N := fold_left (fun x a => 10 * x + (N_of_ascii a - 48))%N (list_ascii_of_string s) 0%N.
Inductive number_text : string -> num -> Prop :=
| number_int i : digits i -> (i = "0" \/ forall r, i <> "0" +:+ r) -> number_text i (Int (Z.of_N (read_as i)))
| number_negative i : digits i -> (i = "0" \/ forall r, i <> "0" +:+ r) -> number_text ("-" +:+ i) (Int (- Z.of_N (read_as i)))
| number_decimal s : decimal s -> number_text s (Frac s).

(** ** Strings *)
Definition backslash : ascii := "092".
Definition quote : ascii := "034".
(** The letters after a backslash. *)
Definition letters : list (ascii * ascii) :=
  [("034", "034"); ("092", "092"); ("/", "/"); ("b", "008"); ("f", "012"); ("n", "010"); ("r", "013"); ("t", "009")]%char.
Inductive hex (a : ascii) : N -> Prop :=
| hex_digit : (48 <= N_of_ascii a <= 57)%N -> hex a (N_of_ascii a - 48)
| hex_small : (97 <= N_of_ascii a <= 102)%N -> hex a (N_of_ascii a - 87)
| hex_capital : (65 <= N_of_ascii a <= 70)%N -> hex a (N_of_ascii a - 55).
(** A backslash, u and four hexadecimal digits. *)
Inductive unit_text : N -> string -> Prop :=
| unit_text_ a b c d w x y z : hex a w -> hex b x -> hex c y -> hex d z ->
    unit_text (4096 * w + 256 * x + 16 * y + z) (String backslash (String "u" (String a (String b (String c (String d "")))))).
Definition high (m : N) : Prop := (55296 <= m <= 56319)%N.
Definition low (m : N) : Prop := (56320 <= m <= 57343)%N.

Section grammar.
  (** Whether U+FFFD is read for halves of a pair of surrogates and for bytes that are not UTF-8. *)
  Variable mended : Prop.

  (** What is between the quotes, and what it denotes. *)
  Inductive chars : string -> string -> Prop :=
  | chars_nil : chars "" ""
  | chars_plain n p s t : encodes n p -> (32 <= n)%N -> n <> 34%N -> n <> 92%N -> chars s t -> chars (p +:+ s) (p +:+ t)
  | chars_letter e c s t : (e, c) ∈ letters -> chars s t -> chars (String backslash (String e s)) (String c t)
  | chars_unit m u p s t : unit_text m u -> encodes m p -> chars s t -> chars (u +:+ s) (p +:+ t)
  | chars_pair m m' u u' p s t : unit_text m u -> high m -> unit_text m' u' -> low m' -> encodes (65536 + 1024 * (m - 55296) + (m' - 56320)) p ->
      chars s t -> chars (u +:+ u' +:+ s) (p +:+ t)
  | chars_half m u s t : mended -> unit_text m u -> high m /\ (forall m' u' r, unit_text m' u' -> low m' -> s <> u' +:+ r) \/ low m ->
      chars s t -> chars (u +:+ s) (replacement +:+ t)
  | chars_byte a s t : mended -> (128 <= N_of_ascii a)%N -> (forall p r, sequence p -> String a s <> p +:+ r) ->
      chars s t -> chars (String a s) (replacement +:+ t).
  Definition string_text (s t : string) : Prop := exists c, s = String quote (c +:+ String quote "") /\ chars c t.

  (** ** Values *)
  Inductive value_text : string -> json -> Prop :=
  | text_null : value_text "null" JNull
  | text_true : value_text "true" (JBool true)
  | text_false : value_text "false" (JBool false)
  | text_number s n : number_text s n -> value_text s (JNum n)
  | text_string s t : string_text s t -> value_text s (JStr t)
  | text_empty_array w : white w -> value_text ("[" +:+ w +:+ "]") (JArr [])
  | text_array s l : elements s l -> value_text ("[" +:+ s +:+ "]") (JArr l)
  | text_empty_object w : white w -> value_text ("{" +:+ w +:+ "}") (JObj [])
  | text_object s l : members s l -> value_text ("{" +:+ s +:+ "}") (JObj l)
  with elements : string -> list json -> Prop :=
  | one_element w s w' j : white w -> value_text s j -> white w' -> elements (w +:+ s +:+ w') [j]
  | more_elements w s w' j s' l : white w -> value_text s j -> white w' -> elements s' l -> elements (w +:+ s +:+ w' +:+ "," +:+ s') (j :: l)
  with members : string -> list (string * json) -> Prop :=
  | one_member w k key w1 w2 s w3 j : white w -> string_text k key -> white w1 -> white w2 -> value_text s j -> white w3 ->
      members (w +:+ k +:+ w1 +:+ ":" +:+ w2 +:+ s +:+ w3) [(key, j)]
  | more_members w k key w1 w2 s w3 j s' l : white w -> string_text k key -> white w1 -> white w2 -> value_text s j -> white w3 -> members s' l ->
      members (w +:+ k +:+ w1 +:+ ":" +:+ w2 +:+ s +:+ w3 +:+ "," +:+ s') ((key, j) :: l).

  Definition json_text (s : string) (j : json) : Prop := exists w t w', s = w +:+ t +:+ w' /\ white w /\ value_text t j /\ white w'.
End grammar.
