(** UTF-8 (RFC 3629) and what JSON keeps of a value. *)
From stdpp Require Import list strings.
From Coq Require Import NArith Ascii String.
From Verif.Model Require Import Decoding.
Local Open Scope string_scope.

(** The encoding of a code point: six bits per byte after the first; the shortest encoding, and no surrogate. *)
Inductive encodes : N -> string -> Prop :=
| encodes1 a : (N_of_ascii a < 128)%N -> encodes (N_of_ascii a) (String a "")
| encodes2 a b x y : N_of_ascii a = (192 + x)%N -> N_of_ascii b = (128 + y)%N -> (x < 32 -> y < 64 -> 128 <= 64 * x + y ->
    encodes (64 * x + y) (String a (String b "")))%N
| encodes3 a b c x y z : N_of_ascii a = (224 + x)%N -> N_of_ascii b = (128 + y)%N -> N_of_ascii c = (128 + z)%N -> (x < 16 -> y < 64 -> z < 64 ->
    let n := 4096 * x + 64 * y + z in 2048 <= n -> ~ (55296 <= n <= 57343) ->
    encodes n (String a (String b (String c ""))))%N
| encodes4 a b c d w x y z : N_of_ascii a = (240 + w)%N -> N_of_ascii b = (128 + x)%N -> N_of_ascii c = (128 + y)%N -> N_of_ascii d = (128 + z)%N ->
    (w < 8 -> x < 64 -> y < 64 -> z < 64 ->
    let n := 262144 * w + 4096 * x + 64 * y + z in 65536 <= n <= 1114111 ->
    encodes n (String a (String b (String c (String d "")))))%N.
Definition sequence (p : string) : Prop := exists n, encodes n p.
Inductive utf8 : string -> Prop :=
| utf8_nil : utf8 ""
| utf8_cons p s : sequence p -> utf8 s -> utf8 (p +:+ s).

(** Bytes that encode nothing are replaced by U+FFFD. *)
Definition replacement : string := String "239" (String "191" (String "189" "")).
Inductive repairs : string -> string -> Prop :=
| repairs_nil : repairs "" ""
| repairs_sequence p s s' : sequence p -> repairs s s' -> repairs (p +:+ s) (p +:+ s')
| repairs_byte a s s' : (forall p r, sequence p -> String a s <> p +:+ r) -> repairs s s' -> repairs (String a s) (replacement +:+ s').

(** A number with a fraction or an exponent (RFC 8259, section 6). *)
Definition digits (s : string) : Prop := s <> "" /\ Forall (fun a => (48 <= N_of_ascii a <= 57)%N) (list_ascii_of_string s).
Definition fraction_part (s : string) : Prop := exists d, s = "." +:+ d /\ digits d.
Definition exponent_part (s : string) : Prop := exists e sign d, s = e +:+ sign +:+ d /\ (e = "e" \/ e = "E") /\ sign ∈ [""; "+"; "-"] /\ digits d.
Definition decimal (s : string) : Prop :=
  exists sign i f e, s = sign +:+ i +:+ f +:+ e /\ sign ∈ [""; "-"] /\ digits i /\ (i = "0" \/ forall r, i <> "0" +:+ r) /\
    (f = "" \/ fraction_part f) /\ (e = "" \/ exponent_part e) /\ ~ (f = "" /\ e = "").

Section values.
  (** What is asked of the strings and the keys. *)
  Variable ok : string -> Prop.
  Inductive sound : json -> Prop :=
  | sound_null : sound JNull
  | sound_bool b : sound (JBool b)
  | sound_int z : sound (JNum (Int z))
  | sound_frac s : decimal s -> sound (JNum (Frac s))
  | sound_str s : ok s -> sound (JStr s)
  | sound_arr l : Forall sound l -> sound (JArr l)
  | sound_obj kvs : Forall (fun kv => ok kv.1 /\ sound kv.2) kvs -> sound (JObj kvs).
End values.
Inductive repaired : json -> json -> Prop :=
| repaired_null : repaired JNull JNull
| repaired_bool b : repaired (JBool b) (JBool b)
| repaired_num n : repaired (JNum n) (JNum n)
| repaired_str s s' : repairs s s' -> repaired (JStr s) (JStr s')
| repaired_arr l l' : Forall2 repaired l l' -> repaired (JArr l) (JArr l')
| repaired_obj kvs kvs' : Forall2 (fun kv kv' => repairs kv.1 kv'.1 /\ repaired kv.2 kv'.2) kvs kvs' -> repaired (JObj kvs) (JObj kvs').

(** How deep arrays and objects are nested. *)
Inductive nested : nat -> json -> Prop :=
| nested_null n : nested n JNull
| nested_bool n b : nested n (JBool b)
| nested_num n x : nested n (JNum x)
| nested_str n s : nested n (JStr s)
| nested_arr n l : Forall (nested n) l -> nested (S n) (JArr l)
| nested_obj n kvs : Forall (fun kv => nested n kv.2) kvs -> nested (S n) (JObj kvs).
