(** JSON without white space (RFC 8259). *)
From stdpp Require Import list.
From Coq Require Import NArith String.
From Verif.Model Require Import Additional.
Local Open Scope N_scope.

Inductive json :=
| JNull | JBool (b : bool) | JNum (t : text) | JStr (s : list N)
| JArr (l : list json) | JObj (ms : list (list N * json)).

(** Hexadecimal digits. *)
Inductive hexval : N -> N -> Prop :=
| hex_digit d : d < 10 -> hexval (48 + d) d
| hex_lower d : 10 <= d < 16 -> hexval (87 + d) d
| hex_upper d : 10 <= d < 16 -> hexval (55 + d) d.
Definition surrogate (n : N) : Prop := 55296 <= n <= 57343.
Definition four (a b c d n : N) : Prop :=
  exists w x y z, hexval a w /\ hexval b x /\ hexval c y /\ hexval d z /\ n = 4096 * w + 256 * x + 16 * y + z.

(** The escapes of one letter. *)
Definition escapes : list (N * N) := [(34, 34); (92, 92); (47, 47); (98, 8); (102, 12); (110, 10); (114, 13); (116, 9)].

(** What is between the quotes of a string, and the string. *)
Inductive jchars : text -> list N -> Prop :=
| jc_nil : jchars [] []
| jc_plain r t s : 32 <= r -> r <> 34 -> r <> 92 -> jchars t s -> jchars (r :: t) (r :: s)
| jc_escape e r t s : (e, r) ∈ escapes -> jchars t s -> jchars (92 :: e :: t) (r :: s)
| jc_unicode a b c d n t s : four a b c d n -> ~ surrogate n -> jchars t s -> jchars (92 :: 117 :: a :: b :: c :: d :: t) (n :: s)
| jc_pair a b c d m a' b' c' d' n t s : four a b c d m -> 55296 <= m < 56320 -> four a' b' c' d' n -> 56320 <= n <= 57343 ->
    jchars t s ->
    jchars (92 :: 117 :: a :: b :: c :: d :: 92 :: 117 :: a' :: b' :: c' :: d' :: t)
           (65536 + 1024 * (m - 55296) + (n - 56320) :: s).
Definition jstring (t : text) (s : list N) : Prop := exists t', t = ([34] ++ t' ++ [34])%list /\ jchars t' s.

(** Numbers; simplified: any text over the characters of numbers. *)
Definition number (t : text) : Prop := t <> [] /\ Forall (fun c => c ∈ txt "0123456789+-.eE") t.

Inductive jval : text -> json -> Prop :=
| jv_null : jval (txt "null") JNull
| jv_true : jval (txt "true") (JBool true)
| jv_false : jval (txt "false") (JBool false)
| jv_num t : number t -> jval t (JNum t)
| jv_str t s : jstring t s -> jval t (JStr s)
| jv_arr_nil : jval (txt "[]") (JArr [])
| jv_arr t l : jelems t l -> jval ([91] ++ t ++ [93])%list (JArr l)
| jv_obj_nil : jval (txt "{}") (JObj [])
| jv_obj t ms : jmembers t ms -> jval ([123] ++ t ++ [125])%list (JObj ms)
with jelems : text -> list json -> Prop :=
| je_one t v : jval t v -> jelems t [v]
| je_more t v r l : jval t v -> jelems r l -> jelems (t ++ [44] ++ r)%list (v :: l)
with jmembers : text -> list (list N * json) -> Prop :=
| jm_one k s t v : jstring k s -> jval t v -> jmembers (k ++ [58] ++ t)%list [(s, v)]
| jm_more k s t v r ms : jstring k s -> jval t v -> jmembers r ms -> jmembers (k ++ [58] ++ t ++ [44] ++ r)%list ((s, v) :: ms).

(** The strings that %q writes as JSON. *)
Definition clean_char (printable : N -> bool) (c : gochar) : Prop :=
  match c with
  | Rune r => (32 <= r /\ r <> 127 \/ r ∈ [8; 9; 10; 12; 13]) /\ (65536 <= r -> printable r = true)
  | BadByte _ => False
  end.
Definition clean (printable : N -> bool) (s : gostring) : Prop := Forall (clean_char printable) s.
(** Code points of a Go string: surrogates are not among them. *)
Definition well_formed (s : gostring) : Prop :=
  Forall (fun c => match c with Rune r => ~ surrogate r /\ r <= 1114111 | BadByte b => b < 256 end) s.
Definition runes (s : gostring) : list N := omap (fun c => match c with Rune r => Some r | BadByte _ => None end) s.

(** Values of v2 that %q writes as JSON, and what they should be. *)
Definition v2_good (printable : N -> bool) (v : v2value) : Prop :=
  match v with V2String s => clean printable s | _ => False end.
Definition v2_json (v : v2value) : json := match v with V2String s => JStr (runes s) | _ => JNull end.
Definition v2_wf (v : v2value) : Prop := match v with V2String s => well_formed s | _ => True end.
