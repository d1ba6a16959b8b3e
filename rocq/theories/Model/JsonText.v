(** JSON as the text that messages are made of: what json.Marshal and json.Unmarshal do, called by pkg/codegen/generators/v3/templates/message.tmpl:91, 124,
    144, 187, 242, 255 and v2/templates/message.tmpl:82, 115, 131, 170, 224, 237 (encoding/json of Go 1.21: encode.go, decode.go, scanner.go).
    Values are those of Decoding.v. Simplified: when a pair of surrogates is cut short, U+FFFD stands for its first half, and what follows is read on its own, as
    in decode.go; numbers are kept as they are written, unless they are integers. *)
From stdpp Require Import list strings.
From Coq Require Import ZArith Ascii String DecimalString.
From Verif.Model Require Import Decoding.
Local Open Scope string_scope.

(** ** UTF-8 *)
Definition byte (a : ascii) : N := N_of_ascii a.
Definition between (lo hi : N) (a : ascii) : bool := ((lo <=? byte a) && (byte a <=? hi))%N.
(** unicode/utf8: the sequences of two, three and four bytes. *)
Definition two (a b : ascii) : bool := between 194 223 a && between 128 191 b.
Definition three (a b c : ascii) : bool :=
  (between 224 224 a && between 160 191 b || between 225 236 a && between 128 191 b || between 237 237 a && between 128 159 b
   || between 238 239 a && between 128 191 b) && between 128 191 c.
Definition four (a b c d : ascii) : bool :=
  (between 240 240 a && between 144 191 b || between 241 243 a && between 128 191 b || between 244 244 a && between 128 143 b)
  && between 128 191 c && between 128 191 d.
Definition char (n : N) : ascii := ascii_of_N n.
(** utf8.AppendRune; surrogates are replaced by U+FFFD. *)
Definition utf8_of (n : N) : string :=
  (if n <? 128 then String (char n) ""
   else if n <? 2048 then String (char (192 + n / 64)) (String (char (128 + n mod 64)) "")
   else if (55296 <=? n) && (n <=? 57343) then String (char 239) (String (char 191) (String (char 189) ""))
   else if n <? 65536 then String (char (224 + n / 4096)) (String (char (128 + n / 64 mod 64)) (String (char (128 + n mod 64)) ""))
   else String (char (240 + n / 262144)) (String (char (128 + n / 4096 mod 64)) (String (char (128 + n / 64 mod 64)) (String (char (128 + n mod 64)) ""))))%N.

(** ** Writing *)
Definition hexchar (n : N) : ascii := char (if n <? 10 then 48 + n else 87 + n)%N.
(** encode.go, appendString: a byte below 128; the characters of HTML are escaped. *)
Definition escape (a : ascii) : string :=
  let n := byte a in
  (if (n =? 34) || (n =? 92) then String (char 92) (String a "")
   else if n =? 10 then "\n" else if n =? 13 then "\r" else if n =? 9 then "\t"
   else if (n <? 32) || (n =? 60) || (n =? 62) || (n =? 38) then "\u00" ++ String (hexchar (n / 16)) (String (hexchar (n mod 16)) "")
   else String a "")%N.
(** U+2028 and U+2029 are escaped as well; what is not UTF-8 becomes U+FFFD. *)
Fixpoint escaped (s : string) : string :=
  match s with
  | "" => ""
  | String a r1 =>
      if (byte a <? 128)%N then escape a ++ escaped r1
      else match r1 with
           | "" => "\ufffd"
           | String b r2 =>
               if two a b then String a (String b (escaped r2))
               else match r2 with
                    | "" => "\ufffd" ++ escaped r1
                    | String c r3 =>
                        if three a b c then
                          (if (byte a =? 226) && (byte b =? 128) && (byte c / 2 =? 84) then "\u202" ++ String (hexchar (byte c mod 16)) ""
                           else String a (String b (String c "")))%N ++ escaped r3
                        else match r3 with
                             | "" => "\ufffd" ++ escaped r1
                             | String d r4 => if four a b c d then String a (String b (String c (String d (escaped r4)))) else "\ufffd" ++ escaped r1
                             end
                    end
           end
  end.
Definition quoted (s : string) : string := String (char 34) (escaped s ++ String (char 34) "").
Definition number (n : num) : string := match n with Int z => NilZero.string_of_int (Z.to_int z) | Frac lit => lit end.
Fixpoint print (j : json) : string :=
  match j with
  | JNull => "null"
  | JBool true => "true"
  | JBool false => "false"
  | JNum n => number n
  | JStr s => quoted s
  | JArr l => "[" ++ String.concat "," (map print l) ++ "]"
  | JObj kvs => "{" ++ String.concat "," (map (fun kv => quoted (fst kv) ++ ":" ++ print (snd kv)) kvs) ++ "}"
  end.

(** ** Reading *)
Definition hexdigit (a : ascii) : option N :=
  (if between 48 57 a then Some (byte a - 48) else if between 97 102 a then Some (byte a - 87) else if between 65 70 a then Some (byte a - 55) else None)%N.
(** decode.go, getu4, after the letter u. *)
Definition unit4 (s : string) : option (N * string) :=
  match s with
  | String a (String b (String c (String d r))) =>
      w ← hexdigit a; x ← hexdigit b; y ← hexdigit c; z ← hexdigit d; Some ((w * 4096 + x * 256 + y * 16 + z)%N, r)
  | _ => None
  end.
Definition prefix (p : string) (r : option (string * string)) : option (string * string) := '(s, t) ← r; Some (p ++ s, t).
(** The letter after a backslash. *)
Definition letter (e : ascii) : option ascii :=
  let n := byte e in
  (if (n =? 34) || (n =? 92) || (n =? 47) then Some e
   else if n =? 98 then Some (char 8) else if n =? 102 then Some (char 12) else if n =? 110 then Some (char 10)
   else if n =? 114 then Some (char 13) else if n =? 116 then Some (char 9) else None)%N.
(** decode.go, unquoteBytes, from after the quote on: the text of the string, and what follows it. *)
Fixpoint unquote (s : string) : option (string * string) :=
  match s with
  | "" => None
  | String a r1 =>
      if (byte a =? 34)%N then Some ("", r1)
      else if (byte a =? 92)%N then
        match r1 with
        | String e r2 =>
            if (byte e =? 117)%N then
              match r2 with
              | String h1 (String h2 (String h3 (String h4 r3))) =>
                  match unit4 r2 with
                  | None => None
                  | Some (m, _) =>
                      match r3 with
                      | String p (String q (String k1 (String k2 (String k3 (String k4 r4))))) =>
                          match unit4 (String k1 (String k2 (String k3 (String k4 "")))) with
                          | Some (n, _) =>
                              if ((55296 <=? m) && (m <? 56320) && (byte p =? 92) && (byte q =? 117) && (56320 <=? n) && (n <=? 57343))%N
                              then prefix (utf8_of (65536 + 1024 * (m - 55296) + (n - 56320))) (unquote r4)
                              else prefix (utf8_of m) (unquote r3)
                          | None => prefix (utf8_of m) (unquote r3)
                          end
                      | _ => prefix (utf8_of m) (unquote r3)
                      end
                  end
              | _ => None
              end
            else match letter e with Some c => prefix (String c "") (unquote r2) | None => None end
        | "" => None
        end
      else if (byte a <? 32)%N then None
      else if (byte a <? 128)%N then prefix (String a "") (unquote r1)
      else match r1 with
           | String b r2 =>
               if two a b then prefix (String a (String b "")) (unquote r2)
               else match r2 with
                    | String c r3 =>
                        if three a b c then prefix (String a (String b (String c ""))) (unquote r3)
                        else match r3 with
                             | String d r4 =>
                                 if four a b c d then prefix (String a (String b (String c (String d "")))) (unquote r4)
                                 else prefix (utf8_of 65533) (unquote r1)
                             | "" => prefix (utf8_of 65533) (unquote r1)
                             end
                    | "" => prefix (utf8_of 65533) (unquote r1)
                    end
           | "" => None
           end
  end.

(** scanner.go: the number, as long as it goes. *)
Definition digit (a : ascii) : bool := between 48 57 a.
Definition number_char (a : ascii) : bool := digit a || existsb (Ascii.eqb a) (list_ascii_of_string "+-.eE").
Fixpoint span (p : ascii -> bool) (s : string) : string * string :=
  match s with
  | String a r => if p a then let '(x, y) := span p r in (String a x, y) else ("", s)
  | "" => ("", "")
  end.
Definition some_digits (s : string) : option string := let '(d, r) := span digit s in if String.eqb d "" then None else Some r.
Definition exponent (s : string) : bool :=
  match s with
  | "" => true
  | String e r =>
      Ascii.eqb e "e" && (match some_digits (match r with String c r' => if Ascii.eqb c "+" || Ascii.eqb c "-" then r' else r | _ => r end) with Some "" => true | _ => false end)
      || Ascii.eqb e "E" && (match some_digits (match r with String c r' => if Ascii.eqb c "+" || Ascii.eqb c "-" then r' else r | _ => r end) with Some "" => true | _ => false end)
  end.
(** A literal with a fraction or an exponent. *)
Definition fraction (lit : string) : bool :=
  existsb (fun a => existsb (Ascii.eqb a) (list_ascii_of_string ".eE")) (list_ascii_of_string lit) &&
  let '(i, r) := span digit (match lit with String c r => if Ascii.eqb c "-" then r else lit | _ => lit end) in
  negb (String.eqb i "") && (String.eqb i "0" || negb (String.prefix "0" i)) &&
  match r with
  | String c r' => if Ascii.eqb c "." then match some_digits r' with Some x => exponent x | None => false end else exponent r
  | "" => false
  end.
(** An integer has no zeros in front; "-0" is 0. *)
Definition read_number (lit : string) : option num :=
  if fraction lit then Some (Frac lit)
  else if String.eqb lit "-0" then Some (Int 0)
  else match NilZero.int_of_string lit with
       | Some d => let z := Z.of_int d in if String.eqb (number (Int z)) lit then Some (Int z) else None
       | None => None
       end.

Fixpoint after (p s : string) : option string :=
  match p, s with
  | "", _ => Some s
  | String a p, String b s => if Ascii.eqb a b then after p s else None
  | _, "" => None
  end.
Fixpoint skip (s : string) : string :=
  match s with
  | String a r => if existsb (N.eqb (byte a)) [32; 9; 10; 13]%N then skip r else s
  | "" => ""
  end.
Section lists.
  Variable read : string -> option (json * string).
  (** decode.go, array and object, from after the bracket on, with one member at least. *)
  Fixpoint array_rest (m : nat) (s : string) : option (list json * string) :=
    match m with
    | O => None
    | S m =>
        '(x, r) ← read s;
        match skip r with
        | String "," r' => '(l, r) ← array_rest m r'; Some (x :: l, r)
        | String "]" r' => Some ([x], r')
        | _ => None
        end
    end.
  Fixpoint object_rest (m : nat) (s : string) : option (list (string * json) * string) :=
    match m with
    | O => None
    | S m =>
        match skip s with
        | String """" r =>
            '(k, r) ← unquote r;
            match skip r with
            | String ":" r' =>
                '(x, r) ← read r';
                match skip r with
                | String "," r' => '(l, r) ← object_rest m r'; Some ((k, x) :: l, r)
                | String "}" r' => Some ([(k, x)], r')
                | _ => None
                end
            | _ => None
            end
        | _ => None
        end
    end.
End lists.
(** A value, and what follows it. [n]: how deep arrays and objects may be nested; the length of the text is enough for their members. *)
Fixpoint value (n : nat) (s : string) : option (json * string) :=
  match skip s with
  | String a r =>
      if Ascii.eqb a """" then '(x, r) ← unquote r; Some (JStr x, r)
      else if Ascii.eqb a "[" then
        match n with
        | O => None
        | S n =>
            match skip r with
            | String "]" r' => Some (JArr [], r')
            | _ => '(l, r) ← array_rest (value n) (String.length r) r; Some (JArr l, r)
            end
        end
      else if Ascii.eqb a "{" then
        match n with
        | O => None
        | S n =>
            match skip r with
            | String "}" r' => Some (JObj [], r')
            | _ => '(l, r) ← object_rest (value n) (String.length r) r; Some (JObj l, r)
            end
        end
      else if digit a || Ascii.eqb a "-" then let '(x, r) := span number_char (String a r) in y ← read_number x; Some (JNum y, r)
      else match after "ull" r, after "rue" r, after "alse" r with
           | Some r', _, _ => if Ascii.eqb a "n" then Some (JNull, r') else None
           | _, Some r', _ => if Ascii.eqb a "t" then Some (JBool true, r') else None
           | _, _, Some r' => if Ascii.eqb a "f" then Some (JBool false, r') else None
           | _, _, _ => None
           end
  | "" => None
  end.
(** scanner.go, maxNestingDepth; json.Unmarshal: nothing but white space may follow. *)
Definition max_depth : nat := 100 * 100.
Definition parse (s : string) : option json :=
  '(j, r) ← value max_depth s;
  match skip r with "" => Some j | _ => None end.
