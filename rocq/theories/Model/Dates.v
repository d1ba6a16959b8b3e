(** Dates and times as the generated messages write and read them: [Format(time.RFC3339)] and [time.Parse(time.RFC3339, ...)] of
    pkg/codegen/generators/v3/templates/message.tmpl:67, 129, 149, 211, 248, 261 (v2: 58, 120, 136, 194, 230, 243), the JSON encoding that a
    time.Time has inside an object (schema_name.tmpl:21-22) and the text of a civil.Date (schema_name.tmpl:19-20).

    The functions are those of Go's package time (go 1.21, go.mod:3): absDate, Date, appendFormatRFC3339, appendStrictRFC3339, Parse. Seconds
    are unbounded integers: Go's wrap around after 292 billion years is left out. A zone is its offset; its name is not kept. *)
From Coq Require Import ZArith List Ascii String.
From stdpp Require Import base option.
Import ListNotations.
Local Open Scope Z_scope.
Local Open Scope list_scope.

(** time.Time: the seconds since 1970-01-01T00:00:00Z, the nanoseconds within the second (0..999999999), and the offset of the zone in seconds. *)
Record time := mkTime { unix : Z; nanos : Z; offset : Z }.

(** A day: civil.Date, or what [Time.Date] gives. *)
Record date := mkDate { year : Z; month : Z; day : Z }.

(** time.isLeap *)
Definition isLeap (y : Z) : bool := (y mod 4 =? 0) && (negb (y mod 100 =? 0) || (y mod 400 =? 0)).

(** time.daysBefore *)
Definition daysBefore (m : Z) : Z :=
  nth (Z.to_nat m) [0; 31; 59; 90; 120; 151; 181; 212; 243; 273; 304; 334; 365] 0.

(** time.daysIn *)
Definition daysIn (m y : Z) : Z := if (m =? 2) && isLeap y then 29 else daysBefore m - daysBefore (m - 1).

(** time.daysSinceEpoch. Go counts from the year -292277022399, which is 400 * 730692556 years before the year 1; here days are counted from the year
    1, with divisions that round down. *)
Definition daysSinceEpoch (y : Z) : Z :=
  let y := y - 1 in
  let n4 := y / 400 in let y := y - 400 * n4 in
  let n1 := y / 100 in let y := y - 100 * n1 in
  let n := y / 4 in let y := y - 4 * n in
  146097 * n4 + 36524 * n1 + 1461 * n + 365 * y.

(** The days from 0001-01-01 to 1970-01-01 (unixToInternal / secondsPerDay). *)
Definition epoch : Z := 719162.

(** time.Date, the days: since 1970-01-01. *)
Definition dayNumber (d : date) : Z :=
  daysSinceEpoch (year d) + daysBefore (month d - 1) + (if isLeap (year d) && (3 <=? month d) then 1 else 0) + (day d - 1) - epoch.

(** time.absDate *)
Definition absDate (n : Z) : date :=
  let d := n + epoch in
  let n := d / 146097 in let y := 400 * n in let d := d - 146097 * n in
  let n := d / 36524 in let n := n - n / 4 in let y := y + 100 * n in let d := d - 36524 * n in
  let n := d / 1461 in let y := y + 4 * n in let d := d - 1461 * n in
  let n := d / 365 in let n := n - n / 4 in let y := y + n in let d := d - 365 * n in
  let year := y + 1 in
  if isLeap year && (d =? 31 + 29 - 1) then mkDate year 2 29
  else
    let d := if isLeap year && (31 + 29 - 1 <? d) then d - 1 else d in
    let m := d / 31 in
    let last := daysBefore (m + 1) in
    if last <=? d then mkDate year (m + 2) (d - last + 1) else mkDate year (m + 1) (d - daysBefore m + 1).

(** ** Writing *)

Definition digit (x : Z) : ascii := ascii_of_nat (48 + Z.to_nat x).

(** The decimal digits of a number that is not negative. *)
Fixpoint digits (fuel : nat) (x : Z) (acc : list ascii) : list ascii :=
  match fuel with
  | O => acc
  | S fuel => if x <? 10 then digit x :: acc else digits fuel (x / 10) (digit (x mod 10) :: acc)
  end.
Definition decimal (x : Z) : list ascii := digits (S (Z.to_nat (Z.log2 x))) x [].

(** time.appendInt: the sign does not count in the width. *)
Definition pad (w : nat) (l : list ascii) : list ascii := repeat "0"%char (w - length l) ++ l.
Definition appendInt (x : Z) (w : nat) : list ascii := if x <? 0 then "-"%char :: pad w (decimal (- x)) else pad w (decimal x).

(** The local day and the second of it. *)
Definition localDay (t : time) : Z := (unix t + offset t) / 86400.
Definition localSecond (t : time) : Z := (unix t + offset t) mod 86400.

Definition dateText (d : date) : list ascii := appendInt (year d) 4 ++ "-"%char :: appendInt (month d) 2 ++ "-"%char :: appendInt (day d) 2.
Definition clockText (s : Z) : list ascii :=
  appendInt (s / 3600) 2 ++ ":"%char :: appendInt (s mod 3600 / 60) 2 ++ ":"%char :: appendInt (s mod 60) 2.

(** The zone: minutes are what [offset / 60] keeps, a division that rounds to zero. *)
Definition zoneText (o : Z) : list ascii :=
  if o =? 0 then ["Z"%char]
  else let z := Z.quot o 60 in
       (if z <? 0 then "-"%char else "+"%char) :: appendInt (Z.abs z / 60) 2 ++ ":"%char :: appendInt (Z.abs z mod 60) 2.

(** time.appendNano with .999999999: the zeros at the end are cut off. *)
Fixpoint dropZeros (l : list ascii) : list ascii :=
  match l with
  | [] => []
  | c :: l => match dropZeros l with
              | [] => if Ascii.eqb c "0" then [] else [c]
              | l => c :: l
              end
  end.
Definition nanoText (n : Z) : list ascii := if n =? 0 then [] else "."%char :: dropZeros (appendInt n 9).

(** Time.appendFormatRFC3339 *)
Definition formatRFC3339 (withNanos : bool) (t : time) : list ascii :=
  dateText (absDate (localDay t)) ++ "T"%char :: clockText (localSecond t) ++ (if withNanos then nanoText (nanos t) else []) ++ zoneText (offset t).

(** [t.Format(time.RFC3339)]: message.tmpl:211, 248, 261. *)
Definition format (t : time) : list ascii := formatRFC3339 false t.

(** Time.MarshalJSON (appendStrictRFC3339), without the quotes: an error when the year has not four digits or the zone is a day or more away. *)
Definition marshal (t : time) : option (list ascii) :=
  let y := year (absDate (localDay t)) in
  if (y <? 0) || (9999 <? y) then None
  else if 24 <=? Z.abs (Z.quot (offset t) 60) / 60 then None
  else Some (formatRFC3339 true t).

(** ** Reading *)

(** The result of the steps of time.Parse: a value and what is left of the text. *)
Notation step A := (option (A * list ascii)).

Definition digitValue (c : ascii) : option Z :=
  let x := Z.of_nat (nat_of_ascii c) in if (48 <=? x) && (x <=? 57) then Some (x - 48) else None.

(** time.skip of one character that is not a space. *)
Definition skip (c : ascii) (s : list ascii) : option (list ascii) :=
  match s with
  | c' :: s => if Ascii.eqb c c' then Some s else None
  | [] => None
  end.

(** time.getnum: two digits, or, unless [fixed], one. *)
Definition getnum (fixed : bool) (s : list ascii) : step Z :=
  match s with
  | a :: s =>
      match digitValue a with
      | None => None
      | Some x =>
          match s with
          | b :: s' => match digitValue b with
                       | Some y => Some (10 * x + y, s')
                       | None => if fixed then None else Some (x, s)
                       end
          | [] => if fixed then None else Some (x, s)
          end
      end
  | [] => None
  end.

(** The year: four digits (stdLongYear). *)
Definition getyear (s : list ascii) : step Z :=
  match s with
  | a :: b :: c :: d :: s =>
      match digitValue a, digitValue b, digitValue c, digitValue d with
      | Some a, Some b, Some c, Some d => Some (1000 * a + 100 * b + 10 * c + d, s)
      | _, _, _, _ => None
      end
  | _ => None
  end.

(** The leading digits of a text. *)
Fixpoint spanDigits (s : list ascii) : list Z * list ascii :=
  match s with
  | c :: s' => match digitValue c with
               | Some x => let r := spanDigits s' in (x :: fst r, snd r)
               | None => ([], s)
               end
  | [] => ([], [])
  end.

(** time.parseNanoseconds: nine digits count. *)
Fixpoint fraction (w : nat) (ds : list Z) : Z :=
  match w, ds with
  | S w, x :: ds => x * 10 ^ Z.of_nat w + fraction w ds
  | _, _ => 0
  end.

(** After the seconds: a point or a comma, and a digit at least (stdZeroSecond). *)
Definition getnanos (s : list ascii) : Z * list ascii :=
  match s with
  | c :: s' =>
      if Ascii.eqb c "." || Ascii.eqb c "," then
        match spanDigits s' with
        | ([], _) => (0, s)
        | (ds, r) => (fraction 9 ds, r)
        end
      else (0, s)
  | [] => (0, [])
  end.

(** The zone (stdISO8601ColonTZ). The limits are 24 and 60, both allowed. *)
Definition getzone (s : list ascii) : step Z :=
  match s with
  | c :: s =>
      if Ascii.eqb c "Z" then Some (0, s)
      else
        match getnum true s with
        | Some (h, s) =>
            match skip ":" s with
            | Some s =>
                match getnum true s with
                | Some (m, s) =>
                    if (h <=? 24) && (m <=? 60) then
                      if Ascii.eqb c "+" then Some (60 * (60 * h + m), s)
                      else if Ascii.eqb c "-" then Some (- (60 * (60 * h + m)), s) else None
                    else None
                | None => None
                end
            | None => None
            end
        | None => None
        end
  | [] => None
  end.

Definition getdate (s : list ascii) : step date :=
  y ← getyear s; let '(y, s) := y in
  s ← skip "-" s;
  m ← getnum true s; let '(m, s) := m in
  if (m <=? 0) || (12 <? m) then None else
  s ← skip "-" s;
  d ← getnum true s; let '(d, s) := d in
  Some (mkDate y m d, s).

Definition getclock (s : list ascii) : step Z :=
  h ← getnum false s; let '(h, s) := h in
  if 24 <=? h then None else
  s ← skip ":" s;
  m ← getnum true s; let '(m, s) := m in
  if 60 <=? m then None else
  s ← skip ":" s;
  x ← getnum true s; let '(x, s) := x in
  if 60 <=? x then None else
  Some (3600 * h + 60 * m + x, s).

(** The day of a month is checked at the end of time.Parse. *)
Definition existing (d : date) : bool := (1 <=? day d) && (day d <=? daysIn (month d) (year d)).

(** [time.Parse(time.RFC3339, s)]: message.tmpl:67, 129, 149; Time.UnmarshalJSON accepts the same texts. *)
Definition parse (s : list ascii) : option time :=
  d ← getdate s; let '(d, s) := d in
  s ← skip "T" s;
  c ← getclock s; let '(c, s) := c in
  let '(n, s) := getnanos s in
  z ← getzone s; let '(z, s) := z in
  match s with
  | [] => if existing d then Some (mkTime (86400 * dayNumber d + c - z) n z) else None
  | _ => None
  end.

(** civil.Date.String: %04d-%02d-%02d, where the sign counts in the width. *)
Definition printed (x : Z) (w : nat) : list ascii := if x <? 0 then "-"%char :: pad (pred w) (decimal (- x)) else pad w (decimal x).
Definition civilText (d : date) : list ascii := printed (year d) 4 ++ "-"%char :: printed (month d) 2 ++ "-"%char :: printed (day d) 2.

(** civil.ParseDate: [time.Parse("2006-01-02", s)] and the date of the result. *)
Definition parseCivil (s : list ascii) : option date :=
  match getdate s with
  | Some (d, []) => if existing d then Some d else None
  | _ => None
  end.

(** As strings, for the messages: an error of time.Parse is [inr tt]. *)
Definition tformat (t : time) : string := string_of_list_ascii (format t).
Definition tparse (s : string) : time + unit := match parse (list_ascii_of_string s) with Some t => inl t | None => inr tt end.

(** What a time or a date inside an object is, in Model/Wire.v: the text that it is written as again. Zones that can be read but not written, those a day
    or more away, are left out. *)
Definition jsonTime (s : string) : option string :=
  t ← parse (list_ascii_of_string s); string_of_list_ascii <$> marshal t.
Definition jsonDate (s : string) : option string := string_of_list_ascii ∘ civilText <$> parseCivil (list_ascii_of_string s).
