(** The calendar and RFC 3339, independent of how Go computes: days are counted one after the other from 1970-01-01. *)
From Coq Require Import ZArith List Ascii String.
From Verif.Model Require Import Dates.
Import ListNotations.
Local Open Scope Z_scope.
Local Open Scope list_scope.

(** ** The Gregorian calendar *)

Definition leap (y : Z) : Prop := (4 | y) /\ (~ (100 | y) \/ (400 | y)).

(** [lasts y m n]: the month [m] of the year [y] has [n] days. *)
Inductive lasts (y : Z) : Z -> Z -> Prop :=
| lasts_31 m : In m [1; 3; 5; 7; 8; 10; 12] -> lasts y m 31
| lasts_30 m : In m [4; 6; 9; 11] -> lasts y m 30
| lasts_29 : leap y -> lasts y 2 29
| lasts_28 : ~ leap y -> lasts y 2 28.

(** The date is one of the calendar. *)
Definition in_calendar (d : date) : Prop := exists n, lasts (year d) (month d) n /\ 1 <= day d <= n.

(** The day after. *)
Inductive next : date -> date -> Prop :=
| next_day y m d n : lasts y m n -> 1 <= d < n -> next (mkDate y m d) (mkDate y m (d + 1))
| next_month y m n : lasts y m n -> m < 12 -> next (mkDate y m n) (mkDate y (m + 1) 1)
| next_year y : next (mkDate y 12 31) (mkDate (y + 1) 1 1).

(** [on_day n d]: [d] is [n] days after 1970-01-01, or before it when [n] is negative. *)
Inductive on_day : Z -> date -> Prop :=
| on_first : on_day 0 (mkDate 1970 1 1)
| on_next n d d' : on_day n d -> next d d' -> on_day (n + 1) d'
| on_before n d d' : on_day n d' -> next d d' -> on_day (n - 1) d.

(** ** RFC 3339 *)

(** [numeral w x l]: [l] is [w] digits that denote [x]. *)
Inductive numeral : nat -> Z -> list ascii -> Prop :=
| numeral_none : numeral 0 0 []
| numeral_more w x l d c : numeral w x l -> 0 <= d <= 9 -> String.get (Z.to_nat d) "0123456789" = Some c -> numeral (S w) (10 * x + d) (l ++ [c]).

(** The part of a second, in nanoseconds: what is finer is not counted. *)
Inductive part : Z -> list ascii -> Prop :=
| part_none : part 0 []
| part_some w x l n : numeral w x l -> (0 < w)%nat -> n * 10 ^ Z.of_nat w <= x * 10 ^ 9 < (n + 1) * 10 ^ Z.of_nat w -> part n ("."%char :: l).

Inductive zone : Z -> list ascii -> Prop :=
| zone_utc : zone 0 ["Z"%char]
| zone_east h m H M : numeral 2 h H -> h <= 23 -> numeral 2 m M -> m <= 59 -> zone (60 * (60 * h + m)) ("+"%char :: H ++ ":"%char :: M)
| zone_west h m H M : numeral 2 h H -> h <= 23 -> numeral 2 m M -> m <= 59 -> zone (- (60 * (60 * h + m))) ("-"%char :: H ++ ":"%char :: M).

(** [day_text d l]: yyyy-mm-dd. *)
Inductive day_text : date -> list ascii -> Prop :=
| day_text_ y m d Y M D : numeral 4 y Y -> numeral 2 m M -> numeral 2 d D -> day_text (mkDate y m d) (Y ++ "-"%char :: M ++ "-"%char :: D).

(** [stamp t l]: the text [l] is a date and time as of RFC 3339 (without leap seconds, with capitals), and the instant, with the offset of its zone, is [t]. *)
Inductive stamp : time -> list ascii -> Prop :=
| stamp_ n d D h m s H M S p P o O : on_day n d -> day_text d D ->
    numeral 2 h H -> h <= 23 -> numeral 2 m M -> m <= 59 -> numeral 2 s S -> s <= 59 -> part p P -> zone o O ->
    stamp (mkTime (86400 * n + 3600 * h + 60 * m + s - o) p o) (D ++ "T"%char :: H ++ ":"%char :: M ++ ":"%char :: S ++ P ++ O).

(** What Go accepts besides: one digit for the hour, a comma for the point, and zones up to 24 hours and 60 minutes away. *)
Inductive loose_part : Z -> list ascii -> Prop :=
| loose_point n l : part n l -> loose_part n l
| loose_comma n l : part n ("."%char :: l) -> loose_part n (","%char :: l).

Inductive loose_zone : Z -> list ascii -> Prop :=
| loose_utc : loose_zone 0 ["Z"%char]
| loose_east h m H M : numeral 2 h H -> h <= 24 -> numeral 2 m M -> m <= 60 -> loose_zone (60 * (60 * h + m)) ("+"%char :: H ++ ":"%char :: M)
| loose_west h m H M : numeral 2 h H -> h <= 24 -> numeral 2 m M -> m <= 60 -> loose_zone (- (60 * (60 * h + m))) ("-"%char :: H ++ ":"%char :: M).

Inductive loose_stamp : time -> list ascii -> Prop :=
| loose_stamp_ n d D w h m s H M S p P o O : on_day n d -> day_text d D ->
    numeral w h H -> w = 1%nat \/ w = 2%nat -> h <= 23 -> numeral 2 m M -> m <= 59 -> numeral 2 s S -> s <= 59 -> loose_part p P -> loose_zone o O ->
    loose_stamp (mkTime (86400 * n + 3600 * h + 60 * m + s - o) p o) (D ++ "T"%char :: H ++ ":"%char :: M ++ ":"%char :: S ++ P ++ O).

(** ** What survives *)

(** The year on the clock of the zone has four digits. *)
Definition four_digits (t : time) : Prop := exists d, on_day ((unix t + offset t) / 86400) d /\ 0 <= year d <= 9999.

(** A time.Time: nanoseconds are less than a second. *)
Definition is_time (t : time) : Prop := 0 <= nanos t < 10 ^ 9.

(** Two times that are the same instant. *)
Definition same_instant (t t' : time) : Prop := unix t = unix t' /\ nanos t = nanos t'.
