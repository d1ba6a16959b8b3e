(** The text logger.
    Modelled code: pkg/extensions/loggers/text.go:43-103.
    Simplified: the colours are off (fatih/color then prints like fmt.Sprintf, color.NoColor), so the
    printers add nothing to the text. A map is the list of its entries in the order in which Go
    happens to range over it. Not modelled: the clock, fmt's "%s" of a map (the oracle [show]). *)
From stdpp Require Import list strings.
From Coq Require Import Ascii String.
From Verif.Model Require Import GoStrings Logs.
Local Open Scope string_scope.

Definition newline : string := String "010"%char "".

(** text.go:68-92 *)
Definition text_info (c : context) (now msg : string) (info : list (string * string)) : list (string * string) :=
  let opt k o := match o with Some v => [(k, v)] | None => [] end in
  (info ++ opt "Channel" (c_channel c) ++ opt "CorrelationID" (c_correlation c) ++ opt "Content" (c_message c)
   ++ [("Message", msg); ("@Timestamp", now)])%list.

(** text.go:98-99: the map that is printed. *)
Definition text_map (c : context) (now msg : string) (info : list (string * string)) : lmap :=
  structure_logs (text_info c now msg info).

(** text.go:45, strings.Join of as many "  " as there are prefixes. *)
Fixpoint margin (n : nat) : string := match n with O => "" | S n => "  " +:+ margin n end.

Section Humanize.
  (** fmt's "%s" of a value that is a map. *)
  Variable show : lmap -> string.
  Definition shown (v : lval) : string := match v with LText s => s | LMap m => show m end.

  (** text.go:48-50: both entries are there. *)
  Definition headed (m : lmap) : bool :=
    match lget "@Timestamp" m, lget "Message" m with Some _, Some _ => true | _, _ => false end.
  (** text.go:51 *)
  Definition header (n : nat) (m : lmap) : string :=
    match lget "@Timestamp" m, lget "Message" m with
    | Some ts, Some msg => "> " +:+ margin n +:+ shown ts +:+ ": " +:+ shown msg +:+ newline
    | _, _ => ""
    end.

  (** text.go:57-66, one entry. The function calls itself at line 54 on the map without the two
      entries, one step further in; that call always takes the loop, so it is the loop that skips
      the two keys. *)
  Fixpoint entry (n : nat) (k : string) (v : lval) {struct v} : string :=
    match v with
    | LText s => margin n +:+ k +:+ ": " +:+ s +:+ newline
    | LMap m =>
        let h := headed m in
        let n' := if h then S (S n) else S n in
        margin n +:+ k +:+ ":" +:+ newline +:+ (header (S n) m +:+
        (fix go (es : lmap) : string :=
           match es with
           | [] => ""
           | (k', v') :: r =>
               (if (h && (String.eqb k' "@Timestamp" || String.eqb k' "Message"))%bool then "" else entry n' k' v')
               +:+ go r
           end) m)
    end.
  Fixpoint entries (h : bool) (n : nat) (es : lmap) : string :=
    match es with
    | [] => ""
    | (k, v) :: r =>
        (if (h && (String.eqb k "@Timestamp" || String.eqb k "Message"))%bool then "" else entry n k v) +:+ entries h n r
    end.

  (** text.go:43-66 *)
  Definition humanize (n : nat) (m : lmap) : string :=
    if headed m then header n m +:+ entries true (S n) m else entries false n m.
End Humanize.

(** text.go:94-103 without the colours; [order] is the order of the maps. *)
Definition text_line (show : lmap -> string) (order : lmap -> lmap) (c : context) (now msg : string)
    (info : list (string * string)) : string :=
  humanize show 0 (order (text_map c now msg info)).
