(** Reading an indented text. *)
From stdpp Require Import list strings.
From Coq Require Import Ascii String.
From Verif.Model Require Import Logs.
From Verif.Spec Require Import LogsSpec.
Local Open Scope string_scope.

(** A text made of lines. *)
Definition line_text (l : string) : string := l +:+ String "010"%char "".
Definition text_of (ls : list string) : string := foldr (fun l s => line_text l +:+ s) "" ls.
Definition one_line (s : string) : Prop := "010"%char ∉ list_ascii_of_string s.

(** [s] starts [n] steps of two blanks further in. *)
Inductive inside : nat -> string -> string -> Prop :=
| inside_0 s : inside 0 s s
| inside_S n s t : inside n s t -> inside (S n) (String " " (String " " s)) t.

(** What can be read as a key: it has no colon and does not begin with a blank. *)
Definition key_like (k : string) : Prop :=
  ":"%char ∉ list_ascii_of_string k /\ (forall r, k <> String " " r).

(** What a reader finds in a block of lines [n] steps in: "key: value" at that place, or "key:"
    followed by lines that are further in. *)
Inductive reads : nat -> list string -> list string -> string -> Prop :=
| reads_value n pre l post k v : key_like k -> inside n l (k +:+ ": " +:+ v) ->
    reads n (pre ++ l :: post) [k] v
| reads_block n pre l body post k ks v : key_like k -> inside n l (k +:+ ":") ->
    Forall (fun l => exists t, inside (S n) l t) body -> reads (S n) body ks v ->
    reads n (pre ++ l :: body ++ post) (k :: ks) v.

(** The same map in another order. *)
Inductive same_map : lmap -> lmap -> Prop :=
| same_perm m m' : m ≡ₚ m' -> same_map m m'
| same_sub k s s' m : same_map s s' -> same_map ((k, LMap s) :: m) ((k, LMap s') :: m)
| same_trans m m' m'' : same_map m m' -> same_map m' m'' -> same_map m m''.

(** What can be printed on one line and read back as a key or a value. *)
Definition readable (e : string * string) : Prop :=
  one_line e.2 /\ forall ks, parts_of e.1 ks -> Forall (fun k => key_like k /\ one_line k) ks.
(** Two entries that make a "Message" and an "@Timestamp" side by side inside the entry [p]. *)
Definition nested_header (keys : list string) : Prop :=
  exists p q r a b, p <> [] /\ a ∈ keys /\ b ∈ keys /\
    parts_of a (p ++ "@Timestamp" :: q) /\ parts_of b (p ++ "Message" :: r).
(** What the logger takes from the context. *)
Definition context_entries (c : context) : list (string * string) :=
  omap (fun e => option_map (pair e.1) e.2)
    [("Channel", c_channel c); ("CorrelationID", c_correlation c); ("Content", c_message c)].
(** The keys the text logger itself writes. *)
Definition text_keys : list string := ["Channel"; "CorrelationID"; "Content"; "Message"; "@Timestamp"].
