(** What a reference designates, written without the parsing functions of the code. *)
From stdpp Require Import gmap list strings.
From Coq Require Import Ascii String.
From Verif.Model Require Import Reference.
Local Open Scope string_scope.

Definition without (c : ascii) (s : string) : Prop := c ∉ list_ascii_of_string s.

(** A name that can be a step of a path. *)
Definition step_name (s : string) : Prop := without "/" s /\ without "#" s.

(** The property reached from a schema by names. *)
Inductive leads (w : world) : nat -> list string -> nat -> Prop :=
| leads_here l : leads w l [] l
| leads_step l n l' ns l'' : schema_props w l !! n = Some l' -> leads w l' ns l'' -> leads w l (n :: ns) l''.

(** The text of a reference to steps of a document. *)
Definition pointer (steps : list string) : string := String.concat "" (map (fun n => "/" ++ n) steps).

(** [p] writes the steps; the first slash may be missing. *)
Definition writes (p : string) (steps : list string) : Prop :=
  Forall (without "/") steps /\ (p = pointer steps \/ "/" ++ p = pointer steps).

(** The document named before the "#" and the text behind it. A leading "./" of a file means nothing. *)
Definition same_file (file key : string) : Prop :=
  file = "./" ++ key \/ (file = key /\ forall r, file <> "./" ++ r).
Inductive document (w : world) (s : spec) : string -> spec -> string -> Prop :=
| doc_here p : without "#" p -> document w s ("#" ++ p) s p
| doc_there file key p d :
    file <> "" -> without "#" file -> without "#" p ->
    same_file file key -> deps s !! key = Some d ->
    document w s (file ++ "#" ++ p) (specs w d) p.

Inductive field_of (w : world) (m : nat) : string -> nat -> Prop :=
| field_payload l : msg_payload w m = Some l -> field_of w m "payload" l
| field_headers l : msg_headers w m = Some l -> field_of w m "header" l.

(** Messages by steps. *)
Inductive message_steps (v3 : bool) (w : world) (s : spec) : list string -> nat -> Prop :=
| in_components n m : comps s "messages" !! n = Some m ->
    message_steps v3 w s ["components"; "messages"; n] m
| in_channel c ch n m : v3 = true -> channels s !! c = Some ch -> chan_msgs w ch !! n = Some m ->
    message_steps v3 w s ["channels"; c; "messages"; n] m.

(** Schemas by steps. *)
Inductive schema_steps (v3 : bool) (w : world) (s : spec) : list string -> nat -> Prop :=
| in_schemas n l ns l' : comps s "schemas" !! n = Some l -> leads w l ns l' ->
    schema_steps v3 w s ("components" :: "schemas" :: n :: ns) l'
| in_message steps m f l ns l' : message_steps v3 w s steps m -> field_of w m f l -> leads w l ns l' ->
    schema_steps v3 w s (steps ++ f :: ns)%list l'.

(** Components of another kind by steps, and possibly something behind them. *)
Inductive other_steps (kind : string) (s : spec) : list string -> nat -> Prop :=
| in_kind n l behind : comps s kind !! n = Some l -> other_steps kind s ("components" :: kind :: n :: behind) l.

Definition designates (by_steps : spec -> list string -> nat -> Prop) (w : world) (s : spec) (ref : string) (l : nat) : Prop :=
  exists used p steps, document w s ref used p /\ writes p steps /\ by_steps used steps l.

(** The file that a text names: a leading "./" says the same as none. *)
Definition file_named (text file : string) : Prop := text = "./" +:+ file \/ (text = file /\ forall rest, text <> "./" +:+ rest).
