(** What the parties called by a controller should find in their context. *)
From stdpp Require Import strings.
From Verif.Model Require Import Middleware BrokerMessage Contexts.

(** What an operation should say of itself: a value for some of the keys. *)
Definition facts := key -> option string.

Definition about (ver prov addr direction : string) (text id : option string) : facts := fun k =>
  match k with
  | KVersion => Some ver
  | KProvider => Some prov
  | KChannel => Some addr
  | KDirection => Some direction
  | KMessage => text
  | KCorrelation => id
  | KOther _ => None
  end.

(** The context says what the facts say; of what they do not say it has what [caller] has. *)
Definition says (f : facts) (caller : key -> option cval) (c : ctx) (k : key) : Prop :=
  value c k = match f k with Some s => Some (VStr s) | None => caller k end.
(** The context says what the facts say and no more of the library's keys. *)
Definition only_says (f : facts) (c : ctx) (k : key) : Prop :=
  value c k = match f k with Some s => Some (VStr s) | None => None end.

Definition nothing : key -> option cval := fun _ => None.

(** The middleware hands on contexts that have the value its own context has of the key. *)
Section Keeps.
  Context {M E : Type}.
  Inductive hands_on (P : ctx -> Prop) : mwprog ctx M E -> Prop :=
  | HRet e : hands_on P (MRet e)
  | HPanic : hands_on P MPanic
  | HGet k : (forall m, hands_on P (k m)) -> hands_on P (MGet k)
  | HSet m k : hands_on P k -> hands_on P (MSet m k)
  | HNext c k : P c -> (forall r, hands_on P (k r)) -> hands_on P (MNext c k).
  Definition keeps (k : key) (mw : middleware ctx M E) : Prop :=
    forall c, hands_on (fun c' => value c' k = value c k) (mw c).

  (** The middleware does not write the message. *)
  Inductive reads_only : mwprog ctx M E -> Prop :=
  | RORet e : reads_only (MRet e)
  | ROPanic : reads_only MPanic
  | ROGet k : (forall m, reads_only (k m)) -> reads_only (MGet k)
  | RONext c k : (forall r, reads_only (k r)) -> reads_only (MNext c k).
End Keeps.

(** The identifier a received message comes with, if its kind declares one. *)
Definition received_id {D} (id_of : D -> string) (declared : bool) (d : D) : option string :=
  if declared then if decide (id_of d = "") then None else Some (id_of d) else None.

(** The message a party is given, and what its context says of it. *)
Definition shown_right {D} (show : bmsg -> string) (o : obs D) : Prop :=
  match o with
  | OPublish c _ m | OMiddleware _ c m => value c KMessage = Some (VStr (show m))
  | _ => True
  end.

(** What the parties of a request should find: the request speaks of the channel of the reply and
    leaves the rest to its caller; the publication speaks of the channel it publishes on; the
    reception of the replies speaks of them and of nothing else. *)
Definition told {D} (show : bmsg -> string) (ver prov : string) (c : ctx) (raddr addr : string) (text id : option string)
           (ins : list input) (k : key) (o : obs D) : Prop :=
  match o with
  | OPublish c' a _ => a = addr /\ says (about ver prov addr "publication" text id) (value c) c' k
  | OMiddleware _ c' _ =>
      says (about ver prov addr "publication" text id) (value c) c' k \/
      exists raw, IMessage raw ∈ ins /\ says (about ver prov raddr "wait-for" (Some (show raw)) id) nothing c' k
  | OLog _ c' =>
      says (about ver prov raddr "wait-for" None None) (value c) c' k \/
      says (about ver prov raddr "wait-for" None id) nothing c' k
  | o => says (about ver prov raddr "wait-for" None None) (value c) (ctx_of o) k
  end.
