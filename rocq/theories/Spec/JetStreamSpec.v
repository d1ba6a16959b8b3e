(** NATS subject rules, subscription histories and connection ownership, stated on their own. *)
From stdpp Require Import gmap strings list.
From Coq Require Import Ascii.
From Verif.Model Require Import JetStream.

(** ** Tokens: what lies between the dots. *)
Fixpoint no_dot (s : string) : Prop :=
  match s with
  | EmptyString => True
  | String c s' => c <> "."%char /\ no_dot s'
  end.
Definition tokens (s : string) (ts : list string) : Prop :=
  ts <> [] /\ Forall no_dot ts /\ String.concat "." ts = s.

(** The NATS rules on tokens. *)
Inductive token_match : list string -> list string -> Prop :=
| tm_nil : token_match [] []
| tm_literal t ps ss : t <> "*" -> t <> ">" -> token_match ps ss -> token_match (t :: ps) (t :: ss)
| tm_star s ps ss : s <> "" -> token_match ps ss -> token_match ("*" :: ps) (s :: ss)
| tm_tail s ss : token_match [">"] (s :: ss).

Definition subject_match (pattern subject : string) : Prop :=
  pattern <> "" /\ subject <> "" /\
  exists ps ss, tokens pattern ps /\ tokens subject ss /\ token_match ps ss.

(** ** Histories of subscriptions *)

(** Subscriptions that succeeded and were not cancelled. *)
Fixpoint alive (h : list jev) : list (nat * string) :=
  match h with
  | [] => []
  | e :: h' => match e with
               | EvSubscribed n ch =>
                   if bool_decide (EvCancelled n ∈ h') then alive h' else (n, ch) :: alive h'
               | _ => alive h'
               end
  end.

(** No subscription is made on a channel that has one alive: what generated controllers
    guarantee (C16). *)
Definition exclusive (h : list jev) : Prop :=
  forall pre n ch post, h = pre ++ EvSubscribed n ch :: post -> ch ∉ (alive pre).*2.

(** ** Connections *)
Definition opened (c : conn) (l : list conev) : nat := length (filter (fun e => e = EvOpen c) l).
Definition closes (c : conn) (l : list conev) : nat := length (filter (fun e => e = EvClose c) l).

(** ** What a history leaves *)

(** A subscription on [ch] is cancelled in the part [post] of the history [h]. *)
Definition released (h post : list jev) (ch : string) : Prop := exists k, EvCancelled k ∈ post /\ EvSubscribed k ch ∈ h.
(** A subscription on [ch] was asked for, with success or not, and none on it was cancelled since. *)
Definition listed (h : list jev) (ch : string) : Prop :=
  exists pre e post, h = pre ++ e :: post /\ (e = EvFailed ch \/ exists n, e = EvSubscribed n ch) /\ ~ released h post ch.
(** The subscription [n] on [ch] was made, and none on [ch] was cancelled since. *)
Definition attached (h : list jev) (n : nat) (ch : string) : Prop :=
  exists pre post, h = pre ++ EvSubscribed n ch :: post /\ ~ released h post ch.
(** A subscription was made, and a channel was listed at every moment since. *)
Definition consuming (h : list jev) : Prop :=
  exists pre n ch post, h = pre ++ EvSubscribed n ch :: post /\ forall a b, post = a ++ b -> exists c, listed (pre ++ EvSubscribed n ch :: a) c.
(** The last thing was to cancel a subscription on a channel that was not listed. *)
Definition crashed (h : list jev) : Prop :=
  exists pre n ch, h = pre ++ [EvCancelled n] /\ EvSubscribed n ch ∈ pre /\ ~ listed pre ch.

(** ** Connections of a creation that fails *)
Definition fails (o : copt) : bool := match o with OConnOpts ok | OOther ok => negb ok | OConn _ => false end.
(** The options applied before the first one that fails. *)
Fixpoint applied (os : list copt) : list copt :=
  match os with [] => [] | o :: os' => if fails o then [] else o :: applied os' end.
Definition connects (o : copt) : bool := match o with OConnOpts _ | OConn _ => true | OOther _ => false end.
(** The option that decides on the connection: the last one. *)
Definition configured (os : list copt) : option copt := last (List.filter connects (applied os)).
(** The controller connected, on its own account, to what it would use. *)
Definition connected (os : list copt) (cok : bool) : Prop :=
  configured os = Some (OConnOpts true) \/
  (applied os = os /\ cok = true /\ (configured os = None \/ configured os = Some (OConn None))).
