(** The NATS JetStream broker controller.
    Modelled code: pkg/extensions/brokers/natsjetstream/natsjetstream.go. Not modelled: logging,
    the stream and consumer configuration sent to the server, message contents (headers are in
    Model/Codec.v). *)
From stdpp Require Import gmap strings list.
From Coq Require Import Ascii.

(** ** Subject matching *)

(** strings.Split(s, "."): [acc] is the token being read, reversed. *)
Fixpoint split_from (acc : string) (s : string) : list string :=
  match s with
  | EmptyString => [acc]
  | String c s' =>
      if Ascii.eqb c "." then acc :: split_from "" s' else split_from (acc ++ String c EmptyString) s'
  end.
Definition split_dot (s : string) : list string := split_from "" s.

(** 370-387: the loop over the pattern tokens; [subj] are the subject tokens from the same index
    on. [i == len(patternTokens)-1] is "no pattern token follows". The case of a missing subject
    token is an index out of range in Go; 366 excludes it. The result at the end of the loop is
    the test of 390: both lists have the same length, i.e. no subject token is left. *)
Fixpoint match_tokens (pat subj : list string) : option bool :=
  match pat with
  | [] => Some (match subj with [] => true | _ => false end)
  | p :: pat' =>
      match subj with
      | [] => None
      | s :: subj' =>
          if bool_decide (p = "*") then
            if bool_decide (s = "") then Some false else match_tokens pat' subj'
          else if bool_decide (p = ">") then
            Some (match pat' with [] => true | _ => false end)
          else if bool_decide (p <> s) then Some false
          else match_tokens pat' subj'
      end
  end.

(** 354-391. [None] would be a panic. *)
Definition match_subject (pattern subject : string) : option bool :=
  if bool_decide (pattern = "") || bool_decide (subject = "") then Some false
  else
    let pt := split_dot pattern in
    let st := split_dot subject in
    if (length st <? length pt)%nat then Some false
    else match_tokens pt st.

(** ** Dispatch *)

(** 324-350: [order] is the iteration order of the channels map. [None]: acknowledged and
    dropped. The variable responsibleSubscription is "" when nothing was found. *)
Fixpoint find_responsible (order : list string) (subject : string) : string :=
  match order with
  | [] => ""
  | p :: order' =>
      match match_subject p subject with
      | Some true => p
      | _ => find_responsible order' subject
      end
  end.
Definition dispatch (order : list string) (subject : string) : option string :=
  let r := find_responsible order subject in
  if bool_decide (r = "") then None else Some r.

(** ** Subscriptions and consumption

    Subscriptions, and the Go channels of the channels map, are numbered. *)
Inductive jev := EvSubscribed (n : nat) (ch : string) | EvFailed (ch : string) | EvCancelled (n : nat).
#[global] Instance jev_eq_dec : EqDecision jev.
Proof. solve_decision. Defined.

Record jst := mkJ {
  jchans : gmap string nat;            (** c.channels *)
  jnext : nat;                         (** next number *)
  jrunning : bool;                     (** c.consumeContext != nil *)
  jreaders : list (nat * string * nat);(** live subscriptions: number, name, Go channel read by its goroutine *)
  jclosed : list nat;                  (** closed Go channels *)
  jpanic : bool;                       (** a goroutine panicked: the process is dead *)
  jlog : list jev                      (** what happened so far, for the user *)
}.
Definition jinit : jst := mkJ ∅ 0 false [] [] false [].

(** 226-258: [ok] is the answer of the server (JetStream.Consumer and Consumer.Consume), used only
    when consumption has to be started (298-312). Returns the subscription number. The goroutine
    of 240 evaluates c.channels[channel] when it starts; it is assumed to start before the
    subscription is cancelled. *)
Definition j_subscribe (ch : string) (ok : bool) (s : jst) : jst * option nat :=
  let '(g, s1) := match jchans s !! ch with
    | Some g => (g, s)
    | None => (jnext s, mkJ (<[ch := jnext s]> (jchans s)) (S (jnext s)) (jrunning s) (jreaders s) (jclosed s) (jpanic s) (jlog s))
    end in
  if jrunning s1 || ok then
    (mkJ (jchans s1) (S (jnext s1)) true (jreaders s1 ++ [(jnext s1, ch, g)]) (jclosed s1) (jpanic s1)
         (jlog s1 ++ [EvSubscribed (jnext s1) ch]),
     Some (jnext s1))
  else (mkJ (jchans s1) (jnext s1) (jrunning s1) (jreaders s1) (jclosed s1) (jpanic s1) (jlog s1 ++ [EvFailed ch]), None).

(** 251-255: the cancellation of a subscription (run once per subscription, see C07-C10). Closing
    a nil channel or a closed channel panics. 315-320: consumption stops when the map is empty. *)
Definition j_cleanup (ch : string) (s : jst) : jst :=
  match jchans s !! ch with
  | None => mkJ (jchans s) (jnext s) (jrunning s) (jreaders s) (jclosed s) true (jlog s)
  | Some g =>
      if bool_decide (g ∈ jclosed s) then mkJ (jchans s) (jnext s) (jrunning s) (jreaders s) (jclosed s) true (jlog s)
      else
        let m := delete ch (jchans s) in
        mkJ m (jnext s) (jrunning s && negb (bool_decide (m = ∅))) (jreaders s) (g :: jclosed s) (jpanic s) (jlog s)
  end.

(** Cancel of subscription [n], if it is alive. *)
Definition j_cancel (n : nat) (s : jst) : jst :=
  match list_find (fun r => r.1.1 = n) (jreaders s) with
  | None => s
  | Some (_, (_, ch, _)) =>
      let s1 := mkJ (jchans s) (jnext s) (jrunning s) (filter (fun r => r.1.1 <> n) (jreaders s)) (jclosed s) (jpanic s)
                    (jlog s ++ [EvCancelled n]) in
      j_cleanup ch s1
  end.

Inductive jop := JSubscribe (ch : string) (ok : bool) | JCancel (n : nat).
Definition jstep (s : jst) (o : jop) : jst :=
  if jpanic s then s else
  match o with
  | JSubscribe ch ok => fst (j_subscribe ch ok s)
  | JCancel n => j_cancel n s
  end.
Definition jrun (os : list jop) (s : jst) : jst := fold_left jstep os s.

(** 324-350 on a controller: where the message goes. *)
Inductive jdelivery :=
| JDropped                       (** acknowledged and dropped *)
| JHanded (subs : list nat)      (** sent on a channel read by these subscriptions: one of them gets it *)
| JStuck.                        (** sent on a channel nobody reads: the consumer is blocked for ever *)
Definition j_consume (order : list string) (subject : string) (s : jst) : jdelivery :=
  match dispatch order subject with
  | None => JDropped
  | Some p =>
      match jchans s !! p with
      | None => JStuck                   (** not reachable: [order] lists the map *)
      | Some g =>
          match filter (fun r => r.2 = g) (jreaders s) with
          | [] => JStuck
          | rs => JHanded (map (fun r => r.1.1) rs)
          end
      end
  end.

(** ** Connections (37-87, 140-170, 291-295) *)
Inductive conn := Own (n : nat) | User (n : nat).
Inductive conev := EvOpen (c : conn) | EvClose (c : conn).
#[global] Instance conn_eq_dec : EqDecision conn.
Proof. solve_decision. Defined.
#[global] Instance conev_eq_dec : EqDecision conev.
Proof. solve_decision. Defined.

(** Options that matter here: WithConnectionOpts with the answer of nats.Connect; WithConnection
    with a user connection or nil; any other option with its error status. *)
Inductive copt := OConnOpts (ok : bool) | OConn (c : option nat) | OOther (ok : bool).

Record kst := mkK { kconn : option conn; kowns : bool; knext : nat; kevs : list conev }.
Definition kinit : kst := mkK None false 0 [].

(** 164-170. *)
Definition set_connection (c : option conn) (owning : bool) (s : kst) : kst :=
  let evs := match kconn s with Some c0 => if kowns s then [EvClose c0] else [] | None => [] end in
  mkK c owning (knext s) (kevs s ++ evs).

(** nats.Connect. *)
Definition connect (s : kst) : conn * kst :=
  (Own (knext s), mkK (kconn s) (kowns s) (S (knext s)) (kevs s ++ [EvOpen (Own (knext s))])).

(** 139-157. [false]: the option returned an error. *)
Definition apply_opt (o : copt) (s : kst) : kst * bool :=
  match o with
  | OConnOpts false => (s, false)
  | OConnOpts true => let '(c, s1) := connect s in (set_connection (Some c) true s1, true)
  | OConn c => (set_connection (User <$> c) false s, true)
  | OOther ok => (s, ok)
  end.
Fixpoint apply_opts (os : list copt) (s : kst) : kst * bool :=
  match os with
  | [] => (s, true)
  | o :: os' => let '(s1, ok) := apply_opt o s in if ok then apply_opts os' s1 else (s1, false)
  end.

(** 37-87: [cok] answer of nats.Connect (54-61), [sok] success of everything after (64-84).
    [false]: NewController returned nil and an error. *)
Definition js_new (os : list copt) (cok sok : bool) : kst * bool :=
  let '(s, ok) := apply_opts os kinit in
  if ok then
    match kconn s with
    | Some _ => (s, sok)
    | None =>
        if cok then let '(c, s1) := connect s in (set_connection (Some c) true s1, sok)
        else (s, false)
    end
  else (s, false).

(** 291-295. *)
Definition js_close (s : kst) : kst :=
  match kconn s with
  | Some c => if kowns s then mkK (kconn s) (kowns s) (knext s) (kevs s ++ [EvClose c]) else s
  | None => s
  end.

(** *** The NATS controller (pkg/extensions/brokers/nats/nats.go:28-82, 149-151): the connection
    is overwritten without being closed. *)
Definition nats_opt (o : copt) (s : kst) : kst * bool :=
  match o with
  | OConnOpts false => (s, false)
  | OConnOpts true => let '(c, s1) := connect s in (mkK (Some c) true (knext s1) (kevs s1), true)
  | OConn _ => (s, true)          (** there is no such option *)
  | OOther ok => (s, ok)
  end.
Fixpoint nats_opts (os : list copt) (s : kst) : kst * bool :=
  match os with
  | [] => (s, true)
  | o :: os' => let '(s1, ok) := nats_opt o s in if ok then nats_opts os' s1 else (s1, false)
  end.
Definition nats_new (os : list copt) (cok : bool) : kst * bool :=
  let '(s, ok) := nats_opts os kinit in
  if ok then
    match kconn s with
    | Some _ => (s, true)
    | None => if cok then let '(c, s1) := connect s in (mkK (Some c) true (knext s1) (kevs s1), true) else (s, false)
    end
  else (s, false).
Definition nats_close (s : kst) : kst :=
  match kconn s with
  | Some c => mkK (kconn s) (kowns s) (knext s) (kevs s ++ [EvClose c])
  | None => s
  end.
