(** The Kafka broker controller.
    Modelled code: pkg/extensions/brokers/kafka/kafka.go. Not modelled: the kafka-go client itself
    (its answers are inputs), logging, closing of readers and writers, host lists. *)
From stdpp Require Import gmap strings list.
From Verif.Model Require Import Ack.

(** ** Configuration *)

(** kafka.Dialer: the two fields the options write; [None] is nil. *)
Record dialer := mkDialer { dtls : option nat; dsasl : option nat }.

(** Go memory holding the dialers. Location 0 is the variable kafka.DefaultDialer of the client
    library, one per process, initially without TLS and SASL. *)
Notation dheap := (gmap nat dialer).
Definition dheap_init : dheap := {[0 := mkDialer None None]}.
Definition default_dialer : nat := 0.

(** Options that matter here (122-133); the others do not touch the dialer. *)
Inductive kopt := KTLS (t : option nat) | KSasl (s : option nat) | KOther.

(** 20-34: the part of the controller that matters: the pointer to its dialer. *)
Record kctrl := mkKctrl { kdialer : nat }.

(** 122-126 and 129-133: write through the pointer. *)
Definition kopt_apply (c : kctrl) (h : dheap) (o : kopt) : dheap :=
  match h !! kdialer c with
  | None => h                       (** nil pointer: not reachable *)
  | Some d =>
      match o with
      | KTLS t => <[kdialer c := mkDialer t (dsasl d)]> h
      | KSasl s => <[kdialer c := mkDialer (dtls d) s]> h
      | KOther => h
      end
  end.

(** 48-64: the controller points to kafka.DefaultDialer. [ok] is the outcome of the connection
    test of 69-80: the options have been applied before it. *)
Definition k_new (os : list kopt) (ok : bool) (h : dheap) : dheap * option kctrl :=
  let c := mkKctrl default_dialer in
  (fold_left (kopt_apply c) os h, if ok then Some c else None).

(** The process: controllers created one after the other; a failed creation gives no controller. *)
Fixpoint k_process (news : list (list kopt * bool)) (h : dheap) (cs : list (option kctrl))
  : dheap * list (option kctrl) :=
  match news with
  | [] => (h, cs)
  | (os, ok) :: news' => let '(h1, c) := k_new os ok h in k_process news' h1 (cs ++ [c])
  end.

(** What a controller uses when it connects, publishes (153-154) or subscribes (210). *)
Definition k_config (h : dheap) (c : kctrl) : option dialer := h !! kdialer c.

(** ** Publication *)

(** Answers of the client library: WriteMessages (173); Dial, CreateTopics, ReadPartitions
    (238-260). *)
Inductive wans E := WOk | WUnknownTopic | WFail (e : E).
Arguments WOk {_}.
Arguments WUnknownTopic {_}.
Arguments WFail {_}.
Record check_script E := mkCheck { cdial : option E; citers : list (option E * (list string + E)) }.
Arguments mkCheck {_}.
Arguments cdial {_}.
Arguments citers {_}.

Inductive kres E := KOk | KErr (e : E) | KPending.
Arguments KOk {_}.
Arguments KErr {_}.
Arguments KPending {_}.

Section Publish.
  Context {E : Type}.

  (** 244-273. [KPending]: the loop goes on after the given answers. *)
  Fixpoint check_loop (topic : string) (its : list (option E * (list string + E))) : kres E :=
    match its with
    | [] => KPending
    | (Some e, _) :: _ => KErr e
    | (None, inr e) :: _ => KErr e
    | (None, inl parts) :: its' => if bool_decide (topic ∈ parts) then KOk else check_loop topic its'
    end.
  (** 236-242. *)
  Definition check_topic (topic : string) (c : check_script E) : kres E :=
    match cdial c with
    | Some e => KErr e
    | None => check_loop topic (citers c)
    end.

  (** Observable calls of Publish, in order. *)
  Inductive kcall := KWrite (a : wans E) | KCheck (r : kres E).

  (** 171-193. *)
  Fixpoint k_publish (topic : string) (ws : list (wans E)) (cs : list (check_script E)) : list kcall * kres E :=
    match ws with
    | [] => ([], KPending)
    | w :: ws' =>
        match w with
        | WOk => ([KWrite WOk], KOk)
        | WFail e => ([KWrite (WFail e)], KErr e)
        | WUnknownTopic =>
            match cs with
            | [] => ([KWrite WUnknownTopic], KPending)
            | c :: cs' =>
                match check_topic topic c with
                | KOk => let '(l, r) := k_publish topic ws' cs' in (KWrite WUnknownTopic :: KCheck KOk :: l, r)
                | r => ([KWrite WUnknownTopic; KCheck r], r)
                end
            end
        end
    end.
End Publish.
Arguments kcall : clear implicits.

(** ** Manual commits (316-370) *)
Inductive kop := KFetch | KSettle (i : nat) (k : settle).
#[global] Instance settle_eq_dec : EqDecision settle.
Proof. solve_decision. Defined.
#[global] Instance kop_eq_dec : EqDecision kop.
Proof. solve_decision. Defined.

(** Acknowledgement states of the fetched messages, in order, and the committed messages, in
    order. *)
Record kmst := mkKm { kmsgs : list ackst; kcommits : list nat }.
Definition kminit : kmst := mkKm [] [].

(** 363-370: AckMessage and NakMessage both call doCommit (343-347: CommitMessages of the
    message). *)
Definition calls_commit (k : settle) : bool := match k with SAck => true | SNak => true end.

Definition kmstep (s : kmst) (o : kop) : kmst :=
  match o with
  | KFetch => mkKm (kmsgs s ++ [ack_new]) (kcommits s)
  | KSettle i k =>
      match kmsgs s !! i with
      | None => s                                     (** no such message yet *)
      | Some a =>
          let a' := do_settle k a in
          let calls := drop (length (told a)) (told a') in
          mkKm (<[i := a']> (kmsgs s)) (kcommits s ++ map (fun _ => i) (List.filter calls_commit calls))
      end
  end.
Definition kmrun (os : list kop) (s : kmst) : kmst := fold_left kmstep os s.
