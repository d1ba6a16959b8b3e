(** C101: the context a party is given describes the operation it takes part in. *)
From stdpp Require Import gmap strings.
From Verif.Model Require Import Middleware BrokerMessage Logs Contexts.
From Verif.Spec Require Import ContextsSpec.
From Verif.Proof Require Import ContextsProof.

(** * Examples: messages of which the first header is the identifier *)
Record em := mkEm { e_id : string; e_text : string }.
Definition e_show (m : bmsg) : string := default "" (payload m).
Definition e_encode (d : em) : bmsg + string := inl (mkBmsg (Some {["id" := e_id d]}) (Some (e_text d))).
Definition e_decode (m : bmsg) : em + string :=
  match payload m with Some p => inl (mkEm (default "" (header m "id")) p) | None => inr "no payload" end.
Definition e_set (d : em) (i : string) : em := mkEm i (e_text d).
Definition raw1 : bmsg := mkBmsg (Some {["id" := "req-1"]}) (Some "ping").
(** A middleware that adds a value of its own. *)
Definition tracing : middleware ctx bmsg string :=
  fun c => MNext (With c (KOther "span") (VStr "s1")) (fun r => match r with ROk e => MRet e | RPanic => MPanic end).
(** A middleware that changes the message. *)
Definition rewriting : middleware ctx bmsg string := fun c => MSet (mkBmsg None (Some "changed")) (MRet None).

Lemma tracing_keeps k : k <> KOther "span" -> Forall (keeps k) [tracing].
Proof.
  intros N. apply Forall_singleton. intros c. unfold tracing. apply HNext.
  - cbn. destruct (decide (KOther "span" = k)); congruence.
  - intros [e|]; [apply HRet|apply HPanic].
Qed.

(** * Publications *)

(** Whatever context the caller gives: everybody involved in a publication finds the version, the
    controller, the address, the direction, the message and the identifier it declares, and what the
    caller's context says besides. Only the refusal of a reply without identifier is logged with the
    caller's context. *)
Theorem C101_published {D E} show encode (id_of : D -> string) set_id (err_text : E -> string) ver s mws
        c addr declared reply_of no_id fresh published d k :
  Forall (keeps k) mws ->
  let l := fst (send show encode id_of set_id err_text ver s mws c addr declared reply_of no_id fresh published d) in
  (declared = true /\ id_of d = "" /\ reply_of = true /\ l = [OLog (err_text no_id) c]) \/
  exists d', (if declared && bool_decide (id_of d = "") then reply_of = false /\ d' = set_id d fresh else d' = d) /\
    match encode d' with
    | inr _ => l = []
    | inl m => Forall (fun o => says (about ver (provider s) addr "publication" (Some (show m))
                                         (if declared then Some (id_of d') else None)) (value c) (ctx_of o) k) l
    end.
Proof. apply send_says. Qed.
Definition sent_ex (c : ctx) (declared : bool) (mws : list (middleware ctx bmsg string)) (d : em) : list (obs em) :=
  fst (send e_show e_encode e_id e_set (fun e => e) "1.0.0" App mws c "pong" declared false "no id" "fresh-1" (fun _ _ => ROk None) d).
Example C101_published_ex :
  let l := sent_ex (With Background (KOther "user") (VOther 7)) true [tracing] (mkEm "" "hello") in
  length l = 2 /\
  Forall (fun o => value (ctx_of o) KCorrelation = Some (VStr "fresh-1") /\ value (ctx_of o) KChannel = Some (VStr "pong") /\
                   value (ctx_of o) KMessage = Some (VStr "hello") /\ value (ctx_of o) (KOther "user") = Some (VOther 7)) l.
Proof. split; [reflexivity|]. apply Forall_cons; split; [|apply Forall_singleton]; split_and!; reflexivity. Qed.

(** A message that declares no identifier is published with whatever identifier the context has:
    used in a handler, the identifier of the message that is being handled. *)
Theorem C101_published_only_refuted :
  exists c d addr id, OHandler c d ∈ listen e_show e_decode e_id "1.0.0" App [] "ping" true (fun _ _ => ROk None) raw1 /\
  OPublish addr "pong" id ∈ sent_ex c false [] (mkEm "" "hello") /\
  value addr KCorrelation = Some (VStr "req-1") /\
  ~ only_says (about "1.0.0" "app" "pong" "publication" (Some "hello") None) addr KCorrelation.
Proof.
  eexists _, _, _, _. split; [apply elem_of_list_here|]. split; [apply elem_of_list_here|].
  split; [reflexivity|]. intros H. discriminate H.
Qed.

(** The text of the message in the context is the message that is published when no middleware
    changes the message, ... *)
Theorem C101_text {D E} show encode (id_of : D -> string) set_id (err_text : E -> string) ver s mws
        c addr declared no_id fresh published d :
  Forall (keeps KMessage) mws -> Forall (fun mw => forall c, reads_only (mw c)) mws ->
  Forall (shown_right show) (fst (send show encode id_of set_id err_text ver s mws c addr declared false no_id fresh published d)).
Proof.
  intros K R. unfold send. rewrite andb_false_r.
  destruct (encode _) as [m|e]; cbn [fst]; [|apply Forall_nil_2].
  match goal with |- context[execute mws ?o ?c0 m tt] => set (op := o); set (c0' := c0) end.
  pose proof (execute_keeps KMessage _ mws op c0' m tt K eq_refl) as F.
  assert (G : Forall (ev_msg (eq m)) (trace (fst (execute mws op c0' m tt)))).
  { unfold execute. apply wrap_msg; [|exact R|reflexivity|apply Forall_nil_2].
    intros op' c' x Eo. injection Eo as <-. reflexivity. }
  destruct (execute mws op c0' m tt) as [st r]. cbn [fst] in *. clear -F G.
  induction (trace st) as [|ev tr IH]; cbn; [apply Forall_nil_2|].
  apply Forall_cons in F as [F1 F]. apply Forall_cons in G as [G1 G].
  apply Forall_app. split; [|exact (IH F G)].
  destruct ev as [i c' m'|c' m']; cbn in *; apply Forall_singleton; cbn; rewrite <- G1; exact F1.
Qed.
Example C101_text_ex : Forall (keeps KMessage) [tracing] /\ Forall (fun mw => forall c, reads_only (mw c)) [tracing] /\
  length (sent_ex Background true [tracing] (mkEm "i" "hello")) = 2.
Proof.
  split; [apply tracing_keeps; discriminate|]. split; [|reflexivity]. apply Forall_singleton. intros c.
  apply RONext. intros [e|]; [apply RORet|apply ROPanic].
Qed.
(** ... and otherwise not: the broker and the following middlewares are told the former text. *)
Theorem C101_text_refuted :
  exists c m, Forall (keeps (M := bmsg) KMessage) [rewriting] /\
    OPublish c "pong" m ∈ sent_ex Background true [rewriting] (mkEm "i" "hello") /\
    value c KMessage = Some (VStr "hello") /\ payload m = Some "changed" /\
    ~ shown_right e_show (OPublish (D := em) c "pong" m).
Proof.
  eexists _, _. split; [apply Forall_singleton; intros c; apply HSet; apply HRet|].
  split; [apply elem_of_list_further, elem_of_list_here|]. split; [reflexivity|]. split; [reflexivity|].
  intros H. discriminate H.
Qed.

(** Behind the version wrapper a publication carries the version of the controller. *)
Theorem C101_tag {D E} show encode (id_of : D -> string) set_id (err_text : E -> string) ver s mws
        c addr declared reply_of no_id fresh published d c' a m :
  Forall (keeps KVersion) mws ->
  OPublish c' a m ∈ fst (send show encode id_of set_id err_text ver s mws c addr declared reply_of no_id fresh published d) ->
  tag_of c' = Some ver.
Proof.
  intros K H. destruct (send_says show encode id_of set_id err_text ver s mws c addr declared reply_of no_id fresh published d KVersion K)
    as [(_ & _ & _ & L)|(d' & _ & L)].
  - rewrite L in H. apply elem_of_list_singleton in H. discriminate H.
  - destruct (encode d') as [m'|e]; [|rewrite L in H; apply elem_of_nil in H as []].
    rewrite Forall_forall in L. specialize (L _ H). unfold tag_of, if_set_with. cbn in L. unfold says in L. rewrite L. reflexivity.
Qed.
Example C101_tag_ex : exists c m, OPublish c "pong" m ∈ sent_ex (With Background KVersion (VStr "0.9")) true [tracing] (mkEm "i" "hello") /\ tag_of c = Some "1.0.0".
Proof. eexists _, _. split; [apply elem_of_list_further, elem_of_list_here|reflexivity]. Qed.

(** * Receptions *)

(** Everybody involved in a reception finds the version, the controller, the address, the direction
    and the message as it was received; the handler also finds the identifier if there is one; and
    nothing else, in particular nothing of the context the subscription was made with. *)
Theorem C101_received {D E} show decode (id_of : D -> string) ver s (mws : list (middleware ctx bmsg E)) addr declared fn raw k :
  Forall (keeps k) mws ->
  Forall (fun o => match o with
                   | OHandler c d => says (about ver (provider s) addr "reception" (Some (show raw)) (received_id id_of declared d)) nothing c k
                   | _ => says (about ver (provider s) addr "reception" (Some (show raw)) None) nothing (ctx_of o) k
                   end) (listen show decode id_of ver s mws addr declared fn raw).
Proof. apply listen_says. Qed.
Example C101_received_ex :
  let l := listen e_show e_decode e_id "1.0.0" User [tracing] "ping" true (fun _ _ => ROk (Some "refused")) raw1 in
  map (fun o => value (ctx_of o) KCorrelation) l = [None; Some (VStr "req-1"); None] /\
  map (fun o => value (ctx_of o) KProvider) l = [Some (VStr "user"); Some (VStr "user"); Some (VStr "user")].
Proof. split; reflexivity. Qed.
(** So the middlewares and the error handler of a reception are not told the identifier, though
    those of the publication of the same message are. *)
Theorem C101_received_id_refuted :
  exists c m c' m', OMiddleware 0 c m ∈ sent_ex Background true [tracing] (mkEm "req-1" "ping") /\
    OMiddleware 0 c' m' ∈ listen e_show e_decode e_id "1.0.0" User [tracing] "pong" true (fun _ _ => ROk None) m /\
    m' = m /\ value c KCorrelation = Some (VStr "req-1") /\ value c' KCorrelation = None.
Proof.
  eexists _, _, _, _. split; [apply elem_of_list_here|]. split; [apply elem_of_list_here|]. split_and!; reflexivity.
Qed.

(** * Subscriptions *)

(** Subscribing and unsubscribing speak of the version, the controller and the address; subscribing
    speaks of the direction too. What they do not speak of is the caller's. *)
Theorem C101_subscribed {D E} (err_text : E -> string) ver s c addr taken t refused subscribed k :
  Forall (fun o => says (about ver (provider s) addr "reception" None None) (value c) (ctx_of o) k)
    (subscribe (D := D) err_text ver s c addr taken t refused) /\
  (k <> KDirection ->
   Forall (fun o => says (about ver (provider s) addr "reception" None None) (value c) (ctx_of o) k)
     (unsubscribe (D := D) ver s c addr subscribed)).
Proof.
  split.
  - unfold subscribe. destruct taken; [|destruct refused as [e|]];
      repeat (apply Forall_cons; split; [apply says_reception|]); apply Forall_nil_2.
  - intros N. unfold unsubscribe. destruct subscribed; [|apply Forall_nil_2].
    assert (S : says (about ver (provider s) addr "reception" None None) (value c) (add_values ver s c addr) k).
    { unfold says, add_values. destruct k; try reflexivity. congruence. }
    repeat (apply Forall_cons; split; [exact S|]). apply Forall_nil_2.
Qed.
Example C101_subscribed_ex :
  map (fun o => logged (ctx_of o)) (subscribe (D := em) (fun e : string => e) "1.0.0" App Background "ping" false "" None) =
    [mkContext (Some "app") (Some "ping") (Some "reception") None None; mkContext (Some "app") (Some "ping") (Some "reception") None None].
Proof. reflexivity. Qed.
(** Used in a handler, the line "Subscribed to channel" tells the message and the identifier that are
    being handled, and "Unsubscribed from channel" counts as the reception of a message. *)
Theorem C101_subscribed_only_refuted :
  exists c d c1 c2, OHandler c d ∈ listen e_show e_decode e_id "1.0.0" App [] "ping" true (fun _ _ => ROk None) raw1 /\
  OLog "Subscribed to channel" c1 ∈ subscribe (D := em) (fun e : string => e) "1.0.0" App c "other" false "" None /\
  logged c1 = mkContext (Some "app") (Some "other") (Some "reception") (Some "ping") (Some "req-1") /\
  OLog "Unsubscribed from channel" c2 ∈ unsubscribe (D := em) "1.0.0" App c "other" true /\
  ("event", LMap [("action", LText "received-message"); ("original", LText "ping")]) ∈ ecs_line (logged c2) "now" "info" "Unsubscribed from channel" [].
Proof.
  eexists _, _, _, _. split; [apply elem_of_list_here|]. split; [apply elem_of_list_further, elem_of_list_here|].
  split; [reflexivity|]. split; [apply elem_of_list_further, elem_of_list_here|].
  apply elem_of_list_In. vm_compute. tauto.
Qed.

(** * Requests *)
Theorem C101_requested {D E} show decode encode (id_of : D -> string) set_id (err_text : E -> string) ver s mws
        c raddr addr refused declared no_id fresh fresh' published d ins k :
  Forall (keeps k) mws -> (forall d x, id_of (set_id d x) = x) -> fresh <> "" ->
  let d' := if declared && bool_decide (id_of d = "") then set_id d fresh else d in
  Forall (told show ver (provider s) c raddr addr (match encode d' with inl m => Some (show m) | inr _ => None end)
               (if declared then Some (id_of d') else None) ins k)
    (request show decode encode id_of set_id err_text ver s mws c raddr addr refused declared no_id fresh fresh' published d ins).
Proof. apply request_told. Qed.
Definition request_ex : list (obs em) :=
  request e_show e_decode e_encode e_id e_set (fun e => e) "1.0.0" User [tracing] Background "pong" "ping" None true "no id" "req-1" "req-2"
    (fun _ _ => ROk None) (mkEm "" "ping")
    [IMessage (mkBmsg (Some {["id" := "req-0"]}) (Some "late")); IMessage (mkBmsg (Some {["id" := "req-1"]}) (Some "yes"))].
Example C101_requested_ex :
  map (fun o => (value (ctx_of o) KChannel, value (ctx_of o) KDirection, value (ctx_of o) KCorrelation)) request_ex =
  [ (Some (VStr "pong"), Some (VStr "wait-for"), None); (Some (VStr "pong"), Some (VStr "wait-for"), None);
    (Some (VStr "ping"), Some (VStr "publication"), Some (VStr "req-1")); (Some (VStr "ping"), Some (VStr "publication"), Some (VStr "req-1"));
    (Some (VStr "pong"), Some (VStr "wait-for"), Some (VStr "req-1"));
    (Some (VStr "pong"), Some (VStr "wait-for"), None); (Some (VStr "pong"), Some (VStr "wait-for"), None)].
Proof. reflexivity. Qed.

(** The same of a version 2 WaitFor, whose publication is made by the function it is given. *)
Theorem C101_awaited {D E} show decode (id_of : D -> string) (err_text : E -> string) ver s mws c addr refused pub d ins k :
  Forall (keeps k) mws ->
  Forall (fun o => told show ver (provider s) c addr addr None (Some (id_of d)) ins k o /\ match o with OPublish _ _ _ => False | _ => True end)
    (wait_for show decode id_of err_text ver s mws c addr refused pub d ins).
Proof. apply wait_for_told. Qed.
Example C101_awaited_ex :
  map (fun o => value (ctx_of o) KCorrelation)
    (wait_for e_show e_decode e_id (fun e => e) "1.0.0" User [tracing] Background "pong" None None (mkEm "req-1" "ping")
       [IMessage (mkBmsg None None); IMessage raw1]) =
  [None; None; None; Some (VStr "req-1"); Some (VStr "req-1"); None; None].
Proof. reflexivity. Qed.

(** * The logging middleware *)

(** It writes one line for every message published or received, ... *)
Theorem C101_logging {D E} show decode encode (id_of : D -> string) set_id (err_text : E -> string) ver s mws
        c addr declared reply_of no_id fresh published d fn raw i c' m :
  Forall (keeps KDirection) mws ->
  (OMiddleware i c' m ∈ fst (send show encode id_of set_id err_text ver s mws c addr declared reply_of no_id fresh published d) ->
   logging_lines c' = ["Published a message"]) /\
  (OMiddleware i c' m ∈ listen show decode id_of ver s mws addr declared fn raw ->
   logging_lines c' = ["Received a message"]).
Proof.
  intros K. split; intros H.
  - destruct (send_says show encode id_of set_id err_text ver s mws c addr declared reply_of no_id fresh published d KDirection K)
      as [(_ & _ & _ & L)|(d' & _ & L)].
    + rewrite L in H. apply elem_of_list_singleton in H. discriminate H.
    + destruct (encode d') as [m'|e]; [|rewrite L in H; apply elem_of_nil in H as []].
      rewrite Forall_forall in L. specialize (L _ H). unfold says in L. cbn in L.
      unfold logging_lines, if_equals, if_set_with. rewrite L. reflexivity.
  - pose proof (listen_says show decode id_of ver s mws addr declared fn raw KDirection K) as L.
    rewrite Forall_forall in L. specialize (L _ H). unfold says in L. cbn in L.
    unfold logging_lines, if_equals, if_set_with. rewrite L. reflexivity.
Qed.
Example C101_logging_ex :
  map (fun o => match o with OMiddleware _ c _ => logging_lines c | _ => [] end) (sent_ex Background true [logging; tracing] (mkEm "i" "hello")) =
  [["Published a message"]; ["Published a message"]; []].
Proof. reflexivity. Qed.
(** ... but none for the replies a request receives: their direction is neither "publication" nor
    "reception". *)
Theorem C101_logging_replies_refuted {D E} show decode (id_of : D -> string) (err_text : E -> string) ver s mws
        addr expected j i c' m :
  Forall (keeps KDirection) mws ->
  OMiddleware i c' m ∈ fst (wait_next show decode id_of err_text ver s mws addr expected j) ->
  logging_lines c' = [] /\ value c' KDirection <> Some (VStr "publication") /\ value c' KDirection <> Some (VStr "reception").
Proof.
  intros K H. pose proof (wait_says show decode id_of err_text ver s mws addr expected j KDirection K) as L.
  rewrite Forall_forall in L. destruct (L _ H) as (raw & _ & V). unfold says in V. cbn in V.
  split; [|split; rewrite V; discriminate]. unfold logging_lines, if_equals, if_set_with. rewrite V. reflexivity.
Qed.
Example C101_logging_replies_ex : exists c m, OMiddleware 0 c m ∈
  fst (wait_next e_show e_decode e_id (fun e => e) "1.0.0" User [logging] "pong" (Some "req-1") (IMessage raw1)) /\ payload m = Some "ping".
Proof. eexists _, _. split; [apply elem_of_list_here|reflexivity]. Qed.

(** * The version wrapper *)

(** A line of the wrapper's loop tells the message it is about ... *)
Theorem C101_wrapper_message vkey dflt versions ms c locked t c' m :
  (t, c', m) ∈ (wrapper_loop vkey dflt versions c locked ms).1.1 -> m ∈ ms /\ value c' KMessage = Some (VMsg m).
Proof. apply wrapper_loop_message. Qed.
(** ... but not as the text every other party finds under that key: for [IfContextSetWith[string]]
    it is not set, for [IfContextNotSetWith] it is. *)
Theorem C101_wrapper_text_refuted vkey dflt versions ms c locked t c' m :
  (t, c', m) ∈ (wrapper_loop vkey dflt versions c locked ms).1.1 ->
  if_set_with as_string c' KMessage = None /\ if_not_set c' KMessage = false.
Proof.
  intros H. apply wrapper_loop_message in H as [_ V]. unfold if_set_with, if_not_set. rewrite V. split; reflexivity.
Qed.
Definition no_version : bmsg := mkBmsg (Some ∅) (Some "x").
Definition unknown : bmsg := mkBmsg (Some {["v" := "9.9"]}) (Some "y").
Example C101_wrapper_ex :
  map (fun l => l.1.1) (wrapper_loop "v" None ["1.0.0"] Background false [no_version; unknown; no_version]).1.1 =
  ["no version in the message and no default version"; "version is not registered"; "no version in the message and no default version"].
Proof. reflexivity. Qed.
(** The version a line tells may be the one of a former message: this message has none. *)
Theorem C101_wrapper_version_refuted :
  exists t c, (t, c, no_version) ∈ (wrapper_loop "v" None ["1.0.0"] (With Background KVersion (VStr "1.0.0")) false [unknown; no_version]).1.1 /\
  tag_of c = Some "9.9" /\ header no_version "v" = None.
Proof. eexists _, _. split; [apply elem_of_list_further, elem_of_list_here|]. split; reflexivity. Qed.
(** Every message without version makes the context of the loop longer, for ever: the messages are
    all held in memory. *)
Theorem C101_wrapper_memory_refuted vkey versions ms c locked :
  Forall (fun m => header m vkey = None \/ header m vkey = Some "") ms ->
  size (wrapper_loop vkey None versions c locked ms).1.2 = size c + length ms.
Proof. apply wrapper_loop_size. Qed.
Example C101_wrapper_memory_ex : Forall (fun m => header m "v" = None \/ header m "v" = Some "") (replicate 1000 no_version).
Proof. apply Forall_replicate. left. reflexivity. Qed.
(** The broker behind the wrapper is told of a reception also when a request subscribes. *)
Theorem C101_wrapper_direction_refuted {D E} show decode encode (id_of : D -> string) set_id (err_text : E -> string) ver s mws
        c raddr addr refused declared no_id fresh fresh' published d ins :
  exists c1 rest, request show decode encode id_of set_id err_text ver s mws c raddr addr refused declared no_id fresh fresh' published d ins =
    OSubscribe c1 raddr :: rest /\ value c1 KDirection = Some (VStr "wait-for") /\
    value (wrapper_ctx c1 raddr) KDirection = Some (VStr "reception").
Proof. eexists _, _. split; [reflexivity|]. split; reflexivity. Qed.
Example C101_wrapper_direction_ex : match request_ex with OSubscribe c a :: _ => a = "pong" /\ value (wrapper_ctx c a) KVersion = Some (VStr "1.0.0") | _ => False end.
Proof. split; reflexivity. Qed.

Print Assumptions C101_published.
Print Assumptions C101_published_only_refuted.
Print Assumptions C101_text.
Print Assumptions C101_text_refuted.
Print Assumptions C101_tag.
Print Assumptions C101_received.
Print Assumptions C101_received_id_refuted.
Print Assumptions C101_subscribed.
Print Assumptions C101_subscribed_only_refuted.
Print Assumptions C101_requested.
Print Assumptions C101_awaited.
Print Assumptions C101_logging.
Print Assumptions C101_logging_replies_refuted.
Print Assumptions C101_wrapper_message.
Print Assumptions C101_wrapper_text_refuted.
Print Assumptions C101_wrapper_version_refuted.
Print Assumptions C101_wrapper_memory_refuted.
Print Assumptions C101_wrapper_direction_refuted.
