(** C105: the text of a broker message, and the end of reception. *)
From stdpp Require Import list strings.
From Coq Require Import NArith.
From Verif.Model Require Import Additional BrokerMessage Show.
From Verif.Spec Require Import JsonSpec ShowSpec.
From Verif.Proof Require Import ShowProof.
Local Open Scope N_scope.
Local Open Scope list_scope.

Definition go (s : string) : gostring := map Rune (txt s).
Lemma go_real s : real (go s).
Proof.
  unfold real, go, txt. rewrite map_map. apply Forall_fmap, Forall_forall. intros a _. cbn. pose proof (Ascii.N_ascii_bounded a). unfold surrogate. split; lia.
Qed.

Lemma runes_inj (a b : text) : map Rune a = map Rune b -> a = b.
Proof. revert b. induction a as [|x a IH]; intros [|y b] E; try discriminate; [done|]. injection E as -> E. by rewrite (IH b E). Qed.

(** ** The text *)
(** Whatever the orders in which the headers are gone through, from the text of a message its headers and its payload are known: messages with the
    same text have the same headers and the same payload. *)
Theorem C105_tells printable h h' l l' p p' :
  Forall real_entry h -> Forall real_entry h' -> l ≡ₚ h -> l' ≡ₚ h' ->
  show printable l p = show printable l' p' -> h ≡ₚ h' /\ p = p'.
Proof.
  intros R R' P P' E. apply show_inj in E as [-> ->]; [|by rewrite P|by rewrite P']. split; [|done]. by rewrite <- P.
Qed.
Print Assumptions C105_tells.
(** Quotes, separators and bytes that are not UTF-8 do not confuse it. *)
Example C105_tells_ex :
  show (fun _ => true) [(go "a", [Rune 34; BadByte 200]); (go "b", go "2")] (go "{}") = go "{""headers"":{""a"":""\""\xc8"",""b"":""2""},""payload"":{}}" /\
  show (fun _ => true) [(go "a", go """,""b"":""2")] (go "{}") = go "{""headers"":{""a"":""\"",\""b\"":\""2""},""payload"":{}}" /\
  Forall real_entry [(go "a", [Rune 34; BadByte 200]); (go "b", go "2")].
Proof.
  split; [vm_compute; reflexivity|]. split; [vm_compute; reflexivity|].
  apply Forall_cons_2; [split; [apply go_real|]|apply Forall_cons_2; [split; apply go_real|apply Forall_nil_2]].
  cbn [snd]. apply Forall_cons_2; [cbn; unfold surrogate; lia|apply Forall_cons_2; [cbn; lia|apply Forall_nil_2]].
Qed.

(** Refuted: one message, one text. *)
Theorem C105_one_text_refuted : exists h l l' p, forall printable,
  Forall real_entry h /\ NoDup (map fst h) /\ l ≡ₚ h /\ l' ≡ₚ h /\ show printable l p <> show printable l' p.
Proof.
  exists [(go "a", []); (go "b", [])], [(go "a", []); (go "b", [])], [(go "b", []); (go "a", [])], []. intros printable.
  split; [|split; [|split; [done|split; [apply Permutation_swap|vm_compute; discriminate]]]].
  - apply Forall_cons_2; [|apply Forall_cons_2; [|apply Forall_nil_2]]; (split; [apply go_real|apply Forall_nil_2]).
  - cbn. apply NoDup_cons. split; [|apply NoDup_singleton]. rewrite elem_of_list_singleton. vm_compute. discriminate.
Qed.
Print Assumptions C105_one_text_refuted.

(** Nor does the text tell whether headers and payload are there and empty, or not there; the generated code makes a difference. *)
Definition entries_of (h : option (list (gostring * gostring))) : list (gostring * gostring) := default [] h.
Theorem C105_nil_refuted : exists h h' : option (list (gostring * gostring)), exists p p' : option gostring, forall printable,
  (h, p) <> (h', p') /\ show printable (entries_of h) (default [] p) = show printable (entries_of h') (default [] p').
Proof. exists None, (Some []), None, (Some []). intros printable. split; [discriminate|reflexivity]. Qed.
Print Assumptions C105_nil_refuted.

(** ** JSON *)
(** The text looks like JSON. When the payload is JSON, it is exactly if %q writes all headers as JSON; it is then an object with the headers, if
    there are any, and the payload. *)
Theorem C105_json printable hs p v :
  Forall real_entry hs -> jval p v ->
  ((exists t j, show printable hs (map Rune p) = map Rune t /\ jval t j) <-> Forall (clean_entry printable) hs) /\
  (Forall (clean_entry printable) hs -> exists t, show printable hs (map Rune p) = map Rune t /\ jval t (value_of hs v)).
Proof.
  intros R J. rewrite show_json_text.
  assert (V : Forall (clean_entry printable) hs -> jval (json_text printable hs p) (value_of hs v)) by (intros C; by apply show_valid).
  split; [|eauto]. split; [|eauto 10]. intros (t & j & E & H). apply runes_inj in E as <-. exact (show_only printable hs p v j R J H).
Qed.
Print Assumptions C105_json.
Example C105_json_ex : forall printable,
  Forall real_entry [(go "a", go "1")] /\ Forall (clean_entry printable) [(go "a", go "1")] /\ jval (txt "null") JNull /\
  value_of [(go "a", go "1")] JNull = JObj [(txt "headers", JObj [(txt "a", JStr (txt "1"))]); (txt "payload", JNull)].
Proof.
  intros printable. split; [|split; [|split; [apply jv_null|reflexivity]]]; (apply Forall_cons_2; [|apply Forall_nil_2]).
  - split; apply go_real.
  - split; (apply Forall_cons_2; [|apply Forall_nil_2]); (split; [left; split; discriminate|intros A; destruct (A eq_refl)]).
Qed.
(** Refuted: the text of a message whose payload is a text is JSON. *)
Theorem C105_json_refuted : exists p, forall printable,
  real p /\ ~ exists t j, show printable [] p = map Rune t /\ jval t j.
Proof.
  exists (go "it's"). intros printable. split.
  - apply go_real.
  - intros (t & j & E & H). change (map Rune (txt "{""payload"":it's}") = map Rune t) in E. apply runes_inj in E as <-.
    apply AdditionalProof.jval_passes in H. vm_compute in H. discriminate.
Qed.
Print Assumptions C105_json_refuted.

(** ** The end of reception *)
(** The message that is called uninitialised is the zero value and no other. *)
Theorem C105_uninitialized m : is_uninitialized m = true <-> headers m = None /\ payload m = None.
Proof. rewrite uninitialized_zero. destruct m. cbn. split; [by intros [= -> ->]|by intros [-> ->]]. Qed.
Print Assumptions C105_uninitialized.
(** A subscriber stops exactly when the channel is closed and empty; a message that has arrived is never taken for the end, not even one with neither
    headers nor payload. *)
Theorem C105_stops c m open c' :
  receive c = Some (m, open, c') ->
  (stops m open = true <-> buffer c = [] /\ closed c = true) /\ (stops m open = false -> buffer c = m :: buffer c' /\ closed c' = closed c).
Proof.
  unfold receive. destruct (buffer c) as [|x r] eqn:B.
  - destruct (closed c) eqn:C; [|discriminate]. intros [= <- <- <-]. cbn. split; [tauto|discriminate].
  - intros [= <- <- <-]. cbn. split; [|done]. split; [discriminate|]. intros [[=] _].
Qed.
Print Assumptions C105_stops.
(** All messages that are in the channel when it is closed are handled, in order, then it stops; with an open channel it handles what has arrived
    and waits. *)
Theorem C105_drained ms n :
  turns (List.length ms + S n)%nat (mkChan ms true) = (ms, true) /\ turns n (mkChan ms false) = (take n ms, false).
Proof. split; [apply turns_drain|apply turns_open]. Qed.
Print Assumptions C105_drained.
Example C105_stops_ex : turns 4 (mkChan [mkBmsg None None; mkBmsg None (Some "x")] true) = ([mkBmsg None None; mkBmsg None (Some "x")], true).
Proof. reflexivity. Qed.
