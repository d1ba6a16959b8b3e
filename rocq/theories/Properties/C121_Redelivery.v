(** C121: restarts of Kafka subscribers. *)
From Coq Require Import List Arith.
From Verif.Model Require Import Ack Middleware Listener Kafka Redelivery.
From Verif.Spec Require Import MiddlewareSpec ListenerSpec.
From Verif.Proof Require Import ListenerProof RedeliveryProof.
Import ListNotations.

(** The full statement: with a group, after any number of restarts, every message in front of the place where the next subscriber starts has
    been settled, and no message that was acknowledged is handled again. *)

(** With manual commits and middlewares that pass failures on nothing is skipped, panics and untimely ends included … *)
Theorem C121_nothing_skipped {C M E D} (decode : M -> D + E) addctx (fn : C -> D -> result E) handler uninit zero msg_ctx
    (mws : list (middleware C M E)) topic nks hs off :
  uninit zero = true -> (forall mw, In mw mws -> forall c, passes_on false (mw c)) ->
  sessions decode addctx fn handler uninit zero msg_ctx mws topic KManual 0 nks = (hs, off) ->
  forall j, j < off -> exists h x, In h hs /\ In (j, x) h /\ length (filter is_told (llog x)) = 1.
Proof.
  intros Hz Hm H j Hj. destruct (sessions_manual decode addctx fn handler uninit zero msg_ctx mws topic Hz Hm nks 0 hs off H) as [_ Ha].
  exact (Ha j (conj (Nat.le_0_l j) Hj)).
Qed.
Print Assumptions C121_nothing_skipped.

(** … and the next subscriber starts exactly behind the settled messages: those of a session are handled in the order of the topic, and the
    ones in front of the new place are those that were settled. *)
Theorem C121_resumes_exact {C M E D} (decode : M -> D + E) addctx (fn : C -> D -> result E) handler uninit zero msg_ctx
    (mws : list (middleware C M E)) topic off n k h off' :
  uninit zero = true -> (forall mw, In mw mws -> forall c, passes_on false (mw c)) ->
  session decode addctx fn handler uninit zero msg_ctx mws topic KManual off (n, k) = (h, off') ->
  map fst h = seq off (length h) /\ off <= off' <= off + length h /\
  forall j x, In (j, x) h ->
    (j < off' <-> length (filter is_told (llog x)) = 1) /\ (length (filter is_told (llog x)) = 0 \/ length (filter is_told (llog x)) = 1).
Proof. intros Hz Hm. exact (session_manual decode addctx fn handler uninit zero msg_ctx mws topic Hz Hm off n k h off'). Qed.
Print Assumptions C121_resumes_exact.

(** A message whose handling ends the program before it is settled is never passed, however often the program is started again. *)
Theorem C121_poison {C M E D} (decode : M -> D + E) addctx (fn : C -> D -> result E) handler uninit zero msg_ctx
    (mws : list (middleware C M E)) topic nks hs off p m :
  uninit zero = true -> (forall mw, In mw mws -> forall c, passes_on false (mw c)) ->
  nth_error topic p = Some m ->
  snd (process decode addctx fn handler mws (msg_ctx m) m) = true ->
  filter is_told (llog (fst (fst (process decode addctx fn handler mws (msg_ctx m) m)))) = [] ->
  sessions decode addctx fn handler uninit zero msg_ctx mws topic KManual 0 nks = (hs, off) -> off <= p.
Proof.
  intros Hz Hm Hp Hpan Hno H.
  refine (sessions_poison decode addctx fn handler uninit zero msg_ctx mws topic Hz Hm nks p m Hp Hpan _ 0 hs off (Nat.le_0_l p) H).
  rewrite told_commits_told, Hno. reflexivity.
Qed.
Print Assumptions C121_poison.

(** With automatic commits, whatever the middlewares do, no message is handled twice; the next subscriber starts behind everything that was
    read. *)
Theorem C121_auto_exact {C M E D} (decode : M -> D + E) addctx (fn : C -> D -> result E) handler uninit zero msg_ctx
    (mws : list (middleware C M E)) topic off n k nks h off' hs off'' :
  uninit zero = true ->
  session decode addctx fn handler uninit zero msg_ctx mws topic KAuto off (n, k) = (h, off') ->
  sessions decode addctx fn handler uninit zero msg_ctx mws topic KAuto off' nks = (hs, off'') ->
  off' = off + Nat.min n (length topic - off) /\ NoDup (map fst (concat (h :: hs))) /\
  forall j x, In (j, x) (concat hs) -> off' <= j.
Proof.
  intros Hz H1 H2. destruct (session_auto decode addctx fn handler uninit zero msg_ctx mws topic Hz off n k h off' H1) as (_ & _ & Ho).
  destruct (sessions_auto decode addctx fn handler uninit zero msg_ctx mws topic Hz nks off' hs off'' H2) as (_ & _ & Hj).
  assert (H : sessions decode addctx fn handler uninit zero msg_ctx mws topic KAuto off ((n, k) :: nks) = (h :: hs, off'')).
  { cbn [sessions]. rewrite H1, H2. reflexivity. }
  destruct (sessions_auto decode addctx fn handler uninit zero msg_ctx mws topic Hz ((n, k) :: nks) off (h :: hs) off'' H) as (_ & Hn & _).
  split; [exact Ho|]. split; [exact Hn|]. intros j x Hin. apply (Hj j x Hin).
Qed.
Print Assumptions C121_auto_exact.

(** Without a group, which is the default, every subscriber starts with the first message of the topic again, whatever was settled. *)
Theorem C121_replayed {C M E D} (decode : M -> D + E) addctx (fn : C -> D -> result E) handler uninit zero msg_ctx
    (mws : list (middleware C M E)) topic nks hs off h :
  sessions decode addctx fn handler uninit zero msg_ctx mws topic KNoGroup 0 nks = (hs, off) ->
  In h hs -> map fst h = seq 0 (length h).
Proof.
  revert hs off h. generalize 0 at 1. induction nks as [|[n k] nks IH]; intros o hs off h H Hin; cbn [sessions] in H; [injection H as <- <-; destruct Hin|].
  destruct (session decode addctx fn handler uninit zero msg_ctx mws topic KNoGroup o (n, k)) as [h1 o1] eqn:H1.
  destruct (sessions decode addctx fn handler uninit zero msg_ctx mws topic KNoGroup o1 nks) as [hs' o2] eqn:H2. injection H as <- <-.
  destruct Hin as [->|Hin]; [|exact (IH o1 hs' o2 h H2 Hin)]. unfold session in H1. injection H1 as <- _.
  rewrite combine_fst, combine_length, seq_length, Nat.min_id. reflexivity.
Qed.
Print Assumptions C121_replayed.

Definition demo_uninit (m : nat) : bool := Nat.eqb m 0.
Definition demo_run (mws : list (middleware nat nat nat)) (topic : list nat) (mode : kmode) nks :=
  sessions (D:=nat) (@inl nat nat) (fun _ c => c) (fun _ d => if Nat.eqb d 13 then RPanic else if Nat.eqb d 7 then ROk (Some 1) else ROk None)
    (fun _ => ([], false)) demo_uninit 0 (fun _ => 0) mws topic mode 0 nks.

(** With the recovering middleware of the library a message that was never settled is skipped by the commit of the next one. *)
Theorem C121_skipped_refuted :
  exists topic nks, let '(hs, off) := demo_run [recovery] topic KManual nks in
  exists j, j < off /\ forall h x, In h hs -> In (j, x) h -> filter is_told (llog x) = [].
Proof.
  exists [13; 5], [(2, 2); (0, 0)]. vm_compute demo_run. cbv beta iota. exists 0. split; [repeat constructor|].
  intros h x [<-|[<-|[]]] Hin; cbn in Hin; [|destruct Hin]. destruct Hin as [[= <-]|[[=]|[]]]. reflexivity.
Qed.
Print Assumptions C121_skipped_refuted.

(** With automatic commits messages that were read but not handled are lost. *)
Theorem C121_lost_refuted :
  exists topic nks, let '(hs, off) := demo_run [] topic KAuto nks in
  exists j, j < off /\ off = length topic /\ ~ In j (map fst (concat hs)).
Proof.
  exists [1; 2; 3], [(3, 1); (5, 5)]. vm_compute demo_run. cbv beta iota. exists 2. split; [repeat constructor|]. split; [reflexivity|].
  intros [A|[]]. discriminate A.
Qed.
Print Assumptions C121_lost_refuted.

(** Without a group an acknowledged message is handled again. *)
Theorem C121_no_group_refuted :
  exists topic nks, let '(hs, off) := demo_run [] topic KNoGroup nks in
  exists j h1 h2 x, hs = [h1; h2] /\ In (j, x) h1 /\ filter is_told (llog x) = [LTold SAck] /\ In j (map fst h2).
Proof.
  exists [1], [(1, 1); (1, 1)]. vm_compute demo_run. cbv beta iota. do 4 eexists. split; [reflexivity|]. split; [left; reflexivity|].
  split; [reflexivity|left; reflexivity].
Qed.
Print Assumptions C121_no_group_refuted.

(** A message that the callback refused is not given again either. *)
Theorem C121_refused_refuted :
  exists topic nks, let '(hs, off) := demo_run [] topic KManual nks in
  exists j h x, In h hs /\ In (j, x) h /\ filter is_told (llog x) = [LTold SNak] /\ j < off.
Proof.
  exists [7], [(1, 1)]. vm_compute demo_run. cbv beta iota. do 3 eexists. split; [left; reflexivity|]. split; [left; reflexivity|].
  split; [reflexivity|repeat constructor].
Qed.
Print Assumptions C121_refused_refuted.

(** Three messages, the last of which panics: the program is stopped after the first one, then it ends with the last one every time. *)
Example C121_example :
  let '(hs, off) := demo_run [logging] [1; 7; 13; 2] KManual [(3, 1); (4, 4); (4, 4)] in
  off = 2 /\ map (map fst) hs = [[0]; [1; 2]; [2]] /\
  map (map (fun p => filter is_told (llog (snd p)))) hs = [[[LTold SAck]]; [[LTold SNak]; []]; [[]]].
Proof. vm_compute. repeat split; reflexivity. Qed.
Example C121_poison_example :
  let r := process (D:=nat) (@inl nat nat) (fun _ c => c) (fun _ d => if Nat.eqb d 13 then RPanic else ROk None) (fun _ => ([], false))
    [logging] 0 13 in
  snd r = true /\ filter is_told (llog (fst (fst r))) = [] /\ (forall mw, In mw [@logging nat nat nat] -> forall c, passes_on false (mw c)).
Proof. split; [reflexivity|]. split; [reflexivity|]. intros mw [<-|[]] c; cbn; auto; intros [[e|]|]; cbn; auto. Qed.
Example C121_auto_example :
  let '(hs, off) := demo_run [recovery] [1; 7; 13; 2] KAuto [(2, 1); (4, 4)] in
  off = 4 /\ map (map fst) hs = [[0]; [2; 3]].
Proof. vm_compute. split; reflexivity. Qed.
Example C121_no_group_example :
  let '(hs, off) := demo_run [] [1; 2] KNoGroup [(2, 2); (1, 1)] in off = 0 /\ map (map fst) hs = [[0; 1]; [0]].
Proof. vm_compute. split; reflexivity. Qed.
