(** C119: the goroutine that listens to a subscription. *)
From Coq Require Import List String.
From Verif.Model Require Import Ack Middleware BrokerMessage Listener.
From Verif.Spec Require Import MiddlewareSpec ListenerSpec.
From Verif.Proof Require Import ListenerProof.
Import ListNotations.

(** Whatever is in the channel of the subscription, empty messages included: each message is handled in order as if it were alone, and the
    goroutine ends exactly when the channel is closed and all were handled; a panic in the handling of a message, and nothing else, keeps the
    rest from being handled. *)
Theorem C119_in_order {C M E D} (decode : M -> D + E) addctx (fn : C -> D -> result E) handler uninit zero msg_ctx
    (mws : list (middleware C M E)) q closed rs e :
  uninit zero = true ->
  listen_all decode addctx fn handler uninit zero msg_ctx mws q closed = (rs, e) ->
  exists rest, handled (fun m => process decode addctx fn handler mws (msg_ctx m) m) q rs rest /\
    e = match rest with Some _ => LCrashed | None => if closed then LStopped else LWaiting end.
Proof. intros H. exact (listen_all_handled decode addctx fn handler uninit zero msg_ctx H mws q closed rs e). Qed.
Print Assumptions C119_in_order.

(** Without panic there is one result for each message, wherever the message stands. *)
Theorem C119_every_message {C M E D} (decode : M -> D + E) addctx (fn : C -> D -> result E) handler uninit zero msg_ctx
    (mws : list (middleware C M E)) q closed :
  uninit zero = true ->
  (forall m, In m q -> snd (process decode addctx fn handler mws (msg_ctx m) m) = false) ->
  listen_all decode addctx fn handler uninit zero msg_ctx mws q closed =
  (map (fun m => fst (process decode addctx fn handler mws (msg_ctx m) m)) q, if closed then LStopped else LWaiting).
Proof.
  intros Hz Hp. induction q as [|m q IH]; cbn.
  - unfold listen_next. rewrite Hz. destruct closed; reflexivity.
  - rewrite IH by (intros m' Hm'; apply Hp; right; exact Hm'). specialize (Hp m (or_introl eq_refl)).
    destruct (process decode addctx fn handler mws (msg_ctx m) m) as [[x tr] pan]. cbn in Hp. rewrite Hp. reflexivity.
Qed.
Print Assumptions C119_every_message.

(** With middlewares that pass failures on, every message of a subscription that was listened to until its end is settled exactly once. *)
Theorem C119_settled {C M E D} (decode : M -> D + E) addctx (fn : C -> D -> result E) handler uninit zero msg_ctx
    (mws : list (middleware C M E)) q rs :
  uninit zero = true -> (forall mw, In mw mws -> forall c, passes_on false (mw c)) ->
  listen_all decode addctx fn handler uninit zero msg_ctx mws q true = (rs, LStopped) ->
  List.length rs = List.length q /\ Forall (fun r => List.length (filter is_told (llog (fst r))) = 1) rs.
Proof.
  intros Hz Hm H. destruct (listen_all_handled decode addctx fn handler uninit zero msg_ctx Hz mws q true rs LStopped H) as (rest & Hh & He).
  apply (handled_settled decode addctx fn handler msg_ctx mws q rs rest Hm Hh). destruct rest; [discriminate|reflexivity].
Qed.
Print Assumptions C119_settled.

(** Messages without headers and payload, one that the callback refuses, and one that does not decode. *)
Example C119_example :
  let text s := mkBmsg None (Some s) in
  let decode m := match payload m with Some "?"%string => inr 7 | Some s => inl s | None => inl ""%string end in
  let fn (_ : nat) s := if String.eqb s "no" then ROk (Some 3) else ROk None in
  let q := [text "a"; mkBmsg None None; text "no"; text "?"; text "b"]%string in
  let '(rs, e) := listen_all decode (fun _ c => c) fn (fun _ => ([], false)) is_uninitialized (mkBmsg None None) (fun _ => 0) [] q true in
  map (fun r => llog (fst r)) rs =
    [[LCallback 0 "a"; LTold SAck]; [LCallback 0 ""; LTold SAck]; [LCallback 0 "no"; LHandler 3; LTold SNak]; [LHandler 7; LTold SNak];
     [LCallback 0 "b"; LTold SAck]]%string /\ e = LStopped.
Proof. vm_compute. split; reflexivity. Qed.

(** A callback that panics takes the messages behind it along. *)
Example C119_panic :
  let fn (_ : nat) (s : string) := if String.eqb s "no" then RPanic else ROk (@None nat) in
  let '(rs, e) := listen_all (@inl string nat) (fun _ c => c) fn (fun _ => ([], false)) (String.eqb "") ""%string (fun _ => 0) []
    ["a"; "no"; "b"]%string true in
  map (fun r => llog (fst r)) rs = [[LCallback 0 "a"; LTold SAck]; [LCallback 0 "no"]]%string /\ e = LCrashed.
Proof. vm_compute. split; reflexivity. Qed.
