From Coq Require Import List Arith Lia.
From Verif.Model Require Import Ack Middleware Listener.
From Verif.Spec Require Import MiddlewareSpec ListenerSpec.
From Verif.Proof Require Import AckProof MiddlewareProof.
Import ListNotations.

Section P.
  Context {C M E D : Type}.
  Implicit Types x : lst C E D.

  Lemma settle_x_not x k :
    acked (lack x) = false ->
    settle_x x k = mkLst (mkAck true (told (lack x) ++ [k])) (llog x ++ [LTold k]).
  Proof.
    intros H. unfold settle_x. rewrite do_settle_eq, H. cbn.
    rewrite skipn_app, skipn_all, Nat.sub_diag. reflexivity.
  Qed.

  Lemma settle_x_acked x k : acked (lack x) = true -> settle_x x k = x.
  Proof.
    intros H. unfold settle_x. rewrite do_settle_eq, H. cbn.
    rewrite skipn_all. cbn. rewrite app_nil_r. destruct x; reflexivity.
  Qed.

  Lemma settles_x_acked ks x : acked (lack x) = true -> fold_left (settle_x (C:=C)) ks x = x.
  Proof.
    revert x; induction ks as [|k ks IH]; intros x H; cbn; [reflexivity|].
    rewrite settle_x_acked by assumption. apply IH, H.
  Qed.

  (** Number of settlements in the log is 1 if acked and 0 otherwise. *)
  Definition linv x : Prop :=
    length (filter is_told (llog x)) = if acked (lack x) then 1 else 0.

  Lemma linv_settle x k : linv x -> linv (settle_x x k).
  Proof.
    unfold linv. intros H. destruct (acked (lack x)) eqn:Ha.
    - rewrite settle_x_acked by assumption. rewrite Ha. exact H.
    - rewrite settle_x_not by assumption. cbn. rewrite filter_app, app_length, H. reflexivity.
  Qed.

  Lemma linv_settles ks x : linv x -> linv (fold_left (settle_x (C:=C)) ks x).
  Proof.
    revert x; induction ks as [|k ks IH]; intros x H; cbn; [assumption|].
    apply IH, linv_settle, H.
  Qed.

  Lemma linv_log ev x : is_told ev = false -> linv x -> linv (log1 ev x).
  Proof.
    unfold linv, log1. cbn. intros H1 H2. rewrite filter_app. cbn. rewrite H1, app_nil_r. exact H2.
  Qed.

  Lemma linv_callback (decode : M -> D + E) addctx fn c m x :
    linv x -> linv (snd (fst (op_callback decode addctx fn c m x))).
  Proof.
    intros H. unfold op_callback. destruct (decode m) as [d|e]; [|exact H].
    destruct (fn (addctx d c) d) as [[e|]|]; cbn.
    - apply linv_log; [reflexivity|exact H].
    - apply linv_settle, linv_log; [reflexivity|exact H].
    - apply linv_log; [reflexivity|exact H].
  Qed.

  (** An invariant of the external state is preserved by a chain if the operation preserves it. *)
  Lemma wrap_ext_inv {X} (P : X -> Prop) (op : operation C M E X) mws :
    (forall c m (x : X), P x -> P (snd (fst (op c m x)))) ->
    forall lvl c (s : mst C M X), P (ext s) -> P (ext (fst (wrap lvl mws (Some op) c s))).
  Proof.
    intros Hop. induction mws as [|mw rest IH]; intros lvl c s Hs; cbn [wrap].
    - destruct (nth lvl (called s) false); [exact Hs|]. cbn.
      specialize (Hop c (msg s) (ext s) Hs). destruct (op c (msg s) (ext s)) as [[m' x'] r].
      exact Hop.
    - destruct (nth lvl (called s) false); [exact Hs|].
      pose proof (run_mw_inv (fun s => P (ext s)) (wrap (S lvl) rest (Some op)) (mw c)
                    (emit (EStart lvl c (msg s)) (mark lvl s)) (IH (S lvl))
                    (fun m s H => H) Hs) as Hr.
      destruct (run_mw _ (mw c) _) as [s2 r]. cbn [fst] in Hr.
      destruct r as [[e|]|]; [exact Hr|apply IH, Hr|exact Hr].
  Qed.

  Lemma execute_ext_inv {X} (P : X -> Prop) (op : operation C M E X) mws c m (x : X) :
    (forall c m (x : X), P x -> P (snd (fst (op c m x)))) -> P x ->
    P (ext (fst (execute mws (Some op) c m x))).
  Proof. intros H1 H2. unfold execute. apply (wrap_ext_inv P op mws H1). exact H2. Qed.

  Lemma process_linv (decode : M -> D + E) addctx fn handler (mws : list (middleware C M E)) c m :
    linv (fst (fst (process decode addctx fn handler mws c m))).
  Proof.
    unfold process.
    pose proof (execute_ext_inv linv (op_callback decode addctx fn) mws c m (mkLst ack_new [])
                  (linv_callback decode addctx fn) eq_refl) as H.
    destruct (execute mws _ c m _) as [s r]. cbn [fst] in H.
    destruct r as [[e|]|]; cbn; try exact H.
    destruct (handler e) as [ks pan].
    assert (linv (fold_left (settle_x (C:=C)) ks (log1 (LHandler e) (ext s)))) as H1
      by (apply linv_settles, linv_log; [reflexivity|exact H]).
    destruct pan; cbn; [exact H1|apply linv_settle, H1].
  Qed.

  Lemma process_at_most_once (decode : M -> D + E) addctx fn handler (mws : list (middleware C M E)) c m :
    length (filter is_told (llog (fst (fst (process decode addctx fn handler mws c m))))) <= 1.
  Proof.
    pose proof (process_linv decode addctx fn handler mws c m) as H. unfold linv in H.
    rewrite H. destruct (acked _); lia.
  Qed.

  (** No handler event comes from the chain itself. *)
  Lemma callback_no_handler (decode : M -> D + E) addctx fn c m x :
    filter is_handler (llog x) = [] ->
    filter is_handler (llog (snd (fst (op_callback decode addctx fn c m x)))) = [].
  Proof.
    intros H. unfold op_callback. destruct (decode m) as [d|e]; [|exact H].
    assert (filter is_handler (llog (log1 (LCallback (addctx d c) d) x)) = []) as H1.
    { unfold log1; cbn. rewrite filter_app, H. reflexivity. }
    destruct (fn (addctx d c) d) as [[e|]|]; cbn [fst snd]; try exact H1.
    destruct (acked (lack (log1 (LCallback (addctx d c) d) x))) eqn:Ha.
    - rewrite settle_x_acked by assumption. exact H1.
    - rewrite settle_x_not by assumption. cbn [llog]. rewrite filter_app, H1. reflexivity.
  Qed.

  Lemma process_handler_settled (decode : M -> D + E) addctx fn handler (mws : list (middleware C M E)) c m x tr :
    process decode addctx fn handler mws c m = (x, tr, false) ->
    filter is_handler (llog x) <> [] ->
    length (filter is_told (llog x)) = 1.
  Proof.
    intros Hp Hh.
    pose proof (process_linv decode addctx fn handler mws c m) as Hi.
    rewrite Hp in Hi. cbn in Hi. unfold linv in Hi. rewrite Hi. clear Hi.
    unfold process in Hp.
    pose proof (execute_ext_inv (fun x => filter is_handler (llog x) = [])
                  (op_callback decode addctx fn) mws c m (mkLst ack_new [])
                  (callback_no_handler decode addctx fn) eq_refl) as H. cbn beta in H.
    destruct (execute mws _ c m _) as [s r]. cbn [fst] in H.
    destruct r as [[e|]|]; cbn in Hp; [|inversion Hp; subst; congruence|discriminate].
    destruct (handler e) as [ks pan]. destruct pan; [discriminate|].
    inversion Hp; subst. set (x1 := fold_left _ ks _).
    destruct (acked (lack x1)) eqn:Ha; [rewrite settle_x_acked, Ha by assumption; reflexivity|].
    rewrite settle_x_not by assumption. reflexivity.
  Qed.

  Lemma settles_hd ks (x : lst C E D) :
    acked (lack x) = false ->
    llog (settle_x (fold_left (settle_x (C:=C)) ks x) SNak) = llog x ++ [LTold (hd SNak ks)].
  Proof.
    intros Ha. destruct ks as [|k ks]; cbn [fold_left hd].
    - rewrite settle_x_not by assumption. reflexivity.
    - rewrite (settle_x_not x k) by assumption.
      rewrite settles_x_acked by reflexivity. rewrite settle_x_acked; reflexivity.
  Qed.

  Lemma process_delegating (decode : M -> D + E) addctx (fn : C -> D -> option E)
        (own : E -> list settle) mws c m :
    (forall mw, In mw mws -> forall c, delegates (C:=C) (M:=M) (E:=E) (mw c)) ->
    let '(x, tr, pan) :=
      process decode addctx (fun c d => ROk (fn c d)) (fun e => (own e, false)) mws c m in
    pan = false /\
    exists c' m' tr0,
      tr = tr0 ++ [EOp c' m'] /\ map stage tr0 = map Some (seq 0 (length mws)) /\
      llog x = expected (decode m') (fun d => addctx d c') fn own.
  Proof.
    intros Hd. unfold process.
    destruct (execute_delegates (op_callback decode addctx (fun c d => ROk (fn c d))) mws c m
                (mkLst ack_new []) Hd) as (c' & m' & Hr & Hx & tr0 & Ht & Hs).
    destruct (execute mws _ c m _) as [s r]. cbn [fst snd] in *.
    unfold op_callback in Hr, Hx.
    destruct (decode m') as [d|e] eqn:Hdec.
    - destruct (fn (addctx d c') d) as [e|] eqn:Hfn; cbn in Hr, Hx; subst r.
      + split; [reflexivity|]. exists c', m', tr0. split; [exact Ht|]. split; [exact Hs|].
        cbn [llog fst]. rewrite settles_hd by (cbn; rewrite Hx; reflexivity).
        unfold expected. rewrite Hdec, Hfn. cbn. rewrite Hx. reflexivity.
      + split; [reflexivity|]. exists c', m', tr0. split; [exact Ht|]. split; [exact Hs|].
        unfold expected. rewrite Hdec, Hfn, Hx. reflexivity.
    - cbn in Hr, Hx; subst r. split; [reflexivity|].
      exists c', m', tr0. split; [exact Ht|]. split; [exact Hs|].
      rewrite settles_hd by (cbn; rewrite Hx; reflexivity).
      unfold expected. rewrite Hdec. cbn. rewrite Hx. reflexivity.
  Qed.

  Lemma process_refused (decode : M -> D + E) addctx fn (own : E -> list settle)
        pre bad post e c m :
    (forall mw, In mw pre -> forall c, delegates (C:=C) (M:=M) (E:=E) (mw c)) ->
    (forall c, refuses (C:=C) (M:=M) (E:=E) e (bad c)) ->
    let '(x, tr, pan) :=
      process decode addctx fn (fun e => (own e, false)) (pre ++ bad :: post) c m in
    pan = false /\ llog x = [LHandler e; LTold (hd SNak (own e))] /\
    map stage tr = map Some (seq 0 (S (length pre))).
  Proof.
    intros Hd Hb. unfold process.
    pose proof (execute_refused_result (Some (op_callback decode addctx fn)) pre bad post e c m
                  (mkLst ack_new []) Hd Hb) as H.
    destruct (execute _ _ c m _) as [s r]. destruct H as (-> & Hx & Ht).
    cbn [fst]. split; [reflexivity|]. split; [|exact Ht].
    rewrite settles_hd by (cbn; rewrite Hx; reflexivity). cbn. rewrite Hx. reflexivity.
  Qed.
  Lemma process_passes (decode : M -> D + E) addctx fn handler (mws : list (middleware C M E)) c m x tr :
    (forall mw, In mw mws -> forall c, passes_on (C:=C) (M:=M) (E:=E) false (mw c)) ->
    process decode addctx fn handler mws c m = (x, tr, false) ->
    length (filter is_told (llog x)) = 1.
  Proof.
    intros Hp H. pose proof (process_linv decode addctx fn handler mws c m) as Hi. rewrite H in Hi. cbn in Hi. unfold linv in Hi. rewrite Hi. clear Hi.
    unfold process in H. pose proof (execute_passes (op_callback decode addctx fn) mws c m (mkLst ack_new []) Hp) as Hw.
    destruct (execute mws _ c m _) as [s r]. cbn [fst snd] in Hw. destruct r as [[e|]|]; [|clear Hp|discriminate].
    - destruct (handler e) as [ks pan]. destruct pan; [discriminate|]. injection H as <- _.
      set (x1 := fold_left _ ks _). destruct (acked (lack x1)) eqn:Ha; [rewrite settle_x_acked, Ha by assumption; reflexivity|].
      rewrite settle_x_not by assumption. reflexivity.
    - injection H as <- _. destruct (Hw eq_refl) as (c' & m' & Hr & Hx & _). rewrite Hx. unfold op_callback in *.
      destruct (decode m') as [d|e]; [|discriminate]. destruct (fn (addctx d c') d) as [[e|]|]; try discriminate. reflexivity.
  Qed.
End P.

(** * The listening goroutine *)
Section Loop.
  Context {C M E D : Type}.
  Variables (decode : M -> D + E) (addctx : D -> C -> C) (fn : C -> D -> result E) (handler : E -> list settle * bool).
  Variables (uninit : M -> bool) (zero : M) (msg_ctx : M -> C).
  Hypothesis zero_uninit : uninit zero = true.

  Lemma listen_all_handled mws q closed rs e :
    listen_all decode addctx fn handler uninit zero msg_ctx mws q closed = (rs, e) ->
    exists rest, handled (fun m => process decode addctx fn handler mws (msg_ctx m) m) q rs rest /\
      e = match rest with Some _ => LCrashed | None => if closed then LStopped else LWaiting end.
  Proof.
    revert rs e. induction q as [|m q IH]; intros rs e H; cbn in H.
    - exists None. unfold listen_next in H. rewrite zero_uninit in H. cbn in H. destruct closed; injection H as <- <-; split; constructor.
    - destruct (process decode addctx fn handler mws (msg_ctx m) m) as [[x tr] pan] eqn:Hp. destruct pan.
      + injection H as <- <-. exists (Some q). split; [|reflexivity]. apply H_ended, Hp.
      + destruct (listen_all decode addctx fn handler uninit zero msg_ctx mws q closed) as [l e'] eqn:Hl. injection H as <- <-.
        destruct (IH l e' eq_refl) as (rest & Hh & He). exists rest. split; [|exact He]. apply H_one; assumption.
  Qed.

  Lemma handled_settled mws q rs rest :
    (forall mw, In mw mws -> forall c, passes_on false (mw c)) ->
    handled (fun m => process decode addctx fn handler mws (msg_ctx m) m) q rs rest -> rest = None ->
    length rs = length q /\ Forall (fun r => length (filter is_told (llog (fst r))) = 1) rs.
  Proof.
    intros Hm. induction 1 as [|m q [x tr] rs rest H1 H IH|m q r H1]; intros Hr; [split; [reflexivity|constructor]| |discriminate].
    destruct (IH Hr) as [El Ef]. split; [cbn; f_equal; exact El|]. constructor; [|exact Ef].
    exact (process_passes decode addctx fn handler mws (msg_ctx m) m x tr Hm H1).
  Qed.

  Lemma handled_det {R} (one : M -> R * bool) q : forall rs rest rs' rest', handled one q rs rest -> handled one q rs' rest' -> rs = rs' /\ rest = rest'.
  Proof.
    induction q as [|m q IH]; intros rs rest rs' rest' H H'; inversion H; inversion H'; subst; try congruence.
    - split; reflexivity.
    - match goal with H1 : handled one q _ rest, H2 : handled one q _ rest' |- _ => destruct (IH _ _ _ _ H1 H2) as [-> ->] end. split; congruence.
    - split; congruence.
  Qed.
End Loop.
