From Coq Require Import List Arith Lia.
From Verif.Model Require Import Middleware.
From Verif.Spec Require Import MiddlewareSpec.
Import ListNotations.

Section P.
  Context {C M E X : Type}.
  Implicit Types s : mst C M X.
  Implicit Types p : mwprog C M E.

  (** Number of events recorded by levels below. We use a characterisation of reachable states
      of the sub-chain at level [lvl] with [n] middlewares: progress [k] says that levels
      lvl..lvl+k-1 have been started and no other. *)
  Definition flags (total : nat) (j : nat) : list bool :=
    repeat true j ++ repeat false (total - j).

  Lemma nth_flags total j i : j <= total ->
    nth i (flags total j) false = Nat.ltb i j.
  Proof.
    intros Hj; unfold flags.
    destruct (Nat.ltb_spec i j) as [H|H].
    - rewrite app_nth1 by (rewrite repeat_length; lia).
      rewrite nth_indep with (d' := true) by (rewrite repeat_length; lia).
      apply nth_repeat.
    - rewrite app_nth2 by (rewrite repeat_length; lia).
      apply nth_repeat.
  Qed.

  Lemma set_nth_flags total j : j < total ->
    set_nth j (flags total j) = flags total (S j).
  Proof.
    unfold flags. revert total; induction j as [|j IH]; intros total H.
    - destruct total as [|t]; [lia|]. cbn. rewrite Nat.sub_0_r. reflexivity.
    - destruct total as [|t]; [lia|]. cbn [repeat app set_nth Nat.sub].
      rewrite IH by lia. reflexivity.
  Qed.

  (** [j] stages started; the last of the [S n] flags is the operation's. *)
  Definition tr_ok (n j : nat) (tr : list (event C M)) : Prop :=
    (j <= n /\ map stage tr = map Some (seq 0 j)) \/
    (j = S n /\ map stage tr = map Some (seq 0 n) ++ [None]).

  Definition st_ok (n j : nat) s : Prop :=
    called s = flags (S n) j /\ tr_ok n j (trace s).

  Lemma tr_ok_snoc n j tr ev :
    tr_ok n j tr -> j <= n ->
    stage ev = (if Nat.ltb j n then Some j else None) ->
    tr_ok n (S j) (tr ++ [ev]).
  Proof.
    intros [[Hj Ht]|[Hj Ht]] Hle Hev; [|lia].
    destruct (Nat.ltb_spec j n) as [H|H].
    - left. split; [lia|]. rewrite map_app, Ht. cbn [map]. rewrite Hev.
      rewrite seq_S, map_app. reflexivity.
    - right. assert (j = n) by lia. subst j. split; [reflexivity|].
      rewrite map_app, Ht. cbn [map]. rewrite Hev. reflexivity.
  Qed.

  Lemma run_mw_inv (P : mst C M X -> Prop) next p s :
    (forall c s, P s -> P (fst (next c s))) ->
    (forall m s, P s -> P (set_msg m s)) ->
    P s -> P (fst (run_mw (E:=E) next p s)).
  Proof.
    intros Hn Hm; revert s; induction p as [e| |k IH|m k IH|c k IH]; intros s Hs; cbn.
    - exact Hs.
    - exact Hs.
    - apply IH, Hs.
    - apply IH, Hm, Hs.
    - specialize (Hn c s Hs). destruct (next c s) as [s' r]. apply IH, Hn.
  Qed.

  (** Monotone progress: from progress [j >= lvl] we stay at some progress [j' >= j]. *)
  Lemma wrap_progress_strong n (cb : option (operation C M E X)) mws :
    forall lvl c s j,
      lvl + length mws = n -> lvl <= j <= S n -> st_ok n j s ->
      exists j', j <= j' <= S n /\ st_ok n j' (fst (wrap lvl mws cb c s)) /\
        (cb <> None \/ mws <> [] -> S lvl <= j').
  Proof.
    induction mws as [|mw rest IH]; intros lvl c s j Hlen Hj Hs; cbn [wrap].
    - destruct cb as [op|].
      2:{ exists j; cbn; split; [lia|split; [exact Hs|]]. intros [H|H]; congruence. }
      cbn in Hlen. replace lvl with n in * by lia. clear lvl Hlen.
      destruct Hs as [Hc Ht]. rewrite Hc, nth_flags by lia.
      destruct (Nat.ltb_spec n j) as [H|H].
      + exists j; cbn; split; [lia|split; [split; assumption|lia]].
      + assert (j = n) by lia; subst j.
        exists (S n). cbn.
        destruct (op c (msg s) (ext s)) as [[m' x'] r]. cbn.
        split; [lia|]. split; [|lia]. split; cbn.
        * rewrite Hc. apply set_nth_flags; lia.
        * apply tr_ok_snoc; [assumption|lia|].
          rewrite (proj2 (Nat.ltb_ge n n)) by lia. reflexivity.
    - cbn [length] in Hlen. destruct Hs as [Hc Ht].
      rewrite Hc, nth_flags by lia.
      destruct (Nat.ltb_spec lvl j) as [H|H].
      + exists j; cbn; split; [lia|split; [split; assumption|lia]].
      + assert (j = lvl) by lia; subst j.
        set (s1 := emit _ (mark lvl s)).
        assert (st_ok n (S lvl) s1) as Hs1.
        { split; cbn.
          - rewrite Hc. apply set_nth_flags; lia.
          - apply tr_ok_snoc; [assumption|lia|].
            rewrite (proj2 (Nat.ltb_lt lvl n)) by lia. reflexivity. }
        set (P := fun s => exists j', S lvl <= j' <= S n /\ st_ok n j' s).
        assert (P s1) as HP1 by (exists (S lvl); split; [lia|exact Hs1]).
        assert (forall c s, P s -> P (fst (wrap (S lvl) rest cb c s))) as HPn.
        { intros c0 s0 (j0 & Hj0 & Hs0).
          destruct (IH (S lvl) c0 s0 j0) as (j' & Hj' & Hs' & _); [lia|lia|assumption|].
          exists j'; split; [lia|exact Hs']. }
        assert (forall m s, P s -> P (set_msg m s)) as HPm.
        { intros m s0 (j0 & Hj0 & Hs0). exists j0. split; [exact Hj0|exact Hs0]. }
        pose proof (run_mw_inv P (wrap (S lvl) rest cb) (mw c) s1 HPn HPm HP1) as HPr.
        destruct (run_mw (wrap (S lvl) rest cb) (mw c) s1) as [s2 r]. cbn [fst] in HPr.
        assert (P (fst (match r with
                        | ROk (Some e) => (s2, ROk (Some e))
                        | ROk None => wrap (S lvl) rest cb c s2
                        | RPanic => (s2, RPanic) end))) as (j' & Hj' & Hs').
        { destruct r as [[e|]|]; [exact HPr|apply HPn, HPr|exact HPr]. }
        exists j'. split; [lia|]. split; [exact Hs'|lia].
  Qed.

  Lemma wrap_progress n (cb : option (operation C M E X)) mws :
    forall lvl c s j,
      lvl + length mws = n -> lvl <= j <= S n -> st_ok n j s ->
      exists j', j <= j' <= S n /\ st_ok n j' (fst (wrap lvl mws cb c s)).
  Proof.
    intros lvl c s j H1 H2 H3.
    destruct (wrap_progress_strong n cb mws lvl c s j H1 H2 H3) as (j' & H & H' & _).
    exists j'; auto.
  Qed.

  Lemma init_ok n m (x : X) : st_ok n 0 (mkMst m (repeat false (S n)) x []).
  Proof. split; [reflexivity|]. left. split; [lia|reflexivity]. Qed.

  Lemma execute_progress mws (cb : option (operation C M E X)) c m x :
    exists j, j <= S (length mws) /\ st_ok (length mws) j (fst (execute mws cb c m x)).
  Proof.
    unfold execute.
    destruct (wrap_progress (length mws) cb mws 0 c _ 0 eq_refl ltac:(lia)
                (init_ok (length mws) m x)) as (j & Hj & Hs).
    exists j; split; [lia|exact Hs].
  Qed.

  Lemma execute_in_order mws (cb : option (operation C M E X)) c m x :
    in_order (length mws) (trace (fst (execute mws cb c m x))).
  Proof.
    destruct (execute_progress mws cb c m x) as (j & Hj & _ & [[H1 H2]|[H1 H2]]).
    - exists j. split; [assumption|]. left; assumption.
    - exists (length mws). split; [lia|]. right; split; [reflexivity|assumption].
  Qed.

  (** ** Operation is executed when nobody refuses *)
  Definition full n s := st_ok n (S n) s.

  Lemma run_mw_full n lvl mws (cb : option (operation C M E X)) p :
    lvl + length mws = n ->
    forall s, full n s -> full n (fst (run_mw (wrap lvl mws cb) p s)).
  Proof.
    intros Hl s Hs. apply run_mw_inv; try assumption.
    - intros c s0 H0. destruct (wrap_progress n cb mws lvl c s0 (S n) Hl) as (j & Hj & Hs');
        [lia|assumption|]. replace j with (S n) in Hs' by lia. exact Hs'.
    - intros m s0 H0; exact H0.
  Qed.

  Lemma wrap_full_mono n lvl mws (cb : option (operation C M E X)) c s :
    lvl + length mws = n -> full n s -> full n (fst (wrap lvl mws cb c s)).
  Proof.
    intros Hl H0. destruct (wrap_progress n cb mws lvl c s (S n) Hl) as (j & Hj & Hs');
      [lia|assumption|]. replace j with (S n) in Hs' by lia. exact Hs'.
  Qed.

  Lemma wrap_runs n (op : operation C M E X) mws :
    (forall mw, In mw mws -> forall c, never_refuses (C:=C) (M:=M) (E:=E) false (mw c)) ->
    forall lvl c s,
      lvl + length mws = n -> st_ok n lvl s ->
      full n (fst (wrap lvl mws (Some op) c s)).
  Proof.
    induction mws as [|mw rest IH]; intros Hnr lvl c s Hl Hs; cbn [wrap].
    - cbn in Hl. replace lvl with n in * by lia. destruct Hs as [Hc Ht].
      rewrite Hc, nth_flags by lia. rewrite (proj2 (Nat.ltb_ge n n)) by lia.
      cbn. destruct (op c (msg s) (ext s)) as [[m' x'] r]. split; cbn.
      + rewrite Hc. apply set_nth_flags; lia.
      + apply tr_ok_snoc; [assumption|lia|].
        rewrite (proj2 (Nat.ltb_ge n n)) by lia. reflexivity.
    - cbn [length] in Hl. destruct Hs as [Hc Ht]. rewrite Hc, nth_flags by lia.
      rewrite (proj2 (Nat.ltb_ge lvl lvl)) by lia.
      set (s1 := emit _ (mark lvl s)).
      assert (st_ok n (S lvl) s1) as Hs1.
      { split; cbn.
        - rewrite Hc. apply set_nth_flags; lia.
        - apply tr_ok_snoc; [assumption|lia|].
          rewrite (proj2 (Nat.ltb_lt lvl n)) by lia. reflexivity. }
      assert (forall mw, In mw rest -> forall c, never_refuses false (mw c)) as Hrest
        by (intros; apply Hnr; right; assumption).
      assert (S lvl + length rest = n) as Hl2 by lia.
      assert (forall p s0,
                (st_ok n (S lvl) s0 -> never_refuses false p ->
                 let '(s2, r) := run_mw (wrap (S lvl) rest (Some op)) p s0 in
                 full n s2 \/ (r = ROk None /\ st_ok n (S lvl) s2)) ) as Hrun.
      { induction p as [e| |k IHk|m k IHk|c0 k IHk]; intros s0 H0 Hp; cbn [run_mw].
        - destruct e as [e|]; cbn in Hp; [discriminate|]. right; split; [reflexivity|assumption].
        - cbn in Hp; discriminate.
        - apply IHk; [assumption|apply Hp].
        - apply IHk; [exact H0|apply Hp].
        - specialize (IH Hrest (S lvl) c0 s0 ltac:(lia) H0).
          destruct (wrap (S lvl) rest (Some op) c0 s0) as [s' r'] eqn:Hw. cbn [fst] in IH.
          pose proof (run_mw_full n (S lvl) rest (Some op) (k r') Hl2 s' IH) as Hf.
          destruct (run_mw _ (k r') s') as [s2 r2]. left; exact Hf. }
      specialize (Hrun (mw c) s1 Hs1 (Hnr mw (or_introl eq_refl) c)).
      destruct (run_mw _ (mw c) s1) as [s2 r].
      destruct Hrun as [Hf|[-> H2]].
      + destruct r as [[e|]|]; try exact Hf. apply wrap_full_mono; [exact Hl2|exact Hf].
      + apply IH; [assumption|exact Hl2|assumption].
  Qed.

  Lemma filter_op_count n s :
    full n s -> length (filter is_op (trace s)) = 1 /\ length (trace s) = S n.
  Proof.
    intros [_ [[H _]|[_ H]]]; [lia|].
    split.
    - assert (forall tr : list (event C M),
                length (filter is_op tr) =
                length (filter (fun o => match o with None => true | Some _ => false end)
                          (map stage tr))) as G.
      { induction tr as [|[i c0 m0|c0 m0] tr IHt]; cbn; [reflexivity|exact IHt|].
        f_equal; exact IHt. }
      rewrite G, H, filter_app, app_length. cbn.
      assert (forall l : list nat, length (filter (fun o : option nat =>
              match o with None => true | Some _ => false end) (map Some l)) = 0) as G2.
      { induction l as [|i l IHl]; cbn; [reflexivity|exact IHl]. }
      rewrite G2. reflexivity.
    - rewrite <- (map_length stage), H, app_length, map_length, seq_length. cbn. lia.
  Qed.

  Lemma execute_runs_once (op : operation C M E X) mws c m x :
    (forall mw, In mw mws -> forall c, never_refuses (C:=C) (M:=M) (E:=E) false (mw c)) ->
    length (filter is_op (trace (fst (execute mws (Some op) c m x)))) = 1 /\
    map stage (trace (fst (execute mws (Some op) c m x))) =
      map Some (seq 0 (length mws)) ++ [None].
  Proof.
    intros Hnr.
    assert (full (length mws) (fst (execute mws (Some op) c m x))) as Hf.
    { apply wrap_runs; [assumption|reflexivity|apply init_ok]. }
    split; [apply (filter_op_count _ _ Hf)|].
    destruct Hf as [_ [[H _]|[_ H]]]; [lia|exact H].
  Qed.

  (** ** Success *)
  Lemma wrap_success (cb : option (operation C M E X)) mws :
    (forall op, cb = Some op -> forall c m x, snd (op c m x) = ROk None) ->
    (forall mw, In mw mws -> forall c, succeeds_with_next (C:=C) (M:=M) (E:=E) (mw c)) ->
    forall lvl c s, snd (wrap lvl mws cb c s) = ROk None.
  Proof.
    intros Hop. induction mws as [|mw rest IH]; intros Hs lvl c s; cbn [wrap].
    - destruct cb as [op|]; [|reflexivity].
      destruct (nth lvl (called s) false); [reflexivity|].
      specialize (Hop op eq_refl c (msg (emit (EOp c (msg s)) (mark lvl s)))
                    (ext (emit (EOp c (msg s)) (mark lvl s)))).
      destruct (op c _ _) as [[m' x'] r]. exact Hop.
    - destruct (nth lvl (called s) false); [reflexivity|].
      specialize (IH (fun mw H => Hs mw (or_intror H)) (S lvl)).
      assert (forall p s0, succeeds_with_next p ->
                snd (run_mw (wrap (S lvl) rest cb) p s0) = ROk None) as Hrun.
      { induction p as [e| |k IHk|m k IHk|c0 k IHk]; intros s0 Hp; cbn in *.
        - destruct e; [contradiction|reflexivity].
        - contradiction.
        - apply IHk, Hp.
        - apply IHk, Hp.
        - specialize (IH c0 s0). destruct (wrap (S lvl) rest cb c0 s0) as [s' r'].
          cbn in IH; subst r'. apply IHk, Hp. }
      specialize (Hrun (mw c) (emit (EStart lvl c (msg s)) (mark lvl s))
                    (Hs mw (or_introl eq_refl) c)).
      destruct (run_mw _ (mw c) _) as [s2 r]. cbn in Hrun; subst r. apply IH.
  Qed.

  (** ** Refusal *)
  (** With a refusing middleware at position [lvl + length pre], progress never exceeds it. *)
  Lemma refuses_run next p s e :
    refuses e p -> exists s', run_mw (E:=E) (X:=X) next p s = (s', ROk (Some e)) /\
                       called s' = called s /\ trace s' = trace s.
  Proof.
    revert s; induction p as [e'| |k IH|m k IH|c k IH]; intros s Hp; cbn in *.
    - destruct e'; [subst|contradiction]. eexists; repeat split.
    - contradiction.
    - apply IH, Hp.
    - destruct (IH (set_msg m s) Hp) as (s' & H1 & H2 & H3). exists s'; auto.
    - contradiction.
  Qed.

  Lemma wrap_refused n (cb : option (operation C M E X)) pre bad post e :
    (forall c, refuses (C:=C) (M:=M) (E:=E) e (bad c)) ->
    forall lvl c s j r,
      lvl + length pre = r -> r < n -> n = r + S (length post) ->
      lvl <= j <= S r -> st_ok n j s ->
      exists j', j <= j' <= S r /\ st_ok n j' (fst (wrap lvl (pre ++ bad :: post) cb c s)).
  Proof.
    intros Hbad. induction pre as [|mw rest IH]; intros lvl c s j r Hl Hr Hn Hj Hs.
    - cbn [app wrap]. cbn in Hl. replace lvl with r in * by lia.
      destruct Hs as [Hc Ht]. rewrite Hc, nth_flags by lia.
      destruct (Nat.ltb_spec r j) as [H|H].
      + exists j; cbn; split; [lia|split; assumption].
      + assert (j = r) by lia; subst j.
        destruct (refuses_run (wrap (S r) post cb) (bad c)
                    (emit (EStart r c (msg s)) (mark r s)) e (Hbad c)) as (s' & H1 & H2 & H3).
        rewrite H1. exists (S r). cbn. split; [lia|].
        split.
        * rewrite H2. cbn. rewrite Hc. apply set_nth_flags; lia.
        * rewrite H3. cbn. apply tr_ok_snoc; [assumption|lia|].
          rewrite (proj2 (Nat.ltb_lt r n)) by lia. reflexivity.
    - cbn [app wrap]. cbn [length] in Hl. destruct Hs as [Hc Ht].
      rewrite Hc, nth_flags by lia.
      destruct (Nat.ltb_spec lvl j) as [H|H].
      + exists j; cbn; split; [lia|split; assumption].
      + assert (j = lvl) by lia; subst j.
        set (s1 := emit _ (mark lvl s)).
        set (P := fun s => exists j', S lvl <= j' <= S r /\ st_ok n j' s).
        assert (P s1) as HP1.
        { exists (S lvl); split; [lia|]. split; cbn.
          - rewrite Hc. apply set_nth_flags; lia.
          - apply tr_ok_snoc; [assumption|lia|].
            rewrite (proj2 (Nat.ltb_lt lvl n)) by lia. reflexivity. }
        assert (forall c s, P s -> P (fst (wrap (S lvl) (rest ++ bad :: post) cb c s))) as HPn.
        { intros c0 s0 (j0 & Hj0 & Hs0).
          destruct (IH (S lvl) c0 s0 j0 r) as (j' & Hj' & Hs'); try lia; [assumption|].
          exists j'; split; [lia|exact Hs']. }
        assert (forall m s, P s -> P (set_msg m s)) as HPm.
        { intros m s0 (j0 & Hj0 & Hs0). exists j0. split; [exact Hj0|exact Hs0]. }
        pose proof (run_mw_inv P _ (mw c) s1 HPn HPm HP1) as HPr.
        destruct (run_mw _ (mw c) s1) as [s2 rr]. cbn [fst] in HPr.
        destruct rr as [[e0|]|].
        * destruct HPr as (j' & Hj' & Hs'). exists j'; cbn; split; [lia|exact Hs'].
        * destruct (HPn c s2 HPr) as (j' & Hj' & Hs'). exists j'; cbn; split; [lia|exact Hs'].
        * destruct HPr as (j' & Hj' & Hs'). exists j'; cbn; split; [lia|exact Hs'].
  Qed.

  Lemma execute_refused (cb : option (operation C M E X)) pre bad post e c m x :
    (forall c, refuses (C:=C) (M:=M) (E:=E) e (bad c)) ->
    exists k, k <= S (length pre) /\
      map stage (trace (fst (execute (pre ++ bad :: post) cb c m x))) = map Some (seq 0 k).
  Proof.
    intros Hbad. unfold execute. set (n := length (pre ++ bad :: post)).
    assert (n = length pre + S (length post)) as Hn by (unfold n; rewrite app_length; reflexivity).
    destruct (wrap_refused n cb pre bad post e Hbad 0 c _ 0 (length pre)
                eq_refl ltac:(lia) Hn ltac:(lia) (init_ok n m x)) as (j & Hj & _ & Ht).
    exists j. split; [lia|]. destruct Ht as [[_ H]|[H _]]; [exact H|lia].
  Qed.

  (** ** Delegating middlewares *)
  (** If [next] gives result [r] and [p] delegates, then [p] gives [r], or nil without next. *)
  Lemma delegates_run (next : C -> mst C M X -> mst C M X * result E) p :
    delegates p ->
    forall s, (exists s', run_mw next p s = (s', ROk None) /\ called s' = called s
                 /\ trace s' = trace s /\ ext s' = ext s) \/
              (exists s0 c0, run_mw next p s = next c0 s0 /\ called s0 = called s
                 /\ trace s0 = trace s /\ ext s0 = ext s).
  Proof.
    induction p as [e| |k IH|m k IH|c k IH]; intros Hp s; cbn in *.
    - destruct e; [contradiction|]. left. exists s; auto.
    - contradiction.
    - apply IH, Hp.
    - destruct (IH Hp (set_msg m s)) as [(s' & H)|(s0 & c0 & H)]; [left|right]; eauto.
    - right. exists s, c. repeat split.
      destruct (next c s) as [s' r']. destruct Hp as [H1 H2].
      destruct r' as [e|]; [rewrite H1|rewrite H2]; reflexivity.
  Qed.

  (** A second call of a wrapped chain does nothing. *)
  Lemma wrap_again n lvl mws (cb : option (operation C M E X)) c c2 s :
    lvl + length mws = n -> st_ok n lvl s ->
    let s' := fst (wrap lvl mws cb c s) in wrap lvl mws cb c2 s' = (s', ROk None).
  Proof.
    intros Hl Hs s'.
    destruct (wrap_progress_strong n cb mws lvl c s lvl Hl ltac:(lia) Hs)
      as (j & Hj & [Hc _] & Hm).
    assert (cb <> None \/ mws <> [] -> nth lvl (called s') false = true) as Hn.
    { intros H. unfold s'. rewrite Hc, nth_flags by lia. apply Nat.ltb_lt. apply Hm, H. }
    fold s' in Hc. clearbody s'.
    destruct mws as [|mw rest]; cbn [wrap].
    - destruct cb as [op|]; [|reflexivity]. rewrite Hn; [reflexivity|left; discriminate].
    - rewrite Hn; [reflexivity|right; discriminate].
  Qed.

  (** The chain of delegating middlewares behaves exactly as what is after them: its result and
      effects are those of the rest, called once with some message and context. *)
  Lemma wrap_delegates n (cb : option (operation C M E X)) pre post :
    (forall mw, In mw pre -> forall c, delegates (C:=C) (M:=M) (E:=E) (mw c)) ->
    forall lvl c s,
      lvl + length (pre ++ post) = n -> st_ok n lvl s ->
      exists c' s', st_ok n (lvl + length pre) s' /\ ext s' = ext s /\
        wrap lvl (pre ++ post) cb c s = wrap (lvl + length pre) post cb c' s'.
  Proof.
    induction pre as [|mw rest IH]; intros Hd lvl c s Hl Hs.
    - exists c, s. cbn [app length]. rewrite Nat.add_0_r. repeat split; try reflexivity; apply Hs.
    - cbn [app length] in *. cbn [wrap].
      pose proof Hs as [Hc Ht]. rewrite Hc, nth_flags by lia.
      rewrite (proj2 (Nat.ltb_ge lvl lvl)) by lia.
      set (s1 := emit _ (mark lvl s)).
      assert (st_ok n (S lvl) s1) as Hs1.
      { split; cbn.
        - rewrite Hc. apply set_nth_flags; lia.
        - apply tr_ok_snoc; [assumption|lia|].
          rewrite (proj2 (Nat.ltb_lt lvl n)) by lia. reflexivity. }
      assert (forall mw, In mw rest -> forall c, delegates (mw c)) as Hrest
        by (intros; apply Hd; right; assumption).
      assert (S lvl + length (rest ++ post) = n) as Hl2 by lia.
      assert (forall s0, called s0 = called s1 -> trace s0 = trace s1 -> st_ok n (S lvl) s0) as Hok.
      { intros s0 H1 H2. destruct Hs1 as [A B].
        split; [rewrite H1; exact A|rewrite H2; exact B]. }
      assert (forall c0 s0, st_ok n (S lvl) s0 -> ext s0 = ext s ->
        exists c' s', st_ok n (lvl + S (length rest)) s' /\ ext s' = ext s /\
          wrap (S lvl) (rest ++ post) cb c0 s0 =
            wrap (lvl + S (length rest)) post cb c' s') as Hnext.
      { intros c0 s0 H1 H3.
        destruct (IH Hrest (S lvl) c0 s0) as (c' & s' & G1 & G2 & G3); [exact Hl2|exact H1|].
        replace (S lvl + length rest) with (lvl + S (length rest)) in * by lia.
        exists c', s'. rewrite G2. auto. }
      destruct (delegates_run (wrap (S lvl) (rest ++ post) cb) (mw c)
                  (Hd mw (or_introl eq_refl) c) s1)
        as [(s2 & Hr & H1 & H2 & H3)|(s2 & c2 & Hr & H1 & H2 & H3)].
      + rewrite Hr. apply Hnext; [apply Hok; assumption|assumption].
      + rewrite Hr. destruct (Hnext c2 s2 (Hok s2 H1 H2) H3) as (c' & s' & G1 & G2 & G3).
        exists c', s'. split; [exact G1|]. split; [exact G2|]. rewrite <- G3.
        pose proof (wrap_again n (S lvl) (rest ++ post) cb c2 c s2 Hl2 (Hok s2 H1 H2)) as Hw.
        cbn zeta in Hw.
        destruct (wrap (S lvl) (rest ++ post) cb c2 s2) as [s3 r3]. cbn [fst] in Hw.
        destruct r3 as [[e3|]|]; try reflexivity. exact Hw.
  Qed.

  Lemma execute_delegates (op : operation C M E X) mws c m x :
    (forall mw, In mw mws -> forall c, delegates (C:=C) (M:=M) (E:=E) (mw c)) ->
    exists c' m',
      snd (execute mws (Some op) c m x) = snd (op c' m' x) /\
      ext (fst (execute mws (Some op) c m x)) = snd (fst (op c' m' x)) /\
      (exists tr, trace (fst (execute mws (Some op) c m x)) = tr ++ [EOp c' m'] /\
                  map stage tr = map Some (seq 0 (length mws))).
  Proof.
    intros Hd. unfold execute.
    destruct (wrap_delegates (length mws) (Some op) mws [] Hd 0 c
                (mkMst m (repeat false (S (length mws))) x []))
      as (c' & s' & [Hc Ht] & Hx & Hw).
    { rewrite app_nil_r; reflexivity. }
    { apply init_ok. }
    rewrite app_nil_r in Hw. rewrite Hw. cbn [wrap Nat.add].
    cbn [Nat.add] in Hc, Ht. rewrite Hc, nth_flags by lia.
    rewrite (proj2 (Nat.ltb_ge _ _)) by lia.
    cbn in Hx |- *. exists c', (msg s'). rewrite <- Hx.
    destruct (op c' (msg s') (ext s')) as [[m' x'] r]. cbn.
    repeat split; try reflexivity. exists (trace s'). split; [reflexivity|].
    destruct Ht as [[_ H]|[H _]]; [exact H|lia].
  Qed.

  Lemma execute_refused_result (cb : option (operation C M E X)) pre bad post e c m x :
    (forall mw, In mw pre -> forall c, delegates (C:=C) (M:=M) (E:=E) (mw c)) ->
    (forall c, refuses (C:=C) (M:=M) (E:=E) e (bad c)) ->
    let '(s, r) := execute (pre ++ bad :: post) cb c m x in
    r = ROk (Some e) /\ ext s = x /\
    map stage (trace s) = map Some (seq 0 (S (length pre))).
  Proof.
    intros Hd Hbad. unfold execute. set (n := length (pre ++ bad :: post)).
    assert (n = length pre + S (length post)) as Hn by (unfold n; rewrite app_length; reflexivity).
    destruct (wrap_delegates n cb pre (bad :: post) Hd 0 c _ eq_refl (init_ok n m x))
      as (c' & s' & [Hc Ht] & Hx & Hw).
    rewrite Hw. cbn [Nat.add] in *. cbn [wrap]. rewrite Hc, nth_flags by lia.
    rewrite (proj2 (Nat.ltb_ge _ _)) by lia.
    assert (forall next p s, refuses e p ->
        exists s', run_mw (E:=E) (X:=X) next p s = (s', ROk (Some e)) /\
                   ext s' = ext s /\ trace s' = trace s) as Hr.
    { intros next; induction p as [e'| |k IH|m0 k IH|c0 k IH]; intros s0 Hp; cbn in *.
      - destruct e'; [subst|contradiction]. eexists; repeat split.
      - contradiction.
      - apply IH, Hp.
      - destruct (IH (set_msg m0 s0) Hp) as (s1 & G1 & G2 & G3). exists s1; auto.
      - contradiction. }
    destruct (Hr (wrap (S (length pre)) post cb) (bad c')
                (emit (EStart (length pre) c' (msg s')) (mark (length pre) s')) (Hbad c'))
      as (s2 & G1 & G2 & G3).
    rewrite G1. repeat split; [rewrite G2; exact Hx|].
    rewrite G3. cbn [emit trace]. rewrite map_app, seq_S, map_app.
    destruct Ht as [[_ H]|[H _]]; [|lia]. cbn [mark trace]. rewrite H. reflexivity.
  Qed.
  (** ** Middlewares that pass failures on *)
  Definition ran_well (op : operation C M E X) (x : X) (s : mst C M X) : Prop :=
    exists c m, snd (op c m x) = ROk None /\ ext s = snd (fst (op c m x)) /\ In (EOp c m) (trace s).
  Lemma called_nth n lvl s j : st_ok n j s -> j <= S n -> nth lvl (called s) false = Nat.ltb lvl j.
  Proof. intros [Hc _] Hj. rewrite Hc. apply nth_flags, Hj. Qed.
  Lemma wrap_called lvl mws (op : operation C M E X) c s :
    nth lvl (called s) false = true -> wrap lvl mws (Some op) c s = (s, ROk None).
  Proof. intros H. destruct mws; cbn [wrap]; rewrite H; reflexivity. Qed.
  Lemma wrap_passes n (op : operation C M E X) x mws :
    (forall mw, In mw mws -> forall c, passes_on (C:=C) (M:=M) (E:=E) false (mw c)) ->
    forall lvl c s, lvl + length mws = n -> st_ok n lvl s -> ext s = x ->
      snd (wrap lvl mws (Some op) c s) = ROk None -> ran_well op x (fst (wrap lvl mws (Some op) c s)).
  Proof.
    induction mws as [|mw rest IH]; intros Hp lvl c s Hl Hs Hx; cbn [wrap].
    - cbn in Hl. rewrite (called_nth n lvl s lvl Hs) by lia. rewrite Nat.ltb_irrefl. cbn.
      destruct (op c (msg s) (ext s)) as [[m' x'] r] eqn:Eo. cbn. intros ->. exists c, (msg s).
      subst x. rewrite Eo. cbn. repeat split. apply in_or_app. right. left. reflexivity.
    - cbn [length] in Hl. rewrite (called_nth n lvl s lvl Hs) by lia. rewrite Nat.ltb_irrefl.
      set (s1 := emit _ (mark lvl s)). set (next := wrap (S lvl) rest (Some op)).
      assert (Hs1 : st_ok n (S lvl) s1).
      { destruct Hs as [Hc Ht]. split; cbn; [rewrite Hc; apply set_nth_flags; lia|]. apply tr_ok_snoc; [assumption|lia|].
        rewrite (proj2 (Nat.ltb_lt lvl n)) by lia. reflexivity. }
      assert (Hx1 : ext s1 = x) by exact Hx. clearbody s1.
      assert (Hrest : forall mw, In mw rest -> forall c, passes_on false (mw c)) by (intros; apply Hp; right; assumption).
      set (fresh := fun s => st_ok n (S lvl) s /\ ext s = x).
      set (after := fun (failed : bool) s => nth (S lvl) (called s) false = true /\ (failed = true \/ ran_well op x s)).
      assert (Hnext : forall c s, fresh s -> after (fails (snd (next c s))) (fst (next c s))).
      { intros c0 s0 [H1 H2]. split.
        - destruct (wrap_progress_strong n (Some op) rest (S lvl) c0 s0 (S lvl)) as (j & Hj & Hst & Hge); [lia|lia|exact H1|].
          fold next in Hst. rewrite (called_nth n (S lvl) _ j Hst) by lia. apply Nat.ltb_lt. apply Hge. left. discriminate.
        - pose proof (IH Hrest (S lvl) c0 s0 ltac:(lia) H1 H2) as HI. fold next in HI.
          destruct (snd (next c0 s0)) as [[e|]|]; [left; reflexivity|right; apply HI; reflexivity|left; reflexivity]. }
      assert (Hrun : forall p failed s, passes_on failed p -> (fresh s /\ failed = false) \/ after failed s ->
                snd (run_mw next p s) = ROk None -> fresh (fst (run_mw next p s)) \/ after false (fst (run_mw next p s))).
      { induction p as [e| |k IHk|m k IHk|c0 k IHk]; intros failed s0 Hpo Hst; cbn [run_mw].
        - destruct e as [e|]; [discriminate|]. cbn in Hpo. subst failed. intros _. destruct Hst as [[H _]|H]; [left|right]; exact H.
        - discriminate.
        - apply (IHk _ failed); [apply Hpo|exact Hst].
        - apply (IHk failed); [apply Hpo|exact Hst].
        - destruct Hst as [[Hf ->]|[Ha1 Ha2]].
          + pose proof (Hnext c0 s0 Hf) as Ha. destruct (next c0 s0) as [s' r]. cbn [fst snd] in Ha.
            apply (IHk r (fails r)); [apply (Hpo r)|right; exact Ha].
          + unfold next at 1 3 5. rewrite (wrap_called _ _ _ _ _ Ha1). apply (IHk (ROk None) failed).
            * specialize (Hpo (ROk None)). cbn in Hpo. rewrite Bool.orb_false_r in Hpo. exact Hpo.
            * right. split; assumption. }
      pose proof (Hrun (mw c) false s1 (Hp mw (or_introl eq_refl) c) (or_introl (conj (conj Hs1 Hx1) eq_refl))) as Hr.
      destruct (run_mw next (mw c) s1) as [s2 r2]. cbn [fst snd] in Hr. destruct r2 as [[e|]|]; try discriminate.
      specialize (Hr eq_refl). destruct Hr as [[Hf1 Hf2]|[Ha1 Ha2]].
      + apply IH; [exact Hrest|lia|exact Hf1|exact Hf2].
      + unfold next. rewrite (wrap_called _ _ _ _ _ Ha1). intros _. destruct Ha2 as [?|Ha2]; [discriminate|exact Ha2].
  Qed.
  Lemma execute_passes (op : operation C M E X) mws c m x :
    (forall mw, In mw mws -> forall c, passes_on (C:=C) (M:=M) (E:=E) false (mw c)) ->
    snd (execute mws (Some op) c m x) = ROk None -> ran_well op x (fst (execute mws (Some op) c m x)).
  Proof. intros H. apply (wrap_passes (length mws)); [exact H|reflexivity|apply init_ok|reflexivity]. Qed.
End P.
