(** Proofs about the values of contexts (C101). *)
From stdpp Require Import gmap strings.
From Verif.Model Require Import Middleware BrokerMessage Logs Contexts.
From Verif.Spec Require Import ContextsSpec.

Section Chains.
  Context {M E X : Type}.
  Definition ev_ctx (P : ctx -> Prop) (ev : event ctx M) : Prop :=
    match ev with EStart _ c _ | EOp c _ => P c end.
  Definition ev_msg (Q : M -> Prop) (ev : event ctx M) : Prop :=
    match ev with EStart _ _ m | EOp _ m => Q m end.

  Lemma hands_on_mono (P Q : ctx -> Prop) (p : mwprog ctx M E) :
    (forall c, P c -> Q c) -> hands_on P p -> hands_on Q p.
  Proof.
    intros PQ H. induction H as [e| |k _ IH|m k _ IH|c k Pc _ IH].
    - apply HRet.
    - apply HPanic.
    - apply HGet. exact IH.
    - apply HSet. exact IH.
    - apply HNext; [apply PQ; exact Pc|exact IH].
  Qed.

  Lemma run_mw_ctx (P : ctx -> Prop) (next : ctx -> mst ctx M X -> mst ctx M X * result E) (p : mwprog ctx M E) :
    (forall c st, P c -> Forall (ev_ctx P) (trace st) -> Forall (ev_ctx P) (trace (fst (next c st)))) ->
    hands_on P p -> forall st, Forall (ev_ctx P) (trace st) -> Forall (ev_ctx P) (trace (fst (run_mw next p st))).
  Proof.
    intros N H. induction H as [e| |k _ IH|m k _ IH|c k Pc _ IH]; intros st F; cbn [run_mw]; try exact F.
    - apply IH. exact F.
    - apply IH. exact F.
    - destruct (next c st) as [st' r] eqn:En. apply IH. specialize (N c st Pc F). rewrite En in N. exact N.
  Qed.

  Lemma wrap_ctx (P : ctx -> Prop) (mws : list (middleware ctx M E)) (cb : option (operation ctx M E X)) :
    Forall (fun mw => forall c, P c -> hands_on P (mw c)) mws ->
    forall lvl c st, P c -> Forall (ev_ctx P) (trace st) -> Forall (ev_ctx P) (trace (fst (wrap lvl mws cb c st))).
  Proof.
    intros H. induction H as [|mw rest Hmw _ IH]; intros lvl c st Pc F; cbn [wrap].
    - destruct cb as [op|]; [|exact F]. destruct (nth lvl (called st) false); [exact F|].
      destruct (op c (msg (emit (EOp c (msg st)) (mark lvl st))) (ext (emit (EOp c (msg st)) (mark lvl st)))) as [[m' x'] r].
      cbn. apply Forall_app. split; [exact F|]. apply Forall_singleton. exact Pc.
    - destruct (nth lvl (called st) false); [exact F|].
      assert (F1 : Forall (ev_ctx P) (trace (emit (EStart lvl c (msg st)) (mark lvl st)))).
      { cbn. apply Forall_app. split; [exact F|]. apply Forall_singleton. exact Pc. }
      pose proof (run_mw_ctx P (wrap (S lvl) rest cb) (mw c) (IH (S lvl)) (Hmw c Pc) _ F1) as F2.
      destruct (run_mw (wrap (S lvl) rest cb) (mw c) (emit (EStart lvl c (msg st)) (mark lvl st))) as [s2 [[e|]|]]; try exact F2.
      apply IH; assumption.
  Qed.

  Lemma execute_ctx (P : ctx -> Prop) (mws : list (middleware ctx M E)) (cb : option (operation ctx M E X)) c m x :
    Forall (fun mw => forall c, P c -> hands_on P (mw c)) mws -> P c ->
    Forall (ev_ctx P) (trace (fst (execute mws cb c m x))).
  Proof. intros H Pc. apply wrap_ctx; [exact H|exact Pc|apply Forall_nil_2]. Qed.

  Lemma execute_keeps (k : key) (v : option cval) (mws : list (middleware ctx M E)) (cb : option (operation ctx M E X)) c m x :
    Forall (keeps k) mws -> value c k = v ->
    Forall (ev_ctx (fun c' => value c' k = v)) (trace (fst (execute mws cb c m x))).
  Proof.
    intros K V. apply execute_ctx; [|exact V]. eapply Forall_impl; [exact K|].
    intros mw Kmw c1 V1. eapply hands_on_mono; [|exact (Kmw c1)]. cbn. intros c2 E2. rewrite E2. exact V1.
  Qed.

  Lemma run_mw_msg (m0 : M) (next : ctx -> mst ctx M X -> mst ctx M X * result E) (p : mwprog ctx M E) :
    (forall c st, msg st = m0 -> Forall (ev_msg (eq m0)) (trace st) ->
       msg (fst (next c st)) = m0 /\ Forall (ev_msg (eq m0)) (trace (fst (next c st)))) ->
    reads_only p -> forall st, msg st = m0 -> Forall (ev_msg (eq m0)) (trace st) ->
    msg (fst (run_mw next p st)) = m0 /\ Forall (ev_msg (eq m0)) (trace (fst (run_mw next p st))).
  Proof.
    intros N H. induction H as [e| |k _ IH|c k _ IH]; intros st Em F; cbn [run_mw]; try (split; assumption).
    - apply IH; assumption.
    - destruct (next c st) as [st' r] eqn:En. specialize (N c st Em F). rewrite En in N. destruct N as [N1 N2].
      apply IH; assumption.
  Qed.

  Lemma wrap_msg (m0 : M) (mws : list (middleware ctx M E)) (cb : option (operation ctx M E X)) :
    (forall op c x, cb = Some op -> fst (fst (op c m0 x)) = m0) ->
    Forall (fun mw => forall c, reads_only (mw c)) mws ->
    forall lvl c st, msg st = m0 -> Forall (ev_msg (eq m0)) (trace st) ->
    msg (fst (wrap lvl mws cb c st)) = m0 /\ Forall (ev_msg (eq m0)) (trace (fst (wrap lvl mws cb c st))).
  Proof.
    intros Hcb H. induction H as [|mw rest Hmw _ IH]; intros lvl c st Em F; cbn [wrap].
    - destruct cb as [op|]; [|split; assumption]. destruct (nth lvl (called st) false); [split; assumption|].
      specialize (Hcb op c (ext st) eq_refl). cbn. rewrite Em in *.
      destruct (op c m0 (ext st)) as [[m' x'] r]. cbn in *. split; [exact Hcb|].
      apply Forall_app. split; [exact F|]. apply Forall_singleton. reflexivity.
    - destruct (nth lvl (called st) false); [split; assumption|].
      assert (F1 : Forall (ev_msg (eq m0)) (trace (emit (EStart lvl c (msg st)) (mark lvl st)))).
      { cbn. apply Forall_app. split; [exact F|]. apply Forall_singleton. symmetry. exact Em. }
      pose proof (run_mw_msg m0 (wrap (S lvl) rest cb) (mw c) (IH (S lvl)) (Hmw c)
                    (emit (EStart lvl c (msg st)) (mark lvl st)) Em F1) as [M2 F2].
      destruct (run_mw (wrap (S lvl) rest cb) (mw c) (emit (EStart lvl c (msg st)) (mark lvl st))) as [s2 [[e|]|]]; try (split; assumption).
      apply IH; assumption.
  Qed.
End Chains.

Section Operations.
  Context {D E : Type}.
  Variable show : bmsg -> string.
  Variable decode : bmsg -> D + E.
  Variable encode : D -> bmsg + E.
  Variable id_of : D -> string.
  Variable set_id : D -> string -> D.
  Variable err_text : E -> string.
  Variable ver : string.
  Variable s : side.
  Variable mws : list (middleware ctx bmsg E).

  Lemma conv_ctx (P : ctx -> Prop) (on_op : ctx -> bmsg -> list (obs D)) (Q : obs D -> Prop) tr :
    (forall i c m, P c -> Q (OMiddleware i c m)) -> (forall c m, P c -> Forall Q (on_op c m)) ->
    Forall (ev_ctx P) tr -> Forall Q (flat_map (conv on_op) tr).
  Proof.
    intros HM HO F. induction F as [|ev tr Hev _ IH]; cbn; [apply Forall_nil_2|].
    apply Forall_app. split; [|exact IH]. destruct ev as [i c m|c m]; cbn in *.
    - apply Forall_singleton. apply HM. exact Hev.
    - apply HO. exact Hev.
  Qed.

  Lemma says_publication c addr declared d m k :
    says (about ver (provider s) addr "publication" (Some (show m)) (if declared : bool then Some (id_of d) else None)) (value c)
         (With (publication_ctx id_of ver s c addr declared d) KMessage (VStr (show m))) k.
  Proof. unfold says, publication_ctx, add_values. destruct declared, k; reflexivity. Qed.

  Lemma says_reception c addr k :
    says (about ver (provider s) addr "reception" None None) (value c) (reception_ctx ver s c addr) k.
  Proof. unfold says, reception_ctx, add_values. destruct k; reflexivity. Qed.

  Lemma says_received addr t k :
    says (about ver (provider s) addr "reception" (Some t) None) nothing
         (With (reception_ctx ver s Background addr) KMessage (VStr t)) k.
  Proof. unfold says, reception_ctx, add_values. destruct k; reflexivity. Qed.

  Lemma says_waiting c addr k :
    says (about ver (provider s) addr "wait-for" None None) (value c)
         (With (add_values ver s c addr) KDirection (VStr "wait-for")) k.
  Proof. unfold says, add_values. destruct k; reflexivity. Qed.

  Lemma send_says c addr declared reply_of no_id fresh published d k :
    Forall (keeps k) mws ->
    let l := fst (send show encode id_of set_id err_text ver s mws c addr declared reply_of no_id fresh published d) in
    (declared = true /\ id_of d = "" /\ reply_of = true /\ l = [OLog (err_text no_id) c]) \/
    exists d', (if declared && bool_decide (id_of d = "") then reply_of = false /\ d' = set_id d fresh else d' = d) /\
      match encode d' with
      | inr _ => l = []
      | inl m => Forall (fun o => says (about ver (provider s) addr "publication" (Some (show m))
                                           (if declared then Some (id_of d') else None)) (value c) (ctx_of o) k) l
      end.
  Proof.
    intros K. unfold send. destruct (declared && bool_decide (id_of d = "")) eqn:Ed.
    - apply andb_true_iff in Ed as [-> Ei]. apply bool_decide_eq_true in Ei. destruct reply_of; cbn [andb].
      + left. auto.
      + right. exists (set_id d fresh). split; [split; reflexivity|].
        destruct (encode (set_id d fresh)) as [m|e]; [|reflexivity].
        pose proof (execute_keeps k _ mws (Some (fun c m (x : unit) => (m, x, published c m)))
                      _ m tt K (says_publication c addr true (set_id d fresh) m k)) as F.
        destruct (execute mws _ _ m tt) as [st r]. cbn [fst] in *.
        eapply conv_ctx; [| |exact F]; cbn beta; [intros i c' m' H; exact H|intros c' m' H; apply Forall_singleton; exact H].
    - right. exists d. split; [reflexivity|]. cbn [andb]. destruct (encode d) as [m|e]; [|reflexivity].
      pose proof (execute_keeps k _ mws (Some (fun c m (x : unit) => (m, x, published c m)))
                    _ m tt K (says_publication c addr declared d m k)) as F.
      destruct (execute mws _ _ m tt) as [st r]. cbn [fst] in *.
      eapply conv_ctx; [| |exact F]; cbn beta; [intros i c' m' H; exact H|intros c' m' H; apply Forall_singleton; exact H].
  Qed.

  Lemma listen_says addr declared fn raw k : Forall (keeps k) mws ->
    Forall (fun o => match o with
                     | OHandler c d => says (about ver (provider s) addr "reception" (Some (show raw)) (received_id id_of declared d)) nothing c k
                     | _ => says (about ver (provider s) addr "reception" (Some (show raw)) None) nothing (ctx_of o) k
                     end) (listen show decode id_of ver s mws addr declared fn raw).
  Proof.
    intros K. unfold listen.
    pose proof (execute_keeps k _ mws (Some (callback decode id_of declared fn)) _ raw tt K (says_received addr (show raw) k)) as F.
    destruct (execute mws _ _ raw tt) as [st r]. cbn [fst] in F. apply Forall_app. split.
    - eapply conv_ctx; [| |exact F]; cbn beta.
      + intros i c m H. exact H.
      + intros c m H. unfold handled. destruct (decode m) as [d|e]; [|apply Forall_nil_2].
        apply Forall_singleton. unfold with_id, received_id, says.
        destruct declared; [|exact H]. destruct (decide (id_of d = "")); [exact H|].
        cbn [value]. destruct (decide (KCorrelation = k)) as [<-|NE]; [reflexivity|]. rewrite H.
        destruct k; try reflexivity. congruence.
    - destruct r as [[e|]|]; [|apply Forall_nil_2|apply Forall_nil_2].
      apply Forall_singleton. apply says_received.
  Qed.

  Lemma wait_says addr expected i k : Forall (keeps k) mws ->
    Forall (fun o => match o with
                     | OMiddleware _ c _ => exists raw, i = IMessage raw /\
                         says (about ver (provider s) addr "wait-for" (Some (show raw)) expected) nothing c k
                     | _ => says (about ver (provider s) addr "wait-for" None expected) nothing (ctx_of o) k
                     end) (fst (wait_next show decode id_of err_text ver s mws addr expected i)).
  Proof.
    intros K. unfold wait_next.
    set (c0 := With (add_values ver s Background addr) KDirection (VStr "wait-for")).
    set (c1 := match expected with Some id => With c0 KCorrelation (VStr id) | None => c0 end).
    assert (S1 : says (about ver (provider s) addr "wait-for" None expected) nothing c1 k).
    { unfold says, c1, c0, add_values. destruct expected, k; reflexivity. }
    destruct i as [raw| |]; try (apply Forall_singleton; exact S1).
    assert (S2 : says (about ver (provider s) addr "wait-for" (Some (show raw)) expected) nothing (With c1 KMessage (VStr (show raw))) k).
    { unfold says, c1, c0, add_values. destruct expected, k; reflexivity. }
    set (first := match expected with
                  | Some _ => match decode raw with inr e => [OLog (err_text e) c1] | inl _ => [] end
                  | None => []
                  end).
    assert (F1 : Forall (fun o : obs D => match o with
                     | OMiddleware _ c _ => exists raw0, IMessage raw = IMessage raw0 /\
                         says (about ver (provider s) addr "wait-for" (Some (show raw0)) expected) nothing c k
                     | _ => says (about ver (provider s) addr "wait-for" None expected) nothing (ctx_of o) k
                     end) first).
    { unfold first. destruct expected as [id|]; [|apply Forall_nil_2]. destruct (decode raw); [apply Forall_nil_2|].
      apply Forall_singleton. exact S1. }
    destruct (match expected with
              | Some id => String.eqb id (match decode raw with inl d => id_of d | inr _ => "" end)
              | None => true
              end); [|exact F1].
    pose proof (execute_keeps k _ mws (None : option (operation ctx bmsg E unit)) _ raw tt K S2) as F.
    destruct (execute mws None _ raw tt) as [st r]. cbn [fst] in *. apply Forall_app. split; [exact F1|].
    eapply conv_ctx; [| |exact F]; cbn beta.
    - intros i c m H. exists raw. split; [reflexivity|exact H].
    - intros c m _. apply Forall_nil_2.
  Qed.
  Notation told := (told show ver (provider s)).

  Lemma wait_next_obs addr expected i o :
    o ∈ fst (wait_next show decode id_of err_text ver s mws addr expected i) ->
    match o with OLog _ _ | OMiddleware _ _ _ => True | _ => False end.
  Proof.
    assert (C : forall tr o', o' ∈ flat_map (conv (fun _ _ => [])) tr ->
                match (o' : obs D) with OLog _ _ | OMiddleware _ _ _ => True | _ => False end).
    { induction tr as [|[j c m|c m] tr IH]; cbn; intros o' H.
      - apply elem_of_nil in H as [].
      - apply elem_of_cons in H as [-> |H]; [exact I|exact (IH o' H)].
      - exact (IH o' H). }
    assert (L : forall t c, o ∈ [OLog t c] -> match o with OLog _ _ | OMiddleware _ _ _ => True | _ => False end).
    { intros t c H. apply elem_of_list_singleton in H as ->. exact I. }
    unfold wait_next. destruct i as [raw| |]; cbn [fst]; try exact (L _ _).
    assert (F : forall c1, o ∈ match expected with
                     | Some _ => match decode raw with inr e => [OLog (err_text e) c1] | inl _ => [] end
                     | None => []
                     end -> match o with OLog _ _ | OMiddleware _ _ _ => True | _ => False end).
    { intros c1 H. destruct expected; [|apply elem_of_nil in H as []].
      destruct (decode raw); [apply elem_of_nil in H as []|]. exact (L _ _ H). }
    destruct (match expected with
              | Some id => String.eqb id (match decode raw with inl d => id_of d | inr _ => "" end)
              | None => true
              end); [|exact (F _)].
    destruct (execute mws None _ raw tt) as [st r]. cbn [fst]. intros H. apply elem_of_app in H as [H|H]; [exact (F _ H)|exact (C _ _ H)].
  Qed.

  Lemma wait_loop_told c raddr addr text expected ins' k : Forall (keeps k) mws -> forall ins,
    (forall i, i ∈ ins -> i ∈ ins') ->
    Forall (told c raddr addr text expected ins' k)
      (wait_loop show decode id_of err_text ver s mws (With (add_values ver s c raddr) KDirection (VStr "wait-for")) raddr expected ins).
  Proof.
    intros K. induction ins as [|i ins IH]; intros Sub; cbn [wait_loop]; [apply Forall_nil_2|].
    pose proof (wait_says raddr expected i k K) as W. pose proof (wait_next_obs raddr expected i) as O.
    destruct (wait_next show decode id_of err_text ver s mws raddr expected i) as [l w]. cbn [fst] in *.
    assert (IH' := IH (fun j Hj => Sub j (elem_of_list_further j i ins Hj))).
    apply Forall_app. split.
    - apply Forall_forall. intros o Ho. specialize (O o Ho). rewrite Forall_forall in W. specialize (W o Ho).
      destruct o; try contradiction; cbn [told].
      + right. exact W.
      + right. destruct W as (raw & -> & W). exists raw. split; [apply Sub; apply elem_of_list_here|exact W].
    - destruct w; try (exact IH' || apply Forall_nil_2).
      apply Forall_cons. split; [left; apply says_waiting|exact IH'].
  Qed.

  Lemma send_obs c addr declared no_id fresh published d o :
    o ∈ fst (send show encode id_of set_id err_text ver s mws c addr declared false no_id fresh published d) ->
    match o with OMiddleware _ _ _ => True | OPublish _ a _ => a = addr | _ => False end.
  Proof.
    unfold send. rewrite andb_false_r. destruct (encode _) as [m|e]; cbn [fst]; [|intros H; apply elem_of_nil in H as []].
    destruct (execute mws _ _ m tt) as [st r]. cbn [fst].
    generalize (trace st). induction l as [|[j c' m'|c' m'] tr IH]; cbn; intros H.
    - apply elem_of_nil in H as [].
    - apply elem_of_cons in H as [-> |H]; [exact I|exact (IH H)].
    - apply elem_of_cons in H as [-> |H]; [reflexivity|exact (IH H)].
  Qed.

  Lemma request_told c raddr addr refused declared no_id fresh fresh' published d ins k :
    Forall (keeps k) mws -> (forall d x, id_of (set_id d x) = x) -> fresh <> "" ->
    let d' := if declared && bool_decide (id_of d = "") then set_id d fresh else d in
    Forall (told c raddr addr (match encode d' with inl m => Some (show m) | inr _ => None end)
                 (if declared then Some (id_of d') else None) ins k)
      (request show decode encode id_of set_id err_text ver s mws c raddr addr refused declared no_id fresh fresh' published d ins).
  Proof.
    intros K Hset Hfresh d'. unfold request. fold d'.
    set (c1 := With (add_values ver s c raddr) KDirection (VStr "wait-for")).
    assert (S1 : says (about ver (provider s) raddr "wait-for" None None) (value c) c1 k) by apply says_waiting.
    apply Forall_cons. split; [exact S1|].
    destruct refused as [e|]; [apply Forall_singleton; left; exact S1|].
    apply Forall_cons. split; [left; exact S1|].
    apply Forall_app. split; [|repeat (apply Forall_cons; split; [|]); try apply Forall_nil_2; [exact S1|left; exact S1]].
    assert (Nid : declared && bool_decide (id_of d' = "") = false).
    { unfold d'. destruct declared; [|reflexivity]. cbn [andb]. destruct (bool_decide (id_of d = "")) eqn:Eb.
      - rewrite Hset. apply bool_decide_eq_false. exact Hfresh.
      - exact Eb. }
    pose proof (send_says c1 addr declared false no_id fresh' published d' k K) as H.
    pose proof (send_obs c1 addr declared no_id fresh' published d') as O.
    destruct (send show encode id_of set_id err_text ver s mws c1 addr declared false no_id fresh' published d') as [l r].
    cbn [fst] in *. apply Forall_app. split.
    - destruct H as [(_ & _ & R & _)|(d2 & Hd & H)]; [discriminate R|]. rewrite Nid in Hd. subst d2.
      destruct (encode d') as [m|e]; [|subst l; apply Forall_nil_2].
      apply Forall_forall. intros o Ho. specialize (O o Ho). rewrite Forall_forall in H. specialize (H o Ho).
      assert (P : says (about ver (provider s) addr "publication" (Some (show m)) (if declared then Some (id_of d') else None)) (value c) (ctx_of o) k).
      { unfold says in *. rewrite H. unfold c1, add_values. destruct declared, k; reflexivity. }
      destruct o; try contradiction; cbn [told].
      + split; [exact O|exact P].
      + left. exact P.
    - destruct r as [[e|]|]; [apply Forall_singleton; left; exact S1| |apply Forall_nil_2].
      apply wait_loop_told; [exact K|auto].
  Qed.

  Lemma wait_for_told c addr refused pub d ins k : Forall (keeps k) mws ->
    Forall (fun o => told c addr addr None (Some (id_of d)) ins k o /\ match o with OPublish _ _ _ => False | _ => True end)
      (wait_for show decode id_of err_text ver s mws c addr refused pub d ins).
  Proof.
    intros K. unfold wait_for.
    set (c1 := With (add_values ver s c addr) KDirection (VStr "wait-for")).
    assert (S1 : says (about ver (provider s) addr "wait-for" None None) (value c) c1 k) by apply says_waiting.
    apply Forall_cons. split; [split; [exact S1|exact I]|].
    destruct refused as [e|]; [apply Forall_singleton; split; [left; exact S1|exact I]|].
    apply Forall_cons. split; [split; [left; exact S1|exact I]|].
    apply Forall_cons. split; [split; [exact S1|exact I]|].
    apply Forall_app. split.
    - destruct pub; [apply Forall_nil_2|]. apply Forall_and. split; [apply wait_loop_told; [exact K|auto]|].
      generalize (Some (id_of d)). intros expected. induction ins as [|i ins IH]; cbn [wait_loop]; [apply Forall_nil_2|].
      pose proof (wait_next_obs addr expected i) as O.
      destruct (wait_next show decode id_of err_text ver s mws addr expected i) as [l w]. cbn [fst] in *.
      apply Forall_app. split.
      + apply Forall_forall. intros o Ho. specialize (O o Ho). destruct o; try contradiction; exact I.
      + destruct w; try (exact IH || apply Forall_nil_2). apply Forall_cons. split; [exact I|exact IH].
    - apply Forall_cons. split; [split; [exact S1|exact I]|]. apply Forall_singleton. split; [left; exact S1|exact I].
  Qed.
End Operations.

(** The version wrapper. *)
Lemma wrapper_loop_message vkey dflt versions : forall ms c locked t c' m,
  (t, c', m) ∈ (wrapper_loop vkey dflt versions c locked ms).1.1 -> m ∈ ms /\ value c' KMessage = Some (VMsg m).
Proof.
  induction ms as [|m0 ms IH]; intros c locked t c' m H; cbn [wrapper_loop] in H; [apply elem_of_nil in H as []|].
  destruct (match (match header m0 vkey with Some v => if decide (v = "") then None else Some v | None => None end) with
            | Some v => Some v | None => dflt end) as [v|].
  - destruct locked; [apply elem_of_nil in H as []|]. destruct (decide (v ∈ versions)).
    + destruct (IH _ _ _ _ _ H) as [I V]. split; [apply elem_of_list_further; exact I|exact V].
    + destruct (wrapper_loop vkey dflt versions (With (With c KMessage (VMsg m0)) KVersion (VStr v)) true ms) as [[l e] b] eqn:Er.
      cbn in H. apply elem_of_cons in H as [H|H].
      * injection H as -> -> ->. split; [apply elem_of_list_here|reflexivity].
      * specialize (IH (With (With c KMessage (VMsg m0)) KVersion (VStr v)) true t c' m). rewrite Er in IH.
        destruct (IH H) as [I V]. split; [apply elem_of_list_further; exact I|exact V].
  - destruct (wrapper_loop vkey dflt versions (With c KMessage (VMsg m0)) locked ms) as [[l e] b] eqn:Er.
    cbn in H. apply elem_of_cons in H as [H|H].
    + injection H as -> -> ->. split; [apply elem_of_list_here|reflexivity].
    + specialize (IH (With c KMessage (VMsg m0)) locked t c' m). rewrite Er in IH.
      destruct (IH H) as [I V]. split; [apply elem_of_list_further; exact I|exact V].
Qed.

Lemma wrapper_loop_size vkey versions : forall ms c locked,
  Forall (fun m => header m vkey = None \/ header m vkey = Some "") ms ->
  size (wrapper_loop vkey None versions c locked ms).1.2 = size c + length ms.
Proof.
  induction ms as [|m ms IH]; intros c locked F; cbn [wrapper_loop length].
  - cbn. lia.
  - apply Forall_cons in F as [Hm F].
    assert (N : (match (match header m vkey with Some v => if decide (v = "") then None else Some v | None => None end) with
                 | Some v => Some v | None => None end) = None).
    { destruct Hm as [-> | ->]; reflexivity. }
    rewrite N. specialize (IH (With c KMessage (VMsg m)) locked F).
    destruct (wrapper_loop vkey None versions (With c KMessage (VMsg m)) locked ms) as [[l e] b]. cbn in *. lia.
Qed.
