(** Invariants of the system of requests. *)
From stdpp Require Import list sets.
From Coq Require Import String Lia.
From Verif.Model Require Import Ack Middleware Request System.
From Verif.Spec Require Import SystemSpec.

Lemma set_eq {A} i (x : A) f : set i x f i = x.
Proof. unfold set. rewrite Nat.eqb_refl. reflexivity. Qed.
Lemma set_ne {A} i j (x : A) f : j <> i -> set i x f j = f j.
Proof. intros H. unfold set. apply Nat.eqb_neq in H. rewrite H. reflexivity. Qed.

Section proof.
  Context {C M E D : Type}.
  Variable decode : M -> D * option E.
  Variable encode : D -> M.
  Variable corr : D -> string.
  Variable set_corr : string -> D -> D.
  Variable mws : list (middleware C M E).
  Variable ctx : C.
  Variable zero : D.
  Variable answer : D -> D -> D.
  Variable mode : sharing.
  Variable n : nat.

  Variable arrived : D -> D.
  (** The messages that can be sent as requests, as answers. *)
  Variables good ready : D -> Prop.
  Variable fine : string -> Prop.

  Hypothesis Hcodec : forall d, good d \/ ready d -> decode (encode d) = (arrived d, None).
  Hypothesis Harrived : forall d, good d \/ ready d -> corr (arrived d) = corr d.
  Hypothesis Hset : forall id d, fine id -> good d -> good (set_corr id d) /\ corr (set_corr id d) = id.
  Hypothesis Hanswer : forall newid d, good d -> corr d <> ""%string ->
    let r := answer (arrived d) (set_corr (corr d) (set_corr newid zero)) in ready r /\ corr r = corr d.
  Hypothesis Hmws : forall m, exists s, execute mws None ctx m tt = (s, ROk None) /\ msg s = m.

  Notation step := (sstep decode encode corr set_corr mws ctx zero answer mode n).
  Notation run := (srun decode encode corr set_corr mws ctx zero answer mode n).
  Notation system := (sys M D).
  Notation answers := (answer_to corr set_corr zero answer arrived).
  Definition sends (d r : D) : Prop := exists newid, r = answer (arrived d) (set_corr (corr d) (set_corr newid zero)).
  Definition sched (os : list (sop D)) : Prop := distinct corr os /\ fit good fine os.

  Definition owns (s : system) (i : nat) (d : D) : Prop := requester s i = RWaiting d \/ exists r, requester s i = RDone d r.
  Definition named (s : system) (i : nat) (id : string) : Prop :=
    (exists d, requester s i = RSubscribed d /\ corr d = id /\ id <> ""%string) \/ exists d, owns s i d /\ corr d = id.

  Definition reply_in (s : system) (m : M) : Prop := exists i d r, m = encode r /\ owns s i d /\ sends d r.

  Record inv (os : list (sop D)) (s : system) : Prop := {
    i_used : forall i id, named s i id -> id ∈ identifiers corr os /\ id <> ""%string;
    i_unique : forall i j id, named s i id -> named s j id -> i = j;
    i_requests : forall m, m ∈ requests s -> exists i d, m = encode d /\ owns s i d;
    i_replies : forall m, m ∈ replies s -> reply_in s m;
    i_inbox : forall j m, m ∈ inbox s j -> reply_in s m;
    i_done : forall i d r, requester s i = RDone d r -> answers d r;
    i_panic : forall i, requester s i <> RPanicked;
    i_subscribed : forall i d, requester s i = RSubscribed d -> In (SSubscribe i d) os;
    i_asked : forall i d, owns s i d -> exists d0 u, In (SSubscribe i d0) os /\ In (SSend i u) os /\ identified corr set_corr u d0 d;
    i_bound : forall i, requester s i <> RIdle -> i < n;
    i_good : forall i d, requester s i = RSubscribed d \/ owns s i d -> good d;
  }.

  Lemma answer_corr d r : good d -> corr d <> ""%string -> sends d r -> ready r /\ corr r = corr d.
  Proof. intros H H' [newid ->]. by apply Hanswer. Qed.
  Lemma owned_corr os s i d : inv os s -> owns s i d -> good d /\ corr d <> ""%string.
  Proof. intros Hi H. split; [eapply (i_good _ _ Hi); right; exact H|]. apply (i_used _ _ Hi i). right. eauto. Qed.
  Lemma same_sent d d' : good d \/ ready d -> good d' \/ ready d' -> encode d = encode d' -> corr d = corr d'.
  Proof.
    intros H H' E0. assert (decode (encode d) = decode (encode d')) as E1 by (rewrite E0; reflexivity). rewrite !Hcodec in E1 by assumption.
    rewrite <- (Harrived d), <- (Harrived d') by assumption. congruence.
  Qed.

  (** What a waiting request does with a reply. *)
  Lemma wait_reply sent r : ready r ->
    wait_next decode corr true sent mws ctx (WRecv (encode r)) =
    if string_dec sent (corr r) then (WSome (arrived r), [SAck]) else (WNone, [SAck]).
  Proof.
    intros G0. assert (good r \/ ready r) as G by (right; exact G0). unfold wait_next. rewrite Hcodec by exact G. cbn [fst]. rewrite Harrived by exact G. destruct (string_dec sent (corr r)); [|reflexivity].
    destruct (Hmws (encode r)) as (st & -> & ->). rewrite Hcodec by exact G. reflexivity.
  Qed.

  Lemma reply_to_answers newid uuid d :
    good d -> corr d <> ""%string ->
    exists r, reply_to corr set_corr zero newid uuid (arrived d) (answer (arrived d)) = Some r /\ sends d r.
  Proof.
    intros G H. unfold reply_to, send_corr. rewrite (Harrived d (or_introl G)). destruct (Hanswer newid d G H) as [_ Hc]. rewrite Hc.
    destruct (string_dec (corr d) ""); [contradiction|]. eexists. split; [reflexivity|]. exists newid. reflexivity.
  Qed.

  Lemma owns_fun s i d d' : owns s i d -> owns s i d' -> d = d'.
  Proof. unfold owns. intros [H|[r H]] [H'|[r' H']]; rewrite H in H'; congruence. Qed.

  Lemma owner s os i j d d' : inv os s -> owns s i d -> owns s j d' -> corr d = corr d' -> i = j /\ d = d'.
  Proof.
    intros Hi H H' Hc. assert (i = j) as ->.
    { apply (i_unique _ _ Hi i j (corr d)); right; eauto. }
    split; [reflexivity|]. eapply owns_fun; eauto.
  Qed.

  Lemma identifiers_app os os' : identifiers corr (os ++ os') = identifiers corr os ++ identifiers corr os'.
  Proof. unfold identifiers. rewrite map_app, concat_app. reflexivity. Qed.
  Lemma identifiers_one o : identifiers corr [o] = names_in corr o.
  Proof. unfold identifiers. cbn. apply app_nil_r. Qed.

  Lemma inv_start : inv [] start.
  Proof.
    constructor; cbn; try (intros; discriminate); try (by intros ? ?%elem_of_nil); try (by intros ? ? ?%elem_of_nil); try (by intros ? []).
    - intros i id [(d & H & _)|(d & [H|[r H]] & _)]; cbn in H; discriminate.
    - intros i j id [(d & H & _)|(d & [H|[r H]] & _)]; cbn in H; discriminate.
    - intros i d [H|[r H]]; cbn in H; discriminate.
    - intros i d [H|[H|[r H]]]; cbn in H; discriminate.
  Qed.

  (** A step that leaves the requesters as they are. *)
  Lemma inv_same os o s s' :
    inv os s -> requester s' = requester s ->
    (forall m, m ∈ requests s' -> m ∈ requests s) ->
    (forall m, m ∈ replies s' -> reply_in s m) ->
    (forall j m, m ∈ inbox s' j -> reply_in s m) ->
    inv (os ++ [o]) s'.
  Proof.
    intros Hi Hr H1 H2 H3.
    assert (forall i d, owns s' i d <-> owns s i d) as Hown by (intros i d; unfold owns; rewrite Hr; tauto).
    assert (forall i id, named s' i id -> named s i id) as Hnamed.
    { intros i id [(d & H & H')|(d & H & H')]; [left; exists d; rewrite <- Hr; auto|right; exists d; split; [apply Hown|]; auto]. }
    assert (forall m, reply_in s m -> reply_in s' m) as Hin.
    { intros m (i & d & r & ? & ? & ?). exists i, d, r. split; [auto|]. split; [apply Hown|]; auto. }
    constructor; try rewrite Hr.
    - intros i id H. apply Hnamed, (i_used _ _ Hi) in H. rewrite identifiers_app. set_solver.
    - intros i j id H H'. eapply (i_unique _ _ Hi); eauto.
    - intros m Hm. destruct (i_requests _ _ Hi m) as (i & d & ? & ?); [auto|]. exists i, d. split; [auto|]. apply Hown; auto.
    - auto.
    - eauto.
    - apply (i_done _ _ Hi).
    - apply (i_panic _ _ Hi).
    - intros i d H. apply in_or_app. left. apply (i_subscribed _ _ Hi). exact H.
    - intros i d H. apply Hown, (i_asked _ _ Hi) in H. destruct H as (d0 & u & ? & ? & ?). exists d0, u.
      split; [apply in_or_app; auto|]. split; [apply in_or_app; auto|]. assumption.
    - apply (i_bound _ _ Hi).
    - intros i d H. apply (i_good _ _ Hi i). rewrite <- Hown. exact H.
  Qed.

  Lemma inv_step os o s : inv os s -> sched (os ++ [o]) -> inv (os ++ [o]) (step s o).
  Proof.
    intros Hi [[Hnd Hne] [Hgood Hfine]]. rewrite identifiers_app, identifiers_one in Hnd, Hne.
    assert (inv (os ++ [o]) s) as Hsame.
    { apply (inv_same os o s s Hi); auto; [apply (i_replies _ _ Hi)|apply (i_inbox _ _ Hi)]. }
    destruct o as [i d|i uuid|newid uuid|i|i]; cbn [sstep].
    - (* subscribe *)
      destruct (requester s i) eqn:Hri; try exact Hsame.
      destruct (Nat.ltb i n) eqn:Hlt; [|exact Hsame]. apply Nat.ltb_lt in Hlt.
      set (s' := mkSys _ _ _ _).
      assert (forall j d', owns s' j d' <-> owns s j d') as Hown.
      { intros j d'. unfold owns, s'. cbn. destruct (Nat.eq_dec j i) as [->|Hj].
        - rewrite set_eq, Hri. split; intros [H|[r H]]; discriminate.
        - rewrite set_ne by exact Hj. tauto. }
      assert (forall j id, named s' j id -> (j = i /\ id = corr d /\ corr d <> ""%string) \/ (j <> i /\ named s j id)) as Hnamed.
      { intros j id [(d' & H & <- & H')|(d' & H & H')].
        - unfold s' in H. cbn in H. destruct (Nat.eq_dec j i) as [->|Hj].
          + rewrite set_eq in H. injection H as <-. left. auto.
          + rewrite set_ne in H by exact Hj. right. split; [exact Hj|]. left. eauto.
        - apply Hown in H. right. split; [|right; eauto]. intros ->. destruct H as [H|[r H]]; congruence. }
      assert (forall id, named s i id -> False) as Hnone.
      { intros id [(d' & H & _)|(d' & [H|[r H]] & _)]; congruence. }
      cbn [names_in] in Hnd, Hne.
      constructor.
      + intros j id H. apply Hnamed in H as [(-> & -> & H)|[_ H]].
        * rewrite identifiers_app, identifiers_one. cbn. split; [|exact H]. destruct (string_dec (corr d) ""); [contradiction|]. set_solver.
        * apply (i_used _ _ Hsame _ _ H).
      + intros j k id H H'. apply Hnamed in H as [(-> & -> & H)|[? H]]; apply Hnamed in H' as [(-> & E' & H')|[? H']]; auto.
        * exfalso. apply (i_used _ _ Hi) in H'. destruct (string_dec (corr d) ""); [contradiction|].
          apply NoDup_app in Hnd as (_ & Hnd & _). apply (Hnd (corr d)); [tauto|set_solver].
        * exfalso. subst id. apply (i_used _ _ Hi) in H. destruct (string_dec (corr d) ""); [contradiction|].
          apply NoDup_app in Hnd as (_ & Hnd & _). apply (Hnd (corr d)); [tauto|set_solver].
        * eapply (i_unique _ _ Hi); eauto.
      + intros m Hm. destruct (i_requests _ _ Hi m Hm) as (j & d' & ? & ?). exists j, d'. split; [auto|]. apply Hown. auto.
      + intros m Hm. destruct (i_replies _ _ Hi m Hm) as (j & d' & r & ? & ? & ?). exists j, d', r. split; [auto|]. split; [apply Hown|]; auto.
      + intros k m Hm. destruct (i_inbox _ _ Hi k m Hm) as (j & d' & r & ? & ? & ?). exists j, d', r. split; [auto|]. split; [apply Hown|]; auto.
      + intros j d' r H. unfold s' in H. cbn in H. destruct (Nat.eq_dec j i) as [->|Hj];
          [rewrite set_eq in H; discriminate|rewrite set_ne in H by exact Hj]. eapply (i_done _ _ Hi); eauto.
      + intros j. unfold s'. cbn. destruct (Nat.eq_dec j i) as [->|Hj];
          [rewrite set_eq; discriminate|rewrite set_ne by exact Hj]. apply (i_panic _ _ Hi).
      + intros j d' H. unfold s' in H. cbn in H. destruct (Nat.eq_dec j i) as [->|Hj];
          [rewrite set_eq in H; injection H as <-|rewrite set_ne in H by exact Hj].
        * apply in_or_app. right. left. reflexivity.
        * apply (i_subscribed _ _ Hsame). exact H.
      + intros j d' H. apply (i_asked _ _ Hsame). apply Hown. exact H.
      + intros j. unfold s'. cbn. destruct (Nat.eq_dec j i) as [->|Hj];
          [auto|rewrite set_ne by exact Hj]. apply (i_bound _ _ Hi).
      + intros j d' H. rewrite Hown in H. unfold s' in H. cbn in H. destruct (Nat.eq_dec j i) as [->|Hj].
        * rewrite set_eq in H. destruct H as [[= <-]|H]; [apply (Hgood i), in_or_app; right; left; reflexivity|]. apply (i_good _ _ Hi i). auto.
        * rewrite set_ne in H by exact Hj. apply (i_good _ _ Hi j). exact H.
    - (* send *)
      destruct (requester s i) as [|d| | |] eqn:Hri; try exact Hsame.
      set (d1 := if string_dec (corr d) "" then set_corr uuid d else d).
      set (s' := mkSys _ _ _ _).
      cbn [names_in] in Hnd, Hne.
      assert (uuid <> ""%string) as Hu by (intros ->; apply Hne; set_solver).
      assert (identified corr set_corr uuid d d1) as Hid.
      { unfold identified, d1. destruct (string_dec (corr d) ""); auto. }
      assert (good d) as Gd by (apply (i_good _ _ Hi i); auto).
      assert (fine uuid) as Fu by (apply (Hfine i), in_or_app; right; left; reflexivity).
      assert (owns s' i d1) as Hnew by (left; unfold s'; cbn; apply set_eq).
      assert (forall j d', owns s' j d' <-> (j = i /\ d' = d1) \/ owns s j d') as Hown.
      { intros j d'. unfold owns, s'. cbn. destruct (Nat.eq_dec j i) as [->|Hj].
        - rewrite set_eq, Hri. split; [intros [H|[r H]]; [left; split; congruence|discriminate]|].
          intros [[_ ->]|[H|[r H]]]; [auto|discriminate|discriminate].
        - rewrite set_ne by exact Hj. tauto. }
      assert (forall j id, named s' j id ->
        (j = i /\ id = corr d1 /\ (named s i id \/ id = uuid)) \/ (j <> i /\ named s j id)) as Hnamed.
      { intros j id [(d' & H & <- & H')|(d' & H & <-)].
        - unfold s' in H. cbn in H. destruct (Nat.eq_dec j i) as [->|Hj].
          + rewrite set_eq in H. discriminate.
          + rewrite set_ne in H by exact Hj. right. split; [exact Hj|]. left. eauto.
        - apply Hown in H as [[-> ->]|H].
          + left. split; [auto|]. split; [auto|]. destruct Hid as [[H ->]|[H ->]]; [left; left; eauto|right; apply Hset; assumption].
          + right. split; [|right; eauto]. intros ->. destruct H as [H|[r H]]; congruence. }
      assert (forall j id, named s j id -> id <> uuid) as Hfresh.
      { intros j id H ->. apply (i_used _ _ Hi) in H. apply NoDup_app in Hnd as (_ & Hnd & _). apply (Hnd uuid); [tauto|set_solver]. }
      constructor.
      + intros j id H. apply Hnamed in H as [(_ & _ & [H| ->])|[_ H]]; try apply (i_used _ _ Hsame _ _ H).
        rewrite identifiers_app, identifiers_one. cbn. set_solver.
      + intros j k id H H'. apply Hnamed in H as [(-> & _ & H)|[? H]]; apply Hnamed in H' as [(-> & _ & H')|[? H']]; auto.
        * destruct H as [H|H]; [eapply (i_unique _ _ Hi); eauto|]. exfalso. eapply Hfresh; eauto.
        * destruct H' as [H'|H']; [eapply (i_unique _ _ Hi); eauto|]. exfalso. eapply Hfresh; eauto.
        * eapply (i_unique _ _ Hi); eauto.
      + intros m Hm. cbn in Hm. apply elem_of_app in Hm as [Hm|Hm].
        * destruct (i_requests _ _ Hi m Hm) as (j & d' & ? & ?). exists j, d'. split; [auto|]. apply Hown. auto.
        * apply elem_of_list_singleton in Hm as ->. exists i, d1. auto.
      + intros m Hm. destruct (i_replies _ _ Hi m Hm) as (j & d' & r & ? & ? & ?). exists j, d', r. split; [auto|]. split; [apply Hown|]; auto.
      + intros k m Hm. destruct (i_inbox _ _ Hi k m Hm) as (j & d' & r & ? & ? & ?). exists j, d', r. split; [auto|]. split; [apply Hown|]; auto.
      + intros j d' r H. unfold s' in H. cbn in H. destruct (Nat.eq_dec j i) as [->|Hj];
          [rewrite set_eq in H; discriminate|rewrite set_ne in H by exact Hj]. eapply (i_done _ _ Hi); eauto.
      + intros j. unfold s'. cbn. destruct (Nat.eq_dec j i) as [->|Hj];
          [rewrite set_eq; discriminate|rewrite set_ne by exact Hj]. apply (i_panic _ _ Hi).
      + intros j d' H. unfold s' in H. cbn in H. destruct (Nat.eq_dec j i) as [->|Hj];
          [rewrite set_eq in H; discriminate|rewrite set_ne in H by exact Hj]. apply (i_subscribed _ _ Hsame). exact H.
      + intros j d' H. apply Hown in H as [[-> ->]|H]; [|apply (i_asked _ _ Hsame); exact H].
        exists d, uuid. split; [apply (i_subscribed _ _ Hsame); exact Hri|]. split; [apply in_or_app; right; left; reflexivity|exact Hid].
      + intros j. unfold s'. cbn. destruct (Nat.eq_dec j i) as [->|Hj]; [|rewrite set_ne by exact Hj; apply (i_bound _ _ Hi)].
        intros _. apply (i_bound _ _ Hi). congruence.
      + intros j d' H. rewrite Hown in H. destruct H as [H|[[-> ->]|H]].
        * unfold s' in H. cbn in H. destruct (Nat.eq_dec j i) as [->|Hj]; [rewrite set_eq in H; discriminate|].
          rewrite set_ne in H by exact Hj. apply (i_good _ _ Hi j). auto.
        * destruct Hid as [[_ ->]|[_ ->]]; [exact Gd|]. apply Hset; assumption.
        * apply (i_good _ _ Hi j). auto.
    - (* serve *)
      destruct (requests s) as [|m rest] eqn:Hreq; [exact Hsame|].
      destruct (i_requests _ _ Hi m) as (i & d & -> & Hd); [rewrite Hreq; set_solver|]. destruct (owned_corr _ _ _ _ Hi Hd) as [Gd Hd']. rewrite (Hcodec d (or_introl Gd)).
      destruct (reply_to_answers newid uuid d Gd Hd') as (r & -> & Hr).
      apply (inv_same os _ s _ Hi); cbn; auto.
      + intros m Hm. rewrite Hreq. set_solver.
      + intros m Hm. apply elem_of_app in Hm as [Hm|Hm]; [apply (i_replies _ _ Hi); exact Hm|].
        apply elem_of_list_singleton in Hm as ->. exists i, d, r. auto.
      + apply (i_inbox _ _ Hi).
    - (* deliver *)
      destruct (replies s) as [|m rest] eqn:Hrep; [exact Hsame|].
      assert (reply_in s m) as Hm by (apply (i_replies _ _ Hi); rewrite Hrep; set_solver).
      assert (forall m', m' ∈ rest -> reply_in s m') as Hrest by (intros; apply (i_replies _ _ Hi); rewrite Hrep; set_solver).
      destruct mode.
      + apply (inv_same os _ s _ Hi); cbn; auto. intros j m' H. destruct (live (requester s j)); [|eapply (i_inbox _ _ Hi); eauto].
        apply elem_of_app in H as [H|H]; [eapply (i_inbox _ _ Hi); eauto|]. apply elem_of_list_singleton in H as ->. exact Hm.
      + destruct (live (requester s i)).
        * apply (inv_same os _ s _ Hi); cbn; auto. intros j m' H. destruct (Nat.eq_dec j i) as [->|Hj].
          -- rewrite set_eq in H.
             apply elem_of_app in H as [H|H]; [eapply (i_inbox _ _ Hi); eauto|]. apply elem_of_list_singleton in H as ->. exact Hm.
          -- rewrite set_ne in H by exact Hj. eapply (i_inbox _ _ Hi); eauto.
        * destruct (someone n s); [exact Hsame|]. apply (inv_same os _ s _ Hi); cbn; auto. apply (i_inbox _ _ Hi).
    - (* receive *)
      destruct (requester s i) as [| |sent| |] eqn:Hri; try exact Hsame.
      destruct (inbox s i) as [|m rest] eqn:Hin; [exact Hsame|].
      destruct (i_inbox _ _ Hi i m) as (j & d & r & -> & Hd & Hr); [rewrite Hin; set_solver|].
      destruct (owned_corr _ _ _ _ Hi Hd) as [Gd Hd']. destruct (answer_corr _ _ Gd Hd' Hr) as [Gr Cr].
      rewrite wait_reply by exact Gr. destruct (string_dec (corr sent) (corr r)) as [Heq|Hneq].
      + rewrite Cr in Heq.
        assert (owns s i sent) as Hs by (left; exact Hri).
        destruct (owner _ _ i j sent d Hi Hs Hd Heq) as [<- <-].
        set (s' := mkSys _ _ _ _).
        assert (forall k d', owns s' k d' <-> owns s k d') as Hown.
        { intros k d'. unfold owns, s'. cbn. destruct (Nat.eq_dec k i) as [->|Hk].
          - rewrite set_eq, Hri. split; intros [H|[r' H]]; try discriminate.
            + left. congruence.
            + right. exists (arrived r). congruence.
          - rewrite set_ne by exact Hk. tauto. }
        assert (forall k id, named s' k id -> named s k id) as Hnamed.
        { intros k id [(d' & H & <- & H')|(d' & H & <-)]; [|right; exists d'; split; [apply Hown|]; auto].
          unfold s' in H. cbn in H. destruct (Nat.eq_dec k i) as [->|Hk]; [rewrite set_eq in H; discriminate|].
          rewrite set_ne in H by exact Hk. left. eauto. }
        constructor.
        * intros k id H. apply (i_used _ _ Hsame k). auto.
        * intros j k id H H'. eapply (i_unique _ _ Hi); eauto.
        * intros m Hm. destruct (i_requests _ _ Hi m Hm) as (k & d' & ? & ?). exists k, d'. split; [auto|]. apply Hown. auto.
        * intros m Hm. destruct (i_replies _ _ Hi m Hm) as (k & d' & r' & ? & ? & ?). exists k, d', r'. split; [auto|]. split; [apply Hown|]; auto.
        * intros k m Hm. unfold s' in Hm. cbn in Hm. destruct (Nat.eq_dec k i) as [->|Hk]; [rewrite set_eq in Hm; set_solver|].
          rewrite set_ne in Hm by exact Hk.
          destruct (i_inbox _ _ Hi k m Hm) as (k' & d' & r' & ? & ? & ?). exists k', d', r'. split; [auto|]. split; [apply Hown|]; auto.
        * intros k d' r' H. unfold s' in H. cbn in H. destruct (Nat.eq_dec k i) as [->|Hk];
            [rewrite set_eq in H; injection H as <- <-; destruct Hr as [newid ->]; exists newid; reflexivity|rewrite set_ne in H by exact Hk]. eapply (i_done _ _ Hi); eauto.
        * intros k. unfold s'. cbn. destruct (Nat.eq_dec k i) as [->|Hk];
            [rewrite set_eq; discriminate|rewrite set_ne by exact Hk]. apply (i_panic _ _ Hi).
        * intros k d' H. unfold s' in H. cbn in H. destruct (Nat.eq_dec k i) as [->|Hk];
            [rewrite set_eq in H; discriminate|rewrite set_ne in H by exact Hk]. apply (i_subscribed _ _ Hsame). exact H.
        * intros k d' H. apply (i_asked _ _ Hsame). apply Hown. exact H.
        * intros k. unfold s'. cbn. destruct (Nat.eq_dec k i) as [->|Hk]; [|rewrite set_ne by exact Hk; apply (i_bound _ _ Hi)].
          intros _. apply (i_bound _ _ Hi). congruence.
        * intros k d' H. rewrite Hown in H. apply (i_good _ _ Hi k). destruct H as [H|H]; [|auto]. unfold s' in H. cbn in H.
          destruct (Nat.eq_dec k i) as [->|Hk]; [rewrite set_eq in H; discriminate|]. rewrite set_ne in H by exact Hk. auto.
      + apply (inv_same os _ s _ Hi); cbn; auto; [apply (i_replies _ _ Hi)|]. intros k m Hm. destruct (Nat.eq_dec k i) as [->|Hk].
        * rewrite set_eq in Hm. apply (i_inbox _ _ Hi i). rewrite Hin. set_solver.
        * rewrite set_ne in Hm by exact Hk. eapply (i_inbox _ _ Hi); eauto.
  Qed.

  Lemma sched_prefix os os' : sched (os ++ os') -> sched os.
  Proof.
    intros [[Hnd Hne] [H1 H2]]. rewrite identifiers_app in Hnd, Hne. split; [split; [apply NoDup_app in Hnd; tauto|set_solver]|].
    split; intros i x Hin; [apply (H1 i)|apply (H2 i)]; apply in_or_app; auto.
  Qed.

  Lemma run_app os os' s : run (os ++ os') s = run os' (run os s).
  Proof. unfold srun. apply fold_left_app. Qed.

  Lemma inv_run os : sched os -> inv os (run os start).
  Proof.
    induction os as [|o os IH] using rev_ind; intros Hd; [exact inv_start|].
    rewrite run_app. cbn. apply inv_step; [|exact Hd]. apply IH. eapply sched_prefix; eauto.
  Qed.

  (** Nothing lost: the answer to each waiting request is on its way. *)
  Definition kept (s : system) : Prop :=
    forall i d, requester s i = RWaiting d ->
      encode d ∈ requests s \/ exists r, sends d r /\ (encode r ∈ replies s \/ encode r ∈ inbox s i).

  Lemma kept_step os o s :
    inv os s -> kept s -> (mode = OneOfGroup -> alone s) -> kept (step s o).
  Proof.
    intros Hi Hk Hone.
    destruct o as [i d|i uuid|newid uuid|i|i]; cbn [sstep].
    - destruct (requester s i) eqn:Hri; try exact Hk. destruct (Nat.ltb i n); [|exact Hk].
      intros j d' H. cbn in *. destruct (Nat.eq_dec j i) as [->|Hj]; [rewrite set_eq in H; discriminate|].
      rewrite set_ne in H by exact Hj. apply Hk. exact H.
    - destruct (requester s i) as [|d| | |] eqn:Hri; try exact Hk.
      intros j d' H. cbn in *. destruct (Nat.eq_dec j i) as [->|Hj].
      + rewrite set_eq in H. injection H as <-. left. set_solver.
      + rewrite set_ne in H by exact Hj. destruct (Hk j d' H) as [?|?]; [left; set_solver|auto].
    - destruct (requests s) as [|m rest] eqn:Hreq; [exact Hk|].
      destruct (i_requests _ _ Hi m) as (i & d & -> & Hd); [rewrite Hreq; set_solver|]. destruct (owned_corr _ _ _ _ Hi Hd) as [Gd Hd']. rewrite (Hcodec d (or_introl Gd)).
      destruct (reply_to_answers newid uuid d Gd Hd') as (r & -> & Hr).
      intros j d' H. cbn in *. destruct (Hk j d' H) as [Hq|(r' & Hr' & Hq)]; [|right; exists r'; set_solver].
      rewrite Hreq in Hq. apply elem_of_cons in Hq as [Hq|Hq]; [|auto].
      assert (d' = d) as ->.
      { assert (owns s j d') as Hd1 by (left; exact H). destruct (owned_corr _ _ _ _ Hi Hd1) as [Gd1 _].
        destruct (owner _ _ _ _ _ _ Hi Hd1 Hd (same_sent _ _ (or_introl Gd1) (or_introl Gd) Hq)). assumption. }
      right. exists r. split; [exact Hr|]. left. set_solver.
    - destruct (replies s) as [|m rest] eqn:Hrep; [exact Hk|].
      destruct mode.
      + intros j d' H. cbn in *. destruct (Hk j d' H) as [?|(r & Hr & Hq)]; [auto|]. right. exists r. split; [exact Hr|].
        rewrite H. cbn. rewrite Hrep in Hq. set_solver.
      + destruct (live (requester s i)) eqn:Hl.
        * intros j d' H. cbn in *. destruct (Hk j d' H) as [?|(r & Hr & Hq)]; [auto|]. right. exists r. split; [exact Hr|].
          assert (j = i) as ->. { apply (Hone eq_refl); [rewrite H; reflexivity|exact Hl]. }
          rewrite set_eq. rewrite Hrep in Hq. set_solver.
        * destruct (someone n s) eqn:Hs; [exact Hk|].
          intros j d' H. cbn in *. exfalso. assert (j < n) as Hj by (apply (i_bound _ _ Hi); congruence).
          apply not_true_iff_false in Hs. apply Hs. unfold someone. apply existsb_exists. exists j. rewrite H.
          split; [apply in_seq; lia|reflexivity].
    - destruct (requester s i) as [| |sent| |] eqn:Hri; try exact Hk.
      destruct (inbox s i) as [|m rest] eqn:Hin; [exact Hk|].
      destruct (i_inbox _ _ Hi i m) as (j & d & r & -> & Hd & Hr); [rewrite Hin; set_solver|].
      destruct (owned_corr _ _ _ _ Hi Hd) as [Gd Hd']. destruct (answer_corr _ _ Gd Hd' Hr) as [Gr Cr].
      rewrite wait_reply by exact Gr. destruct (string_dec (corr sent) (corr r)) as [Heq|Hneq].
      + intros k d' H. cbn in *. destruct (Nat.eq_dec k i) as [->|Hki]; [rewrite set_eq in H; discriminate|].
        rewrite set_ne in H by exact Hki. rewrite set_ne by exact Hki. apply Hk. exact H.
      + intros k d' H. cbn in *. destruct (Hk k d' H) as [?|(r' & Hr' & Hq)]; [auto|]. right. exists r'. split; [exact Hr'|].
        destruct (Nat.eq_dec k i) as [->|Hki]; [rewrite set_eq|rewrite set_ne by exact Hki; exact Hq].
        destruct Hq as [Hq|Hq]; [auto|]. rewrite Hin in Hq. apply elem_of_cons in Hq as [Hq|Hq]; [|auto].
        exfalso. assert (owns s i d') as Hd1 by (left; exact H). destruct (owned_corr _ _ _ _ Hi Hd1) as [Gd1 Hd1'].
        destruct (answer_corr _ _ Gd1 Hd1' Hr') as [Gr1 Cr1]. apply Hneq. rewrite <- (same_sent _ _ (or_intror Gr1) (or_intror Gr) Hq), Cr1. congruence.
  Qed.

  Lemma kept_run os :
    sched os -> (mode = OneOfGroup -> forall os1 os2, os = os1 ++ os2 -> alone (run os1 start)) -> kept (run os start).
  Proof.
    induction os as [|o os IH] using rev_ind; intros Hd Hone; [intros i d H; discriminate|].
    rewrite run_app. cbn. assert (sched os) as Hd' by (eapply sched_prefix; eauto).
    eapply kept_step; [apply inv_run; exact Hd'| |].
    - apply IH; [exact Hd'|]. intros Hm os1 os2 ->. apply (Hone Hm os1 (os2 ++ [o])). rewrite app_assoc. reflexivity.
    - intros Hm. apply (Hone Hm os [o]). reflexivity.
  Qed.

  Lemma kept_drained s : kept s -> drained s -> forall i, ~ waiting s i.
  Proof.
    intros Hk (H1 & H2 & H3) i [d Hw]. destruct (Hk i d Hw) as [Hq|(r & _ & [Hq|Hq])];
      [rewrite H1 in Hq|rewrite H2 in Hq|rewrite (H3 i d Hw) in Hq]; set_solver.
  Qed.

  (** The work left. *)
  Definition total (f : nat -> nat) : nat := sum_list (map f (seq 0 n)).
  Definition work (s : system) : nat :=
    (n + 2) * List.length (requests s) + (n + 1) * List.length (replies s) + total (fun i => List.length (inbox s i)).

  Lemma sum_le (f g : nat -> nat) l k : (forall i, f i <= g i + k) -> sum_list (map f l) <= sum_list (map g l) + k * List.length l.
  Proof. intros H. induction l as [|x l IH]; cbn; [lia|]. specialize (H x). nia. Qed.
  Lemma total_set (f : nat -> nat) i x : i < n -> total (set i x f) + f i = total f + x.
  Proof.
    intros H. unfold total. assert (forall a k, a <= i < a + k -> sum_list (map (set i x f) (seq a k)) + f i = sum_list (map f (seq a k)) + x) as G.
    { intros a k. revert a. induction k as [|k IH]; intros a Ha; cbn; [lia|]. destruct (Nat.eq_dec a i) as [->|Hne].
      - rewrite set_eq. assert (forall b k', i < b -> sum_list (map (set i x f) (seq b k')) = sum_list (map f (seq b k'))) as G.
        { intros b k'. revert b. induction k' as [|k' IH']; intros b Hb; cbn; [reflexivity|]. rewrite set_ne by lia. rewrite IH' by lia. reflexivity. }
        rewrite G by lia. lia.
      - rewrite set_ne by exact Hne. specialize (IH (S a)). lia. }
    apply G. lia.
  Qed.
  Lemma total_le (f g : nat -> nat) : (forall i, f i <= g i + 1) -> total f <= total g + n.
  Proof. intros H. unfold total. pose proof (sum_le f g (seq 0 n) 1 H). rewrite seq_length in *. lia. Qed.
  Lemma total_ext (f g : nat -> nat) : (forall i, f i = g i) -> total f = total g.
  Proof. intros H. unfold total. f_equal. apply map_ext. exact H. Qed.

  Lemma work_step os o s : inv os s -> possible mode s o -> work (step s o) < work s.
  Proof.
    intros Hi Hp. destruct o as [i d|i uuid|newid uuid|i|i]; cbn [possible] in Hp; try contradiction; cbn [sstep].
    - destruct (requests s) as [|m rest] eqn:Hreq; [contradiction|].
      destruct (i_requests _ _ Hi m) as (i & d & -> & Hd); [rewrite Hreq; set_solver|]. rewrite Hcodec by (left; eapply owned_corr; eauto).
      destruct (reply_to _ _ _ _ _ _ _); unfold work; rewrite Hreq; cbn; rewrite app_length; cbn; nia.
    - destruct Hp as [Hp Hg]. destruct (replies s) as [|m rest] eqn:Hrep; [contradiction|]. destruct mode.
      + unfold work. rewrite Hrep. cbn.
        assert (total (fun j => List.length (if live (requester s j) then inbox s j ++ [m] else inbox s j)) <= total (fun j => List.length (inbox s j)) + n).
        { apply total_le. intros j. destruct (live (requester s j)); [rewrite app_length; cbn|]; lia. }
        nia.
      + destruct (live (requester s i)) eqn:Hl.
        * unfold work. rewrite Hrep. cbn.
          rewrite (total_ext _ (set i (List.length (inbox s i ++ [m])) (fun j => List.length (inbox s j)))).
          2: { intros j. destruct (Nat.eq_dec j i) as [->|Hj]; [rewrite !set_eq|rewrite !set_ne by exact Hj]; reflexivity. }
          pose proof (total_set (fun j => List.length (inbox s j)) i (List.length (inbox s i ++ [m]))) as Ht.
          assert (i < n) as Hn by (apply (i_bound _ _ Hi); intros Hidle; rewrite Hidle in Hl; discriminate).
          specialize (Ht Hn). cbn in Ht. rewrite app_length in *. cbn in *. nia.
        * destruct (Hg eq_refl) as [?|Hnone]; [congruence|].
          assert (someone n s = false) as ->.
          { unfold someone. apply not_true_iff_false. intros H. apply existsb_exists in H as (j & _ & H). rewrite Hnone in H. discriminate. }
          unfold work. rewrite Hrep. cbn. nia.
    - destruct Hp as [[sent Hw] Hin]. rewrite Hw. destruct (inbox s i) as [|m rest] eqn:Hib; [contradiction|].
      assert (i < n) as Hn by (apply (i_bound _ _ Hi); congruence).
      assert (forall rq (l : list M), List.length l < List.length (inbox s i) -> work (mkSys rq (set i l (inbox s)) (requests s) (replies s)) < work s) as G.
      { intros rq l Hl. unfold work. cbn.
        rewrite (total_ext _ (set i (List.length l) (fun j => List.length (inbox s j)))).
        2: { intros j. destruct (Nat.eq_dec j i) as [->|Hj]; [rewrite !set_eq|rewrite !set_ne by exact Hj]; reflexivity. }
        pose proof (total_set (fun j => List.length (inbox s j)) i (List.length l) Hn) as Ht. cbn in Ht. lia. }
      destruct (wait_next _ _ _ _ _ _ _) as [[d| |] a]; apply G; rewrite Hib; cbn; lia.
  Qed.

  (** A service step adds no identifier. *)
  Lemma possible_names o (s : system) : possible mode s o -> names_in corr o = [].
  Proof. destruct o; cbn; tauto. Qed.
  Lemma busy_names os (s : system) : busy step mode s os -> identifiers corr os = [].
  Proof.
    revert s. induction os as [|o os IH]; intros s; [reflexivity|]. intros [Hp Hb].
    change (o :: os) with ([o] ++ os). rewrite identifiers_app, identifiers_one, (possible_names o s Hp). eapply IH; eauto.
  Qed.
  Lemma sched_possible os o (s : system) : sched os -> possible mode s o -> sched (os ++ [o]).
  Proof.
    intros [[H1 H2] [H3 H4]] H. split.
    - unfold distinct. rewrite identifiers_app, identifiers_one, (possible_names o s H), app_nil_r. auto.
    - split; intros i x Hin; apply in_app_or in Hin as [Hin|[->|[]]]; eauto; cbn in H; contradiction.
  Qed.

  Lemma busy_inv os' : forall os s, inv os s -> sched os -> busy step mode s os' ->
    inv (os ++ os') (run os' s) /\ List.length os' + work (run os' s) <= work s.
  Proof.
    induction os' as [|o os' IH]; intros os s Hi Hd Hb.
    - rewrite app_nil_r. cbn. split; [exact Hi|lia].
    - destruct Hb as [Hp Hb].
      assert (sched (os ++ [o])) as Hd1 by (eapply sched_possible; eauto).
      destruct (IH (os ++ [o]) (step s o)) as [IH1 IH2]; [apply inv_step; assumption|exact Hd1|exact Hb|].
      rewrite <- app_assoc in IH1. split; [exact IH1|]. change (run (o :: os') s) with (run os' (step s o)). cbn [List.length]. pose proof (work_step os o s Hi Hp). lia.
  Qed.

  Lemma search (P : nat -> Prop) (dec : forall i, Decision (P i)) k : (exists i, P i) \/ (forall i, i < k -> ~ P i).
  Proof.
    induction k as [|k [IH|IH]]; [right; intros; lia|auto|]. destruct (dec k) as [H|H]; [eauto|]. right. intros i Hi.
    destruct (Nat.eq_dec i k) as [->|]; [exact H|]. apply IH. lia.
  Qed.

  Lemma possible_or_idle os s : inv os s -> (exists o, possible mode s o) \/ drained s.
  Proof.
    intros Hi. destruct (requests s) as [|m rest] eqn:H1; [|left; exists (SServe "" ""); cbn; rewrite H1; discriminate].
    destruct (replies s) as [|m rest] eqn:H2.
    - destruct (search (fun i => waiting s i /\ inbox s i <> [])) with (k := n) as [[i H]|H].
      + intros i. unfold waiting. destruct (requester s i) as [| |sent| |]; try (right; intros [[sent' H] _]; discriminate).
        destruct (inbox s i) as [|m rest]; [right; intros [_ H]; contradiction|left; split; [eauto|discriminate]].
      + left. exists (SReceive i). exact H.
      + right. split; [exact H1|]. split; [exact H2|]. intros i sent Hw. destruct (inbox s i) as [|m rest] eqn:Hin; [reflexivity|].
        exfalso. apply (H i); [apply (i_bound _ _ Hi); congruence|]. split; [exists sent; exact Hw|]. rewrite Hin. discriminate.
    - left. destruct (search (fun i => live (requester s i) = true)) with (k := n) as [[i H]|H].
      + intros i. unfold Decision. decide equality.
      + exists (SDeliver i). cbn. rewrite H2. split; [discriminate|]. auto.
      + exists (SDeliver 0). cbn. rewrite H2. split; [discriminate|]. intros _. right. intros j. destruct (live (requester s j)) eqn:Hl; [|reflexivity].
        exfalso. apply (H j); [|exact Hl]. apply (i_bound _ _ Hi). intros H0. rewrite H0 in Hl. discriminate.
  Qed.

  Lemma idle_drained os s : inv os s -> idle mode s -> drained s.
  Proof. intros Hi H. destruct (possible_or_idle os s Hi) as [[o Ho]|Hd]; [|exact Hd]. destruct (H o Ho). Qed.
  Lemma drained_idle (s : system) : drained s -> idle mode s.
  Proof.
    intros (H1 & H2 & H3) o. destruct o; cbn; try tauto.
    intros [[sent Hw] Hn]. apply Hn. eapply H3; eauto.
  Qed.

  Lemma can_finish k : forall os s, inv os s -> sched os -> work s <= k -> exists os', busy step mode s os' /\ idle mode (run os' s).
  Proof.
    induction k as [|k IH]; intros os s Hi Hd Hk.
    - exists []. split; [exact I|]. intros o Hp. pose proof (work_step os o s Hi Hp). lia.
    - destruct (possible_or_idle os s Hi) as [[o Ho]|Hdr]; [|exists []; split; [exact I|apply drained_idle; exact Hdr]].
      assert (sched (os ++ [o])) as Hd1 by (eapply sched_possible; eauto).
      destruct (IH (os ++ [o]) (step s o)) as (os' & Hb & Hidle); [apply inv_step; assumption|exact Hd1| |].
      { pose proof (work_step os o s Hi Ho). lia. }
      exists (o :: os'). split; [split; assumption|exact Hidle].
  Qed.

  (** A request once sent stays the same. *)
  Lemma owns_step os o s i d : inv os s -> owns s i d -> owns (step s o) i d.
  Proof.
    intros Hi H. destruct o as [j d'|j uuid|newid uuid|j|j]; cbn [sstep].
    - destruct (requester s j) eqn:Hj; try exact H. destruct (Nat.ltb j n); [|exact H].
      unfold owns in *. cbn. destruct (Nat.eq_dec i j) as [->|Hne]; [rewrite Hj in H; destruct H as [H|[r H]]; discriminate|].
      rewrite set_ne by exact Hne. exact H.
    - destruct (requester s j) eqn:Hj; try exact H.
      unfold owns in *. cbn. destruct (Nat.eq_dec i j) as [->|Hne]; [rewrite Hj in H; destruct H as [H|[r H]]; discriminate|].
      rewrite set_ne by exact Hne. exact H.
    - destruct (requests s) as [|m rest]; [exact H|]. destruct (decode m) as [req err]. exact H.
    - destruct (replies s) as [|m rest]; [exact H|]. destruct mode; [exact H|]. destruct (live (requester s j)); [exact H|].
      destruct (someone n s); exact H.
    - destruct (requester s j) as [| |sent| |] eqn:Hj; try exact H. destruct (inbox s j) as [|m rest] eqn:Hin; [exact H|].
      destruct (i_inbox _ _ Hi j m) as (j' & d' & r & -> & Hd & Hr); [rewrite Hin; set_solver|].
      destruct (owned_corr _ _ _ _ Hi Hd) as [Gd Hd']. destruct (answer_corr _ _ Gd Hd' Hr) as [Gr _].
      rewrite wait_reply by exact Gr. destruct (string_dec (corr sent) (corr r)); [|exact H].
      unfold owns in *. cbn. destruct (Nat.eq_dec i j) as [->|Hne]; [|rewrite set_ne by exact Hne; exact H].
      rewrite set_eq. right. exists (arrived r). rewrite Hj in H. destruct H as [H|[r' H]]; congruence.
  Qed.
  Lemma owns_busy os' : forall os s i d, inv os s -> sched os -> busy step mode s os' -> owns s i d -> owns (run os' s) i d.
  Proof.
    induction os' as [|o os' IH]; intros os s i d Hi Hd Hb H; [exact H|]. destruct Hb as [Hp Hb].
    assert (sched (os ++ [o])) as Hd1 by (eapply sched_possible; eauto).
    apply (IH (os ++ [o]) (step s o)); [apply inv_step; assumption|exact Hd1|exact Hb|]. eapply owns_step; eauto.
  Qed.

  (** Nobody subscribes during the work: one alone stays so. *)
  Lemma alone_step os o s : inv os s -> possible mode s o -> alone s -> alone (step s o).
  Proof.
    intros Hi Hp Ha. assert (forall i, live (requester (step s o) i) = true -> live (requester s i) = true) as G.
    { intros i. destruct o as [j d'|j uuid|newid uuid|j|j]; cbn [possible] in Hp; try contradiction; cbn [sstep].
      - destruct (requests s) as [|m rest]; [auto|]. destruct (decode m) as [req err]. auto.
      - destruct (replies s) as [|m rest]; [auto|]. destruct mode; [auto|]. destruct (live (requester s j)); [auto|].
        destruct (someone n s); auto.
      - destruct (requester s j) as [| |sent| |] eqn:Hj; auto. destruct (inbox s j) as [|m rest]; [auto|].
        destruct (wait_next _ _ _ _ _ _ _) as [[d| |] a]; cbn; auto;
          (destruct (Nat.eq_dec i j) as [->|Hne]; [rewrite set_eq; discriminate|rewrite set_ne by exact Hne; auto]). }
    intros i j H H'. apply Ha; auto.
  Qed.

  Lemma kept_busy os' : forall os s, inv os s -> sched os -> busy step mode s os' -> kept s -> (mode = OneOfGroup -> alone s) ->
    kept (run os' s).
  Proof.
    induction os' as [|o os' IH]; intros os s Hi Hd Hb Hk Ha; [exact Hk|]. destruct Hb as [Hp Hb].
    assert (sched (os ++ [o])) as Hd1 by (eapply sched_possible; eauto).
    apply (IH (os ++ [o]) (step s o)); [apply inv_step; assumption|exact Hd1|exact Hb| |].
    - eapply kept_step; eauto.
    - intros Hm. eapply alone_step; eauto.
  Qed.

  Lemma finishes os :
    sched os -> (mode = OneOfGroup -> forall os1 os2, os = os1 ++ os2 -> alone (run os1 start)) ->
    forall os', busy step mode (run os start) os' -> idle mode (run os' (run os start)) ->
    forall i d, requester (run os start) i = RWaiting d -> exists r, requester (run os' (run os start)) i = RDone d r /\ answers d r.
  Proof.
    intros Hd Ha os' Hb Hidle i d Hw. pose proof (inv_run os Hd) as Hi.
    destruct (busy_inv os' os _ Hi Hd Hb) as [Hi' _].
    assert (kept (run os' (run os start))) as Hk.
    { apply (kept_busy os' os); auto; [apply kept_run; assumption|]. intros Hm. apply (Ha Hm os []). rewrite app_nil_r. reflexivity. }
    assert (owns (run os' (run os start)) i d) as [H|[r H]] by (apply (owns_busy os' os); auto; left; exact Hw).
    - exfalso. apply (kept_drained _ Hk (idle_drained _ _ Hi' Hidle) i). exists d. exact H.
    - exists r. split; [exact H|]. eapply (i_done _ _ Hi'); eauto.
  Qed.
End proof.
