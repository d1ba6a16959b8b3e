(** The JetStream controller, after any history. *)
From stdpp Require Import gmap strings list.
From Coq Require Import Lia.
From Verif.Model Require Import JetStream.
From Verif.Spec Require Import JetStreamSpec.
From Verif.Proof Require Import JetStreamProof.

(** What is added at the end of a history. *)
Lemma snoc_split {A} (l : list A) x pre e post : l ++ [x] = pre ++ e :: post -> (post = [] /\ pre = l /\ e = x) \/ exists post', post = post' ++ [x] /\ l = pre ++ e :: post'.
Proof.
  intros H. destruct post as [|y post' _] using rev_ind.
  - left. apply app_inj_tail in H as [-> ->]. done.
  - right. exists post'. rewrite app_comm_cons, app_assoc in H. apply app_inj_tail in H as [-> ->]. done.
Qed.

Lemma released_mono h h' p p' ch : released h p ch -> (forall e, e ∈ h -> e ∈ h') -> (forall e, e ∈ p -> e ∈ p') -> released h' p' ch.
Proof. intros (k & H1 & H2) A B. exists k. auto. Qed.
Lemma released_snoc_fresh h post e ch : (forall n c, e = EvSubscribed n c -> EvCancelled n ∉ h) -> (forall x, x ∈ post -> x ∈ h) ->
  (forall n, e <> EvCancelled n) -> released (h ++ [e]) (post ++ [e]) ch <-> released h post ch.
Proof.
  intros F S N. split.
  - intros (k & Hk & Hs). apply elem_of_app in Hk as [Hk|Hk]; [|apply elem_of_list_singleton in Hk; by destruct (N k)].
    apply elem_of_app in Hs as [Hs|Hs]; [by exists k|]. apply elem_of_list_singleton in Hs. destruct (F k ch); auto.
  - intros (k & Hk & Hs). exists k. rewrite !elem_of_app. auto.
Qed.
Lemma released_snoc_cancel h post n ch : released (h ++ [EvCancelled n]) (post ++ [EvCancelled n]) ch <-> released h post ch \/ EvSubscribed n ch ∈ h.
Proof.
  split.
  - intros (k & Hk & Hs). apply elem_of_app in Hs as [Hs|Hs]; [|by apply elem_of_list_singleton in Hs].
    apply elem_of_app in Hk as [Hk|Hk]; [left; by exists k|]. apply elem_of_list_singleton in Hk as [= ->]. auto.
  - intros [(k & Hk & Hs)|Hs]; [exists k|exists n]; rewrite !elem_of_app, ?elem_of_list_singleton; auto.
Qed.
Lemma released_nil h ch : ~ released h [] ch.
Proof. intros (k & H & _). by apply elem_of_nil in H. Qed.

Definition asked (e : jev) (ch : string) : Prop := e = EvFailed ch \/ exists n, e = EvSubscribed n ch.
Lemma listed_ask h e ch : (forall n c, e = EvSubscribed n c -> EvCancelled n ∉ h) -> (forall n, e <> EvCancelled n) ->
  listed (h ++ [e]) ch <-> asked e ch \/ listed h ch.
Proof.
  intros F N. split.
  - intros (pre & e' & post & E & A & R). apply snoc_split in E as [(-> & -> & ->)|(post' & -> & ->)]; [by left|right].
    exists pre, e', post'. split; [done|]. split; [done|]. intros R'. apply R. apply released_snoc_fresh; [done| |done|done]. intros x Hx. rewrite elem_of_app, elem_of_cons. auto.
  - intros [A|(pre & e' & post & -> & A & R)].
    + exists h, e, []. split; [done|]. split; [done|]. apply released_nil.
    + exists pre, e', (post ++ [e]). split; [by rewrite <- app_assoc|]. split; [done|]. rewrite released_snoc_fresh; [done|done| |done]. intros x Hx. rewrite elem_of_app, elem_of_cons. auto.
Qed.
Lemma listed_cancel h n ch : listed (h ++ [EvCancelled n]) ch <-> listed h ch /\ EvSubscribed n ch ∉ h.
Proof.
  split.
  - intros (pre & e' & post & E & A & R). apply snoc_split in E as [(-> & -> & ->)|(post' & -> & ->)]; [by destruct A as [?|[? ?]]|].
    rewrite released_snoc_cancel in R. split; [|tauto]. exists pre, e', post'. split; [done|]. split; [done|]. tauto.
  - intros [(pre & e' & post & -> & A & R) S]. exists pre, e', (post ++ [EvCancelled n]). split; [by rewrite <- app_assoc|]. split; [done|]. rewrite released_snoc_cancel. tauto.
Qed.
Lemma attached_ask h e n ch : (forall n c, e = EvSubscribed n c -> EvCancelled n ∉ h) -> (forall n, e <> EvCancelled n) ->
  attached (h ++ [e]) n ch <-> e = EvSubscribed n ch \/ attached h n ch.
Proof.
  intros F N. split.
  - intros (pre & post & E & R). apply snoc_split in E as [(-> & -> & ->)|(post' & -> & ->)]; [by left|right].
    exists pre, post'. split; [done|]. intros R'. apply R. apply released_snoc_fresh; [done| |done|done]. intros x Hx. rewrite elem_of_app, elem_of_cons. auto.
  - intros [->|(pre & post & -> & R)].
    + exists h, []. split; [done|]. apply released_nil.
    + exists pre, (post ++ [e]). split; [by rewrite <- app_assoc|]. rewrite released_snoc_fresh; [done|done| |done]. intros x Hx. rewrite elem_of_app, elem_of_cons. auto.
Qed.
Lemma attached_cancel h k n ch : attached (h ++ [EvCancelled k]) n ch <-> attached h n ch /\ EvSubscribed k ch ∉ h.
Proof.
  split.
  - intros (pre & post & E & R). apply snoc_split in E as [(-> & -> & E)|(post' & -> & ->)]; [done|].
    rewrite released_snoc_cancel in R. split; [|tauto]. exists pre, post'. split; [done|]. tauto.
  - intros [(pre & post & -> & R) S]. exists pre, (post ++ [EvCancelled k]). split; [by rewrite <- app_assoc|]. rewrite released_snoc_cancel. tauto.
Qed.
Lemma attached_listed h n ch : attached h n ch -> listed h ch.
Proof. intros (pre & post & E & R). exists pre, (EvSubscribed n ch), post. split; [done|]. split; [|done]. right. by exists n. Qed.
Lemma consuming_snoc h e : consuming (h ++ [e]) <-> (exists n ch, e = EvSubscribed n ch /\ exists c, listed (h ++ [e]) c) \/ consuming h /\ exists c, listed (h ++ [e]) c.
Proof.
  split.
  - intros (pre & n & ch & post & E & A). apply snoc_split in E as [(-> & -> & <-)|(post' & -> & ->)].
    + left. exists n, ch. split; [done|]. by apply (A [] []).
    + right. split; [|destruct (A (post' ++ [e]) []) as [c Hc]; [by rewrite app_nil_r|]; exists c; by rewrite <- app_assoc].
      exists pre, n, ch, post'. split; [done|]. intros a b ->. apply (A a (b ++ [e])). by rewrite app_assoc.
  - intros [(n & ch & -> & c & Hc)|[(pre & n & ch & post & -> & A) (c & Hc)]].
    + exists h, n, ch, []. split; [done|]. intros a b E. symmetry in E. apply app_nil in E as [-> ->]. by exists c.
    + exists pre, n, ch, (post ++ [e]). split; [by rewrite <- app_assoc|]. intros a b E. destruct b as [|y b _] using rev_ind.
      * rewrite app_nil_r in E. subst a. exists c. by rewrite <- app_assoc in Hc.
      * rewrite app_assoc in E. apply app_inj_tail in E as [-> ->]. by apply (A a b).
Qed.

(** As long as nothing crashed. *)
Record state_of (s : jst) : Prop := {
  so_sub : forall n c, EvSubscribed n c ∈ jlog s -> n < jnext s;
  so_can : forall n, EvCancelled n ∈ jlog s -> n < jnext s;
  so_uniq : forall n c c', EvSubscribed n c ∈ jlog s -> EvSubscribed n c' ∈ jlog s -> c = c';
  so_chans : forall ch, is_Some (jchans s !! ch) <-> listed (jlog s) ch;
  so_fresh : forall ch g, jchans s !! ch = Some g -> g < jnext s;
  so_closed : forall g, g ∈ jclosed s -> g < jnext s /\ forall ch, jchans s !! ch <> Some g;
  so_inj : forall c c' g, jchans s !! c = Some g -> jchans s !! c' = Some g -> c = c';
  so_readers : forall n ch, (exists g, (n, ch, g) ∈ jreaders s) <-> EvSubscribed n ch ∈ jlog s /\ EvCancelled n ∉ jlog s;
  so_old : forall n ch g, (n, ch, g) ∈ jreaders s -> g < jnext s;
  so_own : forall n ch g c, (n, ch, g) ∈ jreaders s -> jchans s !! c = Some g -> c = ch;
  so_att : forall n ch g, (n, ch, g) ∈ jreaders s -> jchans s !! ch = Some g <-> attached (jlog s) n ch;
  so_alive : forall n ch, attached (jlog s) n ch -> EvCancelled n ∉ jlog s;
  so_run : jrunning s = true <-> consuming (jlog s);
  so_safe : ~ crashed (jlog s) }.


Lemma init_state : state_of jinit.
Proof.
  split; cbn.
  - intros n c H. by apply elem_of_nil in H.
  - intros n H. by apply elem_of_nil in H.
  - intros n c c' H. by apply elem_of_nil in H.
  - intros ch. rewrite lookup_empty. split; [intros [? ?]; done|]. intros (pre & e & post & E & _). by destruct pre.
  - intros ch g. by rewrite lookup_empty.
  - intros g H. by apply elem_of_nil in H.
  - intros c c' g. by rewrite lookup_empty.
  - intros n ch. split; [intros [g H]; by apply elem_of_nil in H|]. intros [H _]. by apply elem_of_nil in H.
  - intros n ch g H. by apply elem_of_nil in H.
  - intros n ch g c H. by apply elem_of_nil in H.
  - intros n ch g H. by apply elem_of_nil in H.
  - intros n ch _ H. by apply elem_of_nil in H.
  - split; [done|]. intros (pre & n & ch & post & E & _). by destruct pre.
  - intros (pre & n & ch & E & _). by destruct pre.
Qed.

(** A channel is asked for. *)
Lemma list_state s ch : state_of s ->
  let g := default (jnext s) (jchans s !! ch) in
  let next := match jchans s !! ch with Some _ => jnext s | None => S (jnext s) end in
  let chans := match jchans s !! ch with Some _ => jchans s | None => <[ch := jnext s]> (jchans s) end in
  chans !! ch = Some g /\ jnext s <= next /\ g < next /\ (forall c, is_Some (chans !! c) <-> c = ch \/ listed (jlog s) c) /\
  (forall c x, chans !! c = Some x -> x < next) /\ (forall x, x ∈ jclosed s -> forall c, chans !! c <> Some x) /\
  (forall c c' x, chans !! c = Some x -> chans !! c' = Some x -> c = c') /\
  (forall n c x c', (n, c, x) ∈ jreaders s -> chans !! c' = Some x -> c' = c) /\
  (forall n c x, (n, c, x) ∈ jreaders s -> chans !! c = Some x <-> attached (jlog s) n c).
Proof.
  intros I. cbv zeta. destruct (jchans s !! ch) as [g|] eqn:E; cbn [default].
  - split; [done|]. split; [done|]. split; [by eapply so_fresh|]. split.
    { intros c. rewrite so_chans by done. split; [auto|]. intros [->|H]; [|done]. apply so_chans; [done|]. by eexists. }
    split; [by apply so_fresh|]. split; [intros x Hx; by apply (so_closed s I)|]. split; [by apply so_inj|]. split; [by apply so_own|by apply so_att].
  - split; [by rewrite lookup_insert|]. split; [lia|]. split; [lia|].
    assert (L : forall c x, <[ch := jnext s]> (jchans s) !! c = Some x -> (c = ch /\ x = jnext s) \/ (c <> ch /\ jchans s !! c = Some x)).
    { intros c x H. apply lookup_insert_Some in H as [[-> <-]|[N H]]; auto. }
    split.
    { intros c. rewrite <- so_chans by done. destruct (decide (c = ch)) as [->|N]; [rewrite lookup_insert; split; [auto|by eexists]|].
      rewrite lookup_insert_ne by done. split; [auto|]. intros [?|?]; done. }
    split; [intros c x [[-> ->]|[N H]]%L; [lia|]; apply (so_fresh s I) in H; lia|].
    split; [intros x Hx c [[-> ->]|[N H]]%L; [apply so_closed in Hx as [? _]; [lia|done]|by apply (so_closed s I x Hx) in H]|].
    split.
    { intros c c' x [[-> ->]|[N H]]%L [[-> E']|[N' H']]%L; [done|apply (so_fresh s I) in H'; lia|subst; apply (so_fresh s I) in H; lia|by eapply so_inj]. }
    split.
    { intros n c x c' Hr [[-> ->]|[N H]]%L; [apply (so_old s I) in Hr; lia|by eapply so_own]. }
    intros n c x Hr. rewrite <- (so_att s I n c x Hr). destruct (decide (c = ch)) as [->|N]; [|by rewrite lookup_insert_ne].
    rewrite lookup_insert. rewrite E. split; [|done]. intros [= <-]. apply (so_old s I) in Hr. lia.
Qed.

Lemma subscribe_state s ch ok : state_of s -> jpanic s = false -> state_of (fst (j_subscribe ch ok s)) /\ jpanic (fst (j_subscribe ch ok s)) = false.
Proof.
  intros I P. pose proof (list_state s ch I) as L. cbv zeta in L. unfold j_subscribe.
  set (g := default (jnext s) (jchans s !! ch)) in *. set (next := match jchans s !! ch with Some _ => jnext s | None => S (jnext s) end) in *.
  set (chans := match jchans s !! ch with Some _ => jchans s | None => <[ch := jnext s]> (jchans s) end) in *.
  assert (E : match jchans s !! ch with Some g => (g, s) | None => (jnext s, mkJ (<[ch := jnext s]> (jchans s)) (S (jnext s)) (jrunning s) (jreaders s) (jclosed s) (jpanic s) (jlog s)) end =
    (g, mkJ chans next (jrunning s) (jreaders s) (jclosed s) (jpanic s) (jlog s))).
  { unfold g, next, chans. destruct (jchans s !! ch); [by destruct s|done]. }
  rewrite E. clear E. cbn [jrunning jchans jnext jreaders jclosed jpanic jlog]. clearbody g next chans.
  destruct L as (L1 & L2 & L3 & L4 & L5 & L6 & L7 & L8 & L9).
  destruct (jrunning s || ok) eqn:Er; cbn [fst]; (split; [|done]).
  - assert (F : EvCancelled next ∉ jlog s) by (intros H; apply (so_can s I) in H; lia).
    assert (F' : forall n c, EvSubscribed next ch = EvSubscribed n c -> EvCancelled n ∉ jlog s) by (intros n c [= <- <-]; done).
    split; cbn [jrunning jchans jnext jreaders jclosed jpanic jlog].
    + intros n c [H|[= -> ->]%elem_of_list_singleton]%elem_of_app; [apply (so_sub s I) in H|]; lia.
    + intros n [H|H%elem_of_list_singleton]%elem_of_app; [apply (so_can s I) in H; lia|done].
    + intros n c c' [H|H%elem_of_list_singleton]%elem_of_app [H'|H'%elem_of_list_singleton]%elem_of_app; [by eapply so_uniq|..].
      * injection H' as -> ->. apply (so_sub s I) in H. lia.
      * injection H as -> ->. apply (so_sub s I) in H'. lia.
      * congruence.
    + intros c. rewrite listed_ask by done. rewrite L4. split; (intros [H|H]; [left|by right]); [right; exists next; congruence|].
      destruct H as [H|[n H]]; congruence.
    + intros c x H. apply L5 in H. lia.
    + intros x Hx. split; [apply (so_closed s I) in Hx as [? _]; lia|by apply L6].
    + exact L7.
    + intros n c. split.
      * intros [x [H|H%elem_of_list_singleton]%elem_of_app].
        -- destruct (proj1 (so_readers s I n c)) as [H1 H2]; [by exists x|]. rewrite !elem_of_app, !elem_of_list_singleton. split; [auto|]. intros [?|?]; done.
        -- injection H as -> -> ->. rewrite !elem_of_app, !elem_of_list_singleton. split; [auto|]. intros [?|?]; done.
      * rewrite !elem_of_app, !elem_of_list_singleton. intros [[H|[= -> ->]] N].
        -- destruct (proj2 (so_readers s I n c)) as [x Hx]; [split; [done|tauto]|]. exists x. rewrite elem_of_app. auto.
        -- exists g. rewrite elem_of_app, elem_of_list_singleton. auto.
    + intros n c x [H|[= -> -> ->]%elem_of_list_singleton]%elem_of_app; [apply (so_old s I) in H|]; lia.
    + intros n c x c' [H|[= -> -> ->]%elem_of_list_singleton]%elem_of_app H'; [by eapply L8|by eapply L7].
    + intros n c x [H|[= -> -> ->]%elem_of_list_singleton]%elem_of_app; rewrite attached_ask by done.
      * rewrite (L9 n c x H). split; [auto|]. intros [[= -> ->]|?]; [|done]. exfalso.
        destruct (proj1 (so_readers s I n c)) as [H1 _]; [by exists x|]. apply (so_sub s I) in H1. lia.
      * split; [auto|done].
    + intros n c. rewrite attached_ask by done. rewrite elem_of_app, elem_of_list_singleton. intros [[= -> ->]|A] [Hq|Hq]; try done. by apply (so_alive s I n c A).
    + split; [intros _|done]. apply consuming_snoc. left. exists next, ch. split; [done|]. exists ch. apply listed_ask; [done|done|]. left. right. by exists next.
    + intros (pre & n & c & E & _). apply app_inj_tail in E as [_ E]. done.
  - apply orb_false_iff in Er as [Er _].
    assert (F' : forall n c, EvFailed ch = EvSubscribed n c -> EvCancelled n ∉ jlog s) by done.
    split; cbn [jrunning jchans jnext jreaders jclosed jpanic jlog].
    + intros n c [H|H%elem_of_list_singleton]%elem_of_app; [apply (so_sub s I) in H; lia|done].
    + intros n [H|H%elem_of_list_singleton]%elem_of_app; [apply (so_can s I) in H; lia|done].
    + intros n c c' [H|H%elem_of_list_singleton]%elem_of_app [H'|H'%elem_of_list_singleton]%elem_of_app; try done. by eapply so_uniq.
    + intros c. rewrite listed_ask by done. rewrite L4. split; (intros [H|H]; [left|by right]); [left; congruence|]. destruct H as [H|[n H]]; congruence.
    + exact L5.
    + intros x Hx. split; [apply (so_closed s I) in Hx as [? _]; lia|by apply L6].
    + exact L7.
    + intros n c. rewrite (so_readers s I). rewrite !elem_of_app, !elem_of_list_singleton. split; [intros [H N]; split; [auto|]; intros [?|?]; done|]. intros [[H|H] N]; [|done]. tauto.
    + intros n c x H. apply (so_old s I) in H. lia.
    + exact L8.
    + intros n c x H. rewrite attached_ask by done. rewrite (L9 n c x H). split; [auto|]. intros [?|?]; done.
    + intros n c. rewrite attached_ask by done. rewrite elem_of_app, elem_of_list_singleton. intros [?|A] [Hq|Hq]; try done. by apply (so_alive s I n c A).
    + rewrite consuming_snoc. rewrite <- (so_run s I), Er. split; [done|]. intros [(n & c & ? & _)|[? _]]; done.
    + intros (pre & n & c & E & _). apply app_inj_tail in E as [_ E]. done.
Qed.

Lemma cancel_state s n : state_of s -> jpanic s = false ->
  if jpanic (j_cancel n s) then crashed (jlog (j_cancel n s)) else state_of (j_cancel n s).
Proof.
  intros I P. unfold j_cancel. destruct (list_find (fun r => r.1.1 = n) (jreaders s)) as [[i [[n' ch] g0]]|] eqn:El; [|by rewrite P].
  apply list_find_Some in El as (Hi & En & _). cbn in En. subst n'. apply elem_of_list_lookup_2 in Hi.
  destruct (proj1 (so_readers s I n ch)) as [Hs Hc]; [by exists g0|]. unfold j_cleanup. cbn [jchans jclosed jpanic jlog jnext jrunning jreaders].
  destruct (jchans s !! ch) as [g|] eqn:Eg.
  2: { cbn. exists (jlog s), n, ch. split; [done|]. split; [done|]. intros [x Hx]%so_chans; [congruence|done]. }
  case_bool_decide as Ec; [exfalso; apply (so_closed s I) in Ec as [_ Ec]; by apply (Ec ch)|].
  cbn [jpanic jlog]. rewrite P.
  assert (U : forall c, EvSubscribed n c ∈ jlog s <-> c = ch) by (intros c; split; [intros H; by eapply so_uniq|by intros ->]).
  assert (L : forall c, is_Some (delete ch (jchans s) !! c) <-> listed (jlog s ++ [EvCancelled n]) c).
  { intros c. rewrite listed_cancel, <- so_chans by done. rewrite U. destruct (decide (c = ch)) as [->|N]; [rewrite lookup_delete; split; [intros [? ?]; done|tauto]|].
    rewrite lookup_delete_ne by done. tauto. }
  split; cbn [jrunning jchans jnext jreaders jclosed jpanic jlog].
  - intros k c [H|H%elem_of_list_singleton]%elem_of_app; [by apply (so_sub s I) in H|done].
  - intros k [H|[= ->]%elem_of_list_singleton]%elem_of_app; [by apply (so_can s I) in H|by apply (so_sub s I) in Hs].
  - intros k c c' [H|H%elem_of_list_singleton]%elem_of_app [H'|H'%elem_of_list_singleton]%elem_of_app; try done. by eapply so_uniq.
  - exact L.
  - intros c x Hq. apply lookup_delete_Some in Hq as [_ Hq]. by apply (so_fresh s I) in Hq.
  - intros x [->|Hx]%elem_of_cons.
    + split; [by apply (so_fresh s I) in Eg|]. intros c [N H]%lookup_delete_Some. apply N. by eapply so_inj.
    + pose proof (so_closed s I x Hx) as [_ Hx0]. split; [by apply (so_closed s I) in Hx as [? _]|]. intros c [N H]%lookup_delete_Some. by apply (Hx0 c).
  - intros c c' x [N H]%lookup_delete_Some [N' H']%lookup_delete_Some. by eapply so_inj.
  - intros k c. split.
    + intros [x [Nk H]%elem_of_list_filter]. cbn in Nk. destruct (proj1 (so_readers s I k c)) as [H1 H2]; [by exists x|].
      rewrite !elem_of_app, !elem_of_list_singleton. split; [auto|]. intros [?|[= ->]]; done.
    + rewrite !elem_of_app, !elem_of_list_singleton. intros [[H|?] N]; [|done]. destruct (proj2 (so_readers s I k c)) as [x Hx]; [split; [done|tauto]|].
      exists x. apply elem_of_list_filter. split; [|done]. cbn. intros ->. tauto.
  - intros k c x [_ H]%elem_of_list_filter. by apply (so_old s I) in H.
  - intros k c x c' [_ H]%elem_of_list_filter [N H']%lookup_delete_Some. by eapply so_own.
  - intros k c x [_ H]%elem_of_list_filter. rewrite attached_cancel, U, <- (so_att s I k c x H). destruct (decide (c = ch)) as [->|N]; [rewrite lookup_delete; split; [done|tauto]|].
    rewrite lookup_delete_ne by done. tauto.
  - intros k c [A NU]%attached_cancel. rewrite elem_of_app, elem_of_list_singleton. intros [H|[= ->]]; [by apply (so_alive s I k c A)|].
    apply NU. apply U. destruct A as (pre & post & E & _). eapply so_uniq; [done| |done]. rewrite E, elem_of_app, elem_of_cons. auto.
  - rewrite consuming_snoc, <- (so_run s I), andb_true_iff, negb_true_iff, bool_decide_eq_false.
    assert (Ne : delete ch (jchans s) <> ∅ <-> exists c, listed (jlog s ++ [EvCancelled n]) c).
    { split.
      - intros N. apply map_choose in N as (c & x & Hx). exists c. apply L. by exists x.
      - intros (c & [x Hx]%L) E. by rewrite E, lookup_empty in Hx. }
    rewrite Ne. split; [auto|]. intros [(k & c & ? & _)|?]; done.
  - intros (pre & k & c & E & Hk & Nl). apply app_inj_tail in E as [<- [= <-]]. apply U in Hk as ->. apply Nl. apply so_chans; [done|]. by exists g.
Qed.

Lemma run_state os : let s := jrun os jinit in if jpanic s then crashed (jlog s) else state_of s.
Proof.
  cbv zeta. induction os as [|o os IH] using rev_ind; [exact init_state|]. unfold jrun in *. rewrite fold_left_app. cbn [fold_left].
  set (s := fold_left jstep os jinit) in *. unfold jstep. destruct (jpanic s) eqn:P; [by rewrite P|].
  destruct o as [ch ok|n]; [|by apply cancel_state]. destruct (subscribe_state s ch ok IH P) as [I P']. by rewrite P'.
Qed.

Lemma crash_exact os : let s := jrun os jinit in jpanic s = true <-> crashed (jlog s).
Proof. cbv zeta. pose proof (run_state os) as H. cbv zeta in H. destruct (jpanic _); [done|]. split; [done|]. intros C. by apply (so_safe _ H) in C. Qed.

Lemma consume_exact os order subject : let s := jrun os jinit in
  jpanic s = false -> order ≡ₚ (map_to_list (jchans s)).*1 ->
  match j_consume order subject s with
  | JDropped => forall ch, listed (jlog s) ch -> ~ subject_match ch subject
  | JHanded l => l <> [] /\ exists ch, listed (jlog s) ch /\ subject_match ch subject /\ forall n, n ∈ l <-> attached (jlog s) n ch
  | JStuck => exists ch, listed (jlog s) ch /\ subject_match ch subject /\ forall n, ~ attached (jlog s) n ch
  end.
Proof.
  cbv zeta. intros P Ho. pose proof (run_state os) as I. cbv zeta in I. rewrite P in I. set (s := jrun os jinit) in *. clearbody s.
  assert (Hl : forall ch, ch ∈ order <-> listed (jlog s) ch).
  { intros ch. rewrite Ho, <- (so_chans s I), elem_of_list_fmap. split.
    - intros ([c g] & -> & H). apply elem_of_map_to_list in H. by exists g.
    - intros [g H]. exists (ch, g). split; [done|]. by apply elem_of_map_to_list. }
  unfold j_consume. pose proof (dispatch_spec order subject) as D. destruct (dispatch order subject) as [p|].
  2: { intros ch H. by apply D, Hl. }
  destruct D as [Hp Hm]. apply Hl in Hp. pose proof Hp as [g Hg]%(so_chans s I). rewrite Hg.
  assert (A : forall n, n ∈ map (fun r : nat * string * nat => r.1.1) (filter (fun r => r.2 = g) (jreaders s)) <-> attached (jlog s) n p).
  { intros n. rewrite elem_of_list_In, in_map_iff. setoid_rewrite <- elem_of_list_In. split.
    - intros ([[n' ch] x] & <- & [Ex Hx]%elem_of_list_filter). cbn in *. subst x. pose proof (so_own s I _ _ _ _ Hx Hg) as <-. by apply (so_att s I n' p g Hx).
    - intros H. pose proof (so_alive s I n p H) as Hc. assert (Hs : EvSubscribed n p ∈ jlog s).
      { destruct H as (pre & post & E & _). rewrite E, elem_of_app, elem_of_cons. auto. }
      destruct (proj2 (so_readers s I n p) (conj Hs Hc)) as [x Hx]. apply (so_att s I n p x Hx) in H. rewrite Hg in H. injection H as ->.
      exists (n, p, x). split; [done|]. by apply elem_of_list_filter. }
  destruct (filter (fun r => r.2 = g) (jreaders s)) as [|r l].
  - exists p. split; [done|]. split; [done|]. intros n H%A. by apply elem_of_nil in H.
  - split; [done|]. exists p. split; [done|]. split; [done|]. exact A.
Qed.

Lemma history_exact os o : let s := jrun os jinit in let s' := jrun (os ++ [o]) jinit in
  jpanic s = false ->
  match o with
  | JSubscribe ch ok =>
      (ok = true \/ consuming (jlog s) -> exists n, (forall c, EvSubscribed n c ∉ jlog s) /\ jlog s' = jlog s ++ [EvSubscribed n ch]) /\
      (ok = false /\ ~ consuming (jlog s) -> jlog s' = jlog s ++ [EvFailed ch])
  | JCancel n =>
      ((exists ch, EvSubscribed n ch ∈ jlog s) /\ EvCancelled n ∉ jlog s -> jlog s' = jlog s ++ [EvCancelled n]) /\
      ((forall ch, EvSubscribed n ch ∉ jlog s) \/ EvCancelled n ∈ jlog s -> s' = s)
  end.
Proof.
  cbv zeta. intros P. pose proof (run_state os) as I. cbv zeta in I. rewrite P in I. unfold jrun in *. rewrite fold_left_app. cbn [fold_left].
  set (s := fold_left jstep os jinit) in *. clearbody s. unfold jstep. rewrite P. destruct o as [ch ok|n].
  - rewrite <- (so_run s I). unfold j_subscribe.
    assert (F : forall k, jnext s <= k -> forall c, EvSubscribed k c ∉ jlog s) by (intros k Hk c H%(so_sub s I); lia).
    destruct (jchans s !! ch); cbn [jrunning fst jnext jlog]; destruct (jrunning s) eqn:R, ok; cbn [orb fst jlog]; (split; intros HH;
      [try (exfalso; by destruct HH); eexists; (split; [|reflexivity]); apply F; lia|by destruct HH]).
  - unfold j_cancel. destruct (list_find (fun r => r.1.1 = n) (jreaders s)) as [[i [[n' ch] g0]]|] eqn:El.
    + apply list_find_Some in El as (Hi & En & _). cbn in En. subst n'. apply elem_of_list_lookup_2 in Hi.
      destruct (proj1 (so_readers s I n ch)) as [Hs Hc]; [by exists g0|]. split; [|intros [N|N]; [by destruct (N ch)|done]].
      intros _. unfold j_cleanup. cbn [jchans]. destruct (jchans s !! ch); cbn [jlog jclosed]; [case_bool_decide|]; done.
    + split; [|done]. intros [[ch Hs] Hc]. exfalso. destruct (proj2 (so_readers s I n ch) (conj Hs Hc)) as [g Hg].
      apply list_find_None in El. rewrite Forall_forall in El. by apply (El _ Hg).
Qed.

(** ** Connections left open by a creation that fails *)
Definition conn_of (x : option copt) (s : kst) : Prop :=
  match x with
  | None => kconn s = None /\ kowns s = false
  | Some (OConnOpts _) => kowns s = true /\ kconn s <> None
  | Some (OConn None) => kconn s = None /\ kowns s = false
  | Some (OConn (Some _)) => kconn s <> None /\ kowns s = false
  | Some (OOther _) => True
  end.
Lemma last_cons_default {A} (x : A) l : last (x :: l) = Some (default x (last l)).
Proof. revert x. induction l as [|y l IH]; intros x; [done|]. change (last (x :: y :: l)) with (last (y :: l)). rewrite IH. cbn. by destruct (last l). Qed.
Lemma apply_opts_conn os : forall s s' ok x, conn_of x s -> apply_opts os s = (s', ok) ->
  (ok = true <-> applied os = os) /\ conn_of (match configured os with Some y => Some y | None => x end) s'.
Proof.
  induction os as [|o os IH]; intros s s' ok x Hx; [intros [= <- <-]; done|]. unfold configured in *. cbn [apply_opts applied].
  assert (G : forall s1, conn_of (if connects o then Some o else x) s1 -> fails o = false -> apply_opts os s1 = (s', ok) ->
    (ok = true <-> (if fails o then [] else o :: applied os) = o :: os) /\
    conn_of (match last (List.filter connects (if fails o then [] else o :: applied os)) with Some y => Some y | None => x end) s').
  { intros s1 H1 F E. rewrite F. destruct (IH _ _ _ _ H1 E) as [A B]. split; [rewrite A; split; [by intros ->|by intros [=]]|].
    cbn [List.filter]. destruct (connects o); [|exact B]. rewrite last_cons_default. by destruct (last (List.filter connects (applied os))). }
  destruct o as [[|]|u|b]; cbn [apply_opt].
  - destruct (connect s) as [c s1] eqn:Ec. apply G; [|done]. cbn. injection Ec as <- <-. done.
  - intros [= <- <-]. cbn. split; [done|]. done.
  - apply G; [|done]. cbn. by destruct u.
  - destruct b; [by apply G|]. intros [= <- <-]. cbn. done.
Qed.
Lemma configured_connects os y : configured os = Some y -> (y = OConnOpts true \/ exists u, y = OConn u).
Proof.
  unfold configured. intros H. apply last_Some_elem_of, elem_of_list_In, filter_In in H as [H C].
  destruct y as [[|]|u|]; [by left| |right; by eexists|done]. exfalso. revert H. clear. induction os as [|o os IH]; cbn; [done|].
  destruct (fails o) eqn:F; [done|]. intros [->|H]; [done|by apply IH].
Qed.

Lemma kinv_leak s : kinv s -> (exists c, closes c (kevs s) < opened c (kevs s)) <-> kowns s = true.
Proof.
  intros [Ho Hc Hw Hu]. split.
  - intros [c H]. rewrite Ho, Hc in H. destruct (kowns s); [done|]. destruct c; cbn in H; revert H; kcases.
  - intros E. destruct (Hw E) as (n & Ek & Hl). exists (Own n). rewrite Ho, Hc, E, Ek. kcases.
Qed.

Lemma js_leak_exact os cok sok s : js_new os cok sok = (s, false) ->
  (exists c, closes c (kevs s) < opened c (kevs s)) <-> connected os cok.
Proof.
  intros E. rewrite (kinv_leak _ (kinv_new _ _ _ _ _ E)). unfold js_new in E. destruct (apply_opts os kinit) as [s1 ok1] eqn:E1.
  destruct (apply_opts_conn os kinit s1 ok1 None) as [A B]; [done|done|]. unfold connected.
  pose proof (configured_connects os) as Cc.
  destruct (configured os) as [y|].
  - destruct (Cc y eq_refl) as [->|[u ->]]; cbn in B.
    + destruct B as [B1 B2]. destruct ok1; [destruct (kconn s1); [|done]|]; injection E as <-; (split; [auto|done]).
    + destruct u as [u|]; destruct B as [B1 B2].
      * destruct ok1; [destruct (kconn s1); [|done]|]; injection E as <-; rewrite B2; (split; [done|]); intros [[=]|(_ & _ & [?|?])]; done.
      * rewrite B1 in E. destruct ok1; [destruct cok|].
        -- destruct (connect s1) as [c s2] eqn:Ec. injection E as <- ->. cbn. split; [intros _; right; split; [by apply A|auto]|done].
        -- injection E as <-. rewrite B2. split; [done|]. intros [[=]|(_ & ? & _)]; done.
        -- injection E as <-. rewrite B2. split; [done|]. intros [[=]|(H & _ & _)]. apply A in H. done.
  - cbn in B. destruct B as [B1 B2]. rewrite B1 in E. destruct ok1; [destruct cok|].
    + destruct (connect s1) as [c s2] eqn:Ec. injection E as <- ->. cbn. split; [intros _; right; split; [by apply A|auto]|done].
    + injection E as <-. rewrite B2. split; [done|]. intros [[=]|(_ & ? & _)]; done.
    + injection E as <-. rewrite B2. split; [done|]. intros [[=]|(H & _ & _)]. apply A in H. done.
Qed.

(** NATS: nothing is closed before Close. *)
Lemma nats_opts_events os : forall s s' ok, nats_opts os s = (s', ok) ->
  (ok = true <-> applied os = os) /\ (kconn s <> None -> kconn s' <> None) /\ (OConnOpts true ∈ applied os -> kconn s' <> None) /\
  ((kconn s' <> None -> kconn s <> None \/ OConnOpts true ∈ applied os)) /\
  exists l, kevs s' = kevs s ++ l /\ (forall c, EvClose c ∉ l) /\ (l = [] <-> OConnOpts true ∉ applied os).
Proof.
  induction os as [|o os IH]; intros s s' ok; cbn [nats_opts applied].
  - intros [= <- <-]. split; [done|]. split; [done|]. split; [intros H; by apply elem_of_nil in H|]. split; [auto|]. exists []. rewrite app_nil_r.
    split; [done|]. split; [intros c H; by apply elem_of_nil in H|]. split; [intros _ H; by apply elem_of_nil in H|done].
  - destruct o as [[|]|u|b]; cbn [nats_opt fails negb].
    + destruct (connect s) as [c s1] eqn:Ec. injection Ec as <- <-. cbn [knext kevs]. intros E.
      destruct (IH _ _ _ E) as (A & B & C & D & l & El & N & Z). cbn [kconn kevs] in *. split; [rewrite A; split; [by intros ->|by intros [=]]|].
      split; [intros _; by apply B|]. split; [intros _; by apply B|]. split; [intros _; right; left|]. eexists. split; [rewrite El, <- app_assoc; reflexivity|].
      split; [intros c [H|H]%elem_of_cons; [done|by apply (N c)]|]. split; [done|]. intros H. destruct H. left.
    + intros [= <- <-]. split; [done|]. split; [done|]. split; [intros H; by apply elem_of_nil in H|]. split; [auto|]. exists []. rewrite app_nil_r.
      split; [done|]. split; [intros c H; by apply elem_of_nil in H|]. split; [intros _ H; by apply elem_of_nil in H|done].
    + intros E. destruct (IH _ _ _ E) as (A & B & C & D & l & El & N & Z). split; [rewrite A; split; [by intros ->|by intros [=]]|].
      split; [done|]. split; [intros [?|H]%elem_of_cons; [done|by apply C]|]. split; [intros [H|H]%D; [auto|right; by right]|].
      exists l. split; [done|]. split; [done|]. rewrite Z, not_elem_of_cons. split; [intros ?; split; [done|done]|intros [_ ?]; done].
    + destruct b; cbn.
      * intros E. destruct (IH _ _ _ E) as (A & B & C & D & l & El & N & Z). split; [rewrite A; split; [by intros ->|by intros [=]]|].
        split; [done|]. split; [intros [?|H]%elem_of_cons; [done|by apply C]|]. split; [intros [H|H]%D; [auto|right; by right]|].
        exists l. split; [done|]. split; [done|]. rewrite Z, not_elem_of_cons. split; [intros ?; split; [done|done]|intros [_ ?]; done].
      * intros [= <- <-]. split; [done|]. split; [done|]. split; [intros H; by apply elem_of_nil in H|]. split; [auto|]. exists []. rewrite app_nil_r.
        split; [done|]. split; [intros c H; by apply elem_of_nil in H|]. split; [intros _ H; by apply elem_of_nil in H|done].
Qed.
#[local] Instance copt_eq_dec : EqDecision copt.
Proof. solve_decision. Qed.
Lemma nats_leak_exact os cok s : nats_new os cok = (s, false) ->
  (forall c, EvClose c ∉ kevs s) /\ (kevs s <> [] <-> OConnOpts true ∈ applied os).
Proof.
  unfold nats_new. destruct (nats_opts os kinit) as [s1 ok1] eqn:E1. destruct (nats_opts_events os _ _ _ E1) as (A & _ & C & D & l & El & N & Z).
  cbn in El. intros E. assert (s1 = s) as ->.
  { destruct ok1; [|congruence]. destruct (kconn s1); [congruence|]. destruct cok; [|congruence]. destruct (connect s1). congruence. }
  rewrite El. split; [done|]. rewrite Z. split; [|auto]. intros H. by apply dec_stable.
Qed.
