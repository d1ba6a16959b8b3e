From stdpp Require Import gmap strings list.
From Coq Require Import Ascii.
From Verif.Model Require Import JetStream.
From Verif.Spec Require Import JetStreamSpec.

Ltac splits := repeat match goal with |- _ /\ _ => split end.

(** ** Tokens *)
Lemma sapp_assoc (a b c : string) : ((a ++ b) ++ c = a ++ b ++ c)%string.
Proof. induction a as [|x a IH]; [reflexivity|]. change (String x ((a ++ b) ++ c) = String x (a ++ b ++ c))%string. now rewrite IH. Qed.
Lemma sapp_nil (a : string) : (a ++ "" = a)%string.
Proof. induction a as [|x a IH]; [reflexivity|]. change (String x (a ++ "") = String x a)%string. now rewrite IH. Qed.

Lemma split_from_nodot acc t s : no_dot t -> split_from acc (t ++ s) = split_from (acc ++ t)%string s.
Proof.
  revert acc. induction t as [|c t IH]; intros acc Hn.
  - now rewrite sapp_nil.
  - change (split_from acc (String c (t ++ s)) = split_from (acc ++ String c t) s)%string. cbn [split_from].
    destruct Hn as [Hc Hn]. destruct (Ascii.eqb_spec c "."); [contradiction|].
    rewrite (IH _ Hn). rewrite sapp_assoc. reflexivity.
Qed.

Lemma split_from_concat acc t ts :
  no_dot t -> Forall no_dot ts -> split_from acc (String.concat "." (t :: ts)) = (acc ++ t)%string :: ts.
Proof.
  revert acc t. induction ts as [|t' ts IH]; intros acc t Ht Hts.
  - change (String.concat "." [t]) with t. rewrite <- (sapp_nil t) at 1. rewrite split_from_nodot by exact Ht. reflexivity.
  - apply Forall_cons in Hts as [Ht' Hts].
    change (String.concat "." (t :: t' :: ts)) with (t ++ ("." ++ String.concat "." (t' :: ts)))%string.
    rewrite split_from_nodot by exact Ht.
    change (("." ++ String.concat "." (t' :: ts))%string) with (String "." (String.concat "." (t' :: ts))).
    cbn [split_from]. rewrite Ascii.eqb_refl. rewrite IH by assumption. reflexivity.
Qed.

Lemma tokens_split s ts : tokens s ts -> split_dot s = ts.
Proof.
  intros (Hne & Hnd & <-). destruct ts as [|t ts]; [congruence|]. apply Forall_cons in Hnd as [Ht Hts].
  unfold split_dot. rewrite split_from_concat by assumption. reflexivity.
Qed.

Lemma nodot_app a b : no_dot a -> no_dot b -> no_dot (a ++ b)%string.
Proof.
  induction a as [|c a IH]; intros Ha Hb; [exact Hb|]. destruct Ha. change (c <> "."%char /\ no_dot (a ++ b)%string). auto.
Qed.

Lemma split_from_tokens acc s :
  no_dot acc -> split_from acc s <> [] /\ Forall no_dot (split_from acc s) /\ String.concat "." (split_from acc s) = (acc ++ s)%string.
Proof.
  revert acc. induction s as [|c s IH]; intros acc Ha; cbn [split_from].
  - refine (conj _ (conj _ _)); [congruence|auto|]. cbn. now rewrite sapp_nil.
  - destruct (Ascii.eqb_spec c ".") as [->|Hc].
    + destruct (IH "" I) as (Hne & Hf & Hc). refine (conj _ (conj _ _)); [congruence|auto|].
      destruct (split_from "" s) as [|t ts]; [congruence|].
      change (String.concat "." (acc :: t :: ts)) with (acc ++ ("." ++ String.concat "." (t :: ts)))%string.
      rewrite Hc. reflexivity.
    + destruct (IH (acc ++ String c "")%string) as (Hne & Hf & Hcc).
      { apply nodot_app; [exact Ha|]. cbn. auto. }
      refine (conj Hne (conj Hf _)). rewrite Hcc, sapp_assoc. reflexivity.
Qed.
Lemma split_tokens s : tokens s (split_dot s).
Proof. exact (split_from_tokens "" s I). Qed.

(** ** Matching *)
Lemma token_match_length ps ss : token_match ps ss -> length ps <= length ss.
Proof. induction 1; cbn; lia. Qed.

Lemma match_tokens_spec ps ss :
  length ps <= length ss ->
  exists b, match_tokens ps ss = Some b /\ (b = true <-> token_match ps ss).
Proof.
  revert ss. induction ps as [|p ps IH]; intros ss Hl; cbn [match_tokens].
  - destruct ss; eexists; (split; [reflexivity|]); split; intros H; try discriminate; try constructor; inversion H.
  - destruct ss as [|s ss]; [cbn in Hl; lia|]. cbn in Hl. specialize (IH ss ltac:(lia)) as (b & Hb & Hi).
    case_bool_decide as H1; [|case_bool_decide as H2; [|case_bool_decide as H3]].
    + subst p. case_bool_decide as Hs.
      * exists false. split; [reflexivity|]. split; [discriminate|]. intros H. inversion H; subst; congruence.
      * exists b. split; [exact Hb|]. rewrite Hi. split; [now constructor|].
        intros H. inversion H; subst; congruence.
    + subst p. eexists. split; [reflexivity|]. destruct ps as [|p' ps].
      * split; [constructor|reflexivity].
      * split; [discriminate|]. intros H. inversion H; congruence.
    + exists false. split; [reflexivity|]. split; [discriminate|]. intros H. inversion H; subst; congruence.
    + subst s. exists b. split; [exact Hb|]. rewrite Hi.
      split; [now constructor|]. intros H. inversion H; subst; congruence.
Qed.

Lemma match_subject_spec p s :
  exists b, match_subject p s = Some b /\ (b = true <-> subject_match p s).
Proof.
  unfold match_subject, subject_match.
  case_bool_decide as Hp; [|case_bool_decide as Hs]; cbn [orb].
  - exists false. split; [reflexivity|]. split; [discriminate|]. tauto.
  - exists false. split; [reflexivity|]. split; [discriminate|]. tauto.
  - assert (Heq : (p <> "" /\ s <> "" /\ exists ps ss, tokens p ps /\ tokens s ss /\ token_match ps ss) <->
                  token_match (split_dot p) (split_dot s)).
    { split.
      - intros (_ & _ & ps & ss & Hps & Hss & H).
        now rewrite (tokens_split _ _ Hps), (tokens_split _ _ Hss).
      - intros H. refine (conj Hp (conj Hs _)). exists (split_dot p), (split_dot s).
        auto using split_tokens. }
    destruct (Nat.ltb_spec (length (split_dot s)) (length (split_dot p))) as [Hl|Hl].
    + exists false. split; [reflexivity|]. rewrite Heq. split; [discriminate|].
      intros H%token_match_length. lia.
    + destruct (match_tokens_spec (split_dot p) (split_dot s) Hl) as (b & Hb & Hi).
      exists b. split; [exact Hb|]. rewrite Heq. exact Hi.
Qed.

(** ** Dispatch *)
Lemma find_responsible_spec order subj :
  (find_responsible order subj <> "" ->
    find_responsible order subj ∈ order /\ subject_match (find_responsible order subj) subj) /\
  (find_responsible order subj = "" -> forall p, p ∈ order -> ~ subject_match p subj).
Proof.
  induction order as [|p order [IH1 IH2]]; cbn [find_responsible].
  - split; [congruence|]. intros _ p Hp. inversion Hp.
  - destruct (match_subject_spec p subj) as (b & -> & Hb). destruct b.
    + split; [intros _; split; [left|now apply Hb]|].
      intros ->. exfalso. destruct Hb as [Hb _]. destruct (Hb eq_refl) as [H _]. congruence.
    + split.
      * intros H. destruct (IH1 H). split; [now right|auto].
      * intros H p' [->|Hp']%elem_of_cons; [|auto]. intros Hm. apply Hb in Hm. discriminate.
Qed.

Lemma dispatch_spec order subj :
  match dispatch order subj with
  | Some p => p ∈ order /\ subject_match p subj
  | None => forall p, p ∈ order -> ~ subject_match p subj
  end.
Proof.
  unfold dispatch. destruct (find_responsible_spec order subj) as [H1 H2].
  case_bool_decide; auto.
Qed.

(** ** Histories *)
Lemma alive_app_sub h n ch : alive (h ++ [EvSubscribed n ch]) = alive h ++ [(n, ch)].
Proof.
  induction h as [|e h IH]; cbn [app alive].
  - rewrite bool_decide_eq_false_2; [reflexivity|]. intros H. inversion H.
  - destruct e as [n' ch'| |]; [|exact IH|exact IH].
    rewrite (bool_decide_ext (EvCancelled n' ∈ h ++ [EvSubscribed n ch]) (EvCancelled n' ∈ h)).
    2: { rewrite elem_of_app, elem_of_list_singleton. split; [intros [?|?]; [auto|discriminate]|auto]. }
    case_bool_decide; rewrite IH; reflexivity.
Qed.
Lemma alive_app_fail h ch : alive (h ++ [EvFailed ch]) = alive h.
Proof.
  induction h as [|e h IH]; cbn [app alive]; [reflexivity|].
  destruct e as [n' ch'| |]; [|exact IH|exact IH].
  rewrite (bool_decide_ext (EvCancelled n' ∈ h ++ [EvFailed ch]) (EvCancelled n' ∈ h)).
  2: { rewrite elem_of_app, elem_of_list_singleton. split; [intros [?|?]; [auto|discriminate]|auto]. }
  case_bool_decide; rewrite IH; reflexivity.
Qed.
Lemma alive_app_cancel h n :
  alive (h ++ [EvCancelled n]) = filter (fun a => a.1 <> n) (alive h).
Proof.
  induction h as [|e h IH]; cbn [app alive]; [reflexivity|].
  destruct e as [n' ch'| |]; [|exact IH|exact IH].
  destruct (decide (n' = n)) as [->|Hne].
  - rewrite bool_decide_eq_true_2.
    2: { rewrite elem_of_app, elem_of_list_singleton. auto. }
    rewrite IH. case_bool_decide; [reflexivity|].
    rewrite filter_cons. cbn [fst]. rewrite decide_False by tauto. reflexivity.
  - rewrite (bool_decide_ext (EvCancelled n' ∈ h ++ [EvCancelled n]) (EvCancelled n' ∈ h)).
    2: { rewrite elem_of_app, elem_of_list_singleton. split; [intros [?|?]; [auto|congruence]|auto]. }
    rewrite IH. case_bool_decide; [reflexivity|].
    rewrite filter_cons. cbn [fst]. rewrite decide_True by auto. reflexivity.
Qed.

Lemma exclusive_prefix h1 h2 : exclusive (h1 ++ h2) -> exclusive h1.
Proof.
  intros H pre n ch post ->. apply (H pre n ch (post ++ h2)). rewrite <- app_assoc. reflexivity.
Qed.

(** ** Invariant *)
Record jinv (s : jst) : Prop := {
  ji_alive : alive (jlog s) = map (fun r => (r.1.1, r.1.2)) (jreaders s);
  ji_chs : NoDup (map (fun r => r.1.2) (jreaders s));
  ji_nums : NoDup (map (fun r => r.1.1) (jreaders s));
  ji_numlt : forall n ch g, (n, ch, g) ∈ jreaders s -> n < jnext s;
  ji_map : forall n ch g, (n, ch, g) ∈ jreaders s -> jchans s !! ch = Some g;
  ji_inj : forall c1 c2 g, jchans s !! c1 = Some g -> jchans s !! c2 = Some g -> c1 = c2;
  ji_lt : forall c g, jchans s !! c = Some g -> g < jnext s;
  ji_closed : forall c g, jchans s !! c = Some g -> g ∉ jclosed s;
  ji_closedlt : forall g, g ∈ jclosed s -> g < jnext s;
  ji_run : jreaders s <> [] -> jrunning s = true;
  ji_run2 : jrunning s = true -> jchans s <> ∅;
  ji_ok : jpanic s = false;
  ji_nofail : (forall ch, EvFailed ch ∉ jlog s) -> forall c g, jchans s !! c = Some g -> exists n, (n, c, g) ∈ jreaders s
}.

Lemma jinv_init : jinv jinit.
Proof.
  split; cbn; try (intros; set_solver); try constructor; try discriminate; try (intros *; rewrite lookup_empty; discriminate).
Qed.

Lemma jstep_log s o : exists l, jlog (jstep s o) = jlog s ++ l.
Proof.
  unfold jstep. destruct (jpanic s); [exists []; now rewrite app_nil_r|].
  destruct o as [ch ok|n].
  - unfold j_subscribe. destruct (jchans s !! ch) as [g|].
    + destruct (jrunning s || ok); eexists; reflexivity.
    + cbn. destruct (jrunning s || ok); eexists; reflexivity.
  - unfold j_cancel. destruct (list_find _ _) as [[i [[n' ch] g]]|]; [|exists []; now rewrite app_nil_r].
    exists [EvCancelled n]. unfold j_cleanup. cbn. destruct (jchans s !! ch) as [g'|]; [|reflexivity].
    case_bool_decide; reflexivity.
Qed.

Lemma reader_not_alive s ch :
  jinv s -> ch ∉ (alive (jlog s)).*2 -> forall n g, (n, ch, g) ∉ jreaders s.
Proof.
  intros HI Hn n g Hin. apply Hn. rewrite (ji_alive _ HI).
  apply elem_of_list_fmap. exists (n, ch). split; [reflexivity|].
  apply (elem_of_list_fmap_1 (fun r : nat * string * nat => (r.1.1, r.1.2))) in Hin. exact Hin.
Qed.

(** The state of [j_subscribe] after the channel was found or made. *)
Lemma jinv_chan s ch :
  jinv s ->
  let '(g, s1) := match jchans s !! ch with
    | Some g => (g, s)
    | None => (jnext s, mkJ (<[ch := jnext s]> (jchans s)) (S (jnext s)) (jrunning s) (jreaders s) (jclosed s) (jpanic s) (jlog s))
    end in
  jreaders s1 = jreaders s /\ jlog s1 = jlog s /\ jpanic s1 = false /\ jclosed s1 = jclosed s /\ jrunning s1 = jrunning s /\
  jchans s1 = <[ch := g]> (jchans s) /\ jnext s <= jnext s1 /\ g < jnext s1 /\ g ∉ jclosed s /\
  (forall c, jchans s !! c = Some g -> c = ch) /\ (forall g', jchans s !! ch = Some g' -> g' = g).
Proof.
  intros HI. destruct (jchans s !! ch) as [g|] eqn:E.
  - splits. all: try reflexivity.
    + apply (ji_ok _ HI).
    + symmetry. now apply insert_id.
    + eapply ji_lt; eauto.
    + eapply ji_closed; eauto.
    + intros c Hc. eapply ji_inj; eauto.
    + congruence.
  - cbn. splits. all: try reflexivity.
    + apply (ji_ok _ HI).
    + lia.
    + lia.
    + intros Hc. apply (ji_closedlt _ HI) in Hc. lia.
    + intros c Hc. apply (ji_lt _ HI) in Hc. lia.
    + congruence.
Qed.

Lemma jinv_subscribe s ch ok :
  jinv s -> ch ∉ (alive (jlog s)).*2 \/ (jrunning s || ok) = false -> jinv (fst (j_subscribe ch ok s)).
Proof.
  intros HI Hex. unfold j_subscribe. pose proof (jinv_chan s ch HI) as H.
  destruct (match jchans s !! ch with Some g => _ | None => _ end) as [g s1].
  destruct H as (Hr & Hl & Hp & Hc & Hrun & Hm & Hnx & Hg & Hgc & Hginj & Hsame).
  rewrite Hrun.
  assert (Hmap : forall c g', jchans s1 !! c = Some g' ->
            (c = ch /\ g' = g) \/ (c <> ch /\ jchans s !! c = Some g')).
  { intros c g' Hcg. rewrite Hm in Hcg. apply lookup_insert_Some in Hcg. destruct Hcg as [[? ?]|[? ?]]; [left|right]; auto. }
  assert (Hinj : forall c1 c2 g', jchans s1 !! c1 = Some g' -> jchans s1 !! c2 = Some g' -> c1 = c2).
  { intros c1 c2 g' H1 H2. apply Hmap in H1, H2.
    destruct H1 as [[-> ->]|[Hn1 H1]], H2 as [[-> ?]|[Hn2 H2]]; subst; auto.
    - symmetry. auto.
    - eapply ji_inj; eauto. }
  assert (Hlt : forall c g', jchans s1 !! c = Some g' -> g' < jnext s1).
  { intros c g' H1. apply Hmap in H1 as [[-> ->]|[_ H1]]; auto. apply (ji_lt _ HI) in H1. lia. }
  assert (Hcl : forall c g', jchans s1 !! c = Some g' -> g' ∉ jclosed s).
  { intros c g' H1. apply Hmap in H1 as [[-> ->]|[_ H1]]; auto. eapply ji_closed; eauto. }
  assert (Hclt : forall g', g' ∈ jclosed s -> g' < jnext s1).
  { intros g' H1. apply (ji_closedlt _ HI) in H1. lia. }
  assert (Hkeep : forall n c g', (n, c, g') ∈ jreaders s -> jchans s1 !! c = Some g').
  { intros n c g' Hin. apply (ji_map _ HI) in Hin. rewrite Hm. destruct (decide (c = ch)) as [->|Hne].
    - rewrite lookup_insert. f_equal. symmetry. auto.
    - rewrite lookup_insert_ne by auto. exact Hin. }
  destruct (jrunning s || ok) eqn:Eok; cbn [fst].
  - destruct Hex as [Hex|Hex]; [|discriminate].
    pose proof (reader_not_alive s ch HI Hex) as Hna.
    split; cbn [jchans jnext jrunning jreaders jclosed jpanic jlog]; rewrite ?Hr, ?Hl, ?Hc, ?Hp.
    + rewrite alive_app_sub, (ji_alive _ HI), map_app. reflexivity.
    + rewrite map_app. apply NoDup_app. split; [apply (ji_chs _ HI)|]. split.
      * intros c Hin Hin'. apply elem_of_list_singleton in Hin'. cbn in Hin'. subst c.
        apply elem_of_list_fmap in Hin as ([[n' ch'] g'] & E & Hin). cbn in E. subst ch'. exact (Hna _ _ Hin).
      * apply NoDup_singleton.
    + rewrite map_app. apply NoDup_app. split; [apply (ji_nums _ HI)|]. split.
      * intros n Hin Hin'. apply elem_of_list_singleton in Hin'. cbn in Hin'. subst n.
        apply elem_of_list_fmap in Hin as ([[n' ch'] g'] & E & Hin). cbn in E. subst n'.
        apply (ji_numlt _ HI) in Hin. lia.
      * apply NoDup_singleton.
    + intros n c g' [Hin|Hin]%elem_of_app.
      * apply (ji_numlt _ HI) in Hin. lia.
      * apply elem_of_list_singleton in Hin. injection Hin as -> -> ->. lia.
    + intros n c g' [Hin|Hin]%elem_of_app.
      * eauto.
      * apply elem_of_list_singleton in Hin. injection Hin as -> -> ->. rewrite Hm. apply lookup_insert.
    + exact Hinj.
    + intros c g' H1. apply Hlt in H1. lia.
    + exact Hcl.
    + intros g' H1. apply Hclt in H1. lia.
    + reflexivity.
    + intros _. rewrite Hm. apply insert_non_empty.
    + reflexivity.
    + intros Hnf c g' H1. apply Hmap in H1 as [[-> ->]|[_ H1]].
      * exists (jnext s1). apply elem_of_app. right. now apply elem_of_list_singleton.
      * destruct (ji_nofail _ HI) with (c := c) (g := g') as [n Hn]; auto.
        { intros c'. specialize (Hnf c'). intros Hin. apply Hnf. apply elem_of_app. auto. }
        exists n. apply elem_of_app. auto.
  - apply orb_false_iff in Eok as [Er _].
    split; cbn [jchans jnext jrunning jreaders jclosed jpanic jlog]; rewrite ?Hr, ?Hl, ?Hc, ?Hp, ?Hrun.
    + rewrite alive_app_fail. apply (ji_alive _ HI).
    + apply (ji_chs _ HI).
    + apply (ji_nums _ HI).
    + intros n c g' Hin. apply (ji_numlt _ HI) in Hin. lia.
    + exact Hkeep.
    + exact Hinj.
    + exact Hlt.
    + exact Hcl.
    + exact Hclt.
    + apply (ji_run _ HI).
    + congruence.
    + reflexivity.
    + intros Hnf. exfalso. apply (Hnf ch). apply elem_of_app. right. now apply elem_of_list_singleton.
Qed.

Lemma filter_sublist_map {A B} (f : A -> B) P `{forall x, Decision (P x)} l :
  NoDup (map f l) -> NoDup (map f (filter P l)).
Proof.
  induction l as [|a l IH]; intros Hn; [constructor|]. cbn in Hn. apply NoDup_cons in Hn as [Hni Hn].
  rewrite filter_cons. destruct (decide (P a)); [|auto]. cbn. constructor; [|auto].
  intros Hin. apply Hni. apply elem_of_list_fmap in Hin as (x & -> & Hx). apply elem_of_list_filter in Hx as [_ Hx].
  apply (elem_of_list_fmap_1 f). exact Hx.
Qed.

Lemma jinv_cancel s n : jinv s -> jinv (j_cancel n s).
Proof.
  intros HI. unfold j_cancel. destruct (list_find _ _) as [[i [[n' ch] g]]|] eqn:Ef; [|exact HI].
  apply list_find_Some in Ef as (Hi & Hn & _). cbn in Hn. subst n'.
  assert (Hin : (n, ch, g) ∈ jreaders s) by (eapply elem_of_list_lookup_2; eauto).
  unfold j_cleanup. cbn [jchans jnext jrunning jreaders jclosed jpanic jlog].
  rewrite (ji_map _ HI _ _ _ Hin).
  rewrite bool_decide_eq_false_2 by (eapply ji_closed; [exact HI|eapply ji_map; eauto]).
  assert (Hsub : forall r, r ∈ filter (fun r : nat * string * nat => r.1.1 <> n) (jreaders s) ->
            r ∈ jreaders s /\ r.1.1 <> n).
  { intros r Hr. apply elem_of_list_filter in Hr. tauto. }
  assert (Hoch : forall n' c g', (n', c, g') ∈ jreaders s -> n' <> n -> c <> ch).
  { intros n' c g' Hin' Hne ->. apply Hne.
    apply elem_of_list_lookup in Hin as [i1 H1], Hin' as [i2 H2].
    assert (i1 = i2) as ->.
    { apply (NoDup_lookup _ _ _ ch (ji_chs _ HI)).
      - change (map (fun r : nat * string * nat => r.1.2) (jreaders s)) with ((fun r : nat * string * nat => r.1.2) <$> jreaders s).
        rewrite list_lookup_fmap, H1. reflexivity.
      - change (map (fun r : nat * string * nat => r.1.2) (jreaders s)) with ((fun r : nat * string * nat => r.1.2) <$> jreaders s).
        rewrite list_lookup_fmap, H2. reflexivity. }
    congruence. }
  split; cbn [jchans jnext jrunning jreaders jclosed jpanic jlog].
  - rewrite alive_app_cancel, (ji_alive _ HI). clear. induction (jreaders s) as [|r l IH]; [reflexivity|].
    cbn [map]. rewrite !filter_cons. cbn [fst]. destruct (decide (r.1.1 <> n)); cbn [map]; rewrite IH; reflexivity.
  - apply filter_sublist_map, (ji_chs _ HI).
  - apply filter_sublist_map, (ji_nums _ HI).
  - intros n' c g' Hr. apply Hsub in Hr as [Hr _]. eapply ji_numlt; eauto.
  - intros n' c g' Hr. apply Hsub in Hr as [Hr Hne]. cbn in Hne.
    rewrite lookup_delete_ne by (apply not_eq_sym; eapply Hoch; eauto). eapply ji_map; eauto.
  - intros c1 c2 g' H1 H2. apply lookup_delete_Some in H1 as [_ H1], H2 as [_ H2]. eapply ji_inj; eauto.
  - intros c g' H1. apply lookup_delete_Some in H1 as [_ H1]. eapply ji_lt; eauto.
  - intros c g' H1. apply lookup_delete_Some in H1 as [Hne H1]. intros Hc. apply elem_of_cons in Hc as [->|Hc].
    + apply Hne. eapply ji_inj; eauto. eapply ji_map; eauto.
    + eapply ji_closed; eauto.
  - intros g' [->|Hc]%elem_of_cons; [|eapply ji_closedlt; eauto]. eapply ji_lt; [exact HI|eapply ji_map; eauto].
  - intros Hne. rewrite (ji_run _ HI).
    2: { intros E. rewrite E in Hin. inversion Hin. }
    cbn. apply negb_true_iff, bool_decide_eq_false. intros Hem.
    destruct (filter _ _) as [|[[n' c] g'] l] eqn:Efl; [congruence|].
    destruct (Hsub (n', c, g') ltac:(left)) as [Hr Hne']. cbn in Hne'.
    assert (delete ch (jchans s) !! c = Some g') as Hd.
    { rewrite lookup_delete_ne by (apply not_eq_sym; eapply Hoch; eauto). eapply ji_map; eauto. }
    rewrite Hem, lookup_empty in Hd. discriminate.
  - intros Hru. apply andb_true_iff in Hru as [_ Hru]. apply negb_true_iff, bool_decide_eq_false in Hru. exact Hru.
  - apply (ji_ok _ HI).
  - intros Hnf c g' H1. apply lookup_delete_Some in H1 as [Hne H1].
    destruct (ji_nofail _ HI) with (c := c) (g := g') as [n' Hn']; auto.
    { intros c' Hin'. apply (Hnf c'). apply elem_of_app. auto. }
    exists n'. apply elem_of_list_filter. split; [|exact Hn']. cbn. intros ->.
    apply Hne.
    apply elem_of_list_lookup in Hin as [i1 H1'], Hn' as [i2 H2'].
    assert (i1 = i2) as ->.
    { apply (NoDup_lookup _ _ _ n (ji_nums _ HI)).
      - change (map (fun r : nat * string * nat => r.1.1) (jreaders s)) with ((fun r : nat * string * nat => r.1.1) <$> jreaders s).
        rewrite list_lookup_fmap, H1'. reflexivity.
      - change (map (fun r : nat * string * nat => r.1.1) (jreaders s)) with ((fun r : nat * string * nat => r.1.1) <$> jreaders s).
        rewrite list_lookup_fmap, H2'. reflexivity. }
    congruence.
Qed.

Lemma jrun_log os s : exists l, jlog (jrun os s) = jlog s ++ l.
Proof.
  revert s. induction os as [|o os IH]; intros s; [exists []; cbn; now rewrite app_nil_r|].
  cbn. destruct (IH (jstep s o)) as [l1 H1]. destruct (jstep_log s o) as [l2 H2].
  exists (l2 ++ l1). unfold jrun in H1. rewrite H1, H2, app_assoc. reflexivity.
Qed.

Lemma jinv_run os s : jinv s -> exclusive (jlog (jrun os s)) -> jinv (jrun os s).
Proof.
  revert s. induction os as [|o os IH]; intros s HI Hex; [exact HI|]. cbn in *. apply IH; [|exact Hex].
  destruct (jrun_log os (jstep s o)) as [l Hl].
  assert (Hex1 : exclusive (jlog (jstep s o))).
  { unfold jrun in Hl. rewrite Hl in Hex. exact (exclusive_prefix _ _ Hex). }
  clear Hex Hl l IH. unfold jstep in *. rewrite (ji_ok _ HI) in *. destruct o as [ch ok|n].
  - apply jinv_subscribe; [exact HI|].
    destruct (jrunning s || ok) eqn:Eok; [left|now right].
    unfold j_subscribe in Hex1. pose proof (jinv_chan s ch HI) as H.
    destruct (match jchans s !! ch with Some g => _ | None => _ end) as [g s1].
    destruct H as (Hr & Hl & Hp & Hc & Hrun & Hm & Hnx & Hg & Hgc & Hginj & Hsame).
    rewrite Hrun, Eok in Hex1. cbn in Hex1. rewrite Hl in Hex1.
    exact (Hex1 (jlog s) (jnext s1) ch [] eq_refl).
  - now apply jinv_cancel.
Qed.

(** ** Consequences *)
Lemma j_lifetime os :
  let s := jrun os jinit in
  exclusive (jlog s) ->
  jpanic s = false /\ (alive (jlog s) <> [] -> jrunning s = true) /\
  ((forall ch, EvFailed ch ∉ jlog s) -> jrunning s = true -> alive (jlog s) <> []).
Proof.
  intros s Hex. pose proof (jinv_run os jinit jinv_init Hex) as HI. fold s in HI.
  splits.
  - apply (ji_ok _ HI).
  - intros Ha. apply (ji_run _ HI). intros E. apply Ha. rewrite (ji_alive _ HI), E. reflexivity.
  - intros Hnf Hr Ha. apply (ji_run2 _ HI Hr). apply map_empty. intros c.
    destruct (jchans s !! c) as [g|] eqn:E; [|reflexivity]. exfalso.
    destruct (ji_nofail _ HI Hnf c g E) as [n Hn]. rewrite (ji_alive _ HI) in Ha.
    destruct (jreaders s); [inversion Hn|discriminate].
Qed.

Lemma j_consume_alive os order subj :
  let s := jrun os jinit in
  exclusive (jlog s) -> (forall ch, EvFailed ch ∉ jlog s) -> order ≡ₚ (map_to_list (jchans s)).*1 ->
  match j_consume order subj s with
  | JStuck => False
  | JDropped => forall n ch, (n, ch) ∈ alive (jlog s) -> ~ subject_match ch subj
  | JHanded l => exists n ch, l = [n] /\ (n, ch) ∈ alive (jlog s) /\ subject_match ch subj
  end.
Proof.
  intros s Hex Hnf Hord. pose proof (jinv_run os jinit jinv_init Hex) as HI. fold s in HI.
  assert (Hdom : forall c, c ∈ order <-> exists g, jchans s !! c = Some g).
  { intros c. rewrite Hord. split.
    - intros ([c' g] & -> & H)%elem_of_list_fmap. exists g. now apply elem_of_map_to_list.
    - intros [g Hg]. apply elem_of_list_fmap. exists (c, g). split; [reflexivity|]. now apply elem_of_map_to_list. }
  unfold j_consume. pose proof (dispatch_spec order subj) as Hd. destruct (dispatch order subj) as [p|].
  - destruct Hd as [Hp Hm]. apply Hdom in Hp as [g Hg]. rewrite Hg.
    destruct (ji_nofail _ HI Hnf p g Hg) as [n Hn].
    assert (filter (fun r : nat * string * nat => r.2 = g) (jreaders s) = [(n, p, g)]) as ->.
    { assert (Hu : forall r, r ∈ jreaders s -> r.2 = g -> r = (n, p, g)).
      { intros [[n' p'] g'] Hr E. cbn in E. subst g'.
        assert (p' = p) as -> by (eapply ji_inj; eauto; eapply ji_map; eauto).
        apply elem_of_list_lookup in Hr as [i1 H1], Hn as [i2 H2].
        assert (i1 = i2) as ->; [|congruence].
        apply (NoDup_lookup _ _ _ p (ji_chs _ HI)).
        - change (map (fun r : nat * string * nat => r.1.2) (jreaders s)) with ((fun r : nat * string * nat => r.1.2) <$> jreaders s).
          rewrite list_lookup_fmap, H1. reflexivity.
        - change (map (fun r : nat * string * nat => r.1.2) (jreaders s)) with ((fun r : nat * string * nat => r.1.2) <$> jreaders s).
          rewrite list_lookup_fmap, H2. reflexivity. }
      assert (Hnd : NoDup (jreaders s)). { eapply NoDup_fmap_1. exact (ji_chs _ HI). }
      revert Hn Hu Hnd. clear. induction (jreaders s) as [|r l IH]; intros Hn Hu Hnd; [inversion Hn|].
      apply NoDup_cons in Hnd as [Hni Hnd]. rewrite filter_cons.
      destruct (decide (r.2 = g)) as [E|E].
      - assert (r = (n, p, g)) as -> by (apply Hu; [left|exact E]). f_equal.
        apply elem_of_nil_inv. intros x Hx. apply elem_of_list_filter in Hx as [E' Hx].
        apply Hni. rewrite <- (Hu x); [exact Hx|now right|exact E'].
      - apply IH; auto.
        + apply elem_of_cons in Hn as [<-|Hn]; [cbn in E; congruence|exact Hn].
        + intros x Hx. apply Hu. now right. }
    exists n, p. splits; auto. rewrite (ji_alive _ HI).
    apply (elem_of_list_fmap_1 (fun r : nat * string * nat => (r.1.1, r.1.2))) in Hn. exact Hn.
  - intros n ch Ha. rewrite (ji_alive _ HI) in Ha. apply elem_of_list_fmap in Ha as ([[n' ch'] g] & E & Hr).
    cbn in E. injection E as -> ->. apply Hd. apply Hdom. exists g. eapply ji_map; eauto.
Qed.

(** ** Connections *)
Record kinv (s : kst) : Prop := {
  ki_open : forall c, opened c (kevs s) = match c with Own n => if bool_decide (n < knext s) then 1 else 0 | User _ => 0 end;
  ki_close : forall c, closes c (kevs s) = match c with
     | Own n => if bool_decide (n < knext s) && negb (kowns s && bool_decide (kconn s = Some (Own n))) then 1 else 0
     | User _ => 0 end;
  ki_own : kowns s = true -> exists n, kconn s = Some (Own n) /\ n < knext s;
  ki_user : kowns s = false -> forall n, kconn s <> Some (Own n)
}.

Lemma opened_app c l1 l2 : opened c (l1 ++ l2) = opened c l1 + opened c l2.
Proof. unfold opened. rewrite filter_app, app_length. reflexivity. Qed.
Lemma closes_app c l1 l2 : closes c (l1 ++ l2) = closes c l1 + closes c l2.
Proof. unfold closes. rewrite filter_app, app_length. reflexivity. Qed.
Lemma opened_open c c' : opened c [EvOpen c'] = if bool_decide (c' = c) then 1 else 0.
Proof. unfold opened. rewrite filter_cons, filter_nil. repeat case_decide; repeat case_bool_decide; try reflexivity; congruence. Qed.
Lemma opened_close c c' : opened c [EvClose c'] = 0.
Proof. unfold opened. rewrite filter_cons, filter_nil. case_decide; [discriminate|reflexivity]. Qed.
Lemma closes_close c c' : closes c [EvClose c'] = if bool_decide (c' = c) then 1 else 0.
Proof. unfold closes. rewrite filter_cons, filter_nil. repeat case_decide; repeat case_bool_decide; try reflexivity; congruence. Qed.
Lemma closes_open c c' : closes c [EvOpen c'] = 0.
Proof. unfold closes. rewrite filter_cons, filter_nil. case_decide; [discriminate|reflexivity]. Qed.
Lemma opened_nil c : opened c [] = 0. Proof. reflexivity. Qed.
Lemma closes_nil c : closes c [] = 0. Proof. reflexivity. Qed.

Lemma kinv_init : kinv kinit.
Proof.
  split; cbn; try discriminate.
  - intros [n|n]; reflexivity.
  - intros [n|n]; reflexivity.
Qed.

Ltac kcases := repeat first [case_bool_decide | progress cbn [andb negb orb]];
  repeat match goal with
  | H : Own ?a = Own ?b |- _ => injection H as H
  | H : Some (Own ?a) = Some (Own ?b) |- _ => injection H as H
  | H : Own ?a <> Own ?b |- _ => assert (a <> b) by congruence; clear H
  | H : Some (Own ?a) <> Some (Own ?b) |- _ => assert (a <> b) by congruence; clear H
  end; try lia; try congruence.

Lemma kinv_set_user s u : kinv s -> kinv (set_connection (User <$> u) false s).
Proof.
  intros [Ho Hc Hw Hu]. unfold set_connection. split; cbn [kconn kowns knext kevs].
  - intros c. rewrite opened_app, Ho. destruct (kconn s) as [c0|]; [destruct (kowns s)|];
      rewrite ?opened_close, ?opened_nil; lia.
  - intros c. rewrite closes_app, Hc. destruct (kowns s) eqn:Ew.
    + destruct (Hw eq_refl) as (n0 & -> & Hlt). rewrite closes_close. destruct c as [n|n]; kcases.
    + destruct (kconn s) as [c0|]; rewrite closes_nil; destruct c as [n|n]; cbn [andb negb]; lia.
  - discriminate.
  - intros _ n. destruct u; cbn; congruence.
Qed.

Lemma kinv_set_own s : kinv s -> kinv (set_connection (Some (Own (knext s))) true (snd (connect s))).
Proof.
  intros [Ho Hc Hw Hu]. unfold set_connection, connect. split; cbn [kconn kowns knext kevs snd].
  - intros c. rewrite !opened_app, Ho, opened_open. destruct (kconn s) as [c0|]; [destruct (kowns s)|];
      rewrite ?opened_close, ?opened_nil; destruct c as [n|n]; kcases.
  - intros c. rewrite !closes_app, Hc, closes_open. destruct (kowns s) eqn:Ew.
    + destruct (Hw eq_refl) as (n0 & -> & Hlt). rewrite closes_close. destruct c as [n|n]; kcases.
    + destruct (kconn s) as [c0|]; rewrite closes_nil; destruct c as [n|n]; kcases.
  - intros _. exists (knext s). split; [reflexivity|lia].
  - discriminate.
Qed.

Lemma kinv_opts os s s' ok : kinv s -> apply_opts os s = (s', ok) -> kinv s'.
Proof.
  revert s. induction os as [|o os IH]; intros s HI; cbn [apply_opts]; [congruence|].
  destruct o as [[|]|u|b]; cbn [apply_opt].
  - pose proof (kinv_set_own s HI) as H. destruct (connect s) as [c s1] eqn:Ec. injection Ec as <- <-. cbn in H.
    apply IH. exact H.
  - congruence.
  - apply IH. now apply kinv_set_user.
  - destruct b; [now apply IH|congruence].
Qed.

Lemma kinv_new os cok sok s ok : js_new os cok sok = (s, ok) -> kinv s.
Proof.
  unfold js_new. destruct (apply_opts os kinit) as [s1 ok1] eqn:E.
  pose proof (kinv_opts _ _ _ _ kinv_init E) as HI. destruct ok1; [|congruence].
  destruct (kconn s1); [congruence|]. destruct cok; [|congruence].
  pose proof (kinv_set_own s1 HI) as H. destruct (connect s1) as [c s2] eqn:Ec. injection Ec as <- <-. cbn in H.
  intros [= <- <-]. exact H.
Qed.

Lemma js_balance os cok sok s :
  js_new os cok sok = (s, true) ->
  forall c, match c with
            | Own _ => closes c (kevs (js_close s)) = opened c (kevs (js_close s)) /\ opened c (kevs (js_close s)) <= 1
            | User _ => closes c (kevs (js_close s)) = 0
            end.
Proof.
  intros Hn c. pose proof (kinv_new _ _ _ _ _ Hn) as [Ho Hc Hw Hu]. unfold js_close.
  destruct (kowns s) eqn:Ew.
  - destruct (Hw eq_refl) as (n0 & E & Hlt). rewrite E in *. cbn [kevs]. rewrite closes_app, opened_app, Ho, Hc, closes_close, opened_close.
    destruct c as [n|n]; kcases.
  - assert (match kconn s with Some _ => s | None => s end = s) as -> by (destruct (kconn s); reflexivity).
    rewrite Hc. destruct c as [n|n]; [|reflexivity]. rewrite Ho. cbn [andb negb]. rewrite andb_true_r.
    case_bool_decide; lia.
Qed.

Lemma js_user_never_closed os cok sok s ok n :
  js_new os cok sok = (s, ok) -> closes (User n) (kevs s) = 0 /\ closes (User n) (kevs (js_close s)) = 0.
Proof.
  intros Hn. pose proof (kinv_new _ _ _ _ _ Hn) as [Ho Hc Hw Hu]. split; [apply (Hc (User n))|]. unfold js_close.
  destruct (kowns s) eqn:Ew.
  - destruct (Hw eq_refl) as (n0 & E & Hlt). rewrite E. cbn [kevs]. rewrite closes_app, (Hc (User n)), closes_close.
    kcases.
  - destruct (kconn s); apply (Hc (User n)).
Qed.

(** NATS: the connections opened by [k] successful connection options. *)
Definition nstate (k : nat) (s : kst) : Prop :=
  knext s = k /\ kevs s = map (fun n => EvOpen (Own n)) (seq 0 k) /\
  kconn s = match k with 0 => None | S k' => Some (Own k') end.

Definition is_connopts (o : copt) : bool := match o with OConnOpts true => true | _ => false end.

Lemma nstate_connect k s : nstate k s ->
  nstate (S k) (let '(c, s1) := connect s in mkK (Some c) true (knext s1) (kevs s1)).
Proof.
  intros (Hn & He & Hc). unfold nstate, connect. cbn [kconn kevs knext]. rewrite Hn, He.
  splits; try reflexivity. rewrite seq_S, map_app. reflexivity.
Qed.

Lemma nstate_opts os k s s' ok :
  nstate k s -> nats_opts os s = (s', ok) -> ok = true ->
  nstate (k + length (List.filter is_connopts os)) s'.
Proof.
  revert k s. induction os as [|o os IH]; intros k s HI; cbn [nats_opts List.filter].
  - intros [= -> ->] _. now rewrite Nat.add_0_r.
  - destruct o as [[|]|u|b]; cbn [nats_opt is_connopts length].
    + pose proof (nstate_connect k s HI) as H. destruct (connect s) as [c s1]. intros E Hok.
      rewrite Nat.add_succ_r. exact (IH (S k) _ H E Hok).
    + congruence.
    + apply IH. exact HI.
    + destruct b; [apply IH; exact HI|congruence].
Qed.

Lemma nats_exact os cok s :
  nats_new os cok = (s, true) ->
  let k := Nat.max 1 (length (List.filter is_connopts os)) in
  kevs (nats_close s) = map (fun n => EvOpen (Own n)) (seq 0 k) ++ [EvClose (Own (k - 1))].
Proof.
  unfold nats_new. destruct (nats_opts os kinit) as [s1 ok1] eqn:E. destruct ok1; [|discriminate].
  assert (nstate 0 kinit) as H0 by (unfold nstate; auto).
  pose proof (nstate_opts os 0 kinit s1 true H0 E eq_refl) as HI. cbn [Nat.add] in HI.
  set (c := length (List.filter is_connopts os)) in *. destruct c as [|c].
  - pose proof (nstate_connect _ _ HI) as H. destruct HI as (_ & _ & ->). destruct cok; [|discriminate].
    destruct (connect s1) as [c' s2]. intros [= <-]. destruct H as (_ & He & Hc). unfold nats_close.
    rewrite Hc. cbn [kevs] in *. rewrite He. reflexivity.
  - destruct HI as (_ & He & Hc). rewrite Hc. intros [= <-]. unfold nats_close. rewrite Hc. cbn [kevs]. rewrite He.
    replace (Nat.max 1 (S c)) with (S c) by lia. replace (S c - 1) with c by lia. reflexivity.
Qed.
