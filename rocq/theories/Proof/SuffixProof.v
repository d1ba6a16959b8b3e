From stdpp Require Import list strings.
From Coq Require Import Ascii Lia.
From Verif.Model Require Import Naming Suffix.
From Verif.Spec Require Import SuffixSpec.

Lemma has_suffix_spec s suf : has_suffix s suf = true <-> ends_with s suf.
Proof.
  unfold has_suffix. rewrite andb_true_iff, bool_decide_eq_true, Nat.leb_le. split.
  - intros [_ E]. exists (take (List.length s - List.length suf) s). rewrite <- E at 2. by rewrite take_drop.
  - intros [r ->]. rewrite app_length. split; [lia|].
    replace (List.length r + List.length suf - List.length suf)%nat with (List.length r) by lia. apply drop_app.
Qed.
Lemma cut_once_app r suf : cut_once (r ++ suf) suf = r.
Proof.
  unfold cut_once. assert (has_suffix (r ++ suf) suf = true) as -> by (apply has_suffix_spec; by exists r). rewrite app_length.
  replace (List.length r + List.length suf - List.length suf)%nat with (List.length r) by lia. apply take_app.
Qed.
Lemma cut_once_none s suf : ~ ends_with s suf -> cut_once s suf = s.
Proof. intros H. unfold cut_once. destruct (has_suffix s suf) eqn:E; [|done]. destruct H. by apply has_suffix_spec. Qed.

Lemma ends_joined s suf : ends_with s ("_"%char :: suf) -> ends_with s suf.
Proof. intros [r ->]. exists (r ++ ["_"%char]). by rewrite <- app_assoc. Qed.

(** What is done, in all cases. *)
Lemma cut_suffix_plain r suf : cut_suffix (r ++ suf) suf = cut_once r ("_"%char :: suf).
Proof. unfold cut_suffix. by rewrite cut_once_app. Qed.
Lemma cut_suffix_none s suf : ~ ends_with s suf -> cut_suffix s suf = s.
Proof. intros H. unfold cut_suffix. rewrite (cut_once_none s suf) by done. apply cut_once_none. intros E. by apply H, ends_joined. Qed.

Lemma without_fun suf s r r' : without suf s r -> without suf s r' -> r = r'.
Proof.
  intros [a Ea|a Ea Na|Na] [b Eb|b Eb Nb|Nb].
  - rewrite Ea in Eb. by apply app_inv_tail in Eb.
  - destruct Nb. by exists a.
  - destruct Nb. apply ends_joined. by exists a.
  - destruct Na. by exists b.
  - rewrite Ea in Eb. by apply app_inv_tail in Eb.
  - destruct Nb. by exists a.
  - destruct Na. apply ends_joined. by exists b.
  - destruct Na. by exists b.
  - done.
Qed.

Lemma ends_app s suf : ends_with (s ++ suf) ("_"%char :: suf) <-> exists r, s = r ++ ["_"%char].
Proof.
  split.
  - intros [r E]. exists r. rewrite cons_middle, app_assoc in E. by apply app_inv_tail in E.
  - intros [r ->]. exists r. by rewrite <- app_assoc.
Qed.

(** It is what it should be unless there is a "_" before the suffix, or "_" and the suffix twice. *)
Lemma cut_suffix_exact s suf : suf <> [] ->
  without suf s (cut_suffix s suf) <-> ~ ends_with s ("_"%char :: suf) /\ ~ ends_with s ("_"%char :: suf ++ suf).
Proof.
  intros Hs. assert (L : forall r, ends_with (r ++ suf) ("_"%char :: suf ++ suf) <-> ends_with r ("_"%char :: suf)).
  { intros r. split.
    - intros [q E]. exists q. change ("_"%char :: suf ++ suf) with (("_"%char :: suf) ++ suf) in E. rewrite app_assoc in E. by apply app_inv_tail in E.
    - intros [q ->]. exists q. by rewrite <- app_assoc. }
  destruct (has_suffix s suf) eqn:E.
  - apply has_suffix_spec in E as [r ->]. rewrite cut_suffix_plain, L. split.
    + intros W. destruct (has_suffix r ("_"%char :: suf)) eqn:Er.
      * apply has_suffix_spec in Er as [q Eq]. rewrite Eq, cut_once_app in W. exfalso. inversion W as [a Ea|a Ea Na|Na].
        -- rewrite <- app_assoc in Ea. apply app_inv_head in Ea. apply (f_equal List.length) in Ea. rewrite app_length in Ea. cbn in Ea.
           destruct suf as [|c suf']; [done|cbn in Ea; lia].
        -- rewrite <- app_assoc in Ea. apply app_inv_head in Ea. apply (f_equal List.length) in Ea. rewrite app_length in Ea. cbn in Ea. lia.
        -- destruct Na. eexists. reflexivity.
      * assert (~ ends_with r ("_"%char :: suf)) as Nr by (intros H; apply has_suffix_spec in H; congruence). split; [|done].
        rewrite cut_once_none in W by done. inversion W as [a Ea|a Ea Na|Na].
        -- exfalso. apply app_inv_head in Ea. apply (f_equal List.length) in Ea. cbn in Ea. lia.
        -- done.
        -- destruct Na. eexists. reflexivity.
    + intros [N1 N2]. rewrite cut_once_none by done. by apply W_plain.
  - assert (~ ends_with s suf) as N by (intros H; apply has_suffix_spec in H; congruence). rewrite cut_suffix_none by done. split; [|intros _; by apply W_none].
    intros _. split; intros H; apply N; [by apply ends_joined|]. destruct H as [q ->]. exists (q ++ "_"%char :: suf). by rewrite <- app_assoc.
Qed.
