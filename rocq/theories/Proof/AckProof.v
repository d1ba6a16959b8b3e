From Coq Require Import List.
From Verif.Model Require Import Ack.
Import ListNotations.

Lemma do_settle_eq k s : do_settle k s = if negb (acked s) then mkAck true (told s ++ [k]) else s.
Proof. destruct k; reflexivity. Qed.

Lemma settles_acked ks s : acked s = true -> do_settles ks s = s.
Proof.
  revert s; induction ks as [|k ks IH]; intros s H; [reflexivity|].
  unfold do_settles in *; cbn [fold_left].
  assert (do_settle k s = s) as -> by (destruct k; cbn; unfold do_ack, do_nak; rewrite H; reflexivity).
  apply IH, H.
Qed.

Lemma settles_told ks :
  told (do_settles ks ack_new) = match ks with [] => [] | k :: _ => [k] end.
Proof.
  destruct ks as [|k ks]; [reflexivity|].
  change (told (do_settles ks (do_settle k ack_new)) = [k]).
  destruct k; rewrite settles_acked; reflexivity.
Qed.
