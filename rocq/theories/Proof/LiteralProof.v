From stdpp Require Import list strings.
From Coq Require Import NArith Lia.
From Verif.Model Require Import Additional Literals.
From Verif.Spec Require Import JsonSpec ShowSpec LiteralSpec.
Local Open Scope N_scope.
Local Open Scope list_scope.

(** ** Digits *)
Lemma hexval_unique c d d' : hexval c d -> hexval c d' -> d = d'.
Proof. intros H H'. inversion H; inversion H'; subst; lia. Qed.
Lemma digits_unique base l n n' : digits base l n -> digits base l n' -> n = n'.
Proof.
  intros H. revert n'. induction H as [|l n c d H IH Hc Hd]; intros n' H'.
  - inversion H' as [|l' k c' d' _ _ _ E]; [done|]. by destruct l'.
  - inversion H' as [E|l' k c' d' Hk Hc' Hd' E]; [by destruct l|]. apply app_inj_tail in E as [-> ->]. by rewrite (IH _ Hk), (hexval_unique _ _ _ Hc Hc').
Qed.
Lemma digits_hex k : forall n, n < 16 ^ N.of_nat k -> digits 16 (hex k n) n.
Proof.
  induction k as [|k IH]; intros n H; cbn [hex].
  - cbn in H. replace n with 0 by lia. constructor.
  - replace n with (16 * (n / 16) + n mod 16) at 3 by (symmetry; apply N.div_mod; discriminate). pose proof (N.mod_lt n 16 ltac:(discriminate)) as L.
    constructor; [|unfold hexdigit; destruct (N.ltb_spec (n mod 16) 10); constructor; lia|done].
    apply IH. apply N.div_lt_upper_bound; [discriminate|]. rewrite Nat2N.inj_succ, N.pow_succ_r' in H. lia.
Qed.
Lemma hex_length k : forall n, List.length (hex k n) = k.
Proof. induction k as [|k IH]; intros n; [done|]. cbn [hex]. rewrite app_length, IH. cbn. lia. Qed.

(** ** Characters of literals *)
(** How a literal goes on tells where its first character ends. *)
Definition width (t : gostring) : nat :=
  match t with
  | Rune c :: r =>
      if c =? 92 then
        match r with
        | Rune e :: _ => if e =? 120 then 4 else if e =? 117 then 6 else if e =? 85 then 10 else if e <? 56 then (if e =? 34 then 2 else 4) else 2
        | _ => 0
        end
      else 1
  | _ => 0
  end.
Lemma digit8 l n : digits 8 l n -> Forall (fun c => 48 <= c < 56) l.
Proof.
  intros H. induction H as [|l n c d H IH Hc Hd]; [constructor|]. apply Forall_app. split; [done|]. constructor; [|constructor]. inversion Hc; subst; lia.
Qed.
Lemma width_char t v x : go_char t v -> width (t ++ x) = List.length t.
Proof.
  intros H. destruct H as [r _ _ N _|e v H|h n Hl _|h n Hl Hd _|h n Hl _ _|h n Hl _ _].
  - cbn. apply N.eqb_neq in N. by rewrite N.
  - repeat (apply elem_of_cons in H as [[= -> ->]|H]; [reflexivity|]). by apply elem_of_nil in H.
  - rewrite map_length. cbn. by rewrite Hl.
  - rewrite map_length. destruct h as [|a h]; [discriminate|]. apply digit8 in Hd. apply Forall_cons in Hd as [Ha _]. cbn -[N.eqb N.ltb].
    destruct (N.eqb_spec a 120); [lia|]. destruct (N.eqb_spec a 117); [lia|]. destruct (N.eqb_spec a 85); [lia|]. destruct (N.ltb_spec a 56); [|lia]. destruct (N.eqb_spec a 34); [lia|].
    change (92 =? 92) with true. cbn in Hl. cbn iota. lia.
  - rewrite map_length. cbn. by rewrite Hl.
  - rewrite map_length. cbn. by rewrite Hl.
Qed.
Definition digit_val (c : N) : N := if c <? 58 then c - 48 else if c <? 71 then c - 55 else c - 87.
Definition number (base : N) (t : gostring) : N := fold_left (fun a c => match c with Rune c => base * a + digit_val c | BadByte _ => a end) t 0.
Lemma hexval_val c d : hexval c d -> digit_val c = d.
Proof.
  intros H. unfold digit_val. destruct H; repeat match goal with |- context [?a <? ?b] => destruct (N.ltb_spec a b) end; lia.
Qed.
Lemma digits_number base l n : digits base l n -> number base (map Rune l) = n.
Proof.
  intros H. induction H as [|l n c d H IH Hc Hd]; [done|]. unfold number in *. rewrite map_app, fold_left_app, IH. cbn. by rewrite (hexval_val _ _ Hc).
Qed.
Definition char_val (t : gostring) : list N :=
  match t with
  | [Rune r] => utf8 r
  | Rune _ :: Rune e :: r =>
      if e =? 120 then [number 16 r] else if e =? 117 then utf8 (number 16 r) else if e =? 85 then utf8 (number 16 r)
      else if (e <? 56) && negb (e =? 34) then [number 8 (Rune e :: r)]
      else match List.find (fun p => fst p =? e) [(97, 7); (98, 8); (102, 12); (110, 10); (114, 13); (116, 9); (118, 11); (92, 92); (34, 34)] with Some (_, v) => [v] | None => [] end
  | _ => []
  end.
Lemma char_val_spec t v : go_char t v -> char_val t = v.
Proof.
  intros H. destruct H as [r _ _ N1 _|e v H|h n Hl Hd|h n Hl Hd _|h n Hl Hd _|h n Hl Hd _].
  - done.
  - repeat (apply elem_of_cons in H as [[= -> ->]|H]; [reflexivity|]). by apply elem_of_nil in H.
  - change ([number 16 (map Rune h)] = [n]). by rewrite (digits_number _ _ _ Hd).
  - pose proof (digit8 _ _ Hd) as F. apply digits_number in Hd. destruct h as [|a h]; [discriminate|]. apply Forall_cons in F as [Ha _]. cbn [map app char_val].
    destruct h as [|b h]; [discriminate|]. change (map Rune (a :: b :: h)) with (Rune a :: map Rune (b :: h)) in Hd.
    destruct (N.eqb_spec a 120); [lia|]. destruct (N.eqb_spec a 117); [lia|]. destruct (N.eqb_spec a 85); [lia|]. destruct (N.ltb_spec a 56); [|lia]. destruct (N.eqb_spec a 34); [lia|].
    cbn [andb negb]. by rewrite Hd.
  - change (utf8 (number 16 (map Rune h)) = utf8 n). by rewrite (digits_number _ _ _ Hd).
  - change (utf8 (number 16 (map Rune h)) = utf8 n). by rewrite (digits_number _ _ _ Hd).
Qed.
Lemma char_prefix t v t' v' x x' : go_char t v -> go_char t' v' -> t ++ x = t' ++ x' -> t = t' /\ v = v' /\ x = x'.
Proof.
  intros H H' E. assert (L : List.length t = List.length t') by (rewrite <- (width_char _ _ x H), <- (width_char _ _ x' H'); by rewrite E).
  apply app_inj_1 in E as [-> ->]; [|done]. split; [done|]. split; [|done]. by rewrite <- (char_val_spec _ _ H), <- (char_val_spec _ _ H').
Qed.
Lemma char_start t v : go_char t v -> exists r t', t = Rune r :: t' /\ r <> 34.
Proof. intros H. destruct H; cbn; eexists _, _; (split; [reflexivity|]); done. Qed.

(** A literal ends where it ends. *)
Notation body ps := (List.concat (map fst ps) : gostring).
Lemma body_prefix ps : forall ps' x x', Forall (fun p => go_char p.1 p.2) ps -> Forall (fun p => go_char p.1 p.2) ps' ->
  body ps ++ Rune 34 :: x = body ps' ++ Rune 34 :: x' -> ps = ps' /\ x = x'.
Proof.
  induction ps as [|[t v] ps IH]; intros [|[t' v'] ps'] x x' F F' E; cbn [map List.concat fst app] in E.
  - injection E as ->. done.
  - exfalso. apply Forall_cons in F' as [H _]. apply char_start in H as (r & y & Ey & N). cbn in Ey. subst t'. injection E as <- _. done.
  - exfalso. apply Forall_cons in F as [H _]. apply char_start in H as (r & y & Ey & N). cbn in Ey. subst t. injection E as -> _. done.
  - apply Forall_cons in F as [H F], F' as [H' F']. cbn in H, H'. rewrite <- !app_assoc in E. destruct (char_prefix _ _ _ _ _ _ H H' E) as (-> & -> & E').
    destruct (IH _ _ _ F F' E') as [-> ->]. done.
Qed.
Lemma literal_prefix t v t' v' x x' : literal t v -> literal t' v' -> t ++ x = t' ++ x' -> t = t' /\ v = v' /\ x = x'.
Proof.
  intros (ps & -> & -> & F) (ps' & -> & -> & F') E. rewrite <- !app_assoc in E. injection E as E. by destruct (body_prefix _ _ _ _ F F' E) as [-> ->].
Qed.

(** ** %q *)
Section quoted.
  Variable printable : N -> bool.
  Hypothesis no_mark : printable 65279 = false.
  Lemma quote_char_go c : real_char c -> go_char (map Rune (quote_char printable c)) (bytes_of [c]).
  Proof.
    intros H. unfold bytes_of. cbn [map List.concat]. rewrite app_nil_r. destruct c as [r|b]; cbn [quote_char].
    2: { rewrite map_app. cbn in H. change (map Rune (txt "\x") ++ map Rune (hex 2 b)) with (map Rune ([92; 120] ++ hex 2 b)). apply go_hex; [apply hex_length|]. apply digits_hex. cbn. lia. }
    unfold quote_rune. destruct (N.eqb_spec r 34) as [->|N1]; [apply go_simple; apply (bool_decide_unpack _); vm_compute; exact I|].
    destruct (N.eqb_spec r 92) as [->|N2]; [apply go_simple; apply (bool_decide_unpack _); vm_compute; exact I|]. cbn [orb].
    destruct (is_print printable r) eqn:P.
    { apply go_plain; [|done|done|]; unfold is_print in P.
      - split; [done|]. split; [intros ->; discriminate|]. intros ->. change (65279 <? 128) with false in P. cbn iota in P. congruence.
      - intros ->. discriminate. }
    destruct (N.eqb_spec r 7) as [->|M1]; [apply go_simple; apply (bool_decide_unpack _); vm_compute; exact I|].
    destruct (N.eqb_spec r 8) as [->|M2]; [apply go_simple; apply (bool_decide_unpack _); vm_compute; exact I|].
    destruct (N.eqb_spec r 12) as [->|M3]; [apply go_simple; apply (bool_decide_unpack _); vm_compute; exact I|].
    destruct (N.eqb_spec r 10) as [->|M4]; [apply go_simple; apply (bool_decide_unpack _); vm_compute; exact I|].
    destruct (N.eqb_spec r 13) as [->|M5]; [apply go_simple; apply (bool_decide_unpack _); vm_compute; exact I|].
    destruct (N.eqb_spec r 9) as [->|M6]; [apply go_simple; apply (bool_decide_unpack _); vm_compute; exact I|].
    destruct (N.eqb_spec r 11) as [->|M7]; [apply go_simple; apply (bool_decide_unpack _); vm_compute; exact I|].
    destruct ((r <? 32) || (r =? 127)) eqn:S.
    { assert (L : r < 128) by (apply orb_true_iff in S as [S%N.ltb_lt|S%N.eqb_eq]; lia). unfold utf8. destruct (N.ltb_spec r 128); [|lia].
      apply (go_hex (hex 2 r)); [apply hex_length|]. apply digits_hex. cbn. lia. }
    destruct H as [H1 H2]. destruct (N.ltb_spec r 65536).
    - apply (go_little (hex 4 r)); [apply hex_length| |done]. apply digits_hex. cbn. lia.
    - apply (go_big (hex 8 r)); [apply hex_length| |done]. apply digits_hex. cbn. lia.
  Qed.
  Lemma quote_literal s : real s -> literal (map Rune (quote printable s)) (bytes_of s).
  Proof.
    intros R. exists (map (fun c => (map Rune (quote_char printable c), bytes_of [c])) s). split; [|split].
    - unfold quote. rewrite !map_app. cbn [map]. f_equal. f_equal. rewrite concat_map, !map_map. done.
    - rewrite map_map. unfold bytes_of. f_equal. apply map_ext. intros c. cbn. by rewrite app_nil_r.
    - rewrite Forall_forall. intros p Hp. apply elem_of_list_In, in_map_iff in Hp as (c & <- & Hc). cbn. apply quote_char_go.
      eapply Forall_forall in R; [exact R|]. by apply elem_of_list_In.
  Qed.
End quoted.

(** ** Texts between quotes *)
Lemma bytes_app s s' : bytes_of (s ++ s') = bytes_of s ++ bytes_of s'.
Proof. unfold bytes_of. by rewrite map_app, concat_app. Qed.
Lemma between_parts s v : literal (between s) v <-> exists ps, s = body ps /\ v = List.concat (map snd ps) /\ Forall (fun p => go_char p.1 p.2) ps.
Proof.
  split.
  - intros (ps & E & -> & F). exists ps. split; [|done]. unfold between, own in E. cbn [map txt] in E. injection E as E. by apply app_inj_tail in E as [-> _].
  - intros (ps & -> & -> & F). by exists ps.
Qed.
Lemma utf8_length r : (1 <= List.length (utf8 r) <= 4)%nat.
Proof. unfold utf8. repeat case_match; cbn; lia. Qed.
Lemma utf8_length3 r : r < 65536 -> (List.length (utf8 r) <= 3)%nat.
Proof. intros H. unfold utf8. destruct (N.ltb_spec r 65536); [|lia]. repeat case_match; cbn; lia. Qed.
Lemma rune_bytes (l : list N) : (List.length l <= List.length (bytes_of (map Rune l)))%nat.
Proof.
  induction l as [|a l IH]; [done|]. unfold bytes_of in *. cbn [map List.concat]. rewrite app_length. pose proof (utf8_length a). cbn [List.length]. lia.
Qed.
Lemma char_shrinks t v : go_char t v -> (exists r, t = [Rune r] /\ in_source r /\ r <> 34 /\ r <> 92 /\ r <> 10 /\ v = bytes_of t) \/ (List.length v < List.length (bytes_of t))%nat.
Proof.
  intros H. destruct H as [r S N1 N2 N3|e v H|h n Hl Hd|h n Hl Hd _|h n Hl Hd _|h n Hl Hd _].
  - left. exists r. unfold bytes_of. cbn [map List.concat]. rewrite app_nil_r. done.
  - right. pose proof (rune_bytes [92; e]). cbn in *. lia.
  - right. pose proof (rune_bytes ([92; 120] ++ h)) as L. rewrite app_length, Hl in L. cbn [List.length] in *. lia.
  - right. pose proof (rune_bytes ([92] ++ h)) as L. rewrite app_length, Hl in L. cbn [List.length] in *. lia.
  - right. pose proof (rune_bytes ([92; 117] ++ h)) as L. rewrite app_length, Hl in L. cbn [List.length] in *. pose proof (utf8_length n). lia.
  - right. pose proof (rune_bytes ([92; 85] ++ h)) as L. rewrite app_length, Hl in L. cbn [List.length] in *. pose proof (utf8_length n). lia.
Qed.
Lemma parts_shrink ps : Forall (fun p => go_char p.1 p.2) ps ->
  (plain (body ps) /\ List.concat (map snd ps) = bytes_of (body ps)) \/ (List.length (List.concat (map snd ps)) < List.length (bytes_of (body ps)))%nat.
Proof.
  induction 1 as [|[t v] ps H F IH]; [left; split; [constructor|done]|]. cbn [map List.concat fst snd] in *. rewrite bytes_app, !app_length.
  destruct (char_shrinks _ _ H) as [(r & -> & S & N1 & N2 & N3 & ->)|L], IH as [[P E]|L']; [left|right; lia|right; rewrite E; lia|right; lia].
  split; [|by rewrite E]. constructor; [|done]. eauto 10.
Qed.
Lemma between_plain s : literal (between s) (bytes_of s) <-> plain s.
Proof.
  rewrite between_parts. split.
  - intros (ps & -> & E & F). destruct (parts_shrink ps F) as [[P _]|L]; [done|]. exfalso. apply (f_equal (@List.length N)) in E. unfold gostring in *. lia.
  - intros P. exists (map (fun c => ([c], bytes_of [c])) s). split; [|split].
    + rewrite map_map. cbn. clear P. induction s as [|c s IH]; [done|]. cbn. by rewrite <- IH.
    + rewrite map_map. unfold bytes_of. f_equal. apply map_ext. intros c. cbn. by rewrite app_nil_r.
    + rewrite Forall_forall. intros p Hp. apply elem_of_list_In, in_map_iff in Hp as (c & <- & Hc). unfold plain in P. rewrite Forall_forall in P.
      apply elem_of_list_In in Hc. destruct (P _ Hc) as (r & -> & S & N1 & N2 & N3). cbn. unfold bytes_of. cbn. rewrite app_nil_r. by apply go_plain.
Qed.
Lemma holds_between b s a : holds (b ++ between s ++ a) b s a <-> plain s.
Proof.
  unfold holds. rewrite <- between_plain. split.
  - intros (lit & E & L). apply app_inv_head in E. apply app_inv_tail in E. by rewrite E.
  - intros L. by exists (between s).
Qed.

(** ** Raw literals *)
Lemma filter_all s : (List.length (bytes_of (List.filter (fun c => match c with Rune r => negb (r =? 13)%N | BadByte _ => true end) s)) <= List.length (bytes_of s))%nat.
Proof.
  induction s as [|c s IH]; [done|]. cbn [List.filter]. change (c :: s) with ([c] ++ s). rewrite bytes_app, app_length. destruct (match c with Rune r => _ | BadByte _ => _ end); [|lia].
  change (c :: List.filter ?f s) with ([c] ++ List.filter f s). rewrite bytes_app, app_length. lia.
Qed.
Lemma tags_plain s : raw_literal (field_tags s) (bytes_of s) <-> plain_tag s.
Proof.
  unfold raw_literal, field_tags, own. cbn [map txt]. split.
  - intros (s' & E & F & V). injection E as E. apply app_inj_tail in E as [<- _]. unfold plain_tag. induction F as [|c s (r & -> & S & Nq) F IH]; [constructor|].
    destruct (N.eqb_spec r 13) as [->|N13].
    + exfalso. cbn [List.filter] in V. change (13 =? 13) with true in V. cbn [negb] in V. apply (f_equal (@List.length N)) in V.
      change (Rune 13 :: s) with ([Rune 13] ++ s) in V. rewrite bytes_app, app_length in V. pose proof (filter_all s). cbn in V. lia.
    + constructor; [eauto|]. apply IH. cbn [List.filter] in V. apply N.eqb_neq in N13. rewrite N13 in V. cbn [negb] in V.
      change (Rune r :: s) with ([Rune r] ++ s) in V. change (Rune r :: List.filter ?f s) with ([Rune r] ++ List.filter f s) in V. rewrite !bytes_app in V. by apply app_inv_head in V.
  - intros P. exists s. split; [done|]. split; [eapply Forall_impl; [exact P|]; intros c (r & -> & S & N & _); eauto|]. f_equal.
    induction P as [|c s (r & -> & S & N & N13) F IH]; [done|]. cbn [List.filter]. apply N.eqb_neq in N13. rewrite N13. cbn [negb]. by rewrite <- IH.
Qed.
