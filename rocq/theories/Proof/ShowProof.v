From stdpp Require Import list strings.
From Coq Require Import NArith Lia.
From Verif.Model Require Import Additional BrokerMessage Show.
From Verif.Spec Require Import JsonSpec ShowSpec.
From Verif.Proof Require Import AdditionalProof.
Local Open Scope N_scope.
Local Open Scope list_scope.

(** ** Reading what %q writes *)
Definition digit_of (c : N) : N := if c <? 58 then c - 48 else c - 87.
Fixpoint hread (d : nat) (t : gostring) : option (N * gostring) :=
  match d with
  | O => Some (0, t)
  | S d => match hread d t with Some (v, Rune c :: r) => Some (16 * v + digit_of c, r) | _ => None end
  end.
Lemma digit_hexdigit n : n < 16 -> digit_of (hexdigit n) = n.
Proof.
  intros H. unfold hexdigit. destruct (N.ltb_spec n 10); unfold digit_of.
  - destruct (N.ltb_spec (48 + n) 58); lia.
  - destruct (N.ltb_spec (87 + n) 58); lia.
Qed.
Lemma hread_hex d : forall n r, n < 16 ^ N.of_nat d -> hread d (map Rune (hex d n) ++ r) = Some (n, r).
Proof.
  induction d as [|d IH]; intros n r H; cbn [hread hex].
  - cbn in *. f_equal. f_equal. lia.
  - rewrite map_app, <- app_assoc, IH.
    + cbn [map app]. rewrite digit_hexdigit by (apply N.mod_lt; discriminate). f_equal. f_equal. symmetry. apply N.div_mod. discriminate.
    + apply N.div_lt_upper_bound; [discriminate|]. rewrite Nat2N.inj_succ, N.pow_succ_r' in H. lia.
Qed.
Definition letters : list (N * N) := [(34, 34); (92, 92); (97, 7); (98, 8); (102, 12); (110, 10); (114, 13); (116, 9); (118, 11)].
Fixpoint assoc (l : list (N * N)) (e : N) : option N :=
  match l with [] => None | (a, b) :: r => if a =? e then Some b else assoc r e end.
Definition unq (t : gostring) : option (gochar * gostring) :=
  match t with
  | Rune c :: r =>
      if c =? 34 then None
      else if c =? 92 then
        match r with
        | Rune e :: r' =>
            if e =? 120 then match hread 2 r' with Some (v, x) => Some (if v <? 128 then Rune v else BadByte v, x) | None => None end
            else if e =? 117 then match hread 4 r' with Some (v, x) => Some (Rune v, x) | None => None end
            else if e =? 85 then match hread 8 r' with Some (v, x) => Some (Rune v, x) | None => None end
            else match assoc letters e with Some v => Some (Rune v, r') | None => None end
        | _ => None
        end
      else Some (Rune c, r)
  | _ => None
  end.
Lemma real_formed s : real s -> well_formed s.
Proof. intros R. eapply Forall_impl; [exact R|]. intros [r|b]; cbn; [tauto|lia]. Qed.
Section show.
  Variable printable : N -> bool.
  Notation qc := (quote_char printable).
  Notation q := (quote printable).

  Lemma unq_quote c r : real_char c -> unq (map Rune (qc c) ++ r) = Some (c, r).
  Proof.
    destruct c as [x|b]; intros H; [destruct H as [H _]|cbn [real_char] in H]; cbn [quote_char].
    - unfold quote_rune. destruct (N.eqb_spec x 34) as [-> |N1]; [reflexivity|]. destruct (N.eqb_spec x 92) as [-> |N2]; [reflexivity|].
      cbn [orb]. destruct (is_print printable x) eqn:P.
      { cbn [map app unq]. destruct (N.eqb_spec x 34); [done|]. destruct (N.eqb_spec x 92); [done|]. reflexivity. }
      destruct (N.eqb_spec x 7) as [-> |M1]; [reflexivity|]. destruct (N.eqb_spec x 8) as [-> |M2]; [reflexivity|].
      destruct (N.eqb_spec x 12) as [-> |M3]; [reflexivity|]. destruct (N.eqb_spec x 10) as [-> |M4]; [reflexivity|].
      destruct (N.eqb_spec x 13) as [-> |M5]; [reflexivity|]. destruct (N.eqb_spec x 9) as [-> |M6]; [reflexivity|].
      destruct (N.eqb_spec x 11) as [-> |M7]; [reflexivity|].
      destruct ((x <? 32) || (x =? 127)) eqn:S.
      { assert (L : x < 128). { apply orb_true_iff in S as [S%N.ltb_lt|S%N.eqb_eq]; lia. }
        rewrite map_app, <- app_assoc.
        change (match hread 2 (map Rune (hex 2 x) ++ r) with Some (v, y) => Some (if v <? 128 then Rune v else BadByte v, y) | None => None end = Some (Rune x, r)).
        rewrite hread_hex by (change (16 ^ N.of_nat 2) with 256; lia). destruct (N.ltb_spec x 128); [done|lia]. }
      destruct (N.ltb_spec x 65536).
      { rewrite map_app, <- app_assoc.
        change (match hread 4 (map Rune (hex 4 x) ++ r) with Some (v, y) => Some (Rune v, y) | None => None end = Some (Rune x, r)).
        rewrite hread_hex by (change (16 ^ N.of_nat 4) with 65536; lia). done. }
      rewrite map_app, <- app_assoc.
      change (match hread 8 (map Rune (hex 8 x) ++ r) with Some (v, y) => Some (Rune v, y) | None => None end = Some (Rune x, r)).
      rewrite hread_hex by (change (16 ^ N.of_nat 8) with 4294967296; lia). done.
    - rewrite map_app, <- app_assoc.
      change (match hread 2 (map Rune (hex 2 b) ++ r) with Some (v, y) => Some (if v <? 128 then Rune v else BadByte v, y) | None => None end = Some (BadByte b, r)).
      rewrite hread_hex by (change (16 ^ N.of_nat 2) with 256; lia). destruct (N.ltb_spec b 128); [lia|done].
  Qed.
  Lemma body_inj s : forall s' x x', real s -> real s' ->
    map Rune (List.concat (map qc s)) ++ Rune 34 :: x = map Rune (List.concat (map qc s')) ++ Rune 34 :: x' -> s = s' /\ x = x'.
  Proof.
    induction s as [|c s IH]; intros [|c' s'] x x' R R' E; cbn [map List.concat app] in E.
    - injection E as ->. done.
    - exfalso. apply Forall_cons in R' as [R' _]. rewrite map_app, <- app_assoc in E.
      pose proof (unq_quote c' (map Rune (List.concat (map qc s')) ++ Rune 34 :: x') R') as U. rewrite <- E in U. discriminate.
    - exfalso. apply Forall_cons in R as [R _]. rewrite map_app, <- app_assoc in E.
      pose proof (unq_quote c (map Rune (List.concat (map qc s)) ++ Rune 34 :: x) R) as U. rewrite E in U. discriminate.
    - apply Forall_cons in R as [R Rs], R' as [R' Rs']. rewrite !map_app, <- !app_assoc in E.
      pose proof (unq_quote c (map Rune (List.concat (map qc s)) ++ Rune 34 :: x) R) as U. rewrite E, unq_quote in U by done.
      injection U as -> U. symmetry in U. destruct (IH _ _ _ Rs Rs' U) as [-> ->]. done.
  Qed.
  Lemma quote_inj s s' x x' : real s -> real s' -> map Rune (q s) ++ x = map Rune (q s') ++ x' -> s = s' /\ x = x'.
  Proof.
    intros R R' E. unfold quote in E. rewrite !map_app, <- !app_assoc in E. injection E as E. by apply body_inj.
  Qed.

  (** ** The headers *)
  Definition entry (kv : gostring * gostring) : text := q kv.1 ++ [58] ++ q kv.2.
  Definition entries (hs : list (gostring * gostring)) : text := List.concat (map (fun kv => 44 :: entry kv) hs).
  Lemma show_headers_entries hs : show_headers printable hs = entries hs.
  Proof.
    unfold show_headers. enough (H : forall acc, fold_left (show_header printable) hs acc = acc ++ entries hs) by exact (H []).
    induction hs as [|kv hs IH]; intros acc; cbn [fold_left]; [by rewrite app_nil_r|].
    rewrite IH. unfold show_header, entries. cbn [map List.concat]. unfold entry. rewrite <- !app_assoc. f_equal. cbn [app]. rewrite <- !app_assoc. reflexivity.
  Qed.
  Lemma entry_inj kv kv' x x' : real_entry kv -> real_entry kv' -> map Rune (entry kv) ++ x = map Rune (entry kv') ++ x' -> kv = kv' /\ x = x'.
  Proof.
    destruct kv as [k v], kv' as [k' v']. intros [K V] [K' V'] E. unfold entry in E. cbn [fst snd] in *. rewrite !map_app, <- !app_assoc in E.
    apply quote_inj in E as [-> E]; [|done..]. apply (f_equal (drop 1)) in E. cbn [map app drop] in E. change (map Rune (q v) ++ x = map Rune (q v') ++ x') in E. apply quote_inj in E as [-> ->]; done.
  Qed.
  Lemma entries_inj hs : forall hs' x x', Forall real_entry hs -> Forall real_entry hs' ->
    map Rune (entries hs) ++ Rune 125 :: x = map Rune (entries hs') ++ Rune 125 :: x' -> hs = hs' /\ x = x'.
  Proof.
    induction hs as [|kv hs IH]; intros [|kv' hs'] x x' R R' E; unfold entries in E; cbn [map List.concat app] in E;
      rewrite ?map_app, <- ?app_assoc in E.
    - by injection E as ->.
    - discriminate.
    - discriminate.
    - apply Forall_cons in R as [R Rs], R' as [R' Rs']. apply (f_equal (drop 1)) in E.
      change (map Rune (entry kv) ++ (map Rune (entries hs) ++ Rune 125 :: x) = map Rune (entry kv') ++ (map Rune (entries hs') ++ Rune 125 :: x')) in E.
      apply entry_inj in E as [-> E]; [|done..]. apply IH in E as [-> ->]; done.
  Qed.
  Lemma show_cons kv hs p : show printable (kv :: hs) p =
    map Rune (txt "{""headers"":{") ++ map Rune (entry kv) ++ map Rune (entries hs) ++ Rune 125 :: map Rune (txt ",""payload"":") ++ p ++ [Rune 125].
  Proof.
    unfold show. rewrite show_headers_entries. unfold entries at 1. cbn [map List.concat app]. rewrite !map_app, <- !app_assoc. f_equal.
  Qed.
  Lemma show_nil p : show printable [] p = map Rune (txt "{""payload"":") ++ p ++ [Rune 125].
  Proof. reflexivity. Qed.
  Lemma show_inj hs hs' p p' : Forall real_entry hs -> Forall real_entry hs' -> show printable hs p = show printable hs' p' -> hs = hs' /\ p = p'.
  Proof.
    intros R R' E. destruct hs as [|kv hs], hs' as [|kv' hs']; rewrite ?show_cons, ?show_nil in E; try discriminate.
    - apply app_inv_head, app_inj_tail in E as [-> _]. done.
    - apply app_inv_head in E. apply Forall_cons in R as [R Rs], R' as [R' Rs']. apply entry_inj in E as [-> E]; [|done..].
      apply entries_inj in E as [-> E]; [|done..]. apply app_inv_head, app_inj_tail in E as [-> _]. done.
  Qed.

  (** ** JSON *)
  Lemma members_of kv hs : Forall (fun e => clean printable e.1 /\ clean printable e.2 /\ well_formed e.1 /\ well_formed e.2) (kv :: hs) ->
    jmembers (entry kv ++ entries hs) (map (fun e => (runes e.1, JStr (runes e.2))) (kv :: hs)).
  Proof.
    revert kv. induction hs as [|kv' hs IH]; intros kv F; apply Forall_cons in F as [(C1 & C2 & W1 & W2) F].
    - cbn [map]. unfold entries, entry. cbn [map List.concat]. rewrite app_nil_r. apply jm_one; [by apply quote_string|]. apply jv_str. by apply quote_string.
    - specialize (IH kv' F). cbn [map] in *. unfold entries in *. cbn [map List.concat] in *.
      replace (entry kv ++ (44 :: entry kv') ++ List.concat (map (fun kv0 => 44 :: entry kv0) hs)) with
        (q kv.1 ++ [58] ++ q kv.2 ++ [44] ++ (entry kv' ++ List.concat (map (fun kv0 => 44 :: entry kv0) hs)))
        by (unfold entry; rewrite <- !app_assoc; cbn [app]; rewrite <- !app_assoc; reflexivity).
      apply jm_more; [by apply quote_string| |exact IH]. apply jv_str. by apply quote_string.
  Qed.
  Definition json_text (hs : list (gostring * gostring)) (p : text) : text :=
    match hs with
    | [] => [123] ++ (q (map Rune (txt "payload")) ++ [58] ++ p) ++ [125]
    | kv :: hs => [123] ++ (q (map Rune (txt "headers")) ++ [58] ++ ([123] ++ (entry kv ++ entries hs) ++ [125]) ++ [44] ++ q (map Rune (txt "payload")) ++ [58] ++ p) ++ [125]
    end.
  Lemma show_json_text hs p : show printable hs (map Rune p) = map Rune (json_text hs p).
  Proof.
    destruct hs as [|kv hs]; cbn [json_text].
    - rewrite show_nil, !map_app, <- !app_assoc. reflexivity.
    - rewrite show_cons, !map_app, <- !app_assoc. cbn [map app]. rewrite <- ?app_assoc. reflexivity.
  Qed.
  Lemma plain_string (s : string) : Forall (fun c => 32 <= c /\ c <> 34 /\ c <> 92) (txt s) -> jchars (txt s) (txt s).
  Proof. induction 1 as [|c l (H1 & H2 & H3) _ IH]; constructor; done. Qed.
  Notation clean_entry := (clean_entry printable).
  Lemma show_valid hs p v : Forall real_entry hs -> Forall clean_entry hs -> jval p v -> jval (json_text hs p) (value_of hs v).
  Proof.
    intros W C J.
    assert (K : forall s, s = "headers"%string \/ s = "payload"%string -> jstring (q (map Rune (txt s))) (txt s)).
    { intros s Hs. exists (txt s). split; [destruct Hs as [-> | ->]; reflexivity|]. apply plain_string.
      destruct Hs as [-> | ->]; apply (bool_decide_unpack _); vm_compute; exact I. }
    destruct hs as [|kv hs]; cbn [json_text value_of]; unfold value_of; apply jv_obj.
    - apply jm_one; [apply K; by right|exact J].
    - cbn [app]. apply (jm_more (q (map Rune (txt "headers"))) (txt "headers") ([123] ++ (entry kv ++ entries hs) ++ [125])).
      + apply K. by left.
      + apply jv_obj, members_of. apply Forall_forall. intros e He. rewrite Forall_forall in W, C. destruct (W e He), (C e He). auto using real_formed.
      + apply jm_one; [apply K; by right|exact J].
  Qed.
  Lemma entries_only hs r : Forall real_entry hs -> steps Out (entries hs ++ r) <> None -> Forall clean_entry hs.
  Proof.
    induction hs as [|e hs IH]; intros W H; [constructor|]. apply Forall_cons in W as [[W1%real_formed W2%real_formed] W].
    unfold entries in H. cbn [map List.concat] in H. unfold entry in H at 1. rewrite <- !app_assoc in H. cbn [app] in H. rewrite <- ?app_assoc in H.
    rewrite (steps_step Out 44 Out) in H by reflexivity.
    assert (C1 : clean printable e.1) by (eapply quote_passes; [exact W1|exact H]).
    rewrite (jstring_steps _ (runes e.1)) in H by by apply quote_string. cbn [app] in H. rewrite (steps_step Out 58 Out) in H by reflexivity.
    rewrite <- ?app_assoc in H.
    assert (C2 : clean printable e.2) by (eapply quote_passes; [exact W2|exact H]).
    rewrite (jstring_steps _ (runes e.2)) in H by by apply quote_string.
    constructor; [done|]. by apply IH.
  Qed.
  Lemma show_only hs p v j : Forall real_entry hs -> jval p v -> jval (json_text hs p) j -> Forall clean_entry hs.
  Proof.
    intros W J V. apply jval_passes in V. destruct hs as [|kv hs]; [constructor|].
    assert (H : steps Out (entries (kv :: hs) ++ [125; 44] ++ q (map Rune (txt "payload")) ++ [58] ++ p ++ [125]) <> None).
    { cbn [json_text] in V. unfold entries. cbn [map List.concat]. cbn [app] in V |- *. rewrite (steps_step Out 123 Out) in V by reflexivity.
      rewrite (steps_step Out 44 Out) by reflexivity. rewrite <- ?app_assoc in V.
      rewrite (jstring_steps _ (txt "headers")) in V.
      - cbn [app] in V. rewrite (steps_step Out 58 Out), (steps_step Out 123 Out) in V by reflexivity.
        rewrite <- ?app_assoc in V. cbn [app] in V. rewrite <- ?app_assoc in V. cbn [app] in V. rewrite <- ?app_assoc. fold (entries hs). rewrite V. discriminate.
      - exists (txt "headers"). split; [reflexivity|]. apply plain_string. apply (bool_decide_unpack _). vm_compute. exact I. }
    by eapply entries_only.
  Qed.
End show.

(** ** Reception *)
Lemma uninitialized_zero m : is_uninitialized m = true <-> m = mkBmsg None None.
Proof. destruct m as [[h|] [p|]]; cbn; split; try discriminate; done. Qed.
Lemma turns_drain ms : forall n, turns (List.length ms + S n) (mkChan ms true) = (ms, true).
Proof. induction ms as [|m ms IH]; intros n; [reflexivity|]. cbn. by rewrite IH. Qed.
Lemma turns_open ms : forall n, turns n (mkChan ms false) = (take n ms, false).
Proof. induction ms as [|m ms IH]; intros [|n]; [reflexivity..|]. cbn. by rewrite IH. Qed.
