(** Proofs about Model/Transport.v. *)
From stdpp Require Import gmap list strings.
From Coq Require Import Ascii String NArith Lia.
From Verif.Model Require Import Codec Transport.
From Verif.Spec Require Import TransportSpec.
From Verif.Proof Require Import CodecProof.
Local Open Scope string_scope.

Notation chars := list_ascii_of_string.
Lemma cons_app a x y : String a x +:+ y = String a (x +:+ y).
Proof. reflexivity. Qed.
Lemma nil_app y : "" +:+ y = y.
Proof. reflexivity. Qed.
Lemma chars_app x y : chars (x +:+ y) = (chars x ++ chars y)%list.
Proof. induction x as [|a x IH]; [done|]. rewrite cons_app. cbn. by rewrite IH. Qed.
Lemma chars_inj x y : chars x = chars y -> x = y.
Proof. intros H. by rewrite <- (string_of_list_ascii_of_string x), <- (string_of_list_ascii_of_string y), H. Qed.
Lemma length_app x y : String.length (x +:+ y) = (String.length x + String.length y)%nat.
Proof. induction x as [|a x IH]; [done|]. rewrite cons_app. cbn. by rewrite IH. Qed.

(** ** Characters *)
Lemma token_char_ok a : token_char a = true <-> a ∈ chars letters.
Proof.
  assert (token_char a = bool_decide (a ∈ chars letters)) as -> by (destruct a as [[] [] [] [] [] [] [] []]; vm_compute; reflexivity).
  apply bool_decide_eq_true.
Qed.
Lemma all_chars_ok f s : all_chars f s = true <-> Forall (fun a => f a = true) (chars s).
Proof.
  induction s as [|a s IH]; cbn; [split; [intros _; apply Forall_nil_2|done]|]. rewrite andb_true_iff, Forall_cons, IH. done.
Qed.
Lemma valid_ok k : valid_name k = true <-> token k.
Proof.
  unfold valid_name, token. destruct k as [|a k]; [split; [done|by intros []]|].
  rewrite all_chars_ok. split.
  - intros H. split; [done|]. eapply Forall_impl; [exact H|]. intros x. apply token_char_ok.
  - intros [_ H]. eapply Forall_impl; [exact H|]. intros x. apply token_char_ok.
Qed.
Lemma space_ok a : space a = true <-> white a.
Proof.
  unfold space, white, newline, SP, TAB, LF, CR. rewrite !orb_true_iff, !Ascii.eqb_eq. tauto.
Qed.
Lemma newline_ok a : (Ascii.eqb a LF || Ascii.eqb a CR)%bool = true <-> newline a.
Proof. unfold newline, LF, CR. rewrite orb_true_iff, !Ascii.eqb_eq. tauto. Qed.
Lemma token_plain a : token_char a = true -> a <> LF /\ a <> ":"%char.
Proof. intros H. split; intros ->; vm_compute in H; discriminate. Qed.

(** ** Cleaning *)
Definition one_line (x y : ascii) : Prop := newline x /\ y = " "%char \/ ~ newline x /\ y = x.
Lemma newlines_ok v : Forall2 one_line (chars v) (chars (newlines_to_spaces v)).
Proof.
  induction v as [|a v IH]; cbn [newlines_to_spaces list_ascii_of_string]; constructor; [|exact IH].
  destruct (Ascii.eqb a LF || Ascii.eqb a CR)%bool eqn:E; [left; split; [by apply newline_ok|done]|].
  right. split; [|done]. intros H%newline_ok. congruence.
Qed.
Lemma one_line_fun l l1 l2 : Forall2 one_line l l1 -> Forall2 one_line l l2 -> l1 = l2.
Proof.
  intros H. revert l2. induction H as [|x y l l' Hxy H IH]; intros l2 H2; inversion H2; subst; [done|].
  f_equal; [|by apply IH]. unfold one_line in *. destruct Hxy as [[]|[]]; match goal with K : _ \/ _ |- _ => destruct K as [[]|[]] end; congruence.
Qed.
Lemma no_newline l l' : Forall2 one_line l l' -> Forall (fun a => ~ newline a) l'.
Proof.
  intros H. induction H as [|x y l l' Hxy H IH]; constructor; [|exact IH].
  destruct Hxy as [[_ ->]|[Hx ->]]; [|exact Hx]. intros [H1|H1]; discriminate H1.
Qed.
Lemma trim_left_ok f s : exists a, chars s = (a ++ chars (trim_left f s))%list /\ Forall (fun x => f x = true) a /\
  forall x r, chars (trim_left f s) = x :: r -> f x = false.
Proof.
  induction s as [|c s (a & E & F & H)]; [by exists []|]. cbn. destruct (f c) eqn:Ec.
  - exists (c :: a). cbn. rewrite E at 1. split; [done|]. split; [by constructor|exact H].
  - exists []. split; [done|]. split; [constructor|]. cbn. intros x r [= <- _]. exact Ec.
Qed.
Lemma trim_left_is f s a m : chars s = (a ++ m)%list -> Forall (fun x => f x = true) a -> (forall x r, m = x :: r -> f x = false) ->
  chars (trim_left f s) = m.
Proof.
  revert a. induction s as [|c s IH]; intros a E F H; cbn in *.
  - by destruct a; destruct m.
  - destruct a as [|x a].
    + cbn in E. subst m. by rewrite (H c (chars s) eq_refl).
    + cbn in E. injection E as -> E. apply Forall_cons in F as [Fx F]. rewrite Fx. by apply (IH a).
Qed.
Lemma trim_right_ok f s : exists b, chars s = (chars (trim_right f s) ++ b)%list /\ Forall (fun x => f x = true) b /\
  forall x r, chars (trim_right f s) = (r ++ [x])%list -> f x = false.
Proof.
  induction s as [|c s (b & E & F & H)].
  - exists []. split; [done|]. split; [constructor|]. intros x r Hn. by destruct r.
  - cbn. destruct (trim_right f s) as [|d t] eqn:Et.
    + destruct (f c) eqn:Ec.
      * exists (c :: b). cbn in *. rewrite E. split; [done|]. split; [by constructor|]. intros x r Hn. by destruct r.
      * exists b. cbn in *. rewrite E. split; [done|]. split; [exact F|]. intros x r Hn. destruct r as [|y [|z r]]; cbn in Hn; injection Hn as Hc; [by subst|done..].
    + exists b. rewrite E. split; [done|]. split; [exact F|]. intros x r Hn. cbn in Hn. destruct r as [|y r]; cbn in Hn; [discriminate|].
      injection Hn as <- Hn. apply (H x r). exact Hn.
Qed.
Lemma trim_right_is f s m b : chars s = (m ++ b)%list -> Forall (fun x => f x = true) b -> (forall x r, m = (r ++ [x])%list -> f x = false) ->
  chars (trim_right f s) = m.
Proof.
  revert m b. induction s as [|c s IH]; intros m b E F H; cbn in *.
  - by destruct m.
  - destruct m as [|x m].
    + cbn in E. subst b. apply Forall_cons in F as [Fc F]. pose proof (IH [] _ eq_refl F H) as Hs. destruct (trim_right f s) as [|d t]; [by rewrite Fc|].
      discriminate Hs.
    + cbn in E. injection E as -> E. assert (Hs : chars (trim_right f s) = m).
      { apply (IH m b); [exact E|exact F|]. intros y r ->. apply (H y (x :: r)). done. }
      destruct (trim_right f s) as [|d t]; cbn in *; subst m; [|done].
      by rewrite (H x []).
Qed.

Lemma white_spaces l : Forall white l <-> Forall (fun x => space x = true) l.
Proof. split; intros H; (eapply Forall_impl; [exact H|]); intros x; apply space_ok. Qed.
Lemma not_space a : ~ white a <-> space a = false.
Proof. rewrite <- space_ok. destruct (space a); split; congruence. Qed.

Lemma clean_ok v w : cleaned v w <-> w = clean v.
Proof.
  split.
  - intros (a & b & E & A & B & [Hh Hl]). apply chars_inj. symmetry. unfold clean.
    pose proof (one_line_fun _ _ _ (newlines_ok v) E) as En. rewrite white_spaces in A, B.
    destruct (chars w) as [|x r] eqn:Ew.
    + assert (T : chars (trim_left space (newlines_to_spaces v)) = []).
      { apply (trim_left_is space _ (a ++ b) []); [by rewrite En, app_nil_r|by apply Forall_app|done]. }
      apply (trim_right_is space _ [] []); [exact T|constructor|]. intros y r Hr. by destruct r.
    + apply (trim_right_is space _ (x :: r) b); [|exact B|].
      * apply (trim_left_is space _ a); [exact En|exact A|]. intros y s [= <- _]. apply not_space. by apply (Hh x r).
      * intros y s Hs. apply not_space. by apply (Hl y s).
  - intros ->. unfold clean. set (n := newlines_to_spaces v).
    destruct (trim_left_ok space n) as (a & Ea & Fa & Ha). destruct (trim_right_ok space (trim_left space n)) as (b & Eb & Fb & Hb).
    exists a, b. rewrite <- Eb, <- Ea. split; [apply newlines_ok|]. rewrite !white_spaces. split; [exact Fa|]. split; [exact Fb|]. split.
    + intros x r Hx. apply not_space. rewrite Hx in Eb. cbn in Eb. by apply (Ha x (r ++ b)%list).
    + intros x r Hx. apply not_space. by apply (Hb x r).
Qed.
Lemma clean_no_lf v : LF ∉ chars (clean v).
Proof.
  destruct (proj2 (clean_ok v _) eq_refl) as (a & b & E & _). apply no_newline in E. rewrite !Forall_app in E. destruct E as (_ & E & _).
  rewrite Forall_forall in E. intros H. apply (E LF H). by left.
Qed.
Lemma clean_same v : clean v = v <-> Forall (fun a => ~ newline a) (chars v) /\ bare (chars v).
Proof.
  split.
  - intros E. assert (C : cleaned v v) by by apply clean_ok. destruct C as (a & b & F & _ & _ & B). split; [|exact B].
    apply no_newline in F. rewrite !Forall_app in F. apply F.
  - intros [N B]. symmetry. apply clean_ok. exists [], []. cbn. rewrite app_nil_r. split; [|by repeat split; try apply Forall_nil_2; apply B].
    clear B. induction (chars v) as [|x l IH]; constructor; apply Forall_cons in N as [Nx N]; [right; by split|by apply IH].
Qed.

(** ** Lines *)
Lemma cut_at c x r : c ∉ chars x -> cut c (x +:+ String c r) = Some (x, r).
Proof.
  induction x as [|a x IH]; intros N; [rewrite nil_app; cbn; by rewrite Ascii.eqb_refl|].
  rewrite cons_app. cbn in *. apply not_elem_of_cons in N as [Na N]. destruct (Ascii.eqb_spec a c) as [->|_]; [done|]. by rewrite IH.
Qed.
Lemma drop_cr_at x : drop_cr (x +:+ String CR "") = x.
Proof.
  induction x as [|a x IH]; [done|]. rewrite cons_app. cbn. rewrite IH. destruct x; rewrite ?nil_app, ?cons_app; done.
Qed.
Lemma app_assoc_s (x y z : string) : (x +:+ y) +:+ z = x +:+ (y +:+ z).
Proof. induction x as [|a x IH]; [done|]. rewrite !cons_app. by rewrite IH. Qed.
Lemma read_line_at x r : LF ∉ chars x -> read_line (x +:+ (CRLF +:+ r)) = Some (x, r).
Proof.
  intros N. unfold read_line. assert (E : x +:+ (CRLF +:+ r) = (x +:+ String CR "") +:+ String LF r).
  { rewrite app_assoc_s. f_equal. }
  rewrite E, cut_at; [|rewrite chars_app; cbn; rewrite elem_of_app, elem_of_list_singleton; intros [H|H]; [done|discriminate H]].
  rewrite drop_cr_at. destruct x; rewrite ?nil_app, ?cons_app; reflexivity.
Qed.

(** ** What is read is what was written *)
Definition thin_values (k : string) (vs : list string) (m : gmap string (list string)) : gmap string (list string) :=
  fold_left (fun m v => add_value k (clean v) m) vs m.
Fixpoint thin (l : list (string * list string)) (m : gmap string (list string)) : gmap string (list string) :=
  match l with
  | [] => m
  | (k, vs) :: l => thin l (if valid_name k then thin_values k vs m else m)
  end.

Lemma valid_chars k : valid_name k = true -> k <> "" /\ LF ∉ chars k /\ ":"%char ∉ chars k.
Proof.
  intros H. destruct k as [|a k]; [done|]. split; [done|]. unfold valid_name in H. rewrite all_chars_ok, Forall_forall in H.
  split; intros I; apply H in I; vm_compute in I; discriminate.
Qed.
Lemma skip_blank v : trim_left blank (String SP (clean v)) = clean v.
Proof.
  cbn. destruct (clean v) as [|a r] eqn:E; [done|]. cbn.
  destruct (proj2 (clean_ok v _) eq_refl) as (_ & _ & _ & _ & _ & [B _]). rewrite E in B. cbn in B. specialize (B a (chars r) eq_refl).
  unfold blank. destruct (Ascii.eqb_spec a SP) as [->|]; [destruct B; by left|]. destruct (Ascii.eqb_spec a TAB) as [->|]; [destruct B; right; by left|]. done.
Qed.
Lemma read_values k vs rest : valid_name k = true -> forall m fuel, (String.length (write_values k vs rest) < fuel)%nat ->
  exists fuel', (String.length rest < fuel')%nat /\ read_headers fuel (write_values k vs rest) m = read_headers fuel' rest (thin_values k vs m).
Proof.
  intros Hk. pose proof (valid_chars k Hk) as (Hne & Hlf & Hcol). induction vs as [|v vs IH]; intros m fuel Hf; [by exists fuel|].
  cbn [write_values] in *. destruct fuel as [|fuel]; [lia|].
  set (tail := write_values k vs rest) in *. rewrite !length_app in Hf. cbn [String.length CRLF] in Hf.
  destruct (IH (add_value k (clean v) m) fuel) as (fuel' & Hr & E). { lia. }
  exists fuel'. split; [exact Hr|]. unfold thin_values in *. cbn [fold_left]. rewrite <- E. cbn [read_headers].
  assert (L : read_line (k +:+ (": " +:+ (clean v +:+ (CRLF +:+ tail)))) = Some (k +:+ String ":" (String SP (clean v)), tail)).
  { rewrite <- (read_line_at (k +:+ String ":" (String SP (clean v))) tail).
    - f_equal. rewrite !app_assoc_s, !cons_app. reflexivity.
    - rewrite chars_app. cbn. rewrite elem_of_app, !elem_of_cons. intros [H|[H|[H|H]]]; [done|discriminate H|discriminate H|by apply clean_no_lf in H]. }
  rewrite L. destruct (k +:+ String ":" (String SP (clean v))) as [|c kv] eqn:Ekv.
  { destruct k; [done|]. rewrite cons_app in Ekv. discriminate Ekv. }
  rewrite <- Ekv, cut_at by exact Hcol. rewrite skip_blank. destruct k; [done|]. reflexivity.
Qed.
Lemma read_written l rest : forall m fuel, (String.length (write_headers l rest) < fuel)%nat ->
  exists fuel', (String.length rest < fuel')%nat /\ read_headers fuel (write_headers l rest) m = read_headers fuel' rest (thin l m).
Proof.
  induction l as [|[k vs] l IH]; intros m fuel Hf; [by exists fuel|]. cbn [write_headers thin] in *. destruct (valid_name k) eqn:Hk.
  - destruct (read_values k vs (write_headers l rest) Hk m fuel Hf) as (f1 & H1 & ->). by apply IH.
  - by apply IH.
Qed.
Lemma decode_written l : decode_headers (header_bytes l) = Some (thin l ∅).
Proof.
  destruct l as [|kv l]; [reflexivity|]. unfold header_bytes, decode_headers. set (w := write_headers (kv :: l) CRLF).
  assert (E : magic +:+ (CRLF +:+ w) <> "") by (intros H; discriminate H).
  destruct (magic +:+ (CRLF +:+ w)) as [|c s] eqn:Es; [done|]. rewrite <- Es, read_line_at.
  - rewrite String.eqb_refl. destruct (read_written (kv :: l) CRLF ∅ (S (String.length w))) as (f & Hf & R); [unfold w; lia|]. fold w in R. rewrite R.
    destruct f as [|f]; [lia|]. reflexivity.
  - apply (bool_decide_unpack _). vm_compute. exact I.
Qed.

(** ** The map that is read *)
Lemma thin_values_lookup k vs : forall m k', thin_values k vs m !! k' =
  if decide (k = k') then (match vs with [] => m !! k | _ => Some (default [] (m !! k) ++ map clean vs)%list end) else m !! k'.
Proof.
  unfold thin_values. induction vs as [|v vs IH]; intros m k'; [by destruct (decide (k = k')) as [->|]|].
  cbn [fold_left]. rewrite IH. destruct (decide (k = k')) as [<-|N].
  - unfold add_value. rewrite lookup_insert. destruct vs; [done|]. cbn. by rewrite <- app_assoc.
  - unfold add_value. by rewrite lookup_insert_ne.
Qed.
Lemma thin_lookup l : NoDup l.*1 -> forall m k, (forall k, k ∈ l.*1 -> m !! k = None) ->
  thin l m !! k = match (list_to_map l : gmap string (list string)) !! k with
                  | Some [] => None
                  | Some vs => if valid_name k then Some (map clean vs) else None
                  | None => m !! k
                  end.
Proof.
  induction l as [|[k0 vs] l IH]; intros Hd m k Hm; [done|]. cbn [fmap list_fmap fst] in *. apply NoDup_cons in Hd as [Hn Hd].
  cbn [thin list_to_map foldr fst snd]. rewrite IH; [|exact Hd|].
  - assert (Hm0 : m !! k0 = None) by (apply Hm; by left). destruct (decide (k0 = k)) as [->|Nk].
    + rewrite (not_elem_of_list_to_map_1 l k) by exact Hn. rewrite lookup_insert. destruct (valid_name k).
      * rewrite thin_values_lookup, decide_True by done. rewrite Hm0. destruct vs; done.
      * rewrite Hm0. by destruct vs.
    + rewrite lookup_insert_ne by done. destruct (list_to_map l !! k); [done|]. destruct (valid_name k0); [|done].
      by rewrite thin_values_lookup, decide_False.
  - intros k1 H1. destruct (valid_name k0); [|apply Hm; by right]. rewrite thin_values_lookup. rewrite decide_False; [apply Hm; by right|].
    intros <-. done.
Qed.

(** ** The whole way *)
Lemma nats_way h h' : carries Nats h h' -> thinned h h'.
Proof.
  intros (l & l1 & w & l2 & Hl & Hl1 & Hw & Hl2 & ->). rewrite decode_written in Hw. injection Hw as <-.
  assert (D1 : NoDup l1.*1) by (rewrite Hl1; apply NoDup_fst_map_to_list).
  intros k x. rewrite (nats_received_lookup _ l2 k Hl2), (thin_lookup l1 D1) by (intros; apply lookup_empty).
  assert (E1 : (list_to_map l1 : gmap string (list string)) = nats_headers l).
  { rewrite (list_to_map_proper l1 (map_to_list (nats_headers l))); [apply list_to_map_to_list|exact D1|exact Hl1]. }
  rewrite E1, lookup_empty. unfold nats_headers. rewrite (fold_insert_nodup _ (fun v => [v])); [|reflexivity|rewrite Hl; apply NoDup_fst_map_to_list].
  assert ((list_to_map l : gmap string string) = h) as ->.
  { rewrite (list_to_map_proper l (map_to_list h)); [apply list_to_map_to_list| |exact Hl]. rewrite Hl. apply NoDup_fst_map_to_list. }
  rewrite lookup_empty, <- valid_ok. destruct (h !! k) as [v|] eqn:E; cbn.
  - destruct (valid_name k); cbn.
    + split; [intros [= <-]; split; [done|]; exists v; split; [done|]; by apply clean_ok|].
      intros (_ & v' & [= <-] & ->%clean_ok). done.
    + split; [done|]. by intros [].
  - split; [done|]. by intros (_ & v & ? & _).
Qed.
Lemma nats_total h : exists h', carries Nats h h'.
Proof.
  eexists. exists (map_to_list h), (map_to_list (nats_headers (map_to_list h))), (thin (map_to_list (nats_headers (map_to_list h))) ∅),
    (map_to_list (thin (map_to_list (nats_headers (map_to_list h))) ∅)).
  split; [done|]. split; [done|]. split; [apply decode_written|]. split; done.
Qed.
Lemma thinned_same h h' : thinned h h' -> (h' = h <-> forall k v, h !! k = Some v -> kept k v).
Proof.
  intros T. split.
  - intros -> k v H. pose proof (proj1 (T k v) H) as (Tk & w & Hw & C). rewrite H in Hw. injection Hw as <-. split; [exact Tk|]. by apply clean_same, eq_sym, clean_ok.
  - intros K. apply map_eq. intros k. destruct (h' !! k) as [w|] eqn:E'.
    + apply T in E' as (_ & v & Hv & C). destruct (K k v Hv) as (_ & N). apply clean_same in N. apply clean_ok in C. by rewrite Hv, C, N.
    + destruct (h !! k) as [v|] eqn:E; [|done]. destruct (K k v E) as (Tk & N). apply clean_same in N.
      assert (h' !! k = Some v) as X; [|congruence]. apply T. split; [exact Tk|]. exists v. split; [exact E|]. by apply clean_ok.
Qed.
Lemma kafka_way h h' : carries Kafka h h' <-> h' = h.
Proof.
  split; [intros (l & Hl & ->); by apply kafka_roundtrip|]. intros ->. exists (map_to_list h). split; [done|]. symmetry. by apply kafka_roundtrip.
Qed.
