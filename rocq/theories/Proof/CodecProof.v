From stdpp Require Import gmap strings list.
From Coq Require Import ZArith Lia.
From Verif.Model Require Import Codec.
From Verif.Spec Require Import CodecSpec.
Open Scope Z_scope.

(** ** Bytes *)
Lemma zbyte_0 x : zbyte x 0 = x mod 256.
Proof. unfold zbyte. rewrite Z.mul_0_r, Z.shiftr_0_r. reflexivity. Qed.
Lemma zbyte_S x i : zbyte x (S i) = zbyte (x / 256) i.
Proof.
  unfold zbyte. rewrite !Z.shiftr_div_pow2 by lia.
  replace (8 * Z.of_nat (S i)) with (8 + 8 * Z.of_nat i) by lia.
  rewrite Z.pow_add_r by lia. change (2 ^ 8) with 256.
  rewrite Z.div_div by lia. reflexivity.
Qed.
Lemma zbyte_range x i : 0 <= zbyte x i < 256.
Proof. unfold zbyte. apply Z.mod_pos_bound. lia. Qed.

Lemma le_put_length n x : length (le_put n x) = n.
Proof. revert x; induction n; intros; cbn; auto. Qed.
Lemma le_put_nth n x i : (i < n)%nat -> nth i (le_put n x) 0 = zbyte x i.
Proof.
  revert x i. induction n as [|n IH]; intros x i H; [lia|].
  destruct i; cbn [le_put nth]; [now rewrite zbyte_0|].
  rewrite IH by lia. now rewrite zbyte_S.
Qed.
Lemma le_get_byte bs i : Forall (fun b => 0 <= b < 256) bs -> zbyte (le_get bs) i = nth i bs 0.
Proof.
  intros H. revert i. induction H as [|b bs Hb H IH]; intros i.
  - cbn [le_get]. destruct i; unfold zbyte; rewrite Z.shiftr_0_l; reflexivity.
  - cbn [le_get]. destruct i; cbn [nth].
    + rewrite zbyte_0. rewrite Z.mul_comm, Z_mod_plus_full. apply Z.mod_small. lia.
    + rewrite zbyte_S. rewrite Z.mul_comm, Z_div_plus_full by lia.
      rewrite Z.div_small by lia. apply IH.
Qed.
Lemma le_get_range bs : Forall (fun b => 0 <= b < 256) bs -> 0 <= le_get bs < 2 ^ (8 * Z.of_nat (length bs)).
Proof.
  induction 1 as [|b bs Hb H IH]; [cbn; lia|].
  cbn [le_get length]. replace (8 * Z.of_nat (S (length bs))) with (8 + 8 * Z.of_nat (length bs)) by lia.
  rewrite Z.pow_add_r by lia. change (2 ^ 8) with 256. lia.
Qed.
Lemma le_put_bytes n x : Forall (fun b => 0 <= b < 256) (le_put n x).
Proof. revert x; induction n; intros; cbn; constructor; auto. apply Z.mod_pos_bound; lia. Qed.
Lemma be_put_bytes n x : Forall (fun b => 0 <= b < 256) (be_put n x).
Proof. unfold be_put. apply Forall_rev, le_put_bytes. Qed.
Lemma be_put_length n x : length (be_put n x) = n.
Proof. unfold be_put. rewrite rev_length. apply le_put_length. Qed.

Definition sbound (n : nat) (x : Z) : Prop :=
  - 2 ^ (8 * Z.of_nat n - 1) <= x < 2 ^ (8 * Z.of_nat n - 1).

Lemma pow_half n : (0 < n)%nat -> 2 ^ (8 * Z.of_nat n) = 2 * 2 ^ (8 * Z.of_nat n - 1).
Proof. intros. rewrite <- (Z.pow_succ_r 2) by lia. f_equal. lia. Qed.

Lemma to_signed_bound n u : (0 < n)%nat -> 0 <= u < 2 ^ (8 * Z.of_nat n) -> sbound n (to_signed n u).
Proof.
  intros Hn Hu. unfold sbound, to_signed. pose proof (pow_half n Hn).
  destruct (Z.ltb_spec u (2 ^ (8 * Z.of_nat n - 1))); lia.
Qed.

Lemma zbyte_mod n x i : (i < n)%nat -> zbyte (x mod 2 ^ (8 * Z.of_nat n)) i = zbyte x i.
Proof.
  intros H. unfold zbyte.
  rewrite !Z.shiftr_div_pow2 by lia.
  pose proof (Z.div_mod x (2 ^ (8 * Z.of_nat n)) ltac:(lia)) as E.
  rewrite E at 2.
  replace (8 * Z.of_nat n) with (8 * Z.of_nat i + (8 + 8 * (Z.of_nat n - Z.of_nat i - 1))) at 2 by lia.
  rewrite Z.pow_add_r, <- Z.mul_assoc by lia.
  rewrite (Z.mul_comm (2 ^ (8 * Z.of_nat i))), Z_div_plus_full_l by lia.
  rewrite Z.pow_add_r by lia. change (2 ^ 8) with 256.
  rewrite <- Z.mul_assoc, (Z.mul_comm 256), Z.add_comm, Z_mod_plus_full. reflexivity.
Qed.

Lemma to_signed_mod n u : (0 < n)%nat -> to_signed n u mod 2 ^ (8 * Z.of_nat n) = u mod 2 ^ (8 * Z.of_nat n).
Proof.
  intros Hn. unfold to_signed. destruct (_ <? _); [reflexivity|].
  replace (u - 2 ^ (8 * Z.of_nat n)) with (u + (-1) * 2 ^ (8 * Z.of_nat n)) by lia.
  apply Z_mod_plus_full.
Qed.
Lemma to_signed_byte n u i : (i < n)%nat -> zbyte (to_signed n u) i = zbyte u i.
Proof.
  intros H. rewrite <- (zbyte_mod n (to_signed n u) i H), to_signed_mod by lia. now apply zbyte_mod.
Qed.

(** Unsigned values are determined by their bytes. *)
Lemma bytes_eq_u n x y :
  0 <= x < 2 ^ (8 * Z.of_nat n) -> 0 <= y < 2 ^ (8 * Z.of_nat n) ->
  (forall i, (i < n)%nat -> zbyte x i = zbyte y i) -> x = y.
Proof.
  revert x y. induction n as [|n IH]; intros x y Hx Hy H.
  - change (8 * Z.of_nat 0) with 0 in *. lia.
  - assert (x / 256 = y / 256) as E.
    { apply IH.
      - split; [apply Z.div_pos; lia|]. apply Z.div_lt_upper_bound; [lia|].
        replace (8 * Z.of_nat (S n)) with (8 + 8 * Z.of_nat n) in Hx by lia.
        rewrite Z.pow_add_r in Hx by lia. change (2 ^ 8) with 256 in Hx. lia.
      - split; [apply Z.div_pos; lia|]. apply Z.div_lt_upper_bound; [lia|].
        replace (8 * Z.of_nat (S n)) with (8 + 8 * Z.of_nat n) in Hy by lia.
        rewrite Z.pow_add_r in Hy by lia. change (2 ^ 8) with 256 in Hy. lia.
      - intros i Hi. rewrite <- !zbyte_S. apply H. lia. }
    pose proof (H 0%nat ltac:(lia)) as H0. rewrite !zbyte_0 in H0.
    rewrite (Z.div_mod x 256), (Z.div_mod y 256) by lia. lia.
Qed.

Lemma bytes_eq n x y :
  (0 < n)%nat -> sbound n x -> sbound n y -> (forall i, (i < n)%nat -> zbyte x i = zbyte y i) -> x = y.
Proof.
  intros Hn Hx Hy H. unfold sbound in *. pose proof (pow_half n Hn) as P.
  set (q := 2 ^ (8 * Z.of_nat n)) in *.
  assert (x mod q = y mod q) as E.
  { apply (bytes_eq_u n).
    - apply Z.mod_pos_bound. lia.
    - apply Z.mod_pos_bound. lia.
    - intros i Hi. unfold q. rewrite !zbyte_mod by lia. auto. }
  pose proof (Z.div_mod x q ltac:(lia)) as Ex. pose proof (Z.div_mod y q ltac:(lia)) as Ey.
  rewrite E in Ex. set (r := y mod q) in *.
  assert (x / q = y / q); [|congruence].
  assert (x - y = q * (x / q - y / q)) as F by lia. nia.
Qed.

(** ** Integer payloads *)
Lemma width_pos b : (0 < width b)%nat.
Proof. destruct b; cbn; lia. Qed.

Lemma int_decode_encode p x :
  fmt_here p = resolved_fmt p ->
  exists y, int_decode p (int_encode p x) = Some y /\ int_range p y /\ swapped (width (resolved_fmt p)) x y.
Proof.
  intros Hf. unfold int_encode. rewrite Hf. unfold int_decode.
  set (n := width (resolved_fmt p)). assert (0 < n)%nat as Hn by apply width_pos.
  rewrite be_put_length, Nat.ltb_irrefl. rewrite take_ge by (rewrite be_put_length; lia).
  eexists; split; [reflexivity|].
  pose proof (be_put_bytes n x) as Hb. pose proof (le_get_range _ Hb) as Hr. rewrite be_put_length in Hr.
  split; [exact (to_signed_bound n _ Hn Hr)|].
  intros i Hi. fold n in Hi. rewrite to_signed_byte by lia. rewrite le_get_byte by exact Hb.
  unfold be_put. rewrite rev_nth by (rewrite le_put_length; lia). rewrite le_put_length.
  rewrite le_put_nth by lia. f_equal. fold n. lia.
Qed.

Lemma int_roundtrip_iff p x :
  fmt_here p = resolved_fmt p -> int_range p x ->
  (int_decode p (int_encode p x) = Some x <-> palindrome (width (resolved_fmt p)) x).
Proof.
  intros Hf Hx. destruct (int_decode_encode p x Hf) as (y & -> & Hy & Hs). split.
  - intros [= ->]. exact Hs.
  - intros Hp. f_equal. apply (bytes_eq (width (resolved_fmt p))); [apply width_pos|exact Hy|exact Hx|].
    intros i Hi. rewrite (Hs i Hi). symmetry. exact (Hp i Hi).
Qed.

Lemma int_twice p x :
  fmt_here p = resolved_fmt p -> int_range p x ->
  exists y, int_decode p (int_encode p x) = Some y /\ int_decode p (int_encode p y) = Some x.
Proof.
  intros Hf Hx. destruct (int_decode_encode p x Hf) as (y & E & Hy & Hs). exists y. split; [exact E|].
  destruct (int_decode_encode p y Hf) as (z & -> & Hz & Hs'). f_equal.
  apply (bytes_eq (width (resolved_fmt p))); [apply width_pos|exact Hz|exact Hx|].
  intros i Hi. rewrite (Hs' i Hi), (Hs (width (resolved_fmt p) - 1 - i)%nat ltac:(lia)). f_equal. lia.
Qed.

(** A referenced int32: the four bytes read are the sign extension. *)
Lemma int_ref32 x :
  let p := mkInt true false true in
  int_range p x -> int_decode p (int_encode p x) = Some (if x <? 0 then -1 else 0).
Proof.
  intros p Hx.
  assert (- 2 ^ 31 <= x < 2 ^ 31) as Hx' by exact Hx. clear Hx. unfold p, int_decode, int_encode. cbn [resolved_fmt isref fmt_ref fmt_here width].
  rewrite be_put_length. cbn [Nat.ltb Nat.leb]. f_equal.
  set (c := if x <? 0 then 255 else 0).
  assert (take 4 (be_put 8 x) = [c; c; c; c]) as ->.
  2: { unfold c. destruct (x <? 0); vm_compute; reflexivity. }
  assert (forall k, 4 <= k -> x / 256 ^ k = if x <? 0 then -1 else 0) as Hd.
  { intros k Hk. assert (2 ^ 31 <= 256 ^ k) as P.
    { change 256 with (2 ^ 8). rewrite <- Z.pow_mul_r by lia. apply Z.pow_le_mono_r; lia. }
    destruct (Z.ltb_spec x 0).
    - symmetry. apply Z.div_unique_pos with (r := x + 256 ^ k); lia.
    - apply Z.div_small. lia. }
  assert (forall i, (i < 4)%nat -> nth i (be_put 8 x) 0 = c) as Hn.
  { intros i Hi. unfold be_put. rewrite rev_nth by (rewrite le_put_length; lia). rewrite le_put_length.
    rewrite le_put_nth by lia. unfold zbyte. rewrite Z.shiftr_div_pow2 by lia.
    rewrite Z.pow_mul_r by lia. change (2 ^ 8) with 256. rewrite Hd by lia. unfold c. destruct (x <? 0); reflexivity. }
  pose proof (be_put_length 8 x) as Hl. destruct (be_put 8 x) as [|b0 [|b1 [|b2 [|b3 r]]]]; try discriminate.
  cbn [take].
  pose proof (Hn 0%nat ltac:(lia)) as H0. pose proof (Hn 1%nat ltac:(lia)) as H1.
  pose proof (Hn 2%nat ltac:(lia)) as H2. pose proof (Hn 3%nat ltac:(lia)) as H3.
  cbn [nth] in *. subst. reflexivity.
Qed.

Lemma int_decode_panics p bs : int_decode p bs = None <-> (length bs < width (resolved_fmt p))%nat.
Proof.
  unfold int_decode. destruct (Nat.ltb_spec (length bs) (width (resolved_fmt p))); split; auto; try discriminate; lia.
Qed.

(** ** Headers *)
  Lemma hfind_Some (ds : hdecls) k d : NoDup ds.*1 -> hfind ds k = Some d <-> (k, d) ∈ ds.
  Proof.
    induction ds as [|[k' d'] ds IH]; cbn [hfind]; intros Hnd.
    - split; [discriminate|]. intros H. inversion H.
    - cbn [fmap list_fmap fst] in Hnd. apply NoDup_cons in Hnd as [Hni Hnd].
      case_bool_decide as Hk; subst.
      + split.
        * intros [= ->]. left.
        * intros [H|H]%elem_of_cons; [congruence|]. exfalso. apply Hni.
          apply elem_of_list_fmap. exists (k', d). auto.
      + rewrite (IH Hnd). rewrite elem_of_cons. split; auto. intros [[= -> ->]|H]; [congruence|auto].
  Qed.
  Lemma hfind_None (ds : hdecls) k : hfind ds k = None <-> k ∉ ds.*1.
  Proof.
    induction ds as [|[k' d'] ds IH]; cbn [hfind fmap list_fmap fst].
    - split; auto. intros _ H. inversion H.
    - rewrite not_elem_of_cons. case_bool_decide; [split; [discriminate|tauto]|]. rewrite IH. tauto.
  Qed.

Section Headers.
  Context {O T Er : Type}.
  Variable marshal : O -> string + Er.
  Variable unmarshal : string -> O + Er.
  Variable tformat : T -> string.
  Variable tparse : string -> T + Er.
  Variable err_nil err_unmarshal_nil : Er.
  Variable zero_o : O.
  Variable zero_t : T.
  Notation henc := (henc marshal tformat err_nil).
  Notation hdec := (hdec unmarshal tparse err_unmarshal_nil).
  Notation hparse := (hparse unmarshal tparse err_unmarshal_nil).
  Notation hrender := (hrender marshal tformat).
  Notation hzero := (hzero zero_o zero_t).
  Notation zero_field := (zero_field zero_o zero_t).
  Notation field_ok := (@field_ok O T).
  Implicit Types (ds : hdecls) (m : hstruct O T).

  (** What the encoder produces. *)
  Lemma henc_ok ds m acc h :
    henc ds m acc = inl h -> NoDup ds.*1 ->
    (forall k d, (k, d) ∈ ds -> match m !! k with
       | Some (Some v) => exists b, hrender v = inl b /\ h !! k = Some b
       | _ => hreq d = false /\ h !! k = acc !! k
       end) /\
    (forall k, k ∉ ds.*1 -> h !! k = acc !! k).
  Proof.
    revert acc. induction ds as [|[k d] ds IH]; intros acc; cbn [Codec.henc].
    - intros [= ->] _. split; [|auto]. intros ? ? H. inversion H.
    - intros H Hnd. cbn [fmap list_fmap fst] in Hnd. apply NoDup_cons in Hnd as [Hni Hnd].
      assert (Hrec : forall acc', henc ds m acc' = inl h ->
        (match m !! k with
         | Some (Some v) => exists b, hrender v = inl b /\ acc' !! k = Some b
         | _ => hreq d = false /\ acc' !! k = acc !! k end) ->
        (forall k', k' <> k -> acc' !! k' = acc !! k') ->
        (forall k0 d0, (k0, d0) ∈ (k, d) :: ds -> match m !! k0 with
         | Some (Some v) => exists b, hrender v = inl b /\ h !! k0 = Some b
         | _ => hreq d0 = false /\ h !! k0 = acc !! k0
         end) /\ (forall k0, k0 ∉ ((k, d) :: ds).*1 -> h !! k0 = acc !! k0)).
      { intros acc' H' Hk Ho. destruct (IH acc' H' Hnd) as [G1 G2]. split.
        - intros k0 d0 [[= -> ->]|Hin]%elem_of_cons.
          + rewrite (G2 k Hni). exact Hk.
          + assert (k0 <> k) as Hne.
            { intros ->. apply Hni. apply elem_of_list_fmap. exists (k, d0). auto. }
            specialize (G1 k0 d0 Hin). rewrite (Ho k0 Hne) in G1. exact G1.
        - intros k0 Hk0. cbn [fmap list_fmap fst] in Hk0. apply not_elem_of_cons in Hk0 as [Hne Hk0].
          rewrite (G2 k0 Hk0). auto. }
      destruct (m !! k) as [[v|]|] eqn:Em.
      + destruct (hrender v) as [b|e] eqn:Eb; [|discriminate].
        apply (Hrec (<[k:=b]> acc)); auto.
        * exists b. split; auto. apply lookup_insert.
        * intros k' Hne. apply lookup_insert_ne. auto.
      + destruct (hreq d) eqn:Er'; [discriminate|]. apply (Hrec acc); auto.
      + destruct (hreq d) eqn:Er'; [discriminate|]. apply (Hrec acc); auto.
  Qed.

  (** The encoder succeeds when required headers are set and objects can be marshalled. *)
  Lemma henc_total ds m acc :
    (forall k d, (k, d) ∈ ds -> hreq d = true -> exists v, m !! k = Some (Some v)) ->
    (forall k d v, (k, d) ∈ ds -> m !! k = Some (Some v) -> exists b, hrender v = inl b) ->
    exists h, henc ds m acc = inl h.
  Proof.
    revert acc. induction ds as [|[k d] ds IH]; intros acc Hr Hm; cbn [Codec.henc]; [eauto|].
    assert (IH' : forall acc', exists h, henc ds m acc' = inl h).
    { intros acc'. apply IH.
      - intros k0 d0 Hin. apply (Hr k0 d0). apply elem_of_cons. auto.
      - intros k0 d0 v0 Hin. apply (Hm k0 d0 v0). apply elem_of_cons. auto. }
    destruct (m !! k) as [[v|]|] eqn:Em.
    - destruct (Hm k d v ltac:(left) Em) as [b ->]. apply IH'.
    - destruct (hreq d) eqn:Er'; [|apply IH'].
      destruct (Hr k d ltac:(left) Er') as [v Hv]. congruence.
    - destruct (hreq d) eqn:Er'; [|apply IH'].
      destruct (Hr k d ltac:(left) Er') as [v Hv]. congruence.
  Qed.

  (** What the decoder produces when every header it knows can be parsed. *)
  Lemma hdec_ok ds bs m0 :
    NoDup bs.*1 ->
    (forall k v d, (k, v) ∈ bs -> hfind ds k = Some d -> exists x, hparse d v = inl x) ->
    exists m1, hdec ds bs m0 = inl m1 /\
      (forall k v d x, (k, v) ∈ bs -> hfind ds k = Some d -> hparse d v = inl x -> m1 !! k = Some (Some x)) /\
      (forall k, (k ∉ bs.*1 \/ hfind ds k = None) -> m1 !! k = m0 !! k).
  Proof.
    revert m0. induction bs as [|[k v] bs IH]; intros m0 Hnd Hp; cbn [Codec.hdec].
    - exists m0. refine (conj eq_refl (conj _ _)); auto. intros ? ? ? ? H. inversion H.
    - cbn [fmap list_fmap fst] in Hnd. apply NoDup_cons in Hnd as [Hni Hnd].
      assert (Hp' : forall k v d, (k, v) ∈ bs -> hfind ds k = Some d -> exists x, hparse d v = inl x).
      { intros k0 v0 d0 Hin. apply Hp. apply elem_of_cons. auto. }
      destruct (hfind ds k) as [d|] eqn:Ef.
      + destruct (Hp k v d ltac:(left) Ef) as [x Hx]. rewrite Hx.
        destruct (IH (<[k:=Some x]> m0) Hnd Hp') as (m1 & E1 & G1 & G2). exists m1. split; [exact E1|]. split.
        * intros k0 v0 d0 x0 [[= -> ->]|Hin]%elem_of_cons Hf0 Hx0.
          -- rewrite (G2 k ltac:(now left)). rewrite lookup_insert. congruence.
          -- eauto.
        * intros k0 Hk0. destruct (decide (k0 = k)) as [->|Hne].
          -- exfalso. destruct Hk0 as [Hk0|Hk0]; [|congruence]. apply Hk0. cbn. left.
          -- rewrite G2, lookup_insert_ne; auto. destruct Hk0 as [Hk0|]; auto. left.
             cbn [fmap list_fmap fst] in Hk0. apply not_elem_of_cons in Hk0. tauto.
      + destruct (IH m0 Hnd Hp') as (m1 & E1 & G1 & G2). exists m1. split; [exact E1|]. split.
        * intros k0 v0 d0 x0 [[= -> ->]|Hin]%elem_of_cons Hf0 Hx0; [congruence|eauto].
        * intros k0 Hk0. apply G2. destruct Hk0 as [Hk0|]; auto. left.
          cbn [fmap list_fmap fst] in Hk0. apply not_elem_of_cons in Hk0. tauto.
  Qed.

  Lemma hzero_lookup ds k : NoDup ds.*1 -> hzero ds !! k = zero_field <$> hfind ds k.
  Proof.
    unfold Codec.hzero. induction ds as [|[k' d] ds IH]; intros Hnd; cbn [map list_to_map foldr hfind fst snd].
    - rewrite lookup_empty. reflexivity.
    - cbn [fmap list_fmap fst] in Hnd. apply NoDup_cons in Hnd as [_ Hnd]. cbn.
      case_bool_decide; subst.
      + rewrite lookup_insert. reflexivity.
      + rewrite lookup_insert_ne by auto. now apply IH.
  Qed.

  (** A kind of header survives when what it renders to can be parsed back into the field. *)
  Definition survives (d : hdecl) (v : hval O T) : Prop :=
    forall b, hrender v = inl b -> hparse d b = inl v.

  Lemma header_roundtrip ds m h bs :
    NoDup ds.*1 -> Forall (fun kd => hcompiles (snd kd) = true) ds ->
    (forall k, is_Some (m !! k) <-> k ∈ ds.*1) ->
    (forall k d f, (k, d) ∈ ds -> m !! k = Some f -> field_ok d f) ->
    (forall k d v, (k, d) ∈ ds -> m !! k = Some (Some v) -> survives d v) ->
    henc ds m ∅ = inl h -> bs ≡ₚ map_to_list h ->
    hdec ds bs (hzero ds) = inl m.
  Proof.
    intros Hnd Hc Hdom Hok Hsv He Hp.
    destruct (henc_ok ds m ∅ h He Hnd) as [H1 H2].
    assert (NoDup bs.*1) as Hnb. { rewrite Hp. apply NoDup_fst_map_to_list. }
    assert (Hin : forall k b, (k, b) ∈ bs <-> h !! k = Some b).
    { intros k b. rewrite Hp. apply elem_of_map_to_list. }
    assert (Hval : forall k b d, h !! k = Some b -> hfind ds k = Some d ->
              exists v, m !! k = Some (Some v) /\ hparse d b = inl v).
    { intros k b d Hk Hf. apply hfind_Some in Hf; [|exact Hnd]. specialize (H1 k d Hf).
      destruct (m !! k) as [[v|]|] eqn:Em.
      - destruct H1 as (b' & Hr & Hb'). exists v. split; auto.
        assert (b' = b) as -> by congruence. exact (Hsv k d v Hf Em b Hr).
      - destruct H1 as [_ H1]. rewrite lookup_empty in H1. congruence.
      - destruct H1 as [_ H1]. rewrite lookup_empty in H1. congruence. }
    destruct (hdec_ok ds bs (hzero ds) Hnb) as (m1 & E1 & G1 & G2).
    { intros k v d Hkv Hf. apply Hin in Hkv. destruct (Hval k v d Hkv Hf) as (x & _ & Hx). eauto. }
    rewrite E1. f_equal. apply map_eq. intros k.
    destruct (hfind ds k) as [d|] eqn:Ef.
    - destruct (h !! k) as [b|] eqn:Eh.
      + destruct (Hval k b d Eh Ef) as (v & Hm & Hx). rewrite Hm.
        apply (G1 k b d v); auto. now apply Hin.
      + rewrite G2, hzero_lookup, Ef; auto.
        2: { left. intros Hk. apply elem_of_list_fmap in Hk as ([k' b] & -> & Hk). cbn in Eh.
             apply Hin in Hk. congruence. }
        cbn. apply hfind_Some in Ef; [|exact Hnd]. specialize (H1 k d Ef).
        assert (is_Some (m !! k)) as [f Hf].
        { apply Hdom. apply elem_of_list_fmap. exists (k, d). auto. }
        specialize (Hok k d f Ef Hf). rewrite Hf in *. destruct f as [v|].
        * destruct H1 as (b & _ & Hb). congruence.
        * cbn in Hok. unfold Codec.zero_field. rewrite Hok. reflexivity.
    - rewrite G2 by auto. rewrite hzero_lookup, Ef by auto. cbn. symmetry.
      apply hfind_None in Ef. destruct (m !! k) eqn:Em; auto. exfalso. apply Ef, Hdom. eauto.
  Qed.

  (** What was decoded is what the headers say. *)
  Lemma hdec_inv ds bs m0 m : hdec ds bs m0 = inl m -> NoDup bs.*1 ->
    (forall k b d, (k, b) ∈ bs -> hfind ds k = Some d -> exists x, hparse d b = inl x /\ m !! k = Some (Some x)).
  Proof.
    intros E Hnd k b d Hin Hf. assert (Hp : forall k v d, (k, v) ∈ bs -> hfind ds k = Some d -> exists x, hparse d v = inl x).
    { clear k b d Hin Hf. revert m0 E. induction bs as [|[k v] bs IH]; intros m0 E k' v' d' Hin Hf; [inversion Hin|]. cbn [Codec.hdec] in E.
      apply NoDup_cons in Hnd as [_ Hnd]. apply elem_of_cons in Hin as [[= -> ->]|Hin].
      - rewrite Hf in E. destruct (hparse d' v) as [x|e]; [eauto|discriminate].
      - destruct (hfind ds k) as [d|]; [|eapply (IH Hnd); eassumption]. destruct (hparse d v) as [x|e]; [|discriminate]. eapply (IH Hnd); eassumption. }
    destruct (hdec_ok ds bs m0 Hnd Hp) as (m1 & E1 & G1 & _). rewrite E in E1. injection E1 as <-. destruct (Hp k b d Hin Hf) as [x Hx]. exists x. split; [exact Hx|].
    exact (G1 k b d x Hin Hf Hx).
  Qed.

  Lemma header_survived ds m h bs k d v :
    NoDup ds.*1 -> henc ds m ∅ = inl h -> bs ≡ₚ map_to_list h -> hdec ds bs (hzero ds) = inl m -> (k, d) ∈ ds -> m !! k = Some (Some v) -> survives d v.
  Proof.
    intros Hnd He Hp Hd Hin Hv b Hb. destruct (henc_ok ds m ∅ h He Hnd) as [H1 _]. specialize (H1 k d Hin). rewrite Hv in H1. destruct H1 as (b' & Hb' & Hk).
    rewrite Hb in Hb'. injection Hb' as <-. assert (Hnb : NoDup bs.*1) by (rewrite Hp; apply NoDup_fst_map_to_list).
    destruct (hdec_inv ds bs _ m Hd Hnb k b d) as (x & Hx & Hm).
    - rewrite Hp. now apply elem_of_map_to_list.
    - now apply hfind_Some.
    - rewrite Hv in Hm. injection Hm as <-. exact Hx.
  Qed.

  Lemma hdec_unknown ds bs m0 :
    hdec ds bs m0 = hdec ds (filter (fun kv => kv.1 ∈ ds.*1) bs) m0.
  Proof using unmarshal tparse err_unmarshal_nil.
    revert m0. induction bs as [|[k v] bs IH]; intros m0; [reflexivity|].
    rewrite filter_cons. cbn [fst]. destruct (decide (k ∈ ds.*1)) as [Hk|Hk].
    - cbn [Codec.hdec]. destruct (hfind ds k) as [d|]; [|apply IH]. destruct (hparse d v); [apply IH|reflexivity].
    - cbn [Codec.hdec]. apply hfind_None in Hk. rewrite Hk. apply IH.
  Qed.

  Lemma string_survives d v : hkd d = HString -> field_ok d (Some v) -> survives d v.
  Proof.
    intros Hk Hf b. unfold survives. cbn in Hf. rewrite Hk in Hf. destruct v; try contradiction.
    unfold Codec.hparse. rewrite Hk. cbn. congruence.
  Qed.

  Lemma date_survives d t : hkd d = HDate -> survives d (VDate t) <-> tparse (tformat t) = inl t.
  Proof.
    intros Hk. unfold survives, Codec.hparse. rewrite Hk. cbn. split.
    - intros H. specialize (H _ eq_refl). destruct (tparse (tformat t)); congruence.
    - intros H b [= <-]. now rewrite H.
  Qed.

  Lemma object_survives d o b : hkd d = HObject -> marshal o = inl b -> survives d (VObject o) <-> hptr d = false /\ unmarshal b = inl o.
  Proof.
    intros Hk Hm. unfold survives, Codec.hparse. rewrite Hk. cbn. split.
    - intros H. specialize (H _ Hm). destruct (hptr d); [discriminate|]. destruct (unmarshal b); split; congruence.
    - intros [-> H] b' Hb. rewrite Hm in Hb. injection Hb as <-. now rewrite H.
  Qed.

  (** A value of an optional object header is never decoded. *)
  Lemma object_pointer_lost ds k d v bs m0 :
    hfind ds k = Some d -> hkd d = HObject -> hptr d = true -> (k, v) ∈ bs ->
    exists e, hdec ds bs m0 = inr e.
  Proof.
    intros Hf Hk Hp. revert m0. induction bs as [|[k' v'] bs IH]; intros m0 Hin; [inversion Hin|].
    cbn [Codec.hdec]. apply elem_of_cons in Hin as [Heq|Hin].
    - injection Heq as <- <-. rewrite Hf. unfold Codec.hparse. rewrite Hk, Hp. eauto.
    - destruct (hfind ds k') as [d'|]; [|auto]. destruct (hparse d' v'); eauto.
  Qed.
End Headers.

(** ** Headers on the wire *)
Lemma kafka_headers_id l : kafka_headers l = l.
Proof.
  unfold kafka_headers. assert (forall acc, fold_left (fun acc kv => acc ++ [kv]) l acc = acc ++ l) as G.
  { induction l as [|kv l IH]; intros acc; cbn; [now rewrite app_nil_r|]. rewrite IH, <- app_assoc. reflexivity. }
  apply (G []).
Qed.

Lemma kafka_received_lookup hs k : kafka_received hs !! k = last_value k hs.
Proof.
  unfold kafka_received, last_value.
  assert (G : forall m : gmap string string, fold_left (fun m kv => <[kv.1 := kv.2]> m) hs m !! k =
    match last (omap (fun kv => if bool_decide (kv.1 = k) then Some kv.2 else None) hs) with
    | Some v => Some v | None => m !! k end).
  { induction hs as [|[k' v] hs IH]; intros m; [reflexivity|].
    cbn [fold_left]. rewrite IH. cbn [omap list_omap fst snd].
    case_bool_decide; subst.
    - rewrite last_cons. destruct (last _); [reflexivity|]. apply lookup_insert.
    - rewrite lookup_insert_ne by auto. reflexivity. }
  rewrite G. rewrite lookup_empty. destruct (last _); reflexivity.
Qed.

Lemma fold_insert_nodup {B} (f : gmap string B -> string * string -> gmap string B) g l :
  (forall m kv, f m kv = <[kv.1 := g kv.2]> m) -> NoDup l.*1 ->
  forall m k, fold_left f l m !! k = match (list_to_map l : gmap string string) !! k with
                                     | Some v => Some (g v) | None => m !! k end.
Proof.
  intros Hf. induction l as [|[k' v] l IH]; intros Hnd m k; [reflexivity|].
  cbn [fmap list_fmap fst] in Hnd. apply NoDup_cons in Hnd as [Hni Hnd].
  cbn [fold_left list_to_map foldr fst snd]. rewrite IH by exact Hnd. rewrite Hf. cbn.
  destruct (decide (k = k')) as [->|Hne].
  - rewrite !lookup_insert. rewrite (not_elem_of_list_to_map_1 l k') by exact Hni. reflexivity.
  - rewrite !lookup_insert_ne by auto. reflexivity.
Qed.

Lemma kafka_roundtrip (h : gmap string string) l :
  l ≡ₚ map_to_list h -> kafka_received (kafka_headers l) = h.
Proof.
  intros Hp. rewrite kafka_headers_id. apply map_eq. intros k. unfold kafka_received.
  rewrite (fold_insert_nodup _ (fun v => v)); [|reflexivity|rewrite Hp; apply NoDup_fst_map_to_list].
  rewrite lookup_empty.
  assert ((list_to_map l : gmap string string) = h) as ->.
  { rewrite (list_to_map_proper l (map_to_list h)); [apply list_to_map_to_list| |exact Hp].
    rewrite Hp. apply NoDup_fst_map_to_list. }
  destruct (h !! k); reflexivity.
Qed.

Lemma nats_received_lookup (w : gmap string (list string)) l k :
  l ≡ₚ map_to_list w -> nats_received l !! k = w !! k ≫= head.
Proof.
  intros Hp. assert (NoDup l.*1) as Hnd by (rewrite Hp; apply NoDup_fst_map_to_list).
  assert (w = list_to_map l) as ->.
  { rewrite (list_to_map_proper l (map_to_list w)); [now rewrite list_to_map_to_list| |exact Hp].
    exact Hnd. }
  clear Hp. unfold nats_received.
  assert (G : forall m : gmap string string,
    fold_left (fun m kv => match kv.2 with v :: _ => <[kv.1 := v]> m | [] => m end) l m !! k =
    match (list_to_map l : gmap string (list string)) !! k ≫= head with Some v => Some v | None => m !! k end).
  { induction l as [|[k' vs] l IH]; intros m; [reflexivity|].
    cbn [fmap list_fmap fst] in Hnd. apply NoDup_cons in Hnd as [Hni Hnd].
    cbn [fold_left fst snd]. rewrite IH by exact Hnd. cbn.
    destruct (decide (k = k')) as [->|Hne].
    - rewrite lookup_insert. rewrite (not_elem_of_list_to_map_1 l k') by exact Hni.
      cbn. destruct vs; cbn; [reflexivity|]. now rewrite lookup_insert.
    - rewrite lookup_insert_ne by auto. destruct vs; [reflexivity|]. now rewrite lookup_insert_ne by auto. }
  rewrite G, lookup_empty. destruct (_ ≫= _); reflexivity.
Qed.

Lemma nats_roundtrip (h : gmap string string) l l' :
  l ≡ₚ map_to_list h -> l' ≡ₚ map_to_list (nats_headers l) -> nats_received l' = h.
Proof.
  intros Hp Hp'. apply map_eq. intros k. rewrite (nats_received_lookup _ l' k Hp').
  unfold nats_headers. rewrite (fold_insert_nodup _ (fun v => [v])); [|reflexivity|rewrite Hp; apply NoDup_fst_map_to_list].
  assert ((list_to_map l : gmap string string) = h) as ->.
  { rewrite (list_to_map_proper l (map_to_list h)); [apply list_to_map_to_list| |exact Hp].
    rewrite Hp. apply NoDup_fst_map_to_list. }
  rewrite lookup_empty. destruct (h !! k); reflexivity.
Qed.
