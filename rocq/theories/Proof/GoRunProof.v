(** Proofs about the execution of the conversion functions. *)
From stdpp Require Import gmap list strings.
From Coq Require Import Ascii String ZArith Lia.
From Verif.Model Require Import Types Codec Conversion.
From Verif.Spec Require Import CodecSpec ConversionSpec GoRun SurviveSpec.
From Verif.Proof Require Import CodecProof ConversionProof.
Local Open Scope string_scope.

(** *** Bytes *)
Lemma numbers_text l : Forall (fun b => 0 <= b < 256)%Z l -> numbers (text l) = l.
Proof.
  induction 1 as [|b l Hb _ IH]; [reflexivity|]. unfold numbers, text in *. cbn. f_equal; [|exact IH].
  rewrite Ascii.nat_ascii_embedding by lia. lia.
Qed.
Lemma numbers_length s : List.length (numbers s) = String.length s.
Proof. unfold numbers. rewrite map_length. induction s as [|c s IH]; [reflexivity|]. cbn. now rewrite IH. Qed.
Lemma numbers_bytes s : Forall (fun b => 0 <= b < 256)%Z (numbers s).
Proof.
  unfold numbers. apply Forall_forall. intros z H. apply elem_of_list_In, in_map_iff in H as (a & <- & _).
  pose proof (Ascii.nat_ascii_bounded a). lia.
Qed.

Section proof.
  Context {J T E : Type}.
  Notation value := (value J T).
  Context (marshal : value -> string + E) (unmarshal : xtype -> string -> value + E).
  Context (tformat : T -> string) (tparse : string -> T + E) (err_nil err_unmarshal : E).
  Context (env : package_types) (v3 dates force : bool) (Hexp : exports env).
  Context (fields : place -> option xtype).
  Notation is s t := (String.eqb (g_type s) t).
  Notation dated := (is_date_generated dates).
  Notation exec i b := (exec marshal unmarshal tformat tparse err_nil err_unmarshal env fields i b).
  Notation blk i b := (in_block (exec i b)).

  Lemma blk_app i b s l1 l2 : blk i b s (l1 ++ l2)%list = after (blk i b s l1) (fun s' => blk i b s' l2).
  Proof.
    revert s. induction l1 as [|c l1 IH]; intros s; [reflexivity|]. cbn. destruct (exec i b s c); cbn; auto.
  Qed.
  Lemma after_next {A} (o : outcome E A) : after o Next = o.
  Proof. now destruct o. Qed.

  (** *** Payloads *)
  Definition pbytes (p : part) (v : value) : outcome E string :=
    let s := followed p in
    if is s "object" || is s "array" then match marshal v with inl b => Next b | inr e => Fail e end
    else if is s "integer" then
      match v with VInt _ z => Next (text (be_put (width (String.eqb (g_format (own p)) "int32")) z)) | _ => Stuck end
    else match v with VStr x => Next x | VTime t => Next (tformat t) | _ => Stuck end.
  Definition pread (p : part) (t : xtype) (b : string) : outcome E value :=
    let s := followed p in
    if is s "string" then if dated (g_format s) then match tparse b with inl t => Next (VTime t) | inr e => Fail e end else Next (VStr b)
    else if is s "integer" then
      let w := width (String.eqb (g_format s) "int32") in
      if Nat.ltb (String.length b) w then Panic else Next (VInt (8 * w) (to_signed w (le_get (take w (numbers b)))))
    else match unmarshal t b with inl v => Next v | inr e => Fail e end.

  (** What the payloads of supported messages are. *)
  Lemma payload_types p t : part_ok env dates p -> (target p = None -> g_ref (own p) = None) ->
    payload_supported env dates p = true -> schema_name dates (own p) = Some t ->
    let s := followed p in
    if is s "object" || is s "array" then True
    else if is s "integer" then underlying env (X t) = X (if String.eqb (g_format s) "int32" then TInt32 else TInt64)
    else if is s "string" then
      if dated (g_format s) then target p = None /\ t = TTime else underlying env (X t) = X TString
    else underlying env (X t) = X TString.
  Proof.
    intros (Hx & _ & Ht) Hr Hs Hn. cbn zeta. unfold payload_supported in Hs. unfold followed in *.
    destruct (target p) as [r|] eqn:Et.
    - destruct Ht as (Ho & Href & Hrx & Hd).
      assert (Htn : t = TNamed (g_name r)).
      { destruct (own p) as [n ty f x ps it ad rf]. cbn in *. subst. cbn in Hn. congruence. }
      destruct (String.eqb_spec (g_type r) "object") as [E1|E1]; [exact I|].
      destruct (String.eqb_spec (g_type r) "array") as [E2|E2]; [exact I|]. cbn [orb] in *.
      assert (Hu : forall u, declared env dates r -> schema_name dates r = Some u -> underlying env (X u) = X u -> underlying env (X t) = X u).
      { intros u D S U. unfold declared in D. rewrite (proj2 (String.eqb_neq _ _) E1) in D. destruct D as (t' & u' & S' & U' & _ & En).
        rewrite S in S'. injection S' as <-. rewrite U in U'. injection U' as <-. rewrite Htn. cbn. now rewrite En. }
      destruct (String.eqb_spec (g_type r) "integer") as [E3|E3].
      + apply Hu; [exact Hd| |destruct (String.eqb _ _); reflexivity].
        destruct r as [n ty f x ps it ad rf]. cbn in *. subst. cbn. now destruct (String.eqb f "int32").
      + destruct (String.eqb_spec (g_type r) "string") as [E4|E4].
        * destruct (dated (g_format r)) eqn:Ed; [discriminate Hs|].
          apply Hu; [exact Hd| |reflexivity]. destruct r as [n ty f x ps it ad rf]. cbn in *. subst. cbn. now rewrite Ed.
        * apply andb_true_iff in Hs as [_ Hs%bool_decide_eq_true]. rewrite Htn. cbn. now rewrite Hs.
    - destruct (own p) as [n ty f x ps it ad rf] eqn:Eo. cbn in *. subst x. cbn in Hn.
      destruct (String.eqb_spec ty "object") as [E1|E1]; [exact I|].
      destruct (String.eqb_spec ty "array") as [E2|E2]; [exact I|]. cbn [orb] in *.
      destruct (String.eqb_spec ty "integer") as [E3|E3].
      + subst ty. cbn in Hn. injection Hn as <-. now destruct (String.eqb f "int32").
      + destruct (String.eqb_spec ty "string") as [E4|E4]; [|discriminate].
        subst ty. cbn in Hn. destruct (dated f) eqn:Ed.
        * cbn in Hs. apply String.eqb_eq in Hs as ->. cbn in Hn. split; [reflexivity|congruence].
        * cbn in Hn. injection Hn as <-. reflexivity.
  Qed.

  Lemma part_reference p t r : part_ok env dates p -> schema_name dates (own p) = Some t -> target p = Some r -> t = TNamed (g_name r).
  Proof.
    intros (Hx & _ & Ht) Hn Et. rewrite Et in Ht. destruct Ht as (Ho & Href & _ & _).
    destruct (own p) as [n ty f x ps it ad rf]. cbn in *. subst. cbn in Hn. congruence.
  Qed.

  Lemma le_put_mod n z : le_put n (z mod 2 ^ (8 * Z.of_nat n)) = le_put n z.
  Proof.
    apply nth_ext with 0%Z 0%Z; rewrite !le_put_length; [reflexivity|]. intros i Hi. rewrite !le_put_nth by exact Hi. now apply zbyte_mod.
  Qed.
  Lemma be_put_mod n z : be_put n (z mod 2 ^ (8 * Z.of_nat n)) = be_put n z.
  Proof. unfold be_put. now rewrite le_put_mod. Qed.
  Lemma signed_word w l : (0 < w)%nat -> Forall (fun b => 0 <= b < 256)%Z l -> List.length l = w ->
    to_signed w (le_get l mod 2 ^ (8 * Z.of_nat w)) = to_signed w (le_get l) /\
    to_signed w (to_signed w (le_get l) mod 2 ^ (8 * Z.of_nat w)) = to_signed w (le_get l).
  Proof.
    intros Hw Hb <-. pose proof (le_get_range l Hb) as R. rewrite to_signed_mod by exact Hw.
    rewrite Z.mod_small by lia. auto.
  Qed.

  Lemma numbers_zero n : List.length (numbers (text (repeat 0%Z n))) = n.
  Proof.
    rewrite numbers_text; [apply repeat_length|]. apply Forall_forall. intros x H. apply elem_of_list_In, repeat_spec in H. lia.
  Qed.

  Lemma enc_payload i b s p t :
    part_ok env dates p -> (target p = None -> g_ref (own p) = None) -> payload_supported env dates p = true ->
    schema_name dates (own p) = Some t -> holds env (X t) (store s Payload) ->
    match pbytes p (store s Payload) with
    | Next x => exists s', blk i b s (encode_payload dates p) = Next s' /\ var (vars s') "payload" = Some (VBytes x) /\
        store s' = store s /\ headers s' = headers s /\ body s' = body s
    | Fail e => blk i b s (encode_payload dates p) = Fail e
    | _ => False
    end.
  Proof using.
    intros Hp Hr Hs Hn Hv. pose proof (payload_types p t Hp Hr Hs Hn) as Ht. cbn zeta in Ht.
    unfold pbytes, encode_payload.
    destruct (is (followed p) "object" || is (followed p) "array") eqn:E1.
    { cbn [in_block GoRun.exec eval after]. destruct (marshal (store s Payload)) as [x|e]; cbn; [|reflexivity].
      eexists. split; [reflexivity|]. auto. }
    destruct (String.eqb_spec (g_type (followed p)) "integer") as [E2|E2].
    { destruct (store s Payload) as [ | |n z| | | | | |w] eqn:Ev; cbn [holds] in Hv;
        try (rewrite Ht in Hv; destruct (String.eqb (g_format (followed p)) "int32"); discriminate);
        try (destruct Hv; discriminate); try contradiction.
      - assert (G : forall w, (w = 4 \/ w = 8)%nat -> exists s', blk i b s [Make "payload" w; Put (8 * w) "payload" (Convert (Known (XUint (8 * w))) (Field Payload))] = Next s' /\
          var (vars s') "payload" = Some (VBytes (text (be_put w z))) /\ store s' = store s /\ headers s' = headers s /\ body s' = body s).
        { intros w Hw. assert (D : (8 * w / 8)%nat = w) by (destruct Hw as [-> | ->]; reflexivity).
          cbn [in_block GoRun.exec eval after]. change (store (set_var _ _ s) Payload) with (store s Payload). rewrite Ev.
          cbn [after named_type underlying convert_to vars set_var var String.eqb Ascii.eqb Bool.eqb]. cbv zeta. rewrite D, numbers_zero, Nat.ltb_irrefl. cbn [after].
          eexists. split; [reflexivity|]. cbn. split; [|auto]. do 2 f_equal.
          rewrite drop_ge, app_nil_r by (rewrite numbers_zero; lia).
          f_equal. rewrite <- (be_put_mod w z). f_equal. f_equal. f_equal. lia. }
        destruct (String.eqb (g_format (own p)) "int32"); [apply (G 4%nat)|apply (G 8%nat)]; auto.
      - rewrite Ht in Hv. unfold float in Hv. destruct (String.eqb (g_format (followed p)) "int32"), (Nat.eqb bits 32); discriminate.
      - destruct Hv as (u & U & ? & ? & ? & ?). rewrite Ht in U. destruct (String.eqb (g_format (followed p)) "int32"); congruence. }
    assert (Q : forall x, store s Payload = VStr x -> exists s',
       blk i b s [Let "payload" (Convert (Known XBytes) (Field Payload))] = Next s' /\ var (vars s') "payload" = Some (VBytes x) /\
       store s' = store s /\ headers s' = headers s /\ body s' = body s).
    { intros x Ex. cbn. rewrite Ex. cbn. eexists. split; [reflexivity|]. auto. }
    assert (NS : underlying env (X t) = X TString -> exists x, store s Payload = VStr x).
    { intros U. destruct (store s Payload) as [ | |n z| | | | | |w]; cbn [holds] in Hv; eauto; rewrite ?U in Hv; try discriminate; try contradiction.
      - destruct Hv as [[[_ ?]|[_ ?]] _]; discriminate.
      - unfold float in Hv. destruct (Nat.eqb bits 32); discriminate.
      - destruct Hv as (u & U' & N & _). congruence.
      - destruct Hv; discriminate. }
    destruct (String.eqb_spec (g_type (followed p)) "number") as [E3|E3].
    { exfalso. unfold payload_supported in Hs. rewrite E3 in Hs. cbn in Hs.
      destruct (target p) as [r|] eqn:Et; [|discriminate]. apply andb_true_iff in Hs as [Hs _]. unfold followed in E3. rewrite Et in E3.
      rewrite E3 in Hs. discriminate. }
    destruct (String.eqb_spec (g_type (followed p)) "string") as [E4|E4]; cbn [andb].
    - destruct (dated (g_format (followed p))) eqn:Ed.
      + destruct Ht as [Et ->]. cbn [holds] in Hv. destruct (store s Payload) as [ | |n z| | | | | |w] eqn:Ev; cbn [holds] in Hv; try discriminate; try contradiction.
        * destruct Hv as [[[_ ?]|[_ ?]] _]; discriminate.
        * unfold float in Hv. cbn in Hv. destruct (Nat.eqb bits 32); discriminate.
        * cbn. rewrite Ev. cbn. eexists. split; [reflexivity|]. auto.
        * destruct Hv as (u & [= <-] & ?). tauto.
        * destruct Hv; discriminate.
      + destruct (NS Ht) as [x Ex]. specialize (Q x Ex). rewrite Ex. exact Q.
    - destruct (NS Ht) as [x Ex]. specialize (Q x Ex). rewrite Ex. exact Q.
  Qed.

  Definition filled (f : place) (v : value) (m : place -> value) : place -> value := fun g => if same_place f g then v else m g.

  Lemma dec_payload x b s p t :
    part_ok env dates p -> (target p = None -> g_ref (own p) = None) -> payload_supported env dates p = true ->
    schema_name dates (own p) = Some t -> fields Payload = Some (X t) ->
    match pread p (X t) x with
    | Next v => exists s', blk x b s (decode_payload dates p) = Next s' /\ store s' = filled Payload v (store s) /\ headers s' = headers s
    | Fail e => blk x b s (decode_payload dates p) = Fail e
    | Panic => blk x b s (decode_payload dates p) = Panic
    | Stuck => False
    end.
  Proof using Hexp.
    intros Hp Hr Hs Hn Hf. pose proof (payload_types p t Hp Hr Hs Hn) as Ht. cbn zeta in Ht.
    assert (NA : forall r u, target p = Some r -> underlying env (X t) = X u -> u <> TBroken ->
      named env (g_name r) = Some (X (TNamed (g_name r))) /\ underlying env (X (TNamed (g_name r))) = X u).
    { intros r u Et U Nb. rewrite (part_reference p t r Hp Hn Et) in U. split; [|exact U]. cbn in U.
      destruct (env (g_name r)) as [u'|] eqn:En; [|congruence]. eapply exported_named; eauto. }
    assert (NN : g_type (followed p) <> "number").
    { intros E3. unfold payload_supported in Hs. rewrite E3 in Hs. cbn in Hs.
      destruct (target p) as [r|] eqn:Et; [|discriminate]. apply andb_true_iff in Hs as [Hs _]. unfold followed in E3. rewrite Et in E3.
      rewrite E3 in Hs. discriminate. }
    assert (NM : g_type (followed p) <> "numeric").
    { intros E3. unfold payload_supported in Hs. rewrite E3 in Hs. cbn in Hs.
      destruct (target p) as [r|] eqn:Et; [|discriminate]. apply andb_true_iff in Hs as [Hs _]. unfold followed in E3. rewrite Et in E3.
      rewrite E3 in Hs. discriminate. }
    unfold pread, decode_payload. rewrite blk_app.
    destruct (String.eqb_spec (g_type (followed p)) "string") as [E1|E1].
    { rewrite E1 in Ht. cbn in Ht. rewrite E1. cbn [orb].
      destruct (dated (g_format (followed p))) eqn:Ed.
      - destruct Ht as [-> ->]. cbn. destruct (tparse x) as [tm|e]; cbn; [|reflexivity]. eexists. split; [reflexivity|]. auto.
      - destruct (target p) as [r|] eqn:Et.
        + destruct (NA r TString eq_refl Ht) as [N1 N2]; [discriminate|].
          cbn [in_block GoRun.exec eval after named_type underlying convert_to]. cbn [vars set_var var String.eqb Ascii.eqb Bool.eqb after].
          rewrite N1, N2. cbn. eexists. split; [reflexivity|]. auto.
        + cbn. eexists. split; [reflexivity|]. auto. }
    destruct (String.eqb_spec (g_type (followed p)) "integer") as [E2|E2].
    { rewrite E2 in Ht. cbn in Ht. rewrite E2. cbn [orb].
      assert (G : forall w ty, (w = 4 \/ w = 8)%nat -> (ty = if Nat.eqb w 4 then TInt32 else TInt64) -> underlying env (X t) = X ty ->
        let o := after (blk x b s [Let "payload" (Convert (Known (X ty)) (Word (8 * w) Input))])
          (fun s' => blk x b s' match target p with Some r => [Assign Payload (Convert (Ident (g_name r)) (Var "payload"))] | None => [Assign Payload (Var "payload")] end) in
        match (if Nat.ltb (String.length x) w then Panic else Next (VInt (8 * w) (to_signed w (le_get (take w (numbers x)))))) with
        | Next v => exists s', o = Next s' /\ store s' = filled Payload v (store s) /\ headers s' = headers s
        | Fail e => o = Fail e | Panic => o = Panic | Stuck => False end).
      { intros w ty Hw Hty U. cbn zeta. assert (D : (8 * w / 8)%nat = w) by (destruct Hw as [-> | ->]; reflexivity).
        cbn [in_block GoRun.exec eval after]. cbv zeta. rewrite D, numbers_length.
        destruct (Nat.ltb_spec (String.length x) w) as [L|L]; [reflexivity|]. cbn [after named_type].
        assert (Hl : List.length (take w (numbers x)) = w) by (rewrite take_length, numbers_length; lia).
        assert (Hw0 : (0 < w)%nat) by lia.
        destruct (signed_word w (take w (numbers x)) Hw0 (Forall_take _ _ _ (numbers_bytes x)) Hl) as [S1 S2].
        assert (C : forall nb (z : Z), convert_to (J := J) (T := T) (X ty) (VUint nb z) = Some (VInt (8 * w) (to_signed w (z mod 2 ^ (8 * Z.of_nat w)))) /\
          convert_to (J := J) (T := T) (X ty) (VInt nb z) = Some (VInt (8 * w) (to_signed w (z mod 2 ^ (8 * Z.of_nat w))))).
        { intros nb z. rewrite Hty. destruct Hw as [-> | ->]; split; reflexivity. }
        change (underlying env (X ty)) with (underlying env (X ty)).
        assert (U0 : underlying env (X ty) = X ty) by (rewrite Hty; destruct (Nat.eqb w 4); reflexivity).
        rewrite U0, (proj1 (C _ _)), S1. cbn [after].
        destruct (target p) as [r|] eqn:Et.
        - destruct (NA r ty eq_refl U) as [N1 N2]; [rewrite Hty; destruct (Nat.eqb w 4); discriminate|].
          cbn [in_block GoRun.exec eval after named_type]. cbn [vars set_var var String.eqb Ascii.eqb Bool.eqb after].
          rewrite N1, N2, (proj2 (C _ _)), S2. cbn. eexists. split; [reflexivity|]. auto.
        - cbn. eexists. split; [reflexivity|]. auto. }
      destruct (String.eqb (g_format (followed p)) "int32"); [apply (G 4%nat TInt32)|apply (G 8%nat TInt64)]; auto. }
    rewrite (proj2 (String.eqb_neq _ _) NN), (proj2 (String.eqb_neq _ _) NM). cbn [orb].
    cbn. rewrite Hf. destruct (unmarshal (X t) x) as [v|e]; cbn; [|reflexivity]. eexists. split; [reflexivity|]. auto.
  Qed.

  Lemma payload_iff p t v b :
    part_ok env dates p -> (target p = None -> g_ref (own p) = None) -> payload_supported env dates p = true ->
    schema_name dates (own p) = Some t -> holds env (X t) v -> pbytes p v = Next b ->
    pread p (X t) b = Next v <-> payload_survives marshal unmarshal tformat tparse p (X t) v.
  Proof using.
    intros Hp Hr Hs Hn Hv Hb. pose proof (payload_types p t Hp Hr Hs Hn) as Ht. cbn zeta in Ht.
    unfold payload_survives. cbn zeta. unfold pbytes, pread in *.
    destruct (is (followed p) "object" || is (followed p) "array") eqn:E1.
    { assert (is (followed p) "string" = false /\ is (followed p) "integer" = false) as [-> ->].
      { apply orb_true_iff in E1 as [E1|E1]; apply String.eqb_eq in E1; rewrite E1; split; reflexivity. }
      destruct (marshal v) as [x|e] eqn:Em; [|discriminate]. injection Hb as <-. unfold json_survives. split.
      - destruct (unmarshal (X t) x) as [w|e] eqn:Eu; [|discriminate]. intros [= ->]. eauto.
      - intros (y & M & U). rewrite Em in M. injection M as <-. now rewrite U. }
    destruct (String.eqb_spec (g_type (followed p)) "integer") as [E2|E2].
    { rewrite E2. cbn [String.eqb Ascii.eqb Bool.eqb].
      destruct v as [ | |n z| | | | | |w]; try discriminate. injection Hb as <-. cbn [holds] in Hv.
      set (o := String.eqb (g_format (own p)) "int32") in *. set (r := String.eqb (g_format (followed p)) "int32") in *.
      set (ip := mkInt true o r).
      assert (Hn8 : n = (8 * width r)%nat /\ int_range ip z).
      { destruct Hv as [[[-> U]|[-> U]] R]; rewrite Ht in U; destruct r; try discriminate U; split; try reflexivity; exact R. }
      destruct Hn8 as [-> Hz].
      assert (Ed : (if Nat.ltb (String.length (text (be_put (width o) z))) (width r) then Panic
         else Next (VInt (8 * width r) (to_signed (width r) (le_get (take (width r) (numbers (text (be_put (width o) z)))))))) =
         match int_decode ip (int_encode ip z) with Some y => Next (VInt (8 * width r) y) | None => @Panic E value end).
      { rewrite <- numbers_length, numbers_text by apply be_put_bytes. unfold int_decode, int_encode.
        change (resolved_fmt ip) with r. change (fmt_here ip) with o. cbv zeta.
        destruct (Nat.ltb (List.length (be_put (width o) z)) (width r)); reflexivity. }
      rewrite Ed. clear Ed.
      assert (EQ : match int_decode ip (int_encode ip z) with Some y => Next (VInt (8 * width r) y) | None => @Panic E value end = Next (VInt (8 * width r) z)
        <-> int_decode ip (int_encode ip z) = Some z).
      { destruct (int_decode ip (int_encode ip z)); split; intros H; try discriminate; congruence. }
      rewrite EQ. clear EQ.
      assert (Hiff : int_decode ip (int_encode ip z) = Some z <-> (if Bool.eqb o r then palindrome (if r then 4 else 8)%nat z else r = true /\ (z = 0 \/ z = -1)%Z)).
      { unfold ip in *. clear - Hz. clearbody o r. destruct (Bool.eqb_spec o r) as [Eo|No].
        - rewrite (int_roundtrip_iff (mkInt true o r) z Eo Hz). cbn. now destruct r.
        - destruct o, r; try congruence.
          + split; [|intros [[=] _]]. intros H. exfalso. assert (int_decode (mkInt true true false) (int_encode (mkInt true true false) z) = None) as H'; [|congruence].
            apply int_decode_panics. unfold int_encode. rewrite be_put_length. cbn. lia.
          + rewrite (int_ref32 z Hz). destruct (Z.ltb_spec z 0); split; intros H'; try (injection H' as <-); auto; destruct H' as [_ [-> | ->]]; try lia; reflexivity. }
      rewrite Hiff. split; [intros H; exists (8 * width r)%nat, z; auto|]. intros (n' & z' & [= _ <-] & H). exact H. }
    destruct (String.eqb_spec (g_type (followed p)) "string") as [E4|E4].
    - destruct (dated (g_format (followed p))) eqn:Ed.
      + destruct Ht as [Et ->]. destruct v as [ | x|n z| | |tm| | |w]; cbn [holds] in Hv; try discriminate. injection Hb as <-.
        unfold time_survives. destruct (tparse (tformat tm)); split; intros H; try discriminate; congruence.
      + destruct v as [ | x|n z| | |tm| | |w]; cbn [holds] in Hv; try discriminate; [injection Hb as <-; split; auto|].
        rewrite Ht in Hv. discriminate.
    - destruct v as [ | x|n z| | |tm| | |w]; cbn [holds] in Hv; try discriminate; [|rewrite Ht in Hv; discriminate].
      injection Hb as <-. destruct (unmarshal (X t) x); split; intros H; try discriminate; congruence.
  Qed.

  (** *** Headers *)
  Notation dptr h := (is_field_pointer force (h_declared h || h_flag h) (own (h_part h))).
  Notation sptr h := (is_field_pointer force (h_listed h || h_flag h) (own (h_part h))).
  Definition htype (h : header) (t : gotype) : xtype := if dptr h then XPointer (X t) else X t.
  Definition kind (h : header) (t : gotype) : Prop :=
    let s := own (h_part h) in
    if is s "object" then underlying env (X t) = X t /\ t = TNamed (g_name s) /\ (sptr h = true -> dptr h = true) /\ (h_flag h = true -> sptr h = dptr h)
    else dptr h = sptr h /\
      if dated (g_format s) then t = TTime /\ (h_flag h && dptr h = false)
      else underlying env (X t) = X TString /\
        (target (h_part h) = None /\ g_type s = "string" \/
         exists r, target (h_part h) = Some r /\ v3 = true /\ env (g_name r) = Some TString /\ g_name r <> "").

  Lemma header_types h t : part_ok env dates (h_part h) -> header_supported env v3 dates force h = true ->
    schema_name dates (own (h_part h)) = Some t -> kind h t /\ (h_flag h || dptr h = true).
  Proof using Hexp.
    intros (Hx & _ & Ht) Hs Hn. unfold header_supported in Hs. cbn zeta in Hs. unfold kind. cbn zeta.
    destruct (String.eqb_spec (g_type (own (h_part h))) "object") as [E1|E1].
    { split; [|exact Hs].
      destruct (target (h_part h)) as [r|] eqn:Et; [destruct Ht as (Ho & _); congruence|].
      specialize (Ht E1). assert (t = TNamed (g_name (own (h_part h)))) as ->.
      { destruct (own (h_part h)) as [n ty f x ps it ad rf]. cbn in *. subst. cbn in Hn. congruence. }
      split; [cbn; now rewrite Ht|]. split; [reflexivity|]. unfold is_field_pointer in *. split.
      - destruct force; [auto|]. intros S. destruct (h_flag h); [rewrite orb_true_r in S; discriminate|]. exact Hs.
      - intros ->. now rewrite !orb_true_r. }
    apply andb_true_iff in Hs as [Hs Hk]. apply andb_true_iff in Hs as [Hd Hf]. apply Bool.eqb_prop in Hd. split; [|exact Hf].
    split; [exact Hd|].
    destruct (String.eqb_spec (g_type (own (h_part h))) "string") as [E2|E2].
    - destruct (target (h_part h)) as [r|] eqn:Et; [destruct Ht as (Ho & _); congruence|].
      destruct (own (h_part h)) as [n ty f x ps it ad rf] eqn:Eo. cbn in *. subst ty x. cbn in Hn.
      destruct (is_date_generated dates f) eqn:Ed.
      + cbn in Hk. apply andb_true_iff in Hk as [Hk1%String.eqb_eq Hk2]. subst f. cbn in Hn. split; [congruence|]. now apply negb_true_iff in Hk2.
      + cbn in Hn. injection Hn as <-. split; [reflexivity|]. left. auto.
    - destruct (target (h_part h)) as [r|] eqn:Et; [|discriminate].
      apply andb_true_iff in Hk as [Hk Hk3%bool_decide_eq_true]. apply andb_true_iff in Hk as [Hk1 Hk2%negb_true_iff]. rewrite Hk2.
      destruct Ht as (Ho & Href & _ & _). split.
      + destruct (own (h_part h)) as [n ty f x ps it ad rf]. cbn in *. subst. cbn in Hn. injection Hn as <-. cbn. now rewrite Hk3.
      + right. exists r. split; [reflexivity|]. split; [exact Hk1|]. split; [exact Hk3|].
        intros E0. destruct (Hexp _ _ Hk3) as (c & r' & E' & _). congruence.
  Qed.

  Definition strip (v : value) : value := match v with VPtr w => w | _ => v end.
  Definition hbytes (h : header) (v : value) : outcome E (option string) :=
    match v with
    | VNil => if h_flag h then Fail err_nil else Next None
    | _ =>
        if is (own (h_part h)) "object" then match marshal (strip v) with inl b => Next (Some b) | inr e => Fail e end
        else match strip v with VStr x => Next (Some x) | VTime t => Next (Some (tformat t)) | _ => Stuck end
    end.
  Definition hread (h : header) (T : xtype) (b : string) : outcome E value :=
    if is (own (h_part h)) "object" then
      if sptr h then Fail err_unmarshal else match unmarshal T b with inl v => Next v | inr e => Fail e end
    else
      let wrap (v : value) := if sptr h then VPtr v else v in
      if dated (g_format (own (h_part h))) then match tparse b with inl t => Next (wrap (VTime t)) | inr e => Fail e end
      else Next (wrap (VStr b)).

  Definition frame (s s' : @GoRun.state J T) : Prop :=
    store s' = store s /\ body s' = body s /\ var (vars s') "payload" = var (vars s) "payload".

  (** The values of a header. *)
  Lemma value_shape h t (v : value) : kind h t -> holds env (htype h t) v ->
    (dptr h = true /\ v = VNil) \/
    exists w, v = (if dptr h then VPtr w else w) /\ w <> VNil /\ (forall x, w <> VPtr x) /\
      if is (own (h_part h)) "object" then True
      else if dated (g_format (own (h_part h))) then exists tm, w = VTime tm else exists x, w = VStr x.
  Proof using.
    intros K H. unfold htype in H. destruct (dptr h) eqn:Ed.
    - destruct v as [ | | | | | | | |w]; cbn [holds] in H; try discriminate H; auto.
      + destruct H as [[[_ ?]|[_ ?]] _]; discriminate.
      + destruct H as (u & ? & _). discriminate.
      + right. exists w. split; [reflexivity|].
        assert (w <> VNil /\ forall x, w <> VPtr x) as [N1 N2].
        { split; [|intros x]; intros ->; cbn [holds] in H; [destruct H; discriminate|contradiction]. }
        split; [exact N1|]. split; [exact N2|]. unfold kind in K. cbn zeta in K.
        destruct (is (own (h_part h)) "object"); [exact I|]. destruct K as [_ K].
        destruct (dated (g_format (own (h_part h)))).
        * destruct K as [-> _]. destruct w; cbn [holds underlying] in H; try discriminate; eauto; try contradiction.
          -- destruct H as [[[_ ?]|[_ ?]] _]; discriminate.
          -- unfold float in H. destruct (Nat.eqb bits 32); discriminate.
          -- destruct H as (u & [= <-] & ?). tauto.
        * destruct K as [K _]. destruct w; cbn [holds] in H; try (rewrite K in H); try discriminate; eauto; try contradiction.
          -- destruct H as [[[_ ?]|[_ ?]] _]; discriminate.
          -- unfold float in H. destruct (Nat.eqb bits 32); discriminate.
          -- destruct H as (u & U & ?). injection U as <-. tauto.
    - right. exists v. split; [reflexivity|].
      assert (v <> VNil /\ forall x, v <> VPtr x) as [N1 N2].
      { split; [|intros x]; intros ->; cbn [holds] in H; [destruct H; discriminate|contradiction]. }
      split; [exact N1|]. split; [exact N2|]. unfold kind in K. cbn zeta in K.
      destruct (is (own (h_part h)) "object"); [exact I|]. destruct K as [_ K].
      destruct (dated (g_format (own (h_part h)))).
      * destruct K as [-> _]. destruct v; cbn [holds underlying] in H; try discriminate; eauto; try contradiction.
        -- destruct H as [[[_ ?]|[_ ?]] _]; discriminate.
        -- unfold float in H. destruct (Nat.eqb bits 32); discriminate.
        -- destruct H as (u & [= <-] & ?). tauto.
      * destruct K as [K _]. destruct v; cbn [holds] in H; try (rewrite K in H); try discriminate; eauto; try contradiction.
        -- destruct H as [[[_ ?]|[_ ?]] _]; discriminate.
        -- unfold float in H. destruct (Nat.eqb bits 32); discriminate.
        -- destruct H as (u & U & ?). injection U as <-. tauto.
  Qed.

  Lemma seen_is h : seen_pointer force h = sptr h.
  Proof. reflexivity. Qed.

  Lemma enc_header i b s h t : kind h t -> h_flag h || dptr h = true -> holds env (htype h t) (store s (Header (h_key h))) ->
    match hbytes h (store s (Header (h_key h))) with
    | Next o => exists s', blk i b s (encode_header dates force h) = Next s' /\ frame s s' /\
        headers s' = match o with Some x => <[h_key h := x]> (headers s) | None => headers s end
    | Fail e => blk i b s (encode_header dates force h) = Fail e
    | _ => False
    end.
  Proof using.
    intros K F Hv. pose proof (value_shape h t _ K Hv) as Sh.
    assert (SD : h_flag h = true -> sptr h = dptr h).
    { intros Fl. unfold kind in K. cbn zeta in K. destruct (is (own (h_part h)) "object"); [now apply K|]. symmetry. apply K. }
    unfold hbytes, encode_header. rewrite seen_is. unfold kind in K. cbn zeta in K |- *.
    remember (dptr h) as d eqn:Dd. remember (sptr h) as sp eqn:Ds. clear Dd Ds.
    destruct Sh as [[Ed Ev]|(w & Ev & N1 & N2 & W)].
    { rewrite Ev. destruct (h_flag h) eqn:Fl.
      - rewrite SD, Ed by reflexivity. cbn [app]. cbn. rewrite Ev. reflexivity.
      - cbn. rewrite Ev. eexists. split; [reflexivity|]. split; [|reflexivity]. split; [reflexivity|]. split; reflexivity. }
    assert (NV : forall A (a c : A), match store s (Header (h_key h)) with VNil => a | _ => c end = c).
    { intros A a c. rewrite Ev. destruct (d); [reflexivity|]. destruct w; try reflexivity. now destruct N1. }
    assert (St : strip (store s (Header (h_key h))) = w).
    { rewrite Ev. destruct (d); [reflexivity|]. destruct w; try reflexivity. exfalso. now apply (N2 w). }
    rewrite NV, St. clear Hv.
    destruct (h_flag h) eqn:Fl.
    - rewrite SD by reflexivity. rewrite blk_app.
      assert (Pre : blk i b s (if d then [FailIfNil (Header (h_key h))] else []) = Next s).
      { destruct (d); [|reflexivity]. cbn. now rewrite NV. }
      rewrite Pre. cbn [after].
      assert (Star : eval marshal tformat tparse env i s (if d then Deref (Field (Header (h_key h))) else Field (Header (h_key h))) = Next w).
      { destruct (d); cbn; rewrite Ev; reflexivity. }
      destruct (is (own (h_part h)) "object") eqn:Eo.
      + cbn [in_block GoRun.exec eval]. rewrite Star. cbn [after]. destruct (marshal w) as [x|e]; cbn; [|reflexivity].
        eexists. split; [reflexivity|]. split; [|reflexivity]. split; [reflexivity|]. split; reflexivity.
      + destruct (dated (g_format (own (h_part h)))).
        * destruct W as [tm ->]. destruct K as (_ & _ & Fd). cbn in Fd. rewrite Fd in *. cbn [in_block GoRun.exec eval].
          rewrite Ev. cbn. eexists. split; [reflexivity|]. split; [|reflexivity]. split; [reflexivity|]. split; reflexivity.
        * destruct W as [x ->]. cbn [in_block GoRun.exec eval]. rewrite Star. cbn.
          eexists. split; [reflexivity|]. split; [|reflexivity]. split; [reflexivity|]. split; reflexivity.
    - cbn in F. rewrite F in Ev. cbn [in_block GoRun.exec]. rewrite NV.
      destruct (is (own (h_part h)) "object") eqn:Eo.
      + cbn [in_block GoRun.exec eval]. rewrite Ev. cbn [after]. destruct (marshal w) as [x|e]; cbn; [|reflexivity].
        eexists. split; [reflexivity|]. split; [|reflexivity]. split; [reflexivity|]. split; reflexivity.
      + destruct (dated (g_format (own (h_part h)))).
        * destruct W as [tm ->]. cbn [in_block GoRun.exec eval].
          rewrite Ev. cbn. eexists. split; [reflexivity|]. split; [|reflexivity]. split; [reflexivity|]. split; reflexivity.
        * destruct W as [x ->]. cbn [in_block GoRun.exec eval]. rewrite Ev. cbn.
          eexists. split; [reflexivity|]. split; [|reflexivity]. split; [reflexivity|]. split; reflexivity.
  Qed.

  Lemma dec_header x b s h t y : kind h t -> fields (Header (h_key h)) = Some (htype h t) ->
    var (vars s) "v" = Some (VBytes y) -> (dptr h = true -> store s (Header (h_key h)) = VNil) ->
    match hread h (htype h t) y with
    | Next v => exists s', blk x b s (decode_header v3 dates force h) = Next s' /\ store s' = filled (Header (h_key h)) v (store s)
    | Fail e => blk x b s (decode_header v3 dates force h) = Fail e
    | _ => False
    end.
  Proof using Hexp.
    intros K Hf Hy Hz. unfold hread, decode_header. rewrite seen_is. unfold kind in K. cbn zeta in K |- *.
    destruct (is (own (h_part h)) "object") eqn:Eo.
    - destruct K as (_ & _ & SD & _). destruct (sptr h).
      + cbn [in_block GoRun.exec eval]. rewrite Hy. cbn. rewrite Hz by auto. reflexivity.
      + cbn [in_block GoRun.exec eval]. rewrite Hy. cbn. rewrite Hf. destruct (unmarshal (htype h t) y); cbn; [|reflexivity].
        eexists. split; reflexivity.
    - destruct K as (DS & K). destruct (dated (g_format (own (h_part h)))).
      + destruct (sptr h); cbn [in_block GoRun.exec eval]; rewrite Hy; cbn; (destruct (tparse y); cbn; [|reflexivity]);
          eexists; split; reflexivity.
      + assert (Hval : eval marshal tformat tparse env x s (header_value v3 (h_part h)) = Next (VStr y)).
        { unfold header_value. destruct K as [_ [(Et & Ety)|(r & Et & Ev3 & En & Ne)]].
          - rewrite Et, Ety. cbn. rewrite Hy. reflexivity.
          - rewrite Et, Ev3. rewrite (proj2 (String.eqb_neq _ _) Ne). cbn [eval]. rewrite Hy. cbn [after named_type].
            rewrite (exported_named env Hexp _ _ En). cbn [underlying]. rewrite En. reflexivity. }
        destruct (sptr h); cbn [in_block GoRun.exec]; rewrite Hval; cbn; eexists; split; reflexivity.
  Qed.

  Lemma header_iff h t v y : kind h t -> holds env (htype h t) v -> hbytes h v = Next (Some y) ->
    hread h (htype h t) y = Next v <-> header_survives marshal unmarshal tformat tparse force h (htype h t) v.
  Proof using.
    intros K Hv Hb. pose proof (value_shape h t v K Hv) as Sh. unfold kind in K. cbn zeta in K.
    destruct Sh as [[Ed ->]|(w & Ev & N1 & N2 & W)]; [cbn in Hb; destruct (h_flag h); discriminate|].
    assert (St : strip v = w).
    { rewrite Ev. destruct (dptr h); [reflexivity|]. destruct w; try reflexivity. exfalso. now apply (N2 w). }
    assert (NV : forall A (a c : A), match v with VNil => a | _ => c end = c).
    { intros A a c. rewrite Ev. destruct (dptr h); [reflexivity|]. destruct w; try reflexivity. now destruct N1. }
    unfold hbytes in Hb. unfold header_survives. cbn zeta. rewrite NV in Hb |- *. rewrite St in Hb.
    change (match v with VPtr w => w | _ => v end) with (strip v). rewrite St. unfold hread.
    destruct (is (own (h_part h)) "object") eqn:Eo.
    - destruct (marshal w) as [z|e] eqn:Em; [|discriminate]. injection Hb as <-. unfold json_survives.
      destruct (sptr h); [split; [discriminate|intros [? _]; discriminate]|].
      split.
      + destruct (unmarshal (htype h t) z) as [u|e] eqn:Eu; [|discriminate]. intros [= ->]. eauto.
      + intros (_ & z' & M & U). rewrite Em in M. injection M as <-. now rewrite U.
    - destruct K as (DS & K). cbn zeta. rewrite Ev, DS. destruct (dated (g_format (own (h_part h)))).
      + destruct W as [tm ->]. injection Hb as <-. unfold time_survives. destruct (tparse (tformat tm)) as [t'|e]; split; intros H; try discriminate.
        * destruct (sptr h); congruence.
        * now injection H as ->.
      + destruct W as [z ->]. injection Hb as <-. split; auto.
  Qed.

  (** *** All headers *)
  Definition good (h : header) : Prop :=
    exists t, kind h t /\ h_flag h || dptr h = true /\ fields (Header (h_key h)) = Some (htype h t).

  Lemma enc_headers i b hs : forall s, Forall good hs -> NoDup (map h_key hs) ->
    (forall h t, h ∈ hs -> fields (Header (h_key h)) = Some t -> holds env t (store s (Header (h_key h)))) ->
    match blk i b s (flat_map (encode_header dates force) hs) with
    | Next s' => frame s s' /\
        (forall h, h ∈ hs -> exists o, hbytes h (store s (Header (h_key h))) = Next o /\
           headers s' !! h_key h = match o with Some x => Some x | None => headers s !! h_key h end) /\
        (forall k, k ∉ map h_key hs -> headers s' !! k = headers s !! k)
    | Fail e => exists h, h ∈ hs /\ hbytes h (store s (Header (h_key h))) = Fail e
    | _ => False
    end.
  Proof using.
    induction hs as [|h hs IH]; intros s Hg Hd Hv.
    { cbn. split; [split; [reflexivity|]; split; reflexivity|]. split; [|reflexivity]. intros h H. now apply elem_of_nil in H. }
    apply Forall_cons in Hg as [(t & K & F & Hf) Hg]. cbn [map] in Hd. apply NoDup_cons in Hd as [Hni Hd].
    cbn [flat_map]. rewrite blk_app.
    pose proof (enc_header i b s h t K F (Hv h _ (elem_of_list_here _ _) Hf)) as H1.
    destruct (hbytes h (store s (Header (h_key h)))) as [o|e| |] eqn:Eb; try contradiction.
    2:{ rewrite H1. cbn [after]. exists h. split; [apply elem_of_list_here|exact Eb]. }
    destruct H1 as (s1 & -> & (F1 & F2 & F3) & Hh1). cbn [after].
    specialize (IH s1 Hg Hd). rewrite F1 in IH.
    assert (Hv' : forall h0 t0, h0 ∈ hs -> fields (Header (h_key h0)) = Some t0 -> holds env t0 (store s (Header (h_key h0)))).
    { intros h0 t0 H. apply Hv. now apply elem_of_list_further. }
    specialize (IH Hv'). destruct (blk i b s1 (flat_map (encode_header dates force) hs)) as [s2|e| |]; try contradiction.
    - destruct IH as ((G1 & G2 & G3) & IHh & IHk). split; [split; [congruence|]; split; congruence|]. split.
      + intros h0 H. apply elem_of_cons in H as [->|H].
        * exists o. split; [exact Eb|]. rewrite IHk by exact Hni. rewrite Hh1. destruct o; [now rewrite lookup_insert|reflexivity].
        * destruct (IHh h0 H) as (o0 & E0 & L0). exists o0. split; [exact E0|]. rewrite L0. destruct o0; [reflexivity|].
          rewrite Hh1. destruct o; [|reflexivity]. rewrite lookup_insert_ne; [reflexivity|]. intros Ek. apply Hni. rewrite Ek.
          apply elem_of_list_In, in_map, elem_of_list_In, H.
      + intros k Hk. cbn [map] in Hk. apply not_elem_of_cons in Hk as [Hk1 Hk2]. rewrite IHk by exact Hk2. rewrite Hh1.
        destruct o; [|reflexivity]. rewrite lookup_insert_ne; [reflexivity|congruence].
    - destruct IH as (h0 & H & E0). exists h0. split; [now apply elem_of_list_further|exact E0].
  Qed.

  Definition cases x b (hs : list header) :=
    map (fun c : string * list stmt => (c.1, fun s => blk x b s c.2)) (map (fun h => (h_key h, decode_header v3 dates force h)) hs).

  Lemma switch_other x b hs k s : k ∉ map h_key hs -> switch (cases x b hs) k s = Next s.
  Proof using.
    induction hs as [|h hs IH]; intros H; [reflexivity|]. cbn [map] in H. apply not_elem_of_cons in H as [H1 H2].
    unfold cases. cbn [map switch fst]. rewrite (proj2 (String.eqb_neq _ _) H1). now apply IH.
  Qed.
  Lemma switch_this x b hs h s : NoDup (map h_key hs) -> h ∈ hs ->
    switch (cases x b hs) (h_key h) s = blk x b s (decode_header v3 dates force h).
  Proof using.
    induction hs as [|h0 hs IH]; intros Hd H; [now apply elem_of_nil in H|]. cbn [map] in Hd. apply NoDup_cons in Hd as [Hni Hd].
    unfold cases. cbn [map switch fst snd]. apply elem_of_cons in H as [->|H]; [now rewrite String.eqb_refl|].
    destruct (String.eqb_spec (h_key h) (h_key h0)) as [E0|E0]; [|now apply IH].
    exfalso. apply Hni. rewrite <- E0. apply elem_of_list_In, in_map, elem_of_list_In, H.
  Qed.
  Lemma key_dec (hs : list header) k : (exists h, h ∈ hs /\ h_key h = k) \/ k ∉ map h_key hs.
  Proof using.
    destruct (decide (k ∈ map h_key hs)) as [H|H]; [left|now right].
    apply elem_of_list_In, in_map_iff in H as (h & <- & H). exists h. split; [now apply elem_of_list_In|reflexivity].
  Qed.

  Lemma dec_headers x b hs bs : forall s, Forall good hs -> NoDup (map h_key hs) -> NoDup (map fst bs) ->
    (forall h, h ∈ hs -> dptr h = true -> h_key h ∈ map fst bs -> store s (Header (h_key h)) = VNil) ->
    match walk (cases x b hs) bs s with
    | Next s' => store s' Payload = store s Payload /\
        (forall h t y, h ∈ hs -> (h_key h, y) ∈ bs -> fields (Header (h_key h)) = Some t -> hread h t y = Next (store s' (Header (h_key h)))) /\
        (forall k, k ∉ map h_key hs \/ k ∉ map fst bs -> store s' (Header k) = store s (Header k))
    | Fail e => exists h t y, h ∈ hs /\ (h_key h, y) ∈ bs /\ fields (Header (h_key h)) = Some t /\ hread h t y = Fail e
    | _ => False
    end.
  Proof using Hexp.
    induction bs as [|[k y] bs IH]; intros s Hg Hd Hb Hz.
    { cbn. split; [reflexivity|]. split; [|reflexivity]. intros h t y _ H. now apply elem_of_nil in H. }
    cbn [map fst] in Hb, Hz. apply NoDup_cons in Hb as [Hni Hb]. cbn [walk].
    destruct (key_dec hs k) as [(h & Hin & Ek)|Hk].
    - subst k. rewrite switch_this by assumption.
      assert (Hgh : good h) by (eapply Forall_forall in Hg; eassumption). destruct Hgh as (t & K & F & Hf).
      set (s0 := set_var "k" _ _).
      pose proof (dec_header x b s0 h t y K Hf eq_refl (fun D => Hz h Hin D (elem_of_list_here _ _))) as H1.
      destruct (hread h (htype h t) y) as [v|e| |] eqn:Er; try contradiction.
      2:{ rewrite H1. cbn [after]. exists h, (htype h t), y. split; [exact Hin|]. split; [apply elem_of_list_here|]. split; [exact Hf|exact Er]. }
      destruct H1 as (s1 & -> & St1). cbn [after]. change (store s0) with (store s) in St1.
      assert (Sk : forall k, k <> h_key h -> store (leave s s1) (Header k) = store s (Header k)).
      { intros k Nk. cbn. rewrite St1. unfold filled. cbn. destruct (String.eqb_spec (h_key h) k); congruence. }
      specialize (IH (leave s s1) Hg Hd Hb). destruct (walk (cases x b hs) bs (leave s s1)) as [s2|e| |].
      + destruct IH as (I1 & I2 & I3).
        { intros h' Hin' D Hk'. rewrite Sk; [apply Hz; [assumption..|now apply elem_of_list_further]|]. intros E0. apply Hni. now rewrite <- E0. }
        split; [rewrite I1; cbn; now rewrite St1|]. split.
        * intros h' t' y' Hin' Hy' Hf'. apply elem_of_cons in Hy' as [[= E1 E2]|Hy']; [|now apply I2].
          assert (h' = h) as ->.
          { clear - Hd Hin Hin' E1. induction hs as [|a l IH]; [now apply elem_of_nil in Hin|]. cbn [map] in Hd. apply NoDup_cons in Hd as [Hn Hd].
            apply elem_of_cons in Hin as [->|Hin]; apply elem_of_cons in Hin' as [->|Hin']; auto; exfalso; apply Hn;
              [rewrite <- E1|rewrite E1]; apply elem_of_list_In, in_map, elem_of_list_In; assumption. }
          subst y'. rewrite Hf in Hf'. injection Hf' as <-. rewrite Er. f_equal. rewrite I3 by now right. cbn. rewrite St1. unfold filled. cbn.
          now rewrite String.eqb_refl.
        * intros k' Hk'. rewrite I3.
          -- apply Sk. intros ->. destruct Hk' as [Hk'|Hk']; apply Hk'; [|apply elem_of_list_here]. apply elem_of_list_In, in_map, elem_of_list_In, Hin.
          -- destruct Hk' as [Hk'|Hk']; [now left|right]. intros Hc. apply Hk'. now apply elem_of_list_further.
      + destruct IH as (h' & t' & y' & G1 & G2 & G3).
        { intros h' Hin' D Hk'. rewrite Sk; [apply Hz; [assumption..|now apply elem_of_list_further]|]. intros E0. apply Hni. now rewrite <- E0. }
        exists h', t', y'. split; [exact G1|]. split; [now apply elem_of_list_further|exact G3].
      + apply IH. intros h' Hin' D Hk'. rewrite Sk; [apply Hz; [assumption..|now apply elem_of_list_further]|]. intros E0. apply Hni. now rewrite <- E0.
      + apply IH. intros h' Hin' D Hk'. rewrite Sk; [apply Hz; [assumption..|now apply elem_of_list_further]|]. intros E0. apply Hni. now rewrite <- E0.
    - rewrite switch_other by exact Hk. cbn [after].
      set (s1 := leave s _). assert (S1 : store s1 = store s) by reflexivity. specialize (IH s1 Hg Hd Hb). rewrite S1 in IH.
      assert (Hz' : forall h, h ∈ hs -> dptr h = true -> h_key h ∈ map fst bs -> store s (Header (h_key h)) = VNil).
      { intros h' Hin' D Hk'. apply Hz; [assumption..|now apply elem_of_list_further]. }
      specialize (IH Hz'). destruct (walk (cases x b hs) bs s1) as [s2|e| |]; try contradiction.
      + destruct IH as (I1 & I2 & I3). split; [exact I1|]. split.
        * intros h' t' y' Hin' Hy' Hf'. apply elem_of_cons in Hy' as [[= E1 E2]|Hy']; [|now apply I2].
          exfalso. apply Hk. rewrite <- E1. apply elem_of_list_In, in_map, elem_of_list_In, Hin'.
        * intros k' Hk'. apply I3. destruct Hk' as [Hk'|Hk']; [now left|right]. intros Hc. apply Hk'. now apply elem_of_list_further.
      + destruct IH as (h' & t' & y' & G1 & G2 & G3). exists h', t', y'. split; [exact G1|]. split; [now apply elem_of_list_further|exact G3].
  Qed.
End proof.

(** *** Whole messages *)
Section whole.
  Context {J T E : Type}.
  Notation value := (value J T).
  Context (marshal : value -> string + E) (unmarshal : xtype -> string -> value + E).
  Context (tformat : T -> string) (tparse : string -> T + E) (err_nil err_unmarshal : E).
  Context (env : package_types) (v3 dates force : bool) (Hexp : exports env).
  Context (m : message) (Hok : message_ok env dates m) (Hsup : message_supported env v3 dates force m = true).
  Notation types := (field_type dates force m).
  Notation gives i b := (gives marshal unmarshal tformat tparse err_nil err_unmarshal env types i b).
  Notation fills i b := (fills marshal unmarshal tformat tparse err_nil err_unmarshal env types i b).
  Notation hbytes := (hbytes (E := E) marshal tformat err_nil).
  Notation hread := (hread unmarshal tparse err_unmarshal dates force).
  Notation pbytes := (pbytes (E := E) marshal tformat).
  Notation pread := (pread unmarshal tparse dates).
  Definition hdrs : list header := default [] (m_headers m).

  Lemma hdrs_nodup : NoDup (map h_key hdrs).
  Proof using Hok. unfold hdrs. destruct (m_headers m) as [hs|] eqn:Eh; [|constructor]. apply Hok. exact Eh. Qed.

  Lemma type_header h t : h ∈ hdrs -> schema_name dates (own (h_part h)) = Some t -> types (Header (h_key h)) = Some (htype force h t).
  Proof using Hok.
    intros Hin Hn. pose proof hdrs_nodup as Hd. unfold hdrs in *. cbn. destruct (m_headers m) as [hs|]; [|now apply elem_of_nil in Hin].
    cbn [default] in *. cbn.
    assert (exists j, list_find (fun h' => h_key h' = h_key h) hs = Some (j, h)) as [j ->].
    { clear - Hin Hd. induction hs as [|a l IH]; [now apply elem_of_nil in Hin|]. cbn [map] in Hd. apply NoDup_cons in Hd as [Hn Hd].
      cbn. apply elem_of_cons in Hin as [->|Hin]; [rewrite decide_True by reflexivity; eauto|].
      rewrite decide_False.
      - destruct (IH Hin Hd) as [j ->]. cbn. eauto.
      - intros Ek. apply Hn. rewrite Ek. apply elem_of_list_In, in_map, elem_of_list_In, Hin. }
    cbn. rewrite Hn. reflexivity.
  Qed.
  Lemma types_inv k t : types (Header k) = Some t -> exists h, h ∈ hdrs /\ h_key h = k.
  Proof using.
    unfold hdrs. cbn. destruct (m_headers m) as [hs|]; [|discriminate]. cbn.
    destruct (list_find _ hs) as [[j h]|] eqn:El; [|discriminate]. intros _. apply list_find_Some in El as (L & Ek & _).
    exists h. split; [eapply elem_of_list_lookup_2; exact L|exact Ek].
  Qed.
  Lemma hdrs_good : Forall (good env v3 dates force types) hdrs.
  Proof using Hok Hsup Hexp.
    apply Forall_forall. intros h Hin. pose proof (type_header h) as Ht. unfold hdrs in *.
    destruct Hok as (_ & _ & Hh). unfold message_supported in Hsup. apply andb_true_iff in Hsup as [_ Hs].
    destruct (m_headers m) as [hs|]; [|now apply elem_of_nil in Hin]. cbn [default] in *.
    destruct (Hh hs eq_refl) as [_ Hp]. apply andb_true_iff in Hs as [Hs _]. apply andb_true_iff in Hs as [_ Hs].
    rewrite forallb_forall in Hs. specialize (Hs h (proj1 (elem_of_list_In _ _) Hin)).
    assert (Hpo : part_ok env dates (h_part h)) by (eapply Forall_forall in Hp; [exact Hp|exact Hin]).
    destruct Hpo as (A & (t & Hn & Hw) & B).
    destruct (header_types env v3 dates force Hexp h t (conj A (conj (ex_intro _ t (conj Hn Hw)) B)) Hs Hn) as [K F].
    exists t. split; [exact K|]. split; [exact F|]. now apply Ht.
  Qed.
  Lemma good_in h : h ∈ hdrs -> exists t, kind env v3 dates force h t /\
    h_flag h || is_field_pointer force (h_declared h || h_flag h) (own (h_part h)) = true /\ types (Header (h_key h)) = Some (htype force h t).
  Proof using Hok Hsup Hexp. intros Hin. pose proof hdrs_good as G. eapply Forall_forall in G; [|exact Hin]. exact G. Qed.

  Lemma payload_type : exists t, schema_name dates (own (m_payload m)) = Some t /\ types Payload = Some (X t).
  Proof using Hok.
    destruct Hok as ((_ & (t & Hn & _) & _) & _). exists t. split; [exact Hn|]. cbn. now rewrite Hn.
  Qed.
  Lemma payload_sup : payload_supported env dates (m_payload m) = true.
  Proof using Hsup. unfold message_supported in Hsup. now apply andb_true_iff in Hsup as [? _]. Qed.

  Lemma encoder_is : encoder dates force m = (encode_payload dates (m_payload m) ++ flat_map (encode_header dates force) hdrs ++ [Emit Payload (Var "payload")])%list.
  Proof using. unfold encoder, hdrs. now destruct (m_headers m). Qed.

  (** The encoder. *)
  Lemma run_encoder i b σ : well_typed env types σ ->
    match gives i b σ (encoder dates force m) with
    | Next (hm, x) => pbytes (m_payload m) (σ Payload) = Next x /\
        (forall h, h ∈ hdrs -> hbytes h (σ (Header (h_key h))) = Next (hm !! h_key h)) /\
        (forall k, k ∉ map h_key hdrs -> hm !! k = None)
    | Fail e => pbytes (m_payload m) (σ Payload) = Fail e \/ exists h, h ∈ hdrs /\ hbytes h (σ (Header (h_key h))) = Fail e
    | _ => False
    end.
  Proof using Hok Hsup Hexp.
    intros Hw. destruct payload_type as (t & Hn & Hp). destruct Hok as (Hpo & Hr & _). unfold GoRun.gives.
    rewrite encoder_is, blk_app.
    pose proof (enc_payload marshal unmarshal tformat tparse err_nil err_unmarshal env dates types i b (mkState [] σ ∅ None) (m_payload m) t
      Hpo Hr payload_sup Hn (Hw _ _ Hp)) as H1. cbn [store] in H1.
    destruct (pbytes (m_payload m) (σ Payload)) as [x|e| |]; try contradiction.
    2:{ rewrite H1. cbn [after]. now left. }
    destruct H1 as (s1 & -> & V1 & S1 & H1 & B1). cbn [after]. cbn in S1, H1, B1. rewrite blk_app.
    pose proof (enc_headers marshal unmarshal tformat tparse err_nil err_unmarshal env v3 dates force types i b hdrs s1 hdrs_good hdrs_nodup) as H2.
    rewrite S1 in H2. specialize (H2 (fun h t _ Ht => Hw _ _ Ht)).
    destruct (in_block _ s1 (flat_map _ hdrs)) as [s2|e| |]; try contradiction; cbn [after]; [|now right].
    destruct H2 as ((F1 & F2 & F3) & H2 & H3). cbn. rewrite F3, V1. cbn. split; [reflexivity|]. rewrite H1 in H2, H3. split.
    - intros h Hin. destruct (H2 h Hin) as (o & -> & ->). rewrite lookup_empty. now destruct o.
    - intros k Hk. rewrite H3 by exact Hk. apply lookup_empty.
  Qed.

  Lemma decoder_is x b s : in_block (exec marshal unmarshal tformat tparse err_nil err_unmarshal env types x b) s (decoder v3 dates force m) =
    after (in_block (exec marshal unmarshal tformat tparse err_nil err_unmarshal env types x b) s (decode_payload dates (m_payload m)))
      (fun s' => match m_headers m with
                 | Some _ => walk (cases marshal unmarshal tformat tparse err_nil err_unmarshal env v3 dates force types x b hdrs) b s'
                 | None => Next s' end).
  Proof using.
    unfold decoder, hdrs. rewrite blk_app. destruct (in_block _ s _) as [s'| | |]; [|reflexivity..]. cbn [after].
    destruct (m_headers m) as [hs|]; [|reflexivity]. cbn [in_block]. cbn [exec default]. apply after_next.
  Qed.

  (** The decoder. *)
  Lemma run_decoder x b zero : zero_values env types zero -> NoDup (map fst b) ->
    match fills x b zero (decoder v3 dates force m) with
    | Next σ => exists t, types Payload = Some (X t) /\ pread (m_payload m) (X t) x = Next (σ Payload) /\
        (forall h t y, h ∈ hdrs -> (h_key h, y) ∈ b -> types (Header (h_key h)) = Some t -> hread h t y = Next (σ (Header (h_key h)))) /\
        (forall k, k ∉ map h_key hdrs \/ k ∉ map fst b -> σ (Header k) = zero (Header k))
    | Fail e => exists t, types Payload = Some (X t) /\ (pread (m_payload m) (X t) x = Fail e \/
        exists v h t' y, pread (m_payload m) (X t) x = Next v /\ h ∈ hdrs /\ (h_key h, y) ∈ b /\ types (Header (h_key h)) = Some t' /\ hread h t' y = Fail e)
    | Panic => exists t, types Payload = Some (X t) /\ pread (m_payload m) (X t) x = Panic
    | Stuck => False
    end.
  Proof using Hok Hsup Hexp.
    intros [Hz1 Hz2] Hd. destruct payload_type as (t & Hn & Hp). destruct Hok as (Hpo & Hr & _). unfold GoRun.fills. rewrite decoder_is.
    pose proof (dec_payload marshal unmarshal tformat tparse err_nil err_unmarshal env dates Hexp types x b (mkState [] zero ∅ None) (m_payload m) t
      Hpo Hr payload_sup Hn Hp) as H1. cbn [store] in H1.
    destruct (pread (m_payload m) (X t) x) as [v|e| |] eqn:Er; try contradiction.
    2:{ rewrite H1. cbn [after]. exists t. split; [exact Hp|]. now left. }
    2:{ rewrite H1. cbn [after]. exists t. split; [exact Hp|exact Er]. }
    destruct H1 as (s1 & -> & S1 & _). cbn [after].
    assert (SP : store s1 Payload = v) by (rewrite S1; reflexivity).
    assert (SH : forall k, store s1 (Header k) = zero (Header k)) by (intros k; rewrite S1; reflexivity).
    destruct (m_headers m) as [hs|] eqn:Eh.
    - pose proof (dec_headers marshal unmarshal tformat tparse err_nil err_unmarshal env v3 dates force Hexp types x b hdrs b s1 hdrs_good hdrs_nodup Hd) as H2.
      assert (Hz : forall h, h ∈ hdrs -> is_field_pointer force (h_declared h || h_flag h) (own (h_part h)) = true ->
        h_key h ∈ map fst b -> store s1 (Header (h_key h)) = VNil).
      { intros h Hin D _. rewrite SH. destruct (good_in h Hin) as (t0 & _ & _ & Ht). unfold htype in Ht. rewrite D in Ht. eapply Hz2. exact Ht. }
      specialize (H2 Hz). destruct (walk _ b s1) as [s2|e| |]; try contradiction; cbn [after].
      + destruct H2 as (P1 & P2 & P3). exists t. split; [exact Hp|]. split; [congruence|]. split; [exact P2|].
        intros k Hk. rewrite P3 by exact Hk. apply SH.
      + destruct H2 as (h & t' & y & Q). exists t. split; [exact Hp|]. right. exists v, h, t', y. split; [exact Er|exact Q].
    - cbn [after]. exists t. split; [exact Hp|]. split; [congruence|].
      assert (hdrs = []) as -> by (unfold hdrs; now rewrite Eh). split; [|intros; apply SH]. intros h t' y Hin. now apply elem_of_nil in Hin.
  Qed.

  Notation psurv := (payload_survives marshal unmarshal tformat tparse).
  Notation hsurv := (header_survives marshal unmarshal tformat tparse force).

  Lemma round_trip i b σ hm x bs zero : well_typed env types σ -> zero_values env types zero ->
    gives i b σ (encoder dates force m) = Next (hm, x) -> bs ≡ₚ map_to_list hm ->
    (exists σ', fills x bs zero (decoder v3 dates force m) = Next σ' /\ same_message types σ σ') <->
    (forall t, types Payload = Some t -> psurv (m_payload m) t (σ Payload)) /\
    (forall h t, h ∈ hdrs -> types (Header (h_key h)) = Some t -> hsurv h t (σ (Header (h_key h)))).
  Proof using Hok Hsup Hexp.
    intros Hw Hz Hg Hbs. pose proof (run_encoder i b σ Hw) as He. rewrite Hg in He. destruct He as (Hpb & Hhb & Hko).
    assert (Hd : NoDup (map fst bs)).
    { apply (NoDup_Permutation_proper _ _ (Permutation_map fst Hbs)). apply (NoDup_fst_map_to_list hm). }
    assert (Hin : forall k y, (k, y) ∈ bs <-> hm !! k = Some y) by (intros k y; rewrite Hbs; apply elem_of_map_to_list).
    destruct payload_type as (t & Hn & Hp). destruct Hok as (Hpo & Hr & _).
    pose proof (payload_iff marshal unmarshal tformat tparse env dates (m_payload m) t (σ Payload) x Hpo Hr payload_sup Hn (Hw _ _ Hp) Hpb) as Pi.
    assert (Hi : forall h t y, h ∈ hdrs -> types (Header (h_key h)) = Some t -> hm !! h_key h = Some y ->
      hread h t y = Next (σ (Header (h_key h))) <-> hsurv h t (σ (Header (h_key h)))).
    { intros h t' y Hh Ht' Hy. destruct (good_in h Hh) as (t0 & K & _ & Ht0). rewrite Ht' in Ht0. injection Ht0 as ->.
      eapply header_iff; [exact K|exact (Hw _ _ Ht')|]. rewrite Hhb by exact Hh. now rewrite Hy. }
    assert (Hnone : forall h, h ∈ hdrs -> hm !! h_key h = None -> σ (Header (h_key h)) = VNil /\ zero (Header (h_key h)) = VNil).
    { intros h Hh Hy. pose proof (Hhb h Hh) as Hb. rewrite Hy in Hb.
      destruct (good_in h Hh) as (t0 & K & F & Ht0).
      assert (σ (Header (h_key h)) = VNil /\ h_flag h = false) as [E1 E2].
      { unfold GoRunProof.hbytes in Hb. destruct (σ (Header (h_key h))); cbn in Hb;
          repeat (match goal with H : context [match ?q with _ => _ end] |- _ => destruct q end; try discriminate); auto. }
      split; [exact E1|]. rewrite E2 in F. cbn in F. unfold htype in Ht0. rewrite E2 in Ht0. rewrite F in Ht0. destruct Hz as [_ Hz2]. exact (Hz2 _ _ Ht0). }
    pose proof (run_decoder x bs zero Hz Hd) as Hrun. split.
    - intros (σ' & Hf & Hs). rewrite Hf in Hrun. destruct Hrun as (t1 & Hp1 & R1 & R2 & R3).
      rewrite Hp in Hp1. injection Hp1 as <-. split.
      + intros t1 Ht1. rewrite Hp in Ht1. injection Ht1 as <-. apply Pi. rewrite R1. f_equal. symmetry. exact (Hs _ _ Hp).
      + intros h t1 Hh Ht1. destruct (hm !! h_key h) as [y|] eqn:Ey.
        * apply (Hi h t1 y Hh Ht1 Ey). rewrite (R2 h t1 y Hh (proj2 (Hin _ _) Ey) Ht1). f_equal. symmetry. exact (Hs _ _ Ht1).
        * destruct (Hnone h Hh Ey) as [-> _]. exact I.
    - intros [Sp Sh]. specialize (Sp _ Hp). apply Pi in Sp.
      destruct (fills x bs zero (decoder v3 dates force m)) as [σ'|e| |].
      + exists σ'. split; [reflexivity|]. destruct Hrun as (t1 & Hp1 & R1 & R2 & R3). rewrite Hp in Hp1. injection Hp1 as <-.
        intros f t1 Ht1. destruct f as [|k]; [congruence|]. destruct (types_inv k t1 Ht1) as (h & Hh & <-).
        destruct (hm !! h_key h) as [y|] eqn:Ey.
        * pose proof (R2 h t1 y Hh (proj2 (Hin _ _) Ey) Ht1) as R. rewrite (proj2 (Hi h t1 y Hh Ht1 Ey) (Sh h t1 Hh Ht1)) in R. congruence.
        * destruct (Hnone h Hh Ey) as [-> Ez]. rewrite R3; [congruence|right]. intros Hc.
          apply elem_of_list_In, in_map_iff in Hc as ([k y] & Ek & Hc). cbn in Ek. subst k. apply elem_of_list_In, Hin in Hc. congruence.
      + exfalso. destruct Hrun as (t1 & Hp1 & R). rewrite Hp in Hp1. injection Hp1 as <-. destruct R as [R|(v & h & t' & y & _ & Hh & Hy & Ht' & R)]; [congruence|].
        apply Hin in Hy. rewrite (proj2 (Hi h t' y Hh Ht' Hy) (Sh h t' Hh Ht')) in R. discriminate.
      + exfalso. destruct Hrun as (t1 & Hp1 & R). rewrite Hp in Hp1. injection Hp1 as <-. congruence.
      + contradiction.
  Qed.

  Lemma nil_dec (v : value) : v = VNil \/ v <> VNil.
  Proof. destruct v; auto; right; discriminate. Qed.
  Lemma pbytes_writable v e : pbytes (m_payload m) v = Fail e ->
    String.eqb (g_type (followed (m_payload m))) "object" || String.eqb (g_type (followed (m_payload m))) "array" = true /\ marshal v = inr e.
  Proof using.
    unfold GoRunProof.pbytes. destruct (_ || _); [|destruct (String.eqb _ _); destruct v; discriminate].
    destruct (marshal v); [discriminate|]. intros [= ->]. auto.
  Qed.

  Lemma encoder_writes i b σ : well_typed env types σ ->
    ((exists r, gives i b σ (encoder dates force m) = Next r) <-> writable marshal m σ) /\
    ((exists r, gives i b σ (encoder dates force m) = Next r) \/ exists e, gives i b σ (encoder dates force m) = Fail e).
  Proof using Hok Hsup Hexp.
    intros Hw. pose proof (run_encoder i b σ Hw) as H.
    assert (Hobj : forall h, h ∈ hdrs -> σ (Header (h_key h)) <> VNil -> forall e, hbytes h (σ (Header (h_key h))) = Fail e ->
      String.eqb (g_type (own (h_part h))) "object" = true /\ marshal (strip (σ (Header (h_key h)))) = inr e).
    { intros h Hh Nn e He. unfold GoRunProof.hbytes in He.
      assert (NV : forall A (a c : A), match σ (Header (h_key h)) with VNil => a | _ => c end = c) by (intros; destruct (σ (Header (h_key h))); congruence).
      rewrite NV in He. destruct (String.eqb (g_type (own (h_part h))) "object"); [|destruct (strip _); discriminate].
      destruct (marshal (strip (σ (Header (h_key h))))); [discriminate|]. injection He as ->. auto. }
    destruct (gives i b σ (encoder dates force m)) as [[hm x]|e| |]; try contradiction.
    - split; [|left; eauto]. split; [intros _|intros _; eauto]. destruct H as (Hp & Hh & _). split.
      + intros Eo. unfold GoRunProof.pbytes in Hp. rewrite Eo in Hp. destruct (marshal (σ Payload)); [eauto|discriminate].
      + intros hs h Ehs Hin. assert (Hin' : h ∈ hdrs) by (unfold hdrs; now rewrite Ehs). specialize (Hh h Hin').
        unfold GoRunProof.hbytes in Hh. split.
        * intros Fl Ev. rewrite Ev, Fl in Hh. discriminate.
        * intros Eo. destruct (nil_dec (σ (Header (h_key h)))) as [En|Nn]; [now left|right].
          assert (NV : forall A (a c : A), match σ (Header (h_key h)) with VNil => a | _ => c end = c) by (intros; destruct (σ (Header (h_key h))); congruence).
          rewrite NV, Eo in Hh. change (match σ (Header (h_key h)) with VPtr w => w | _ => σ (Header (h_key h)) end) with (strip (σ (Header (h_key h)))).
          destruct (marshal (strip (σ (Header (h_key h))))); [eauto|discriminate].
    - split; [|right; eauto]. split; [intros [r [=]]|]. intros [Wp Wh]. exfalso. destruct H as [H|(h & Hin & H)].
      + apply pbytes_writable in H as [Eo Em]. destruct (Wp Eo) as [y Ey]. congruence.
      + unfold hdrs in Hin. destruct (m_headers m) as [hs|] eqn:Ehs; [|now apply elem_of_nil in Hin].
        destruct (Wh hs h eq_refl Hin) as [W1 W2].
        destruct (nil_dec (σ (Header (h_key h)))) as [En|Nn].
        * rewrite En in H. cbn in H. destruct (h_flag h); [now apply W1|discriminate].
        * destruct (Hobj h) with (e := e) as [Eo Em]; [unfold hdrs; now rewrite Ehs|exact Nn|exact H|].
          destruct (W2 Eo) as [?|[y Ey]]; [contradiction|]. change (match σ (Header (h_key h)) with VPtr w => w | _ => σ (Header (h_key h)) end) with (strip (σ (Header (h_key h)))) in Ey. congruence.
  Qed.

  Lemma pread_panics t x : pread (m_payload m) t x = Panic <-> too_short (m_payload m) x.
  Proof using.
    unfold GoRunProof.pread, too_short. destruct (String.eqb_spec (g_type (followed (m_payload m))) "string") as [E1|E1].
    { rewrite E1. split; [|intros [[=] _]]. destruct (is_date_generated dates _); [|discriminate]. destruct (tparse x); discriminate. }
    destruct (String.eqb_spec (g_type (followed (m_payload m))) "integer") as [E2|E2].
    - set (w := width _). assert (w = if String.eqb (g_format (followed (m_payload m))) "int32" then 4%nat else 8%nat) as -> by reflexivity.
      destruct (Nat.ltb_spec (String.length x) (if String.eqb (g_format (followed (m_payload m))) "int32" then 4%nat else 8%nat)) as [L|L].
      + split; auto.
      + split; [discriminate|]. intros [_ ?]. lia.
    - split; [|intros [? _]; congruence]. destruct (unmarshal t x); discriminate.
  Qed.

  Lemma decoder_safe x b zero : zero_values env types zero -> NoDup (map fst b) ->
    fills x b zero (decoder v3 dates force m) <> Stuck /\
    (fills x b zero (decoder v3 dates force m) = Panic <-> too_short (m_payload m) x).
  Proof using Hok Hsup Hexp.
    intros Hz Hd. pose proof (run_decoder x b zero Hz Hd) as H.
    destruct (fills x b zero (decoder v3 dates force m)) as [σ|e| |]; [split; [discriminate|]..|contradiction].
    - destruct H as (t & _ & Hr & _). split; [discriminate|]. intros P. apply (pread_panics (X t)) in P. congruence.
    - destruct H as (t & _ & [Hr|(v & ? & ? & ? & Hr & _)]); (split; [discriminate|]); intros P; apply (pread_panics (X t)) in P; congruence.
    - destruct H as (t & _ & Hr). split; [|reflexivity]. intros _. now apply pread_panics in Hr.
  Qed.

  (** Only the declared headers matter, and not their order. *)
  Lemma decoder_depends x b b' zero σ : zero_values env types zero -> NoDup (map fst b) -> NoDup (map fst b') ->
    (forall k y, k ∈ map h_key hdrs -> (k, y) ∈ b <-> (k, y) ∈ b') ->
    fills x b zero (decoder v3 dates force m) = Next σ ->
    exists σ', fills x b' zero (decoder v3 dates force m) = Next σ' /\ forall f, σ' f = σ f.
  Proof using Hok Hsup Hexp.
    intros Hz Hd Hd' Hbb Hf. pose proof (run_decoder x b zero Hz Hd) as H. rewrite Hf in H. destruct H as (t & Hp & R1 & R2 & R3).
    assert (Hkey : forall h, h ∈ hdrs -> h_key h ∈ map h_key hdrs) by (intros h Hh; apply elem_of_list_In, in_map, elem_of_list_In, Hh).
    pose proof (run_decoder x b' zero Hz Hd') as H. destruct (fills x b' zero (decoder v3 dates force m)) as [σ'|e| |].
    - exists σ'. split; [reflexivity|]. destruct H as (t' & Hp' & Q1 & Q2 & Q3). rewrite Hp in Hp'. injection Hp' as <-.
      intros [|k]; [congruence|]. destruct (key_dec hdrs k) as [(h & Hh & <-)|Nk]; [|rewrite R3, Q3 by (now left); reflexivity].
      destruct (decide (h_key h ∈ map fst b)) as [Hk|Hk].
      + apply elem_of_list_In, in_map_iff in Hk as ([k y] & Ek & Hy). cbn in Ek. subst k. apply elem_of_list_In in Hy.
        destruct (good_in h Hh) as (t0 & _ & _ & Ht0).
        pose proof (R2 h _ y Hh Hy Ht0) as A1. pose proof (Q2 h _ y Hh (proj1 (Hbb _ _ (Hkey h Hh)) Hy) Ht0) as A2. congruence.
      + rewrite R3 by now right. apply Q3. right. intros Hc. apply Hk.
        apply elem_of_list_In, in_map_iff in Hc as ([k y] & Ek & Hy). cbn in Ek. subst k. apply elem_of_list_In in Hy.
        apply Hbb in Hy; [|now apply Hkey]. apply elem_of_list_In, in_map_iff. exists (h_key h, y). split; [reflexivity|]. now apply elem_of_list_In.
    - exfalso. destruct H as (t' & Hp' & H). rewrite Hp in Hp'. injection Hp' as <-. destruct H as [H|(v & h & t1 & y & _ & Hh & Hy & Ht1 & H)]; [congruence|].
      apply Hbb in Hy; [|now apply Hkey]. rewrite (R2 h t1 y Hh Hy Ht1) in H. discriminate.
    - exfalso. destruct H as (t' & Hp' & H). rewrite Hp in Hp'. injection Hp' as <-. congruence.
    - contradiction.
  Qed.
End whole.
