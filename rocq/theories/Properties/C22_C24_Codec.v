(** C22-C24, C58, C59: messages and headers on the wire. *)
From stdpp Require Import gmap strings list.
From Coq Require Import ZArith.
From Verif.Model Require Import Codec.
From Verif.Spec Require Import CodecSpec.
From Verif.Proof Require Import CodecProof.
Open Scope Z_scope.

(** ** C22: integer payloads *)

(** The full statement: [int_range p x -> int_decode p (int_encode p x) = Some x]. It is false
    for 1, both with 64 and with 32 bits (written big-endian, read little-endian). *)
Theorem C22_roundtrip_refuted :
  forall int32 : bool, exists x,
    let p := mkInt false int32 int32 in
    int_range p x /\ int_decode p (int_encode p x) <> Some x.
Proof.
  intros int32. exists 1. destruct int32; (split; [split; vm_compute; congruence|vm_compute; congruence]).
Qed.
Print Assumptions C22_roundtrip_refuted.

(** Exactly which values survive when the format is declared with the payload: those whose bytes
    read the same in both directions. *)
Theorem C22_roundtrip_exact_partial p x :
  fmt_here p = resolved_fmt p -> int_range p x ->
  (int_decode p (int_encode p x) = Some x <-> palindrome (width (resolved_fmt p)) x).
Proof. exact (int_roundtrip_iff p x). Qed.
Print Assumptions C22_roundtrip_exact_partial.

(** What arrives is the value with the bytes in opposite order, and sending that back restores
    the original: nothing but the byte order is lost. *)
Theorem C22_byte_swap_partial p x :
  fmt_here p = resolved_fmt p -> int_range p x ->
  exists y, int_decode p (int_encode p x) = Some y /\ int_range p y /\
            swapped (width (resolved_fmt p)) x y /\
            int_decode p (int_encode p y) = Some x.
Proof.
  intros Hf Hx. destruct (int_decode_encode p x Hf) as (y & E & Hy & Hs).
  destruct (int_twice p x Hf Hx) as (y' & E' & H'). rewrite E in E'. injection E' as <-.
  exists y. exact (conj E (conj Hy (conj Hs H'))).
Qed.
Print Assumptions C22_byte_swap_partial.

(** With a referenced int32 schema, the writer uses 8 bytes and the reader 4: every value arrives
    as 0 or -1. *)
Theorem C22_referenced_int32_refuted x :
  let p := mkInt true false true in
  int_range p x -> int_decode p (int_encode p x) = Some (if x <? 0 then -1 else 0).
Proof. exact (int_ref32 x). Qed.
Print Assumptions C22_referenced_int32_refuted.

Example C22_example :
  let p64 := mkInt false false false in
  int_encode p64 1 = [0; 0; 0; 0; 0; 0; 0; 1] /\
  int_decode p64 (int_encode p64 1) = Some 72057594037927936 /\
  int_decode p64 (int_encode p64 (-2)) = Some (-72057594037927937) /\
  int_decode (mkInt false true false) (int_encode (mkInt false true false) 1) = Some 16777216 /\
  int_decode p64 (int_encode p64 72057594037927937) = Some 72057594037927937.
Proof. vm_compute. auto. Qed.

(** ** C58: payloads too short *)

(** The decoder of an integer message panics on a payload that is too short (and only then). *)
Theorem C58_short_payload_refuted p :
  exists bs, int_decode p bs = None.
Proof. exists []. apply int_decode_panics. apply width_pos. Qed.
Print Assumptions C58_short_payload_refuted.

Theorem C58_panics_exactly_partial p bs :
  int_decode p bs = None <-> (length bs < width (resolved_fmt p))%nat.
Proof. exact (int_decode_panics p bs). Qed.
Print Assumptions C58_panics_exactly_partial.

Example C58_example :
  int_decode (mkInt false true false) [1; 2; 3] = None /\
  int_decode (mkInt false true false) [1; 2; 3; 4; 5] = Some (1 + 256 * (2 + 256 * (3 + 256 * 4))).
Proof. vm_compute. auto. Qed.

(** ** C23: string payloads and headers *)

(** For every set of string headers, required or optional, pointer or not, every message whose
    required headers are set can be encoded, and decoding the result, the headers being visited
    in any order, gives the same message. *)
Theorem C23_string_roundtrip {O T Er} marshal unmarshal tformat tparse (en eu : Er) (zo : O) (zt : T)
    ds (m : smsg O T) :
  NoDup ds.*1 ->
  Forall (fun kd : string * hdecl => hkd kd.2 = HString /\ hcompiles kd.2 = true) ds ->
  (forall k, is_Some (sheaders m !! k) <-> k ∈ ds.*1) ->
  (forall k d f, (k, d) ∈ ds -> sheaders m !! k = Some f -> field_ok d f) ->
  (forall k d, (k, d) ∈ ds -> hreq d = true -> sheaders m !! k <> Some None) ->
  exists h, to_broker marshal tformat en ds m = inl (h, spayload m) /\
    forall bs, bs ≡ₚ map_to_list h ->
      from_broker unmarshal tparse eu zo zt ds bs (spayload m) = inl m.
Proof.
  intros Hnd Hs Hdom Hok Hreq. rewrite Forall_forall in Hs.
  destruct (henc_total marshal tformat en ds (sheaders m) ∅) as [h Hh].
  - intros k d Hin Hr. destruct (proj2 (Hdom k)) as [f Hf].
    { apply elem_of_list_fmap. exists (k, d). auto. }
    destruct f as [v|]; [eauto|]. exfalso. exact (Hreq k d Hin Hr Hf).
  - intros k d v Hin Hv. specialize (Hok k d _ Hin Hv). cbn in Hok.
    assert (hkd d = HString) as Hk by exact (proj1 (Hs (k, d) Hin)).
    rewrite Hk in Hok. destruct v; try contradiction. eexists. reflexivity.
  - exists h. unfold to_broker. rewrite Hh. split; [reflexivity|]. intros bs Hp. unfold from_broker.
    rewrite (header_roundtrip marshal unmarshal tformat tparse en eu zo zt ds (sheaders m) h bs); auto.
    + destruct m; reflexivity.
    + apply Forall_forall. intros kd Hin. apply (Hs kd Hin).
    + intros k d v Hin Hv. apply string_survives; [apply (Hs (k, d) Hin)|eauto].
Qed.
Print Assumptions C23_string_roundtrip.

(** Headers that are not declared make no difference. *)
Theorem C23_unknown_headers_ignored {O T Er} unmarshal tparse (eu : Er) (zo : O) (zt : T) ds bs p :
  from_broker unmarshal tparse eu zo zt ds bs p =
  from_broker unmarshal tparse eu zo zt ds (filter (fun kv => kv.1 ∈ ds.*1) bs) p.
Proof. unfold from_broker. rewrite hdec_unknown. reflexivity. Qed.
Print Assumptions C23_unknown_headers_ignored.

Definition xds : list (string * hdecl) :=
  [("corr", mkH HString true false); ("lang", mkH HString false true); ("ver", mkH HString true true);
   ("zone", mkH HString false true)]%string.
Definition xmsg : smsg unit unit :=
  mkSmsg (<["corr" := Some (VString "id7")]> (<["lang" := None]> (<["ver" := Some (VString "")]>
          (<["zone" := Some (VString "eu")]> ∅))))%string "hello".
Definition xto := to_broker (fun _ : unit => inl ""%string) (fun _ : unit => ""%string) 1%nat xds xmsg.
Definition xfrom bs := from_broker (fun _ => inl tt) (fun _ => inl tt) 2%nat tt tt xds bs "hello"%string.
Example C23_example :
  match xto with
  | inl (h, p) => map_to_list h = [("zone", "eu"); ("ver", ""); ("corr", "id7")]%string /\ p = "hello"%string
  | inr _ => False
  end /\
  match xfrom [("zone", "eu"); ("x-trace", "9"); ("ver", ""); ("corr", "id7")]%string with
  | inl m => map_to_list (sheaders m) = map_to_list (sheaders xmsg) /\ spayload m = spayload xmsg
  | inr _ => False
  end.
Proof. vm_compute. auto. Qed.

(** ** C59: object headers *)

(** An optional object header that is sent always makes the reception fail, whatever JSON does and
    whatever the other headers are: the full statement (the round trip of C23 with object headers)
    is false. *)
Theorem C59_optional_object_header_refuted {O T Er} marshal unmarshal tformat tparse (en eu : Er) (zo : O) (zt : T)
    ds (m : smsg O T) k d h p bs o :
  NoDup ds.*1 -> (k, d) ∈ ds -> hkd d = HObject -> hptr d = true -> sheaders m !! k = Some (Some (VObject o)) ->
  to_broker marshal tformat en ds m = inl (h, p) -> bs ≡ₚ map_to_list h ->
  exists e, from_broker unmarshal tparse eu zo zt ds bs p = inr e.
Proof.
  intros Hnd Hin Hk Hp Hm He Hb. unfold to_broker in He.
  destruct (henc _ _ _ ds (sheaders m) ∅) as [h'|] eqn:Eh; [|discriminate]. injection He as -> <-.
  destruct (henc_ok _ _ _ ds (sheaders m) ∅ h Eh Hnd) as [G _]. specialize (G k d Hin). rewrite Hm in G.
  destruct G as (b & _ & Hb'). unfold from_broker.
  destruct (object_pointer_lost unmarshal tparse eu ds k d b bs (hzero zo zt ds)) as [e ->]; eauto.
  - now apply hfind_Some.
  - rewrite Hb. now apply elem_of_map_to_list.
Qed.
Print Assumptions C59_optional_object_header_refuted.

(** What a header that is received says, whoever sent it: a string is what was sent, a date is what was sent read as RFC3339, an object
    what was sent read as JSON, and that only where the field is no pointer. *)
Inductive says {O T Er} (unmarshal : string -> O + Er) (tparse : string -> T + Er) (d : hdecl) (b : string) : hval O T -> Prop :=
| says_string : hkd d = HString -> says unmarshal tparse d b (VString b)
| says_date t : hkd d = HDate -> tparse b = inl t -> says unmarshal tparse d b (VDate t)
| says_object o : hkd d = HObject -> hptr d = false -> unmarshal b = inl o -> says unmarshal tparse d b (VObject o).

(** Exactly the messages that are received: every declared header that was sent says something, and that is in its field; the fields of
    those that were not sent are nil for pointers and zero otherwise. A header that says nothing, such as a date that is none, is an error. *)
Theorem C59_reading_exact {O T Er} unmarshal tparse (eu : Er) (zo : O) (zt : T) ds bs p (m : smsg O T) :
  NoDup ds.*1 -> NoDup bs.*1 ->
  from_broker unmarshal tparse eu zo zt ds bs p = inl m <->
  spayload m = p /\
  (forall k d b, (k, d) ∈ ds -> (k, b) ∈ bs -> exists x, says unmarshal tparse d b x /\ sheaders m !! k = Some (Some x)) /\
  (forall k d, (k, d) ∈ ds -> k ∉ bs.*1 -> sheaders m !! k =
     Some (if hptr d then None else Some match hkd d with HString => VString "" | HObject => VObject zo | HDate => VDate zt end)) /\
  (forall k, k ∉ ds.*1 -> sheaders m !! k = None).
Proof.
  intros Hd Hb.
  assert (S : forall d b x, hparse unmarshal tparse eu d b = inl x <-> says unmarshal tparse d b x).
  { intros d b x. unfold hparse. split.
    - destruct (hkd d) eqn:K.
      + intros [= <-]. by constructor.
      + destruct (hptr d) eqn:P; [discriminate|]. destruct (unmarshal b) eqn:U; [|discriminate]. intros [= <-]. by constructor.
      + destruct (tparse b) eqn:U; [|discriminate]. intros [= <-]. by constructor.
    - intros [K|t K U|o K P U]; rewrite K; [reflexivity|by rewrite U|by rewrite P, U]. }
  unfold from_broker. split.
  - destruct (hdec _ _ _ ds bs _) as [h|e] eqn:E; [|discriminate]. intros [= <-]. cbn [spayload sheaders]. split; [reflexivity|].
    assert (P : forall k b d, (k, b) ∈ bs -> hfind ds k = Some d -> exists x, hparse unmarshal tparse eu d b = inl x /\ h !! k = Some (Some x))
      by exact (hdec_inv (fun _ => inr eu) unmarshal (fun _ => ""%string) tparse eu zo zt ds bs _ h E Hb).
    destruct (hdec_ok (fun _ => inr eu) unmarshal (fun _ => ""%string) tparse eu zo zt ds bs (hzero zo zt ds) Hb) as (m1 & E1 & _ & G).
    { intros k v d H1 H2. destruct (P k v d H1 H2) as (x & Hx & _). eauto. }
    rewrite E in E1. injection E1 as <-. split; [|split].
    + intros k d b H1 H2. destruct (P k b d H2) as (x & Hx & Hm); [by apply hfind_Some|]. exists x. split; [by apply S|exact Hm].
    + intros k d H1 H2. rewrite G, hzero_lookup by auto. apply (hfind_Some ds k d Hd) in H1. rewrite H1. reflexivity.
    + intros k H. apply hfind_None in H. rewrite G, hzero_lookup by auto. rewrite H. reflexivity.
  - intros (Hp & H1 & H2 & H3).
    destruct (hdec_ok (fun _ => inr eu) unmarshal (fun _ => ""%string) tparse eu zo zt ds bs (hzero zo zt ds) Hb) as (m1 & E1 & G1 & G2).
    { intros k v d Hv Hf. apply (hfind_Some ds k d Hd) in Hf. destruct (H1 k d v Hf Hv) as (x & Hx & _). exists x. by apply S. }
    rewrite E1. destruct m as [h q]. cbn [spayload sheaders] in *. subst q. do 2 f_equal. apply map_eq. intros k.
    destruct (hfind ds k) as [d|] eqn:Ef.
    + pose proof (proj1 (hfind_Some ds k d Hd) Ef) as Hin. destruct (decide (k ∈ bs.*1)) as [Hk|Hk].
      * apply elem_of_list_fmap in Hk as ([k' b] & Ek & Hk). cbn in Ek. subst k'. destruct (H1 k d b Hin Hk) as (x & Hx & Hm). rewrite Hm.
        apply (G1 k b d x Hk Ef). by apply S.
      * rewrite (H2 k d Hin Hk), G2, hzero_lookup, Ef by auto. reflexivity.
    + rewrite G2, hzero_lookup, Ef by auto. rewrite H3; [reflexivity|]. by apply hfind_None.
Qed.
Print Assumptions C59_reading_exact.
(** A date that can be read and one that cannot, here for a reader of dates that only knows "now". *)
Example C59_reading_ex :
  let ds := [("at", mkH HDate true false); ("lang", mkH HString false true)]%string in
  let read v := from_broker (fun _ => inr 1%nat : unit + nat) (fun v => if String.eqb v "now" then inl 7%nat else inr 2%nat) 3%nat tt 0%nat ds [("at", v)]%string "x"%string in
  match read "now"%string with inl m => sheaders m !! "at"%string = Some (Some (VDate 7%nat)) /\ sheaders m !! "lang"%string = Some None | inr _ => False end /\
  read "soon"%string = inr 2%nat.
Proof. split; [split|]; vm_compute; reflexivity. Qed.

(** Exactly the messages whose headers survive: strings always, dates when RFC3339 keeps them (which of them it keeps: C116), objects
    when the field is no pointer and JSON keeps the value. *)
Theorem C59_exact {O T Er} marshal unmarshal tformat tparse (en eu : Er) (zo : O) (zt : T)
    ds (m : smsg O T) h p bs :
  NoDup ds.*1 -> Forall (fun kd : string * hdecl => hcompiles kd.2 = true) ds ->
  (forall k, is_Some (sheaders m !! k) <-> k ∈ ds.*1) ->
  (forall k d f, (k, d) ∈ ds -> sheaders m !! k = Some f -> field_ok d f) ->
  to_broker marshal tformat en ds m = inl (h, p) -> bs ≡ₚ map_to_list h ->
  from_broker unmarshal tparse eu zo zt ds bs p = inl m <->
  forall k d v, (k, d) ∈ ds -> sheaders m !! k = Some (Some v) ->
    match v with
    | VString _ => True
    | VDate t => tparse (tformat t) = inl t
    | VObject o => hptr d = false /\ exists b, marshal o = inl b /\ unmarshal b = inl o
    end.
Proof.
  intros Hnd Hs Hdom Hok He Hp. unfold to_broker in He.
  destruct (henc _ _ _ ds (sheaders m) ∅) as [h'|] eqn:Eh; [|discriminate]. injection He as -> <-.
  assert (Hk : forall k d v, (k, d) ∈ ds -> sheaders m !! k = Some (Some v) ->
    survives marshal unmarshal tformat tparse eu d v <->
    match v with VString _ => True | VDate t => tparse (tformat t) = inl t | VObject o => hptr d = false /\ exists b, marshal o = inl b /\ unmarshal b = inl o end).
  { intros k d v Hin Hv. pose proof (Hok k d _ Hin Hv) as Hf. cbn in Hf. destruct (hkd d) eqn:Ek; destruct v as [x|o|t]; try contradiction.
    - split; [auto|]. intros _ b. unfold hparse. rewrite Ek. cbn. congruence.
    - destruct (henc_ok _ _ _ ds (sheaders m) ∅ h Eh Hnd) as [G _]. specialize (G k d Hin). rewrite Hv in G. destruct G as (b & Hb & _). cbn in Hb.
      rewrite (object_survives marshal unmarshal tformat tparse eu d o b Ek Hb). split.
      + intros [H1 H2]. split; [exact H1|]. exists b. auto.
      + intros (H1 & b' & Hb' & H2). rewrite Hb in Hb'. injection Hb' as <-. auto.
    - now apply date_survives. }
  unfold from_broker. split.
  - destruct (hdec _ _ _ ds bs _) as [m'|] eqn:Ed; [|discriminate]. intros E k d v Hin Hv. apply (Hk k d v Hin Hv).
    assert (m' = sheaders m) as -> by (destruct m; cbn in *; congruence).
    exact (header_survived marshal unmarshal tformat tparse en eu zo zt ds (sheaders m) h bs k d v Hnd Eh Hp Ed Hin Hv).
  - intros H. rewrite (header_roundtrip marshal unmarshal tformat tparse en eu zo zt ds (sheaders m) h bs); auto.
    + destruct m; reflexivity.
    + intros k d v Hin Hv. apply (Hk k d v Hin Hv). exact (H k d v Hin Hv).
Qed.
Print Assumptions C59_exact.

Example C59_example :
  let enc (o : nat) := inl (String.concat "" (replicate o "s")) : string + nat in
  let dec (s : string) := inl (String.length s) : nat + nat in
  let ds ptr := [("meta", mkH HObject (negb ptr) ptr)]%string in
  let m := mkSmsg {["meta" := Some (VObject 2%nat)]}%string "p" : smsg nat unit in
  let from ptr := from_broker dec (fun _ => inl tt) 9%nat 0%nat tt (ds ptr) [("meta", "ss")]%string "p" in
  match to_broker enc (fun _ => ""%string) 8%nat (ds false) m with
  | inl (h, _) => map_to_list h = [("meta", "ss")]%string
  | inr _ => False
  end /\
  match from false with inl m' => map_to_list (sheaders m') = map_to_list (sheaders m) | inr _ => False end /\
  from true = inr 9%nat.
Proof. vm_compute. auto. Qed.

(** ** C24: headers through the brokers *)

(** Kafka: for every iteration order of the published map the received map is the same; when
    another producer repeats a key, the last one counts. *)
Theorem C24_kafka_roundtrip (h : gmap string string) l :
  l ≡ₚ map_to_list h -> kafka_received (kafka_headers l) = h.
Proof. exact (kafka_roundtrip h l). Qed.
Print Assumptions C24_kafka_roundtrip.

Theorem C24_kafka_last_value hs k : kafka_received hs !! k = last_value k hs.
Proof. exact (kafka_received_lookup hs k). Qed.
Print Assumptions C24_kafka_last_value.

(** NATS and JetStream: the same, in every iteration order on both sides; of several values of a
    key sent by another producer the first one counts, and a key without value is dropped. *)
Theorem C24_nats_roundtrip (h : gmap string string) l l' :
  l ≡ₚ map_to_list h -> l' ≡ₚ map_to_list (nats_headers l) -> nats_received l' = h.
Proof. exact (nats_roundtrip h l l'). Qed.
Print Assumptions C24_nats_roundtrip.

Theorem C24_nats_first_value (w : gmap string (list string)) l k :
  l ≡ₚ map_to_list w -> nats_received l !! k = w !! k ≫= head.
Proof. exact (nats_received_lookup w l k). Qed.
Print Assumptions C24_nats_first_value.

Example C24_example :
  kafka_received (kafka_headers [("b", "2"); ("a", "1")]) = list_to_map [("a", "1"); ("b", "2")] /\
  kafka_received [("a", "1"); ("b", "2"); ("a", "3")] = list_to_map [("a", "3"); ("b", "2")] /\
  nats_received [("b", ["2"; "x"]); ("c", []); ("a", ["1"])] = list_to_map [("a", "1"); ("b", "2")] /\
  nats_headers [("b", "2"); ("a", "1")] = list_to_map [("a", ["1"]); ("b", ["2"])].
Proof. split; [|split; [|split]]; apply (bool_decide_unpack _); vm_compute; exact I. Qed.
