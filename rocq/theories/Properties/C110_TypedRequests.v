(** C110: a request made with a generated type, through the version wrapper and a broker, returns with the message that the application answered.
    Full statement: C110_own_reply and C110_everyone for all messages. False where C107 and C109 are. Replies are delivered to all who wait (C83 otherwise). *)
From stdpp Require Import gmap list strings.
From Coq Require Import ZArith NArith Lia Ascii String.
From Verif.Model Require Import Ack Middleware Decoding Types Wire JsonText Codec Conversion Typed BrokerMessage Versioning Transport System TypedRequest.
From Verif.Spec Require Import ConversionSpec GoRun SurviveSpec WireSpec JsonTextSpec TypedSpec VersioningSpec TransportSpec WaySpec SystemSpec TypedRequestSpec.
From Verif.Proof Require Import TransportProof.
From Verif.Proof Require SystemProof.
From Verif.Properties Require Import C82_System C90_Conversion C97_Survive C103_Wire C106_Text C107_Typed C108_Transport.
Local Open Scope string_scope.

Section C110.
  Context {C T E : Type}.
  Context (wenv : string -> option wdef) (fuel : nat) (float32 float64 : num -> option num) (date time : string -> option string).
  Context (any : json -> json) (date0 time0 : string) (err_write err_read : E).
  Context (tformat : T -> string) (tparse : string -> T + E) (err_nil err_unmarshal err_panic : E).
  Context (v3 dates force : bool) (request reply : message) (key1 key2 : string) (required1 required2 : bool).
  Notation store := (place -> GoRun.value (gotype * gv) T).
  Context (zero1 zero2 : store) (b : broker) (cfg : wcfg) (ver : option string).
  Context (carry : gmap string string -> gmap string string) (order : gmap string string -> list (string * string)).
  Context (mws : list (middleware C wmsg E)) (ctx : C) (f : store -> store -> store).
  Notation env := (package wenv fuel).
  Notation types m := (Conversion.field_type dates force m).
  Notation sendable m := (TypedSpec.sendable wenv float32 float64 date time any tformat tparse (encode wenv fuel) force (types m) m).

  (** What can be sent as a message of type [m]. *)
  Definition can_send (m : message) (σ : store) : Prop := well_typed env (types m) σ /\ sendable m σ /\ (b = Nats -> light tformat m σ).

  Record conditions : Prop := {
    c_env : good_env wenv /\ ranked wenv fuel /\ all_known wenv /\ exports env;
    c_messages : forall m, m = request \/ m = reply -> message_ok env dates m /\ both_compile env v3 dates force m /\
      (forall v, ver = Some v -> types m (Header (vkey cfg)) = None /\ (b = Nats -> kept (vkey cfg) v));
    c_zero : zero_values env (types request) zero1 /\ zero_values env (types reply) zero2;
    c_identifiers : identifier_header dates force request key1 required1 /\ identifier_header dates force reply key2 required2;
    c_carry : forall h, carries b h (carry h);
    c_order : forall h, order h ≡ₚ map_to_list h;
    c_middlewares : forall m, exists s, execute mws None ctx m tt = (s, ROk None) /\ msg s = m;
    (** The function of the application answers with a message that can be sent, and leaves its identifier. *)
    c_answer : forall σ σ' newid, can_send request σ -> same_message (types request) σ σ' -> read_id key1 σ <> "" ->
      let σ2 := write_id key2 required2 (read_id key1 σ) (write_id key2 required2 newid zero2) in
      can_send reply (f σ' σ2) /\ read_id key2 (f σ' σ2) = read_id key1 σ }.

  Notation enc := (encode_r wenv fuel float32 float64 date time any date0 time0 err_write err_read tformat tparse err_nil err_unmarshal dates force request reply cfg ver carry).
  Notation dec := (decode_r wenv fuel float32 float64 date time any date0 time0 err_write err_read tformat tparse err_nil err_unmarshal err_panic v3 dates force request reply zero1 zero2 order).
  Notation corr := (corr_r key1 key2).
  Notation set_corr := (set_corr_r key1 key2 required1 required2).

  Definition good (d : rmsg T) : Prop := match d with Request σ => can_send request σ | Reply _ => False end.
  Definition ready (d : rmsg T) : Prop := match d with Reply σ => can_send reply σ | Request _ => False end.
  Definition arrived (d : rmsg T) : rmsg T := fst (dec (enc d)).

  Lemma way m zero key required σ : conditions -> m = request \/ m = reply -> zero_values env (types m) zero -> can_send m σ ->
    identifier_header dates force m key required ->
    exists h x σ', published wenv fuel float32 float64 date time any date0 time0 err_write err_read tformat tparse err_nil err_unmarshal dates force cfg ver carry m σ = Some (h, x) /\
      received wenv fuel float32 float64 date time any date0 time0 err_write err_read tformat tparse err_nil err_unmarshal err_panic v3 dates force order m zero h x = (σ', None) /\
      same_message (types m) σ σ' /\ read_id key σ' = read_id key σ.
  Proof using.
    intros [(G & R & K & He) Hm _ _ Hc Ho _ _] Em Hz (Hw & Hs & Hl) [_ Hk]. destruct (Hm m Em) as (Ok & Comp & Hv).
    destruct (C109_through wenv fuel float32 float64 date time any date0 time0 err_write err_read tformat tparse err_nil err_unmarshal v3 dates force m b cfg ver σ zero
      G R K He Ok Comp Hw Hz Hs Hl Hv) as (h & x & h1 & Hg & Hp & _ & Hb).
    destruct (Hb (carry h1) (Hc h1)) as [_ Hr]. destruct (Hr (order (carry h1)) (Ho _)) as (σ' & R' & S).
    exists (carry h1), x, σ'. unfold published, received. rewrite Hg, Hp, R'. split; [done|]. split; [done|]. split; [exact S|].
    unfold read_id. by rewrite (S _ _ Hk).
  Qed.

  Lemma arrives d : conditions -> good d \/ ready d -> dec (enc d) = (arrived d, None) /\ corr (arrived d) = corr d /\
    match d, arrived d with
    | Request σ, Request σ' => same_message (types request) σ σ'
    | Reply σ, Reply σ' => same_message (types reply) σ σ'
    | _, _ => False
    end.
  Proof using.
    intros Hc Hd. destruct (c_identifiers Hc) as [I1 I2]. destruct (c_zero Hc) as [Z1 Z2]. unfold arrived. destruct d as [σ|σ].
    - destruct Hd as [Hd|[]]. destruct (way request zero1 key1 required1 σ Hc (or_introl eq_refl) Z1 Hd I1) as (h & x & σ' & E1 & E2 & S & R).
      unfold encode_r. rewrite E1. cbn [default id]. unfold decode_r. cbn [w_reply w_headers w_payload]. rewrite E2. done.
    - destruct Hd as [[]|Hd]. destruct (way reply zero2 key2 required2 σ Hc (or_intror eq_refl) Z2 Hd I2) as (h & x & σ' & E1 & E2 & S & R).
      unfold encode_r. rewrite E1. cbn [default id]. unfold decode_r. cbn [w_reply w_headers w_payload]. rewrite E2. done.
  Qed.

  Lemma read_written key required id (σ : store) : read_id key (write_id key required id σ) = id.
  Proof using. unfold read_id, write_id. cbn. rewrite String.eqb_refl. by destruct required. Qed.
  Lemma written_other key required id (σ : store) g : g <> Header key -> write_id key required id σ g = σ g.
  Proof using. intros N. unfold write_id. destruct g as [|k]; cbn; [done|]. destruct (String.eqb_spec key k) as [->|]; done. Qed.

  Lemma place_dec (g h : place) : g = h \/ g <> h.
  Proof using. destruct g as [|k], h as [|l]; try (by left); try (by right). destruct (decide (k = l)) as [->|N]; [by left|right; congruence]. Qed.
  Lemma can_send_id key required id σ : conditions -> identifier_header dates force request key required -> (b = Nats -> kept key id) ->
    can_send request σ -> can_send request (write_id key required id σ).
  Proof using.
    intros Hc [(hs & h & Eh & Hin & Hk & Hs) Ht] Fi (Hw & [S1 S2 S3 S4] & Hl).
    destruct (c_messages Hc request (or_introl eq_refl)) as ((_ & _ & Hok) & _ & _). destruct (Hok hs Eh) as [Nd _].
    assert (forall h', h' ∈ hs -> h_key h' = key -> h' = h) as U.
    { intros h' Hin' Hk'. apply elem_of_list_lookup in Hin as [i Hi]. apply elem_of_list_lookup in Hin' as [j Hj].
      assert (i = j) as ->; [|congruence]. apply (NoDup_lookup _ i j key Nd); rewrite list_lookup_fmap; [rewrite Hi|rewrite Hj]; cbn; congruence. }
    split; [|split].
    - intros g t Hg. destruct (place_dec g (Header key)) as [->|N]; [|rewrite written_other by exact N; by apply Hw].
      rewrite Ht in Hg. injection Hg as <-. unfold write_id. cbn. rewrite String.eqb_refl. by destruct required.
    - split; [exact S1|rewrite written_other by done; exact S2| |].
      + intros hs' h' E' Hin' Ho. rewrite Eh in E'. injection E' as <-. destruct (decide (h_key h' = key)) as [Ek|N].
        * rewrite (U h' Hin' Ek), Hs in Ho. discriminate.
        * rewrite written_other by congruence. by apply (S3 hs).
      + intros hs' h' E' Hin' Ho. rewrite Eh in E'. injection E' as <-. destruct (decide (h_key h' = key)) as [Ek|N].
        * rewrite Ek. unfold write_id. cbn. rewrite String.eqb_refl. by destruct required.
        * rewrite written_other by congruence. by apply (S4 hs).
    - intros Eb hs' h' E' Hin'. rewrite Eh in E'. injection E' as <-. destruct (Hl Eb hs h' Eh Hin') as [Tk Kp]. split; [exact Tk|].
      destruct (decide (h_key h' = key)) as [Ek|N]; [|rewrite written_other by congruence; exact Kp].
      rewrite Ek. unfold write_id. cbn. rewrite String.eqb_refl. intros s. destruct required; intros [= <-]; by apply Fi.
  Qed.

  Lemma assumed_holds : conditions ->
    assumed dec enc corr set_corr mws ctx (Reply zero2) (answer_r f) arrived good ready (id_kept b key1 key2).
  Proof using.
    intros Hc. destruct (c_identifiers Hc) as [I1 I2]. split; [|split; [|split]].
    - intros d Hd. by destruct (arrives d Hc Hd) as (? & ? & _).
    - intros id [σ|σ] Fi Hd; [|done]. split; [|apply read_written]. apply can_send_id; [exact Hc|exact I1|by intros ?; apply Fi|exact Hd].
    - intros newid [σ|σ] Hd Hn; [|done]. destruct (arrives (Request σ) Hc (or_introl Hd)) as (_ & _ & S). destruct (arrived (Request σ)) as [σ'|]; [|done].
      cbn. by apply (c_answer Hc).
    - apply (c_middlewares Hc).
  Qed.

  (** [d] is a reply with the fields that the function of the application gave, for a request with the fields of [sent], and a new message with the
      identifier of it. *)
  Definition answered (sent d : rmsg T) : Prop :=
    exists σ σ' newid σr σr', sent = Request σ /\ same_message (types request) σ σ' /\
      σr = f σ' (write_id key2 required2 (read_id key1 σ) (write_id key2 required2 newid zero2)) /\
      d = Reply σr' /\ same_message (types reply) σr σr' /\ read_id key2 σr' = read_id key1 σ.

  Lemma answered_ok sent d : conditions -> good sent -> corr sent <> "" -> answer_to corr set_corr (Reply zero2) (answer_r f) arrived sent d -> answered sent d.
  Proof using.
    intros Hc Hg Hn [newid ->]. destruct sent as [σ|]; [|done]. destruct (arrives (Request σ) Hc (or_introl Hg)) as (_ & _ & S).
    destruct (arrived (Request σ)) as [σ'|]; [|done]. cbn [answer_r set_corr_r corr_r].
    set (σr := f σ' _). destruct (c_answer Hc σ σ' newid Hg S Hn) as [Hr Hi].
    destruct (arrives (Reply σr) Hc (or_intror Hr)) as (_ & Hk & S'). destruct (arrived (Reply σr)) as [|σr']; [done|].
    exists σ, σ', newid, σr, σr'. repeat split; try done. cbn in Hk. rewrite Hk. exact Hi.
  Qed.

  Notation run mode n := (running dec enc corr set_corr mws ctx (Reply zero2) (answer_r f) mode n).
  Notation step mode n := (stepping dec enc corr set_corr mws ctx (Reply zero2) (answer_r f) mode n).

  Theorem C110_own_reply mode n os :
    conditions -> distinct corr os -> fit good (id_kept b key1 key2) os ->
    (forall i, requester (run mode n os start) i <> RPanicked) /\
    (forall i sent d, requester (run mode n os start) i = RDone sent d ->
       answered sent d /\ exists d0 uuid, In (SSubscribe i d0) os /\ In (SSend i uuid) os /\ identified corr set_corr uuid d0 sent).
  Proof using.
    intros Hc Hd Hf. destruct (C82_own_reply _ _ _ _ _ _ _ _ n _ _ _ _ mode os (assumed_holds Hc) Hd Hf) as [H1 H2]. split; [exact H1|].
    intros i sent d Hr. destruct (H2 i sent d Hr) as (H3 & d0 & uuid & I1 & I2 & Hi). split; [|by exists d0, uuid].
    destruct (assumed_holds Hc) as (A1 & A2 & A3 & A4).
    pose proof (SystemProof.inv_run _ _ _ _ _ _ _ _ mode n _ _ _ _ (fun d H => proj1 (A1 d H)) (fun d H => proj2 (A1 d H)) A2 A3 A4 os (conj Hd Hf)) as Hv.
    destruct (SystemProof.owned_corr _ _ _ _ _ _ _ _ _ _ i sent Hv ltac:(right; by exists d)) as [G N]. by apply answered_ok.
  Qed.

  Theorem C110_everyone n os :
    conditions -> distinct corr os -> fit good (id_kept b key1 key2) os ->
    let s := run Everyone n os start in
    (exists k, forall os', busy (step Everyone n) Everyone s os' -> List.length os' <= k)%nat /\
    (exists os', busy (step Everyone n) Everyone s os' /\ idle Everyone (run Everyone n os' s)) /\
    (forall os', busy (step Everyone n) Everyone s os' -> idle Everyone (run Everyone n os' s) ->
       forall i d, requester s i = RWaiting d -> exists r, requester (run Everyone n os' s) i = RDone d r /\ answered d r).
  Proof using.
    intros Hc Hd Hf s. destruct (C82_everyone _ _ _ _ _ _ _ _ n _ _ _ _ os (assumed_holds Hc) Hd Hf) as (H1 & H2 & H3). split; [exact H1|]. split; [exact H2|].
    intros os' Hb Hi i d Hw. destruct (H3 os' Hb Hi i d Hw) as (r & Hr & Ha). exists r. split; [exact Hr|].
    destruct (assumed_holds Hc) as (A1 & A2 & A3 & A4).
    pose proof (SystemProof.inv_run _ _ _ _ _ _ _ _ Everyone n _ _ _ _ (fun d H => proj1 (A1 d H)) (fun d H => proj2 (A1 d H)) A2 A3 A4 os (conj Hd Hf)) as Hv.
    destruct (SystemProof.owned_corr _ _ _ _ _ _ _ _ _ _ i d Hv ltac:(by left)) as [G N]. by apply answered_ok.
  Qed.
End C110.
Print Assumptions C110_own_reply.
Print Assumptions C110_everyone.

(** ** Examples: the message of C107 as request and as reply, with "trace" as identifier; the application sends back what it gets. *)
Notation hstore := (place -> GoRun.value (gotype * gv) string).
Definition echo (σ σ2 : hstore) : hstore := fun g => if same_place (Header "trace") g then σ2 g else σ g.
Notation can_greet := (can_send people_types 2 Some Some Some Some (fun j : json => j) (fun t : string => t) (fun t : string => inl t : string + string) true false Kafka hello).
Notation greets := (conditions people_types 2 Some Some Some Some (fun j : json => j) (fun t : string => t) (fun t : string => inl t : string + string) true true false hello hello
  "trace" "trace" false false no_message no_message Kafka (mkCfg "version" None) (Some "2.0") (fun h : gmap string string => h) (fun h : gmap string string => map_to_list h)
  ([] : list (middleware unit wmsg string)) tt echo).
Lemma greeting_conditions : greets.
Proof.
  split.
  - exact (conj people_good (conj people_ranked (conj people_known people_exports))).
  - intros m [->| ->]; (split; [exact hello_ok|]; split; [exact hello_compiles|]; intros v [= <-]; split; [vm_compute; reflexivity|done]).
  - split; exact hello_zero.
  - split; (split; [exists [trace; companion], trace; split; [done|]; split; [set_solver|done]|vm_compute; reflexivity]).
  - intros h. by apply kafka_way.
  - done.
  - intros m. eexists. split; reflexivity.
  - intros σ σ' newid (Hw & [S1 S2 S3 S4] & _) S Hn σ2. split; [|done]. split; [|split; [|done]].
    + intros g t Hg. destruct (hello_types _ _ Hg) as [[-> ->]|[[-> ->]|[-> ->]]]; [|reflexivity|].
      * change (holds people_env (X (TNamed "PersonSchema")) (σ' Payload)). rewrite <- (S Payload _ Hg). by apply Hw.
      * change (holds people_env (X (TNamed "PetSchema")) (σ' (Header "pet"))). rewrite <- (S (Header "pet") _ Hg). by apply Hw.
    + split; [exact S1| | |].
      * destruct S2 as (t & Ht & H). exists t. split; [exact Ht|]. change (echo σ' σ2 Payload) with (σ' Payload). by rewrite <- (S Payload _ Ht).
      * intros hs h [= <-] Hin Ho. destruct (S3 _ h eq_refl Hin Ho) as (F & Fl & t & Ht & H). split; [exact F|]. split; [exact Fl|]. exists t. split; [exact Ht|].
        apply elem_of_cons in Hin as [->|Hin]; [discriminate|]. apply elem_of_list_singleton in Hin as ->.
        change (echo σ' σ2 (Header (h_key companion))) with (σ' (Header "pet")). by rewrite <- (S (Header "pet") _ Ht).
      * intros hs h [= <-] Hin Ho. apply elem_of_cons in Hin as [->|Hin]; [by split|]. apply elem_of_list_singleton in Hin as ->. by destruct Ho.
Qed.
Lemma greet_ada v : holds people_env (XPointer (X TString)) v -> exact_time (fun t : string => t) (fun t : string => inl t : string + string) v -> can_greet (hello_value ada cat v).
Proof.
  intros Hv Ht. split; [by apply hello_typed|]. split; [|done]. destruct hello_sendable as [S1 S2 S3 S4]. split; [exact S1|exact S2| |].
  - intros hs h E Hin. specialize (S3 hs h E Hin). injection E as <-. apply elem_of_cons in Hin as [->|Hin]; [discriminate|]. apply elem_of_list_singleton in Hin as ->. exact S3.
  - intros hs h [= <-] Hin. apply elem_of_cons in Hin as [->|Hin]; [intros _; by split|]. apply elem_of_list_singleton in Hin as ->. by intros [].
Qed.
Notation people_run carry := (running (decode_r people_types 2 Some Some Some Some (fun j : json => j) "0000-00-00" "0001-01-01T00:00:00Z" "unsupported" "invalid" (fun t : string => t)
    (fun t : string => inl t : string + string) "nil" "not a pointer" "panic" true true false hello hello no_message no_message (fun h : gmap string string => map_to_list h))
  (encode_r people_types 2 Some Some Some Some (fun j : json => j) "0000-00-00" "0001-01-01T00:00:00Z" "unsupported" "invalid" (fun t : string => t)
    (fun t : string => inl t : string + string) "nil" "not a pointer" true false hello hello (mkCfg "version" None) (Some "2.0") carry)
  (corr_r "trace" "trace") (set_corr_r "trace" "trace" false false) ([] : list (middleware unit wmsg string)) tt (Reply no_message) (answer_r echo)).
Definition greet (v : GoRun.value (gotype * gv) string) : rmsg string := Request (hello_value ada cat v).
(** One request without identifier, one with its own. *)
Definition two_greetings : list (sop (rmsg string)) :=
  [SSubscribe 0 (greet GoRun.VNil); SSubscribe 1 (greet (GoRun.VPtr (GoRun.VStr "t-1"))); SSend 1 "u1"; SSend 0 "u0"].
Lemma two_greetings_ok : distinct (corr_r "trace" "trace") two_greetings /\
  fit (good people_types 2 Some Some Some Some (fun j : json => j) (fun t : string => t) (fun t : string => inl t : string + string) true false hello Kafka)
    (id_kept Kafka "trace" "trace") two_greetings.
Proof.
  split; [split; apply (bool_decide_unpack _); vm_compute; exact I|]. split; [|done]. intros i d Hin.
  repeat (destruct Hin as [[= <- <-]|Hin] || (destruct Hin as [?|Hin]; [discriminate|])); [| |done]; apply greet_ada; try done. by eexists.
Qed.
Definition shown (r : rstate (rmsg string)) : option (GoRun.value (gotype * gv) string * GoRun.value (gotype * gv) string * GoRun.value (gotype * gv) string) :=
  match r with RDone (Request σ) (Reply σ') => Some (σ (Header "trace"), σ' (Header "trace"), σ' Payload) | _ => None end.
Definition served : list (sop (rmsg string)) :=
  [SServe "n" "x"; SServe "n" "x"; SDeliver 0; SReceive 0; SDeliver 0; SReceive 0; SReceive 1].
Example C110_run : let s := people_run (fun h => h) Everyone 2 served (people_run (fun h => h) Everyone 2 two_greetings start) in
  let person := GoRun.VJson (TNamed "PersonSchema", ada) in
  shown (requester s 0) = Some (GoRun.VPtr (GoRun.VStr "u0"), GoRun.VPtr (GoRun.VStr "u0"), person) /\
  shown (requester s 1) = Some (GoRun.VPtr (GoRun.VStr "t-1"), GoRun.VPtr (GoRun.VStr "t-1"), person).
Proof. split; vm_compute; reflexivity. Qed.
Notation people_step carry := (stepping (decode_r people_types 2 Some Some Some Some (fun j : json => j) "0000-00-00" "0001-01-01T00:00:00Z" "unsupported" "invalid" (fun t : string => t)
    (fun t : string => inl t : string + string) "nil" "not a pointer" "panic" true true false hello hello no_message no_message (fun h : gmap string string => map_to_list h))
  (encode_r people_types 2 Some Some Some Some (fun j : json => j) "0000-00-00" "0001-01-01T00:00:00Z" "unsupported" "invalid" (fun t : string => t)
    (fun t : string => inl t : string + string) "nil" "not a pointer" true false hello hello (mkCfg "version" None) (Some "2.0") carry)
  (corr_r "trace" "trace") (set_corr_r "trace" "trace" false false) ([] : list (middleware unit wmsg string)) tt (Reply no_message) (answer_r echo)).
Example C110_everyone_ex : let s := people_run (fun h => h) Everyone 2 two_greetings start in
  forall os', busy (people_step (fun h => h) Everyone 2) Everyone s os' -> idle Everyone (people_run (fun h => h) Everyone 2 os' s) ->
    exists d r, requester s 0 = RWaiting d /\ requester (people_run (fun h => h) Everyone 2 os' s) 0 = RDone d r /\
      answered true false hello hello "trace" "trace" false no_message echo d r.
Proof.
  intros s os' Hb Hi. destruct two_greetings_ok as [D F].
  destruct (C110_everyone people_types 2 Some Some Some Some (fun j : json => j) "0000-00-00" "0001-01-01T00:00:00Z" "unsupported" "invalid" (fun t : string => t)
    (fun t : string => inl t : string + string) "nil" "not a pointer" "panic" true true false hello hello "trace" "trace" false false no_message no_message Kafka
    (mkCfg "version" None) (Some "2.0") _ _ _ _ echo 2 two_greetings greeting_conditions D F) as (_ & _ & H).
  eexists. destruct (H os' Hb Hi 0%nat (set_corr_r "trace" "trace" false false "u0" (greet GoRun.VNil))) as (r & Hr & Ha); [reflexivity|].
  exists r. split; [reflexivity|]. split; [exact Hr|exact Ha].
Qed.

(** Over NATS, a caller who sets the identifier " a": the reply has the identifier "a", and the request waits for ever. *)
Definition nats_carry (h : gmap string string) : gmap string string :=
  nats_received (map_to_list (default ∅ (decode_headers (header_bytes (map_to_list (nats_headers (map_to_list h))))))).
Lemma nats_carry_ok h : carries Nats h (nats_carry h).
Proof.
  exists (map_to_list h), (map_to_list (nats_headers (map_to_list h))). unfold nats_carry.
  pose proof (decode_written (map_to_list (nats_headers (map_to_list h)))) as D. rewrite D. eexists _, _. by repeat split.
Qed.
Definition lost_greeting : list (sop (rmsg string)) := [SSubscribe 0 (greet (GoRun.VPtr (GoRun.VStr " a"))); SSend 0 "u0"].
Theorem C110_nats_refuted : (forall h, carries Nats h (nats_carry h)) /\
  ~ (forall os, distinct (corr_r "trace" "trace") os ->
       fit (good people_types 2 Some Some Some Some (fun j : json => j) (fun t : string => t) (fun t : string => inl t : string + string) true false hello Kafka)
         (id_kept Nats "trace" "trace") os ->
       let s := people_run nats_carry Everyone 1 os start in
       forall os', busy (people_step nats_carry Everyone 1) Everyone s os' -> idle Everyone (people_run nats_carry Everyone 1 os' s) ->
       forall i d, requester s i = RWaiting d -> exists r, requester (people_run nats_carry Everyone 1 os' s) i = RDone d r).
Proof.
  split; [exact nats_carry_ok|]. intros H.
  destruct (H lost_greeting) with (os' := [SServe "n" "x"; SDeliver 0; SReceive 0] : list (sop (rmsg string))) (i := 0%nat) (d := greet (GoRun.VPtr (GoRun.VStr " a"))) as [r R].
  - split; apply (bool_decide_unpack _); vm_compute; exact I.
  - split.
    + intros i d [[= <- <-]|[?|[]]]; [|discriminate]. by apply greet_ada.
    + intros i u [?|[[= <- <-]|[]]]; [discriminate|]. intros _. split; (apply kept_ok; vm_compute; reflexivity).
  - split; [vm_compute; discriminate|]. split; [split; [vm_compute; discriminate|done]|]. split; [|exact I].
    split; [eexists; reflexivity|vm_compute; discriminate].
  - intros o. destruct o as [i d|i u|a c|i|i]; cbn [possible].
    + by intros [].
    + by intros [].
    + intros N. apply N. vm_compute. reflexivity.
    + intros [N _]. apply N. vm_compute. reflexivity.
    + intros [[sent Hw] N]. destruct i as [|i]; [apply N; vm_compute; reflexivity|]. vm_compute in Hw. discriminate Hw.
  - reflexivity.
  - assert (X : match requester (people_run nats_carry Everyone 1 [SServe "n" "x"; SDeliver 0; SReceive 0] (people_run nats_carry Everyone 1 lost_greeting start)) 0 with RDone _ _ => true | _ => false end = true) by by rewrite R.
    vm_compute in X. discriminate X.
Qed.
Print Assumptions C110_nats_refuted.
