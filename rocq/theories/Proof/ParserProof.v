From stdpp Require Import gmap list strings.
From Coq Require Import ZArith Ascii String.
From Verif.Model Require Import GoStrings Reference Parser.
From Verif.Spec Require Import ParserSpec.
From Verif.Proof Require Import GoStringsProof.
Local Open Scope string_scope.

Lemma supported_spec l v : is_version_supported l v = true <-> v ∈ l.
Proof.
  induction l as [|x l IH]; cbn.
  - split; [discriminate|intros H%elem_of_nil; destruct H].
  - rewrite elem_of_cons. destruct (String.eqb_spec x v) as [->|N].
    + split; auto.
    + rewrite IH. split; [auto|intros [E|E]; [congruence|exact E]].
Qed.

Lemma supported_version v :
  v ∈ supported_versions <-> version_of v V2 \/ version_of v V3.
Proof.
  unfold supported_versions. rewrite !elem_of_cons, elem_of_nil. unfold version_of. split.
  - intros [->|[->|[->|[->|[->|[->|[->|[->|[]]]]]]]]]; [left..|right; reflexivity].
    + now exists 0; split; [lia|].
    + now exists 1; split; [lia|].
    + now exists 2; split; [lia|].
    + now exists 3; split; [lia|].
    + now exists 4; split; [lia|].
    + now exists 5; split; [lia|].
    + now exists 6; split; [lia|].
  - intros [(n & L & ->)| ->]; [|tauto].
    do 7 (destruct n as [|n]; [cbn; tauto|]). lia.
Qed.

Lemma version_major v m : version_of v m ->
  exists c r, v = String c r /\ atoi1 c = Ok (match m with V2 => 2 | V3 => 3 end)%Z.
Proof.
  destruct m; cbn.
  - intros (n & _ & ->). exists "2"%char. eexists. split; [reflexivity|reflexivity].
  - intros ->. eexists _, _. split; reflexivity.
Qed.

Lemma version_from_spec d v : version_from_json d = Ok v <-> declares d v /\ (version_of v V2 \/ version_of v V3).
Proof.
  unfold version_from_json, declares. split.
  - destruct (members d) as [g|]; [|discriminate].
    destruct (g !! "asyncapi") as [[s|]|] eqn:E; try discriminate.
    destruct (is_version_supported supported_versions s) eqn:S; [|discriminate].
    intros [= ->]. apply supported_spec, supported_version in S. eauto.
  - intros [(g & -> & ->) V]. apply supported_version, supported_spec in V. now rewrite V.
Qed.

Lemma version_not_panic d : version_from_json d <> Panic.
Proof. unfold version_from_json. destruct (members d) as [g|]; [|discriminate]. destruct (g !! "asyncapi") as [[s|]|]; try discriminate. case_match; discriminate. Qed.

Lemma major_from_spec d n : major_version_from_json d = Ok n <->
  exists v m, declares d v /\ version_of v m /\ n = major_number m.
Proof.
  unfold major_version_from_json. split.
  - destruct (version_from_json d) as [| |v] eqn:E; try discriminate.
    apply version_from_spec in E as [D [V|V]]; destruct (version_major _ _ V) as (c & r & -> & A); rewrite A;
      intros [= <-]; eauto 8.
  - intros (v & m & D & V & ->).
    assert (E : version_from_json d = Ok v) by (apply version_from_spec; split; [exact D|destruct m; auto]).
    rewrite E. destruct (version_major _ _ V) as (c & r & -> & A). rewrite A. now destruct m.
Qed.
Lemma major_not_panic d : major_version_from_json d <> Panic.
Proof.
  unfold major_version_from_json. destruct (version_from_json d) as [| |v] eqn:E; [now apply version_not_panic in E|discriminate|].
  apply version_from_spec in E as [_ [V|V]]; destruct (version_major _ _ V) as (c & r & -> & A); rewrite A; discriminate.
Qed.

Lemma from_json_spec d m : from_json 0 d = Ok m <-> exists v, declares d v /\ version_of v m /\ fits d m = true.
Proof.
  unfold from_json. cbn [Z.eqb]. split.
  - destruct (major_version_from_json d) as [| |n] eqn:E; try discriminate.
    apply major_from_spec in E as (v & k & D & V & ->).
    destruct k; cbn [major_number Z.eqb Pos.eqb].
    + destruct (fits d V2) eqn:F; [|discriminate]. intros [= <-]. eauto.
    + destruct (fits d V3) eqn:F; [|discriminate]. intros [= <-]. eauto.
  - intros (v & D & V & F).
    assert (E : major_version_from_json d = Ok (major_number m)) by (apply major_from_spec; eauto).
    rewrite E. destruct m; cbn; now rewrite F.
Qed.
Lemma from_json_not_panic forced d : from_json forced d <> Panic.
Proof.
  unfold from_json. destruct (Z.eqb forced 0).
  - destruct (major_version_from_json d) eqn:E; [now apply major_not_panic in E|discriminate|]. repeat case_match; discriminate.
  - repeat case_match; discriminate.
Qed.

Lemma from_json_forced m d k : from_json (major_number m) d = Ok k <-> k = m /\ fits d m = true.
Proof.
  unfold from_json. destruct m; cbn; (destruct (fits d _) eqn:F; split;
    [intros [= <-]; auto|intros [-> _]; reflexivity|discriminate|intros [_ ?]; congruence]).
Qed.

(** *** Extensions *)
Lemma ext_from_app s acc a b : Forall (fun c => c <> "/"%char /\ c <> "."%char) (list_ascii_of_string b) ->
  s = a ++ String "." b -> ext_from s acc = String "." b.
Proof.
  intros F. revert s acc. induction a as [|c a IH]; intros s acc ->.
  - rewrite sapp_nil. cbn [ext_from]. cbn [Ascii.eqb Bool.eqb].
    change (ext_from b (String "." b) = String "." b). generalize (String "." b) as e. 
    induction b as [|x b IHb]; intros e; [reflexivity|].
    cbn [list_ascii_of_string] in F. apply Forall_cons in F as [[N1 N2] F]. cbn [ext_from].
    destruct (Ascii.eqb_spec x "/"); [congruence|]. destruct (Ascii.eqb_spec x "."); [congruence|]. now apply IHb.
  - rewrite sapp_cons. cbn [ext_from]. destruct (Ascii.eqb c "/"); [now apply IH|]. destruct (Ascii.eqb c "."); now apply IH.
Qed.

Lemma ext_from_suffix s acc : (exists a, s = a ++ ext_from s acc) \/ ext_from s acc = acc.
Proof.
  revert acc. induction s as [|c s IH]; intros acc; cbn [ext_from]; [now right|].
  assert (K : forall t, (exists a, s = a ++ t) -> exists a, String c s = a ++ t).
  { intros t [a ->]. exists (String c a). reflexivity. }
  destruct (Ascii.eqb c "/").
  - destruct (IH "") as [E|E]; [left; now apply K|]. left. rewrite E. exists (String c s). now rewrite sapp_nil_r.
  - destruct (Ascii.eqb c ".").
    + destruct (IH (String c s)) as [E|E]; [left; now apply K|]. left. rewrite E. now exists "".
    + destruct (IH acc) as [E|E]; [left; now apply K|now right].
Qed.
Lemma ext_suffix s : named s (ext s).
Proof.
  unfold named, ext. destruct (ext_from_suffix s "") as [E|E]; [exact E|]. rewrite E. exists s. 
  change (s = s ++ ""). now rewrite sapp_nil_r.
Qed.
Lemma ext_named s b : Forall (fun c => c <> "/"%char /\ c <> "."%char) (list_ascii_of_string b) ->
  ext s = String "." b <-> named s (String "." b).
Proof.
  intros F. split.
  - intros <-. apply ext_suffix.
  - intros [a E]. exact (ext_from_app s "" a b F E).
Qed.

Lemma is_ext s b : Forall (fun c => c <> "/"%char /\ c <> "."%char) (list_ascii_of_string b) ->
  String.eqb (ext s) (String "." b) = true <-> named s (String "." b).
Proof. intros F. rewrite String.eqb_eq. now apply ext_named. Qed.

Ltac plain_ext := apply (bool_decide_unpack _); vm_compute; exact I.

Lemma from_file_spec path forced f m : from_file path forced f = Ok m <->
  (exists d, as_yaml f = Some d /\ (named path ".yaml" \/ named path ".yml") /\ from_json forced d = Ok m) \/
  (exists d, as_json f = Some d /\ named path ".json" /\ from_json forced d = Ok m).
Proof.
  unfold from_file.
  pose proof (is_ext path "yaml" ltac:(plain_ext)) as Y1. pose proof (is_ext path "yml" ltac:(plain_ext)) as Y2.
  assert (J : String.eqb (ext path) ".json" = true <-> named path ".json") by (apply is_ext; plain_ext).
  assert (X : named path ".json" -> ~ (named path ".yaml" \/ named path ".yml")).
  { intros J' [Y'|Y']; [apply Y1 in Y'|apply Y2 in Y']; apply J in J'; apply String.eqb_eq in J'; rewrite J' in Y'; discriminate. }
  destruct (String.eqb (ext path) ".yaml" || String.eqb (ext path) ".yml")%bool eqn:Y.
  - assert (Y' : named path ".yaml" \/ named path ".yml").
    { apply Bool.orb_true_iff in Y as [Y|Y]; [left; now apply Y1|right; now apply Y2]. }
    split.
    + destruct (as_yaml f) as [d|]; [|discriminate]. intros H. left. eauto.
    + intros [(d & -> & _ & H)|(d & _ & H & _)]; [exact H|]. now destruct (X H).
  - assert (Y' : ~ (named path ".yaml" \/ named path ".yml")).
    { apply Bool.orb_false_iff in Y as [Ya Yb]. intros [H|H]; [apply Y1 in H|apply Y2 in H]; congruence. }
    destruct (Bool.bool_dec (String.eqb (ext path) ".json") true) as [E|E]; [rewrite E|apply Bool.not_true_is_false in E; rewrite E].
    + apply (proj1 J) in E. split.
      * destruct (as_json f) as [d|]; [|discriminate]. intros H. right. eauto.
      * intros [(d & _ & H & _)|(d & -> & _ & H)]; [now destruct Y'|exact H].
    + split; [discriminate|]. intros [(d & _ & H & _)|(d & _ & H & _)]; [now destruct Y'|]. apply (proj2 J) in H. congruence.
Qed.

Lemma from_file_not_panic path forced f : from_file path forced f <> Panic.
Proof.
  unfold from_file. assert (G : forall o, match o with Some d => from_json forced d | None => Err end <> Panic).
  { intros [d|]; [apply from_json_not_panic|discriminate]. }
  case_match; [apply G|]. case_match; [apply G|discriminate].
Qed.

Lemma dependencies_major m deps l : read_dependencies m deps = Ok l -> Forall (fun pv => pv.2 = m) l /\ l.*1 = deps.*1.
Proof.
  revert l. induction deps as [|[p f] deps IH]; intros l; cbn [read_dependencies].
  - intros [= <-]. split; [constructor|reflexivity].
  - destruct (from_file p (major_number m) f) as [| |v] eqn:E; try discriminate.
    destruct (read_dependencies m deps) as [| |r]; try discriminate.
    intros [= <-]. destruct (IH r eq_refl) as [F K]. split; [|cbn; now f_equal].
    constructor; [|exact F]. cbn.
    apply from_file_spec in E as [(d & _ & _ & H)|(d & _ & _ & H)]; now apply from_json_forced in H as [-> _].
Qed.
