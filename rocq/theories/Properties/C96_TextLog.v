(** C96: a line of the text logger can be read back. *)
From stdpp Require Import list strings.
From Coq Require Import String Ascii.
From Verif.Model Require Import GoStrings Logs TextLog.
From Verif.Spec Require Import LogsSpec TextLogSpec.
From Verif.Proof Require Import LogsProof TextLogProof.
Local Open Scope string_scope.

(** Whatever the order in which the maps are walked, the text begins with the time and the message,
    and a reader who goes by the indentation finds below it exactly the entries of the caller and of
    the context: each with its last value, none that nobody logged, none of those that a later entry
    replaces. The keys and the values must fit on one line, and the caller must not log a "Message"
    beside an "@Timestamp" inside some entry. *)
Theorem C96_read show order c now msg info : (forall m, same_map m (order m)) ->
  (forall e, e ∈ info -> readable e) ->
  (forall v, c_channel c = Some v \/ c_correlation c = Some v \/ c_message c = Some v -> one_line v) ->
  one_line now -> one_line msg -> ~ nested_header info.*1 ->
  exists rest, Forall one_line rest /\
    text_line show order c now msg info = text_of (("> " +:+ now +:+ ": " +:+ msg) :: rest) /\
    forall k ks v, parts_of k ks -> reads 1 rest ks v <->
      ~ clash "Message" k /\ ~ clash "@Timestamp" k /\
      exists pre post, (info ++ context_entries c)%list = (pre ++ (k, v) :: post)%list /\ forall e, e ∈ post -> ~ clash e.1 k.
Proof. exact (text_reads show order c now msg info). Qed.

(** So what the context holds is always found. *)
Theorem C96_context show order c now msg info : (forall m, same_map m (order m)) ->
  (forall e, e ∈ info -> readable e) ->
  (forall v, c_channel c = Some v \/ c_correlation c = Some v \/ c_message c = Some v -> one_line v) ->
  one_line now -> one_line msg -> ~ nested_header info.*1 ->
  exists rest, text_line show order c now msg info = text_of (("> " +:+ now +:+ ": " +:+ msg) :: rest) /\
    (forall v, c_channel c = Some v -> reads 1 rest ["Channel"] v) /\
    (forall v, c_correlation c = Some v -> reads 1 rest ["CorrelationID"] v) /\
    (forall v, c_message c = Some v -> reads 1 rest ["Content"] v).
Proof.
  intros O RI RC LN LM NH. destruct (text_reads show order c now msg info O RI RC LN LM NH) as (rest & _ & E & R).
  exists rest. split; [exact E|].
  assert (P : forall k, split "." k = [k] -> parts_of k [k]) by (intros k H; now apply parts_split).
  assert (N : forall a b, clashb a b = false -> ~ clash a b) by exact clashb_false.
  split; [|split]; intros v V.
  - apply (R "Channel"); [now apply P|]. split; [now apply N|]. split; [now apply N|].
    eexists info, (drop 1 (context_entries c)). unfold context_entries. cbn. rewrite V. cbn. split; [reflexivity|].
    rewrite drop_0. destruct (c_correlation c), (c_message c); cbn; intros e; rewrite ?elem_of_cons, ?elem_of_nil; intros H;
      repeat (destruct H as [->|H]; [now apply N|]); destruct H.
  - apply (R "CorrelationID"); [now apply P|]. split; [now apply N|]. split; [now apply N|].
    unfold context_entries. cbn. rewrite V. destruct (c_channel c) as [w|]; cbn.
    + eexists (info ++ [("Channel", w)])%list, _. split; [rewrite <- app_assoc; reflexivity|].
      destruct (c_message c); cbn; intros e; rewrite ?elem_of_cons, ?elem_of_nil; intros H;
      repeat (destruct H as [->|H]; [now apply N|]); destruct H.
    + eexists info, _. split; [reflexivity|].
      destruct (c_message c); cbn; intros e; rewrite ?elem_of_cons, ?elem_of_nil; intros H;
      repeat (destruct H as [->|H]; [now apply N|]); destruct H.
  - apply (R "Content"); [now apply P|]. split; [now apply N|]. split; [now apply N|].
    unfold context_entries. cbn. rewrite V.
    eexists (info ++ context_entries (mkContext None (c_channel c) None None (c_correlation c)))%list, [].
    split; [|intros e H%elem_of_nil; destruct H].
    unfold context_entries. cbn. rewrite <- app_assoc. f_equal. destruct (c_channel c), (c_correlation c); reflexivity.
Qed.

Definition ex_info : list (string * string) := [("Broker.Host", "h"); ("Broker.Port", "1"); ("Message", "mine"); ("Broker.Host", "k")].
Definition ex_ctx : context := mkContext (Some "kafka") (Some "ch") None None (Some "42").
(** Another order of the maps: the outer one is walked backwards. *)
Example C96_read_ex :
  text_line (fun _ => "") (fun m => reverse m) ex_ctx "10:00" "hello" ex_info =
    text_of ["> 10:00: hello"; "  CorrelationID: 42"; "  Channel: ch"; "  Broker:"; "    Host: k"; "    Port: 1"] /\
  (forall m, same_map m (reverse m)) /\ (forall e, e ∈ ex_info -> readable e) /\ ~ nested_header ex_info.*1.
Proof.
  split; [vm_compute; reflexivity|]. split; [intros m; apply same_perm; now rewrite reverse_Permutation|]. split.
  - assert (R : forall ks v, ks = ks -> one_line v -> Forall (fun k => key_like k /\ one_line k) (split "." ks) -> readable (ks, v)).
    { intros k v _ V F. split; [exact V|]. intros ks P%parts_split. cbn in P. now subst. }
    assert (K : forall k, bool_decide (":"%char ∉ list_ascii_of_string k) = true -> bool_decide ("010"%char ∉ list_ascii_of_string k) = true ->
      (forall r, k <> String " " r) -> key_like k /\ one_line k).
    { intros k A%bool_decide_eq_true B%bool_decide_eq_true C. split; [split; assumption|exact B]. }
    unfold ex_info. intros e. rewrite !elem_of_cons, elem_of_nil. intros H.
    repeat (destruct H as [->|H]; [apply R; [reflexivity|apply (bool_decide_unpack _); vm_compute; exact I|];
      vm_compute split; repeat (apply Forall_cons; split; [apply K; [vm_compute; reflexivity|vm_compute; reflexivity|discriminate]|]); apply Forall_nil; exact I|]).
    destruct H.
  - intros (p & q & r & a & b & Np & A & B & PA & PB). apply parts_split in PA. cbn in A.
    rewrite !elem_of_cons, elem_of_nil in A. destruct p as [|x p]; [congruence|].
    repeat (destruct A as [->|A]; [vm_compute in PA; destruct p as [|y [|z p]]; discriminate|]). destruct A.
Qed.

(** Without the condition on nested entries it is false: the two entries that the caller logs inside
    "Job" are printed as a heading at the left margin, and what else is inside "Job" is no longer
    found there. *)
Theorem C96_nested_refuted : exists info k ks v, (forall e, e ∈ info -> readable e) /\ parts_of k ks /\ (k, v) ∈ info /\
  (forall e, e ∈ info -> e <> (k, v) -> ~ clash e.1 k) /\
  forall show c now msg rest, c = mkContext None None None None None -> one_line now -> one_line msg ->
    Forall one_line rest ->
    text_line show (fun m => m) c now msg info = text_of (("> " +:+ now +:+ ": " +:+ msg) :: rest) -> ~ reads 1 rest ks v.
Proof.
  exists [("Job.Message", "m"); ("Job.@Timestamp", "t"); ("Job.Name", "n")], "Job.Name", ["Job"; "Name"], "n".
  split; [|split; [|split; [|split]]].
  - intros e. rewrite !elem_of_cons, elem_of_nil. intros H.
    assert (K : forall k, bool_decide (":"%char ∉ list_ascii_of_string k) = true -> bool_decide ("010"%char ∉ list_ascii_of_string k) = true ->
      (forall r, k <> String " " r) -> key_like k /\ one_line k).
    { intros k A%bool_decide_eq_true B%bool_decide_eq_true C. split; [split; assumption|exact B]. }
    repeat (destruct H as [->|H]; [split; [apply (bool_decide_unpack _); vm_compute; exact I|]; intros ks P%parts_split; subst ks;
      vm_compute split; repeat (apply Forall_cons; split; [apply K; [vm_compute; reflexivity|vm_compute; reflexivity|discriminate]|]); apply Forall_nil; exact I|]).
    destruct H.
  - now apply parts_split.
  - repeat (first [apply elem_of_list_here|apply elem_of_list_further]).
  - intros e. rewrite !elem_of_cons, elem_of_nil. intros [->|[->|[->|[]]]] N; [apply clashb_false; vm_compute; reflexivity..|congruence].
  - intros show c now msg rest -> LN LM LR E R.
    assert (rest = ["  Job:"; ">     t: m"; "      Name: n"]) as ->.
    { change (text_line show (fun m => m) (mkContext None None None None None) now msg
        [("Job.Message", "m"); ("Job.@Timestamp", "t"); ("Job.Name", "n")]) with
        (("> " +:+ now +:+ ": " +:+ msg +:+ newline) +:+ text_of ["  Job:"; ">     t: m"; "      Name: n"]) in E.
      assert (E' : text_of (("> " +:+ now +:+ ": " +:+ msg) :: ["  Job:"; ">     t: m"; "      Name: n"]) =
        text_of (("> " +:+ now +:+ ": " +:+ msg) :: rest)).
      { rewrite <- E. change (text_of (?x :: ?y)) with (line_text x +:+ text_of y). unfold line_text.
        rewrite !sapp_assoc. reflexivity. }
      assert (H1 : one_line ("> " +:+ now +:+ ": " +:+ msg)).
      { rewrite !one_line_app. repeat split; auto; apply (bool_decide_unpack _); vm_compute; exact I. }
      apply text_of_inj in E'.
      - now injection E'.
      - constructor; [exact H1|]. repeat constructor; apply (bool_decide_unpack _); vm_compute; exact I.
      - now constructor. }
    inversion R as [|n pre l body post k ks v K I D Q Hn Hl]; subst.
    assert (B : forall l, l ∈ ["  Job:"; ">     t: m"; "      Name: n"] -> inside 1 l ("Job" +:+ ":") -> l = "  Job:").
    { intros l0. rewrite !elem_of_cons, elem_of_nil. intros [->|[->|[->|[]]]] J; [reflexivity|..]; exfalso;
        inversion J as [|? ? ? J']; subst; inversion J'. }
    destruct pre as [|p0 [|p1 [|p2 pre]]]; cbn in Hl.
    + injection Hl as Hl0 Hl. clear Hl0. destruct body as [|b body].
      * remember [] as nl eqn:En in Q. destruct Q as [? pre0|? pre0]; destruct pre0; discriminate En.
      * cbn in Hl. injection Hl as Hb _. subst b. apply Forall_cons in D as [[t D] _]. inversion D.
    + injection Hl as _ Hb Hl. subst l. enough (">     t: m" = "  Job:") by discriminate. apply B; [|exact I]. right. left.
    + injection Hl as _ _ Hb Hl. subst l. enough ("      Name: n" = "  Job:") by discriminate. apply B; [|exact I]. right. right. left.
    + destruct pre; discriminate.
Qed.

(** Nor may a value have two lines: the second is read as an entry that nobody logged. *)
Theorem C96_forged_refuted : exists info, ~ (exists e, e ∈ info /\ clash e.1 "User") /\
  forall show now msg, exists rest,
    text_line show (fun m => m) (mkContext None None None None None) now msg info =
      text_of (("> " +:+ now +:+ ": " +:+ msg) :: rest) /\ Forall one_line rest /\ reads 1 rest ["User"] "root".
Proof.
  exists [("Name", "x" +:+ newline +:+ "  User: root")]. split.
  - intros (e & H & C). apply elem_of_list_singleton in H as ->. revert C. apply clashb_false. vm_compute. reflexivity.
  - intros show now msg. exists ["  Name: x"; "  User: root"]. split; [|split].
    + transitivity (("> " +:+ now +:+ ": " +:+ msg +:+ newline) +:+ text_of ["  Name: x"; "  User: root"]); [reflexivity|].
      change (text_of (?x :: ?y)) with (line_text x +:+ text_of y). unfold line_text. rewrite !sapp_assoc. reflexivity.
    + repeat constructor; apply (bool_decide_unpack _); vm_compute; exact I.
    + apply (reads_value 1 ["  Name: x"] "  User: root" []).
      * split; [apply (bool_decide_unpack _); vm_compute; exact I|discriminate].
      * constructor. constructor.
Qed.

Print Assumptions C96_read.
Print Assumptions C96_context.
Print Assumptions C96_nested_refuted.
Print Assumptions C96_forged_refuted.
