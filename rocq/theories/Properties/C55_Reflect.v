(** C55, C68: searching a field in a nested structure. *)
From stdpp Require Import list strings.
From Coq Require Import String Lia.
From Verif.Model Require Import Reflect.
From Verif.Spec Require Import ReflectSpec.
From Verif.Proof Require Import ReflectProof.
Local Open Scope string_scope.

(** The search ends on every finite value. It answers according to the breadth-first first field that
    has the name and either has the type or may not be read: true exactly when that field may be read
    and has the expected value, a panic exactly when it may not be read, false otherwise. *)
Theorem C55_true probe name fuel v : gsize v < fuel ->
  field_value_exists probe name fuel v = Says true <->
  exists f, first_stop probe name v f /\ f_readable f = true /\ probe (f_value f) = Some true.
Proof.
  intros H. destruct (search_spec probe name fuel v H) as [(f & F & E)|[N E]]; rewrite E; unfold answer_of; split.
  - destruct (f_readable f) eqn:R; [|discriminate]. destruct (probe (f_value f)) as [b|] eqn:P; [|discriminate].
    intros [= ->]. eauto.
  - intros (f' & F' & R & P). rewrite (first_stop_unique _ _ _ _ _ F F'), R, P. reflexivity.
  - discriminate.
  - intros (f' & (p & A & T & _) & _). destruct (N p _ A T).
Qed.
Theorem C55_panic probe name fuel v : gsize v < fuel ->
  field_value_exists probe name fuel v = Panics <-> exists f, first_stop probe name v f /\ f_readable f = false.
Proof.
  intros H. destruct (search_spec probe name fuel v H) as [(f & F & E)|[N E]]; rewrite E; unfold answer_of; split.
  - destruct (f_readable f) eqn:R; [|eauto]. destruct (probe (f_value f)) as [b|] eqn:P; discriminate.
  - intros (f' & F' & R). rewrite (first_stop_unique _ _ _ _ _ F F'), R. reflexivity.
  - discriminate.
  - intros (f' & (p & A & T & _) & _). destruct (N p _ A T).
Qed.
Theorem C55_ends probe name fuel v : gsize v < fuel -> field_value_exists probe name fuel v <> OutOfFuel.
Proof.
  intros H. destruct (search_spec probe name fuel v H) as [(f & F & ->)|[N ->]]; [|discriminate].
  unfold answer_of. destruct (f_readable f); [|discriminate]. destruct (probe (f_value f)); discriminate.
Qed.
(** A deeper field of that name and value is hidden by a less deep one with another value. *)
Definition number (n : nat) (v : gval) : option bool := match v with GOther m => Some (Nat.eqb n m) | _ => None end.
Definition deep : gval :=
  GPtr (Some (GStruct [("A", Exported, GStruct [("X", Exported, GPtr (Some (GStruct []))); ("B", Exported, GStruct [("X", Exported, GOther 1)])]);
                       ("C", HiddenEmbedded, GStruct [("X", Exported, GOther 2)]); ("D", Hidden, GStruct [("Y", Exported, GOther 3)])])).
Example C55_ex : gsize deep < 20 /\
  field_value_exists (number 2) "X" 20 deep = Says true /\ field_value_exists (number 1) "X" 20 deep = Says false /\
  field_value_exists (number 3) "Y" 20 deep = Panics /\ field_value_exists (number 3) "Z" 20 deep = Says false.
Proof. split; [vm_compute; lia|]. repeat split. Qed.
Example C55_first_ex : first_stop (number 2) "X" deep (mkFound "X" (GOther 2) true).
Proof.
  destruct (search_spec (number 2) "X" 20 deep ltac:(vm_compute; lia)) as [(f & F & E)|[N E]]; [|discriminate E].
  destruct F as (p & A & T & H). exists [1; 0].
  assert (A' : at_path false deep [1; 0] (mkFound "X" (GOther 2) true)).
  { eapply at_more; [apply has_ptr, has_struct|reflexivity|]. refine (at_last false (GStruct [("X", Exported, GOther 2)]) [("X", Exported, GOther 2)] 0 "X" Exported (GOther 2) _ _); [apply has_struct|reflexivity]. }
  split; [exact A'|]. split; [split; [reflexivity|right; discriminate]|].
  intros p' f' B S. apply at_path_inv in B as (i & g & r & -> & L & B).
  destruct i as [|[|[|i]]]; cbn in L; try discriminate L; injection L as <-.
  - destruct B as [[-> ->]|B]; [destruct S as [[=] _]|]. apply at_path_inv in B as (j & h & r' & -> & L & B).
    destruct j as [|[|j]]; cbn in L; try discriminate L; injection L as <-.
    + destruct B as [[-> ->]|B]; [destruct S as [_ [[=]|S]]; cbn in S; congruence|].
      apply at_path_inv in B as (k & h & r'' & -> & L & B). destruct k; discriminate L.
    + destruct B as [[-> ->]|B]; [destruct S as [[=] _]|]. pose proof (at_path_nonnil _ _ _ _ B). right. left. cbn. lia.
  - destruct B as [[-> ->]|B]; [destruct S as [[=] _]|]. apply at_path_inv in B as (j & h & r' & -> & L & B).
    destruct j as [|j]; cbn in L; try discriminate L; injection L as <-.
    destruct B as [[-> ->]|B]; [now left|]. pose proof (at_path_nonnil _ _ _ _ B). right. left. cbn. lia.
  - destruct B as [[-> ->]|B]; [destruct S as [[=] _]|]. apply at_path_inv in B as (j & h & r' & -> & L & B).
    destruct j as [|j]; cbn in L; try discriminate L; injection L as <-.
    destruct B as [[-> ->]|B]; [destruct S as [[=] _]|]. pose proof (at_path_nonnil _ _ _ _ B). right. left. cbn. lia.
Qed.

(** C68: the comment in the code promises more, "check if any fields with the given name have the given
    value". Refuted: only the first one decides. *)
Theorem C68_any_refuted : exists probe name v p f,
  field_value_exists probe name 20 v = Says false /\ gsize v < 20 /\
  at_path false v p f /\ f_name f = name /\ f_readable f = true /\ probe (f_value f) = Some true.
Proof.
  exists (number 1), "X", deep, [0; 1; 0], (mkFound "X" (GOther 1) true).
  split; [reflexivity|]. split; [vm_compute; lia|]. split; [|auto].
  eapply at_more; [apply has_ptr, has_struct|reflexivity|]. eapply at_more; [apply has_struct|reflexivity|].
  refine (at_last false (GStruct [("X", Exported, GOther 1)]) [("X", Exported, GOther 1)] 0 "X" Exported (GOther 1) _ _); [apply has_struct|reflexivity].
Qed.

(** What does hold: the answer true is right, and it is given when all the fields of that name and type
    can be read and have the value. *)
Theorem C68_found_partial probe name fuel v : gsize v < fuel ->
  (field_value_exists probe name fuel v = Says true ->
     exists p f, at_path false v p f /\ f_name f = name /\ f_readable f = true /\ probe (f_value f) = Some true) /\
  ((exists p f, at_path false v p f /\ stops probe name f) ->
   (forall p f, at_path false v p f -> stops probe name f -> f_readable f = true /\ probe (f_value f) = Some true) ->
   field_value_exists probe name fuel v = Says true).
Proof.
  intros H. split.
  - intros E. apply C55_true in E as (f & (p & A & T & _) & R & P); [|exact H]. exists p, f. destruct T. auto.
  - intros (p & f & A & T) U. apply C55_true; [exact H|].
    destruct (search_spec probe name fuel v H) as [(g & F & _)|[N _]]; [|destruct (N _ _ A T)].
    exists g. split; [exact F|]. destruct F as (q & B & T' & _). exact (U _ _ B T').
Qed.
Example C68_found_ex : field_value_exists (number 1) "X" 20
  (GStruct [("X", Exported, GStruct [("X", Exported, GOther 1)]); ("B", Exported, GStruct [("X", Exported, GOther 1)])]) = Says true.
Proof. reflexivity. Qed.

Print Assumptions C55_true.
Print Assumptions C55_panic.
Print Assumptions C55_ends.
Print Assumptions C68_any_refuted.
Print Assumptions C68_found_partial.
