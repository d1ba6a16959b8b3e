(** C80: the tags and security schemes of traits. *)
From stdpp Require Import list strings.
From Coq Require Import NArith Ascii String.
From Verif.Model Require Import Naming Names Slices Labels.
From Verif.Spec Require Import NamingSpec NamesSpec SlicesSpec LabelsSpec.
From Verif.Proof Require Import NamingProof NamesProof SlicesProof LabelsProof.

Local Notation str := list_ascii_of_string.

(** Whatever the document declares, no tag or security scheme is ever removed, although duplicates are looked for after each trait. *)
Theorem C80_all_kept ul ud uu parent kind own traits : exported parent -> kind ∈ ["Tag"; "Security_Scheme"]%string ->
  exists r, apply_labels ul ud uu parent kind own traits = Some r /\ map l_declared r = own ++ List.concat traits.
Proof.
  intros Hp Hk. apply apply_labels_spec; [done|..].
  - repeat (apply elem_of_cons in Hk as [->|Hk]; [apply lit_ascii_b; vm_compute; reflexivity|]). by apply elem_of_nil in Hk.
  - apply elem_of_cons in Hk as [->|Hk]; [|apply elem_of_cons in Hk as [->|Hk]; [|by apply elem_of_nil in Hk]].
    + split; [|apply from_b_spec; vm_compute; reflexivity]. exists "T"%char, (str "ag"). split; [vm_compute; reflexivity|]. split; apply (bool_decide_unpack _); vm_compute; exact I.
    + split; [|apply from_b_spec; vm_compute; reflexivity]. exists "S"%char, (str "ecurityScheme"). split; [vm_compute; reflexivity|]. split; apply (bool_decide_unpack _); vm_compute; exact I.
Qed.
Print Assumptions C80_all_kept.

(** Missing from the full claim: a name declared twice, for which it is false (C80_merged_refuted). *)
Theorem C80_merged_partial ul ud uu parent kind own traits : exported parent -> kind ∈ ["Tag"; "Security_Scheme"]%string ->
  NoDup (own ++ List.concat traits) ->
  exists r, apply_labels ul ud uu parent kind own traits = Some r /\ merged own traits (map l_declared r).
Proof.
  intros Hp Hk N. destruct (C80_all_kept ul ud uu parent kind own traits Hp Hk) as (r & E & D). exists r. split; [done|]. rewrite D.
  unfold merged. rewrite <- (dedup_distinct id (own ++ List.concat traits)) at 2; [apply dedup_first|by rewrite list_fmap_id].
Qed.
Print Assumptions C80_merged_partial.

Lemma ping_exported : exported (str "PingMessage").
Proof. exists "P"%char, (str "ingMessage"). split; [done|]. split; apply (bool_decide_unpack _); vm_compute; exact I. Qed.

Example C80_example :
  exported (str "PingMessage") /\ NoDup ([str "user"; str "event"] ++ List.concat [[str "audit"]; [str "billing"; str "core"]]) /\
  (forall ul ud uu, exists r, apply_labels ul ud uu (str "PingMessage") "Tag" [str "user"; str "event"] [[str "audit"]; [str "billing"; str "core"]] = Some r /\
     map l_declared r = [str "user"; str "event"; str "audit"; str "billing"; str "core"] /\
     map l_name r = map str ["Tag0FromPingMessage"; "Tag1FromPingMessage"; "Tag0FromTrait0FromPingMessage"; "Tag0FromTrait1FromPingMessage"; "Tag1FromTrait1FromPingMessage"]%string).
Proof.
  split; [apply ping_exported|]. split; [apply (bool_decide_unpack _); vm_compute; exact I|]. intros ul ud uu.
  match goal with |- exists r, ?a = Some r /\ _ => let x := eval vm_compute in a in match x with Some ?l => exists l end end.
  split; [vm_compute; reflexivity|]. split; vm_compute; reflexivity.
Qed.

(** A message tagged "user" with a trait tagged "user" is tagged twice. *)
Theorem C80_merged_refuted : exists parent own traits, exported parent /\ forall ul ud uu,
  exists r, apply_labels ul ud uu parent "Tag" own traits = Some r /\ ~ merged own traits (map l_declared r).
Proof.
  exists (str "PingMessage"), [str "user"], [[str "user"]]. split; [apply ping_exported|]. intros ul ud uu.
  destruct (C80_all_kept ul ud uu (str "PingMessage") "Tag" [str "user"] [[str "user"]] ping_exported ltac:(left)) as (r & E & D).
  exists r. split; [done|]. rewrite D. intros H. unfold merged in H. apply first_nodup in H. revert H. apply (bool_decide_unpack _). vm_compute. exact I.
Qed.
Print Assumptions C80_merged_refuted.

(** The same for an operation and its trait: the tags of the operation keep their names but those of the trait do not. *)
Theorem C80_operation_refuted : exists parent own traits, exported parent /\ forall ul ud uu,
  exists r, apply_operation_tags ul ud uu parent own traits = Some r /\ ~ merged own traits (map l_declared r).
Proof.
  exists (str "PingMessage"), [str "user"], [[str "user"]]. split; [apply ping_exported|]. intros ul ud uu.
  match goal with |- exists r, ?a = Some r /\ _ => let x := eval vm_compute in a in match x with Some ?l => exists l end end.
  split; [vm_compute; reflexivity|]. intros H. unfold merged in H. apply first_nodup in H. revert H. apply (bool_decide_unpack _). vm_compute. exact I.
Qed.
Print Assumptions C80_operation_refuted.
