(** C69: unmarshalling what was marshalled with additional properties. *)
From stdpp Require Import gmap list strings.
From Coq Require Import String Ascii.
From Verif.Model Require Import AdditionalDecode.
From Verif.Proof Require Import AdditionalDecodeProof.
Local Open Scope string_scope.

(** Reading back what was written gives the same structure, provided that
    - every declared property that is set can also be read as an additional property,
    - no additional property has the name of a declared one, up to case.
    Missing: the first condition, which depends on the specification, and the second one, which
    concerns the data; see below. *)
Theorem C69_roundtrip_partial {J T V} (as_extra : J -> option T) (as_field : nat -> J -> option V) names fold
  (enc_field : nat -> V -> J) (enc_extra : T -> J) (fs : list (option V)) (m : gmap string T) (l : list (string * T)) :
  l ≡ₚ map_to_list m -> NoDup names -> List.length fs = List.length names ->
  (forall j v, as_field j (enc_field j v) = Some v) -> (forall t, as_extra (enc_extra t) = Some t) ->
  (forall n v, fs !! n = Some (Some v) -> is_Some (as_extra (enc_field n v))) ->
  (forall k n, k ∈ dom m -> n ∈ names -> fold k <> fold n) ->
  unmarshal as_extra as_field names fold (members names enc_field enc_extra fs l) = Some (fs, m).
Proof. exact (roundtrip as_extra as_field names fold enc_field enc_extra fs m l). Qed.
Definition lower (s : string) : string :=
  string_of_list_ascii (map (fun a => if (Nat.leb 65 (nat_of_ascii a) && Nat.leb (nat_of_ascii a) 90)%bool
                                      then ascii_of_nat (nat_of_ascii a + 32) else a) (list_ascii_of_string s)).
Example C69_roundtrip_ex :
  let m : gmap string nat := {["a" := 1; "b" := 2]} in
  members ["x"; "y"; "z"] (fun _ n => n) (fun n => n) [Some 7; None; Some 8] (map_to_list m) = [("x", 7); ("z", 8); ("b", 2); ("a", 1)] /\
  (forall k n, k ∈ dom m -> n ∈ ["x"; "y"; "z"] -> lower k <> lower n) /\
  unmarshal Some (fun _ => Some) ["x"; "y"; "z"] lower [("x", 7); ("z", 8); ("b", 2); ("a", 1)] = Some ([Some 7; None; Some 8], m).
Proof.
  cbv zeta. split; [vm_compute; reflexivity|]. split; [|apply (bool_decide_unpack _); vm_compute; exact I].
  intros k n Hk Hn. apply elem_of_dom in Hk as [t Hk]. rewrite lookup_insert_Some, lookup_singleton_Some in Hk. rewrite !elem_of_cons, elem_of_nil in Hn.
  destruct Hk as [[<- _]|[_ [<- _]]]; destruct Hn as [->|[->|[->|[]]]]; vm_compute; discriminate.
Qed.

(** Without the first condition nothing can be read back: whenever a declared property is set and its
    value cannot be read as an additional property, unmarshalling fails, whatever the rest. *)
Theorem C69_fails {J T V} (as_extra : J -> option T) (as_field : nat -> J -> option V) names fold
  (enc_field : nat -> V -> J) (enc_extra : T -> J) (fs : list (option V)) l n v :
  List.length fs = List.length names -> fs !! n = Some (Some v) -> as_extra (enc_field n v) = None ->
  unmarshal as_extra as_field names fold (members names enc_field enc_extra fs l) = None.
Proof. exact (unmarshal_fails as_extra as_field names fold enc_field enc_extra fs l n v). Qed.

(** Refuted: a number next to additional strings, none of which is set. *)
Theorem C69_refuted : exists (as_extra : nat + string -> option string) (as_field : nat -> nat + string -> option nat)
    (enc_field : nat -> nat -> nat + string) (enc_extra : string -> nat + string) names fs,
  (forall j v, as_field j (enc_field j v) = Some v) /\ (forall t, as_extra (enc_extra t) = Some t) /\ NoDup names /\
  unmarshal as_extra as_field names lower (members names enc_field enc_extra fs []) = None.
Proof.
  exists (fun j => match j with inl _ => None | inr s => Some s end), (fun _ j => match j with inl n => Some n | inr _ => None end),
    (fun _ => inl), inr, ["count"], [Some 3]. repeat split. apply NoDup_singleton.
Qed.

(** Refuted for the second condition alone: all values are numbers, and the additional property [Count]
    overwrites the declared property [count]. *)
Theorem C69_case_refuted : exists (m : gmap string nat) fs,
  (forall k, k ∈ dom m -> k ∉ ["count"]) /\
  unmarshal Some (fun _ => Some) ["count"] lower (members ["count"] (fun _ n => n) (fun n => n) [Some 3] (map_to_list m)) = Some (fs, m) /\
  fs <> [Some 3].
Proof.
  exists {["Count" := 4]}, [Some 4]. split.
  - intros k H. apply elem_of_dom in H as [t H]. apply lookup_singleton_Some in H as [<- _]. apply (bool_decide_unpack _). vm_compute. exact I.
  - split; [vm_compute; reflexivity|discriminate].
Qed.

Print Assumptions C69_roundtrip_partial.
Print Assumptions C69_fails.
Print Assumptions C69_refuted.
Print Assumptions C69_case_refuted.
