(** C120: the names in the documentation comments. *)
From stdpp Require Import list strings.
From Coq Require Import NArith Ascii String.
From Verif.Model Require Import Naming Suffix.
From Verif.Spec Require Import NamingSpec SuffixSpec.
From Verif.Proof Require Import NamingProof SuffixProof.

Definition chars (s : string) : bytes := list_ascii_of_string s.

(** Exactly: the suffix is taken off as it should be, unless a "_" stands before it, or "_" and the suffix twice. *)
Theorem C120_exact s suf :
  suf <> [] ->
  (without suf s (cut_suffix s suf) <-> ~ ends_with s ("_"%char :: suf) /\ ~ ends_with s ("_"%char :: suf ++ suf)).
Proof. exact (cut_suffix_exact s suf). Qed.
Print Assumptions C120_exact.

(** The names it is used on are those of types: letters and digits. For them it is right, whatever the document. *)
Theorem C120_names ul ud uu s suf :
  (forall r, uu r <> []) -> suf <> [] ->
  exists n, namify ul ud uu s = Some n /\ without suf n (cut_suffix n suf) /\
    forall r, n = r ++ suf -> cut_suffix n suf = r.
Proof.
  intros Hu Hs. destruct (namify_idempotent ul ud uu s Hu) as (n & E & Hn & _). exists n. split; [exact E|].
  assert (N : forall a b, n <> a ++ "_"%char :: b).
  { intros a b En. destruct Hn as [->|(c & r & -> & Hc & Hr)]; [by destruct a|].
    assert ("_"%char ∈ c :: r) as Hin by (rewrite En; apply elem_of_app; right; left).
    apply elem_of_cons in Hin as [<-|Hin].
    - revert Hc. apply (bool_decide_unpack _). vm_compute. exact I.
    - rewrite Forall_forall in Hr. apply Hr in Hin. revert Hin. apply (bool_decide_unpack _). vm_compute. exact I. }
  assert (W : without suf n (cut_suffix n suf)) by (apply cut_suffix_exact; [exact Hs|]; split; intros [a Ea]; by eapply N).
  split; [exact W|]. intros r Er. apply (without_fun suf n); [exact W|]. apply W_plain; [exact Er|]. intros [a Ea]. by eapply N.
Qed.
Print Assumptions C120_names.

(** On other names the second cut comes too late: the "_" stays, and a name that repeats the suffix loses it twice. *)
Theorem C120_joined_refuted :
  exists s r suf, suf <> [] /\ without suf s r /\ cut_suffix s suf <> r.
Proof.
  exists (chars "User_Message"), (chars "User"), (chars "Message"). split; [discriminate|]. split; [by apply W_joined|]. vm_compute. discriminate.
Qed.
Print Assumptions C120_joined_refuted.

Example C120_example :
  cut_suffix (chars "UserSignedUpMessage") (chars "Message") = chars "UserSignedUp" /\
  cut_suffix (chars "Ping") (chars "Message") = chars "Ping" /\
  cut_suffix (chars "User_Message") (chars "Message") = chars "User_" /\
  cut_suffix (chars "User_MessageMessage") (chars "Message") = chars "User".
Proof. vm_compute. repeat split. Qed.
