(** C113: the texts of a document stand in the string literals of the generated code as they are.
    Full statement: for every document, the literal written for its version, for an address, for a header and for the tags of a field has the value that the
    document has there, and the text around it is that of the template. It holds of every address where %q writes it (C113_address); elsewhere the text is
    written between quotes as it is, which is right exactly for the texts that C113_exact describes, and lets a document add code to the package otherwise. *)
From stdpp Require Import list strings.
From Coq Require Import NArith Lia.
From Verif.Model Require Import Additional Literals.
From Verif.Spec Require Import JsonSpec ShowSpec LiteralSpec.
From Verif.Proof Require Import LiteralProof.
Local Open Scope N_scope.
Local Open Scope list_scope.

(** The compiler reads a literal in one way: it ends where it ends, and has one value. *)
Theorem C113_one t v t' v' x x' : literal t v -> literal t' v' -> t ++ x = t' ++ x' -> t = t' /\ v = v' /\ x = x'.
Proof. exact (literal_prefix t v t' v' x x'). Qed.
Print Assumptions C113_one.

(** The address with which the generated code subscribes and publishes (a channel without parameters) is that of the document, whatever it is. *)
Theorem C113_address printable address : printable 65279 = false -> real address -> literal (channel_address printable address) (bytes_of address).
Proof. exact (fun M => quote_literal printable M address). Qed.
Print Assumptions C113_address.

(** The other literals: exactly for texts without quotes, backslashes, newlines and what may not stand in a source file. *)
Theorem C113_exact_partial s name :
  (holds (version_constant s) (own "const AsyncAPIVersion = ") s [] <-> plain s) /\
  (holds (version_context s) (own "ctx = context.WithValue(ctx, extensions.ContextKeyIsVersion, ") s (own ")") <-> plain s) /\
  (holds (path_constant name s) (name ++ own "Path = ") s [] <-> plain s) /\
  (holds (header_case s) (own "case k == ") s (own ":") <-> plain s) /\
  (holds (header_store s) (own "headers[") s (own "]") <-> plain s) /\
  (raw_literal (field_tags s) (bytes_of s) <-> plain_tag s).
Proof.
  split; [|split; [|split; [|split; [|split; [|exact (tags_plain s)]]]]].
  - pose proof (holds_between (own "const AsyncAPIVersion = ") s []) as H. by rewrite app_nil_r in H.
  - exact (holds_between (own "ctx = context.WithValue(ctx, extensions.ContextKeyIsVersion, ") s (own ")")).
  - pose proof (holds_between (name ++ own "Path = ") s []) as H. rewrite app_nil_r, <- app_assoc in H. exact H.
  - exact (holds_between (own "case k == ") s (own ":")).
  - exact (holds_between (own "headers[") s (own "]")).
Qed.
Print Assumptions C113_exact_partial.

(** The constant of a channel is the address that the generated code uses, exactly for such addresses. *)
Theorem C113_agree printable address : printable 65279 = false -> real address ->
  (exists v, literal (between address) v /\ literal (channel_address printable address) v) <-> plain address.
Proof.
  intros M R. pose proof (quote_literal printable M address R) as Q. split.
  - intros (v & H & H'). destruct (literal_prefix _ _ _ _ [] [] H' Q eq_refl) as (_ & -> & _). by apply between_plain.
  - intros P. exists (bytes_of address). split; [by apply between_plain|done].
Qed.
Print Assumptions C113_agree.

(** ** Examples *)
Ltac each t := match goal with |- Forall ?P ?l => let l' := eval vm_compute in l in change (Forall P l') end; repeat (apply Forall_cons_2; [t|]); apply Forall_nil_2.
Definition latin (r : N) : bool := (160 <? r) && (r <? 592).
Example C113_address_ex :
  let a := own "a/""b""\{c}" ++ [Rune 10; Rune 233; BadByte 200; Rune 65279; Rune 128512; Rune 0] in
  real a /\ channel_address latin a = own """a/\""b\""\\{c}\n" ++ [Rune 233] ++ own "\xc8\ufeff\U0001f600\x00""".
Proof.
  split; [|vm_compute; reflexivity].
  unfold real. each ltac:(cbn; unfold surrogate; lia).
Qed.
Example C113_exact_ex : plain (own "v1/{user}.signedup" ++ [Rune 233]) /\ plain_tag (own "json:""name,omitempty"" validate:""required""") /\
  version_constant (own "1.0.0") = own "const AsyncAPIVersion = ""1.0.0""" /\ path_constant (own "Pings") (own "ping") = own "PingsPath = ""ping""".
Proof.
  split; [|split; [|split; vm_compute; reflexivity]].
  - unfold plain, plain_tag. each ltac:(eexists; split; [reflexivity|]; unfold in_source, real_char, surrogate; lia).
  - unfold plain, plain_tag. each ltac:(eexists; split; [reflexivity|]; unfold in_source, real_char, surrogate; lia).
Qed.
Example C113_agree_ex : exists v, literal (between (own "pets/{id}")) v /\ literal (channel_address latin (own "pets/{id}")) v.
Proof.
  apply C113_agree; [reflexivity| |].
  - unfold real. each ltac:(cbn; unfold surrogate; lia).
  - unfold plain, plain_tag. each ltac:(eexists; split; [reflexivity|]; unfold in_source, real_char, surrogate; lia).
Qed.
Example C113_one_ex : literal (own """a\tb""") [97; 9; 98].
Proof.
  exists [([Rune 97], [97]); ([Rune 92; Rune 116], [9]); ([Rune 98], [98])]. split; [reflexivity|]. split; [reflexivity|].
  apply Forall_cons_2; [|apply Forall_cons_2; [|apply Forall_cons_2; [|apply Forall_nil_2]]]; cbn [fst snd].
  - apply (go_plain 97); unfold in_source, real_char, surrogate; lia.
  - apply go_simple. apply (bool_decide_unpack _). vm_compute. exact I.
  - apply (go_plain 98); unfold in_source, real_char, surrogate; lia.
Qed.

(** Claim: a literal has the value of the document whenever the generated code compiles. Refuted: a backslash and a letter in the name of a header (or in
    a version, an address, ...) are read as one other byte, wherever they stand. *)
Theorem C113_backslash_refuted s s' e v : (e, v) ∈ [(97, 7); (98, 8); (102, 12); (110, 10); (114, 13); (116, 9); (118, 11); (92, 92); (34, 34)] ->
  plain s -> plain s' ->
  let key := s ++ [Rune 92; Rune e] ++ s' in
  literal (between key) (bytes_of s ++ [v] ++ bytes_of s') /\ bytes_of s ++ [v] ++ bytes_of s' <> bytes_of key.
Proof.
  intros H P P'. cbv zeta. split.
  - apply between_parts. apply between_plain, between_parts in P as (ps & E & V & F). apply between_plain, between_parts in P' as (ps' & E' & V' & F').
    exists (ps ++ [([Rune 92; Rune e], [v])] ++ ps'). split; [|split].
    + rewrite !map_app, !concat_app. by rewrite <- E, <- E'.
    + rewrite !map_app, !concat_app. by rewrite <- V, <- V'.
    + apply Forall_app. split; [done|]. apply Forall_app. split; [|done]. apply Forall_cons_2; [by apply go_simple|apply Forall_nil_2].
  - rewrite !bytes_app. intros E. apply app_inv_head, (f_equal (@List.length N)) in E. rewrite !app_length in E.
    pose proof (rune_bytes [92; e]) as L. cbn [map] in L. cbn [List.length] in *. lia.
Qed.
Print Assumptions C113_backslash_refuted.
Example C113_backslash_ex : header_store (own "x" ++ [Rune 92; Rune 116] ++ own "y") = own "headers[""x\ty""]".
Proof. reflexivity. Qed.

(** Claim: a document adds nothing to the generated package but what the templates say. Refuted: whatever declarations are wanted, some version (address,
    header, tag) brings them in, between literals that are complete. *)
Theorem C113_code_refuted declarations : exists version tags,
  version_constant version = own "const AsyncAPIVersion = ""1""; " ++ declarations ++ own "; const _ = """"" /\
  field_tags tags = own "``}; " ++ declarations ++ own "; type _ struct { _ int ``" /\
  literal (own """1""") [49] /\ literal (own """""") [] /\ raw_literal (own "``") [].
Proof.
  exists (own "1""; " ++ declarations ++ own "; const _ = """), (own "`}; " ++ declarations ++ own "; type _ struct { _ int `").
  split; [|split; [|split; [|split]]].
  - unfold version_constant, between. rewrite <- !app_assoc. reflexivity.
  - unfold field_tags. rewrite <- !app_assoc. reflexivity.
  - exists [([Rune 49], [49])]. split; [done|]. split; [done|]. apply Forall_cons_2; [|apply Forall_nil_2]. apply (go_plain 49); unfold in_source, real_char, surrogate; lia.
  - by exists [].
  - by exists [].
Qed.
Print Assumptions C113_code_refuted.
Example C113_code_ex : version_constant (own "1""; func init() { os.Exit(0) }; const _ = """) =
  own "const AsyncAPIVersion = ""1""; func init() { os.Exit(0) }; const _ = """"".
Proof. reflexivity. Qed.
