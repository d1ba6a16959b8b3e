(** C111: the generated controllers have exactly the methods that the document calls for, with the types of its messages and parameters, and programs are asked
    for exactly the handlers of what they receive. *)
From stdpp Require Import gmap list strings.
From Coq Require Import NArith Ascii String.
From Verif.Model Require Import Naming Names Operations Package Package2.
From Verif.Spec Require Import NamingSpec NamesSpec OperationsSpec PackageSpec Package2Spec OfferedSpec.
From Verif.Proof Require Import PackageProof Package2Proof OfferedProof.
From Verif.Properties Require C86_Package C87_Package2.
Local Open Scope string_scope.
Local Open Scope list_scope.

(** ** Version 2
    For every document that can be generated: a method that programs can call is declared for the controller of a side exactly when the document calls for it.
    No message may be named like a controller or a subscriber. *)
Theorem C111_controllers2 : forall ul ud uu info cs messages schemas c,
  package2 ul ud uu info cs messages schemas = Some c ->
  (forall m s, generated cs messages m -> name_it ul ud uu (message_name info m) ∉ [word s +:+ "Controller"; word s +:+ "Subscriber"]) ->
  forall s n args results, visible n ->
  DeclMethod (word s +:+ "Controller") n args results ∈ c.1 <->
  offered2 (operation_name ul ud uu) (fun k => name_without_params ul ud uu k +:+ "Parameters") (message_name info) cs s n args results.
Proof.
  intros ul ud uu info cs messages schemas c E A s n args results V. eapply controllers2; [exact E| |exact V].
  intros m s' Hm. specialize (A m s' Hm). rewrite !not_elem_of_cons in A. destruct A as (A1 & A2 & _). done.
Qed.
Print Assumptions C111_controllers2.

Theorem C111_handlers2 : forall ul ud uu info cs messages schemas c,
  package2 ul ud uu info cs messages schemas = Some c ->
  (forall m s, generated cs messages m -> name_it ul ud uu (message_name info m) ∉ [word s +:+ "Controller"; word s +:+ "Subscriber"]) ->
  forall s n args results, DeclMethod (word s +:+ "Subscriber") n args results ∈ c.1 <-> asked2 (operation_name ul ud uu) (message_name info) cs s n args results.
Proof.
  intros ul ud uu info cs messages schemas c E A s n args results. eapply subscribers2; [exact E|].
  intros m s' Hm. specialize (A m s' Hm). rewrite !not_elem_of_cons in A. destruct A as (A1 & A2 & _). done.
Qed.
Print Assumptions C111_handlers2.

(** ** Version 3
    Partial: operations whose messages are determined, with different keys for what a side sends (C86 has documents without). *)
Theorem C111_controllers3_partial : forall ul ud uu info order ops cs messages schemas c,
  (forall site ch, order site ch ≡ₚ ch_messages ch) -> NoDup ops.*1 -> Forall (fun ko => determined ko.2) ops ->
  package ul ud uu info order ops cs messages schemas = Some c ->
  (forall m s, m ∈ messages -> type_of ul ud uu info m ∉ [word s +:+ "Controller"; word s +:+ "Subscriber"]) ->
  forall s n args results, no_clash s ops -> visible n ->
  DeclMethod (word s +:+ "Controller") n args results ∈ c.1 <->
  offered info (fun k => name_without_params ul ud uu k +:+ "Parameters") (type_of ul ud uu info) ops s n args results.
Proof.
  intros ul ud uu info order ops cs messages schemas c P N D E A s n args results H V. eapply controllers3; [exact P|exact N|exact D|exact E| |exact H|exact V].
  intros m s' Hm. specialize (A m s' Hm). rewrite !not_elem_of_cons in A. destruct A as (A1 & A2 & _). done.
Qed.
Print Assumptions C111_controllers3_partial.

Theorem C111_handlers3_partial : forall ul ud uu info order ops cs messages schemas c,
  (forall site ch, order site ch ≡ₚ ch_messages ch) -> NoDup ops.*1 -> Forall (fun ko => determined ko.2) ops ->
  package ul ud uu info order ops cs messages schemas = Some c ->
  (forall m s, m ∈ messages -> type_of ul ud uu info m ∉ [word s +:+ "Controller"; word s +:+ "Subscriber"]) ->
  forall s n args results, DeclMethod (word s +:+ "Subscriber") n args results ∈ c.1 <-> asked (type_of ul ud uu info) ops s n args results.
Proof.
  intros ul ud uu info order ops cs messages schemas c P N D E A s n args results. eapply subscribers3; [exact P|exact N|exact D|exact E|].
  intros m s' Hm. specialize (A m s' Hm). rewrite !not_elem_of_cons in A. destruct A as (A1 & A2 & _). done.
Qed.
Print Assumptions C111_handlers3_partial.

(** Without different keys: the document calls for both answers, and only one can be sent. *)
Theorem C111_shared_reply_refuted : forall ul ud uu, let ops := [("pang", C86_Package.pang); ("ping", C86_Package.ping)] in
  exists c, package ul ud uu C86_Package.all_plain C86_Package.in_order ops C86_Package.two_channels [0; 1; 2]%nat [] = Some c /\
  Forall (fun ko => determined ko.2) ops /\
  offered C86_Package.all_plain (fun k => name_without_params ul ud uu k +:+ "Parameters") (type_of ul ud uu C86_Package.all_plain) ops Application
    "SendAsReplyToPangOperation" [TyCtx; TyName (type_of ul ud uu C86_Package.all_plain 1)] [TyError] /\
  DeclMethod "AppController" "SendAsReplyToPangOperation" [TyCtx; TyName (type_of ul ud uu C86_Package.all_plain 1)] [TyError] ∉ c.1.
Proof.
  intros ul ud uu ops. eexists. split; [vm_compute; reflexivity|]. split; [|split].
  - repeat (apply Forall_cons_2; [split; [done| |exists 0%nat; by right|intros ch (r & [= <-] & [= <-]); by exists 1%nat];
      apply C86_Package.exported_of; [apply (bool_decide_unpack _); vm_compute; exact I|];
      repeat (apply Forall_cons; split; [unfold word_char; apply (bool_decide_unpack _); vm_compute; exact I|]); constructor|]). constructor.
  - apply (offered_send_answer C86_Package.all_plain (fun k => name_without_params ul ud uu k +:+ "Parameters") (type_of ul ud uu C86_Package.all_plain) ops Application "pang" C86_Package.pang C86_Package.pong_channel 1); [apply elem_of_list_here|done|by eexists|done].
  - apply (bool_decide_unpack _). vm_compute. exact I.
Qed.
Print Assumptions C111_shared_reply_refuted.

(** ** Examples *)
Example C111_determined : Forall (fun ko => determined ko.2) [("ping", C86_Package.ping); ("news", C86_Package.news)].
Proof.
  apply Forall_cons_2; [|apply Forall_cons_2; [|constructor]].
  1: split; [done| |exists 0%nat; by right|intros ch (r & [= <-] & [= <-]); by exists 1%nat].
  2: split; [done| |exists 1%nat; by left|intros ch (r & E & _); discriminate E].
  all: apply C86_Package.exported_of; [apply (bool_decide_unpack _); vm_compute; exact I|];
      repeat (apply Forall_cons; split; [unfold word_char; apply (bool_decide_unpack _); vm_compute; exact I|]); constructor.
Qed.
Example C111_request ul ud uu : exists c,
  package ul ud uu C86_Package.plain (fun _ => ch_messages) [("ping", C86_Package.ping); ("news", C86_Package.news)] C86_Package.channels [0; 1; 2]%nat [] = Some c /\
  offered C86_Package.plain (fun k => name_without_params ul ud uu k +:+ "Parameters") (type_of ul ud uu C86_Package.plain) [("ping", C86_Package.ping); ("news", C86_Package.news)] User
    "RequestToPingOperation" [TyCtx; TyName (type_of ul ud uu C86_Package.plain 0)] [TyName (type_of ul ud uu C86_Package.plain 1); TyError] /\
  no_clash User [("ping", C86_Package.ping); ("news", C86_Package.news)] /\ visible "RequestToPingOperation" /\
  Forall (fun m => Forall (fun s => type_of ul ud uu C86_Package.plain m ∉ [word s +:+ "Controller"; word s +:+ "Subscriber"]) [Application; User]) [0; 1; 2]%nat.
Proof.
  eexists. split; [vm_compute; reflexivity|]. split; [|split; [apply C86_Package.C86_clash_ex|split]].
  - apply (offered_request C86_Package.plain (fun k => name_without_params ul ud uu k +:+ "Parameters") (type_of ul ud uu C86_Package.plain)
      [("ping", C86_Package.ping); ("news", C86_Package.news)] User "ping" C86_Package.ping 0 C86_Package.pong_channel 1); [left|done|by right|by eexists|done].
  - do 2 eexists. split; [reflexivity|]. apply (bool_decide_unpack _). vm_compute. exact I.
  - apply (bool_decide_unpack _). vm_compute. exact I.
Qed.
Example C111_waiting ul ud uu : exists c, package2 ul ud uu C87_Package2.info2 C87_Package2.document [(4, true)]%nat [] = Some c /\
  offered2 (operation_name ul ud uu) (fun k => name_without_params ul ud uu k +:+ "Parameters") (message_name C87_Package2.info2) C87_Package2.document User
    "WaitForAnswer" [TyCtx; TyName "MessageWithCorrelationID"; TyOther "func(context.Context) error"] [TyName "PongMessage"; TyError] /\
  DeclMethod "UserController" "WaitForAnswer" [TyCtx; TyName "MessageWithCorrelationID"; TyOther "func(context.Context) error"] [TyName "PongMessage"; TyError] ∈ c.1 /\
  DeclMethod "AppController" "WaitForAnswer" [TyCtx; TyName "MessageWithCorrelationID"; TyOther "func(context.Context) error"] [TyName "PongMessage"; TyError] ∉ c.1 /\
  Forall (fun m => Forall (fun s => name_it ul ud uu (message_name C87_Package2.info2 m) ∉ [word s +:+ "Controller"; word s +:+ "Subscriber"]) [Application; User]) [0; 1; 2; 3; 4]%nat.
Proof.
  eexists. split; [vm_compute; reflexivity|]. split; [|split; [|split]]; [|apply (bool_decide_unpack _); vm_compute; exact I..].
  apply (offered2_wait (operation_name ul ud uu) (fun k => name_without_params ul ud uu k +:+ "Parameters") (message_name C87_Package2.info2) C87_Package2.document User ("answer", C87_Package2.answer) (mkOperation2 "" 4 true None)); [by right; left|done..].
Qed.
