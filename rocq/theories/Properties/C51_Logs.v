(** C51: structured logs. C66: ECS log lines. *)
From stdpp Require Import list strings.
From Coq Require Import String Ascii.
From Verif.Model Require Import GoStrings Logs.
From Verif.Spec Require Import LogsSpec.
From Verif.Proof Require Import LogsProof.
Local Open Scope string_scope.

(** The log says [v] about the key [k] exactly when [v] was logged under [k] and nothing was logged
    later under [k], under a key it continues or under a key that continues it. *)
Theorem C51_last_value info k ks v : parts_of k ks ->
  says (structure_logs info) ks v <->
  exists pre post, info = (pre ++ (k, v) :: post)%list /\ forall kv, kv ∈ post -> ~ clash kv.1 k.
Proof. exact (structure_says info k ks v). Qed.
Example C51_last_value_ex :
  let info := [("a.b", "1"); ("c", "2"); ("a.d", "3"); ("a.b", "4"); ("c.e.f", "5"); ("g.h", "6"); ("g", "7")] in
  structure_logs info =
    [("a", LMap [("b", LText "4"); ("d", LText "3")]); ("c", LMap [("e", LMap [("f", LText "5")])]); ("g", LText "7")] /\
  says (structure_logs info) ["a"; "b"] "4" /\ ~ says (structure_logs info) ["c"] "2".
Proof.
  split; [vm_compute; reflexivity|]. split.
  - vm_compute. eapply says_map; [left|]. apply says_text. left.
  - vm_compute. intros H. inversion H as [m k v M|]; subst; [|match goal with S : says _ [] _ |- _ => inversion S end].
    rewrite !elem_of_cons, elem_of_nil in M. intuition discriminate.
Qed.

(** Every key has one value at most. *)
Theorem C51_functional info ks v w :
  functional (structure_logs info) /\ (says (structure_logs info) ks v -> says (structure_logs info) ks w -> v = w).
Proof.
  pose proof (structure_functional info) as F. split; [exact F|]. rewrite !says_find by exact F. congruence.
Qed.

(** C66: whatever the caller logs besides, an ECS line says its level, its message, its time and
    what the context holds. *)
Theorem C66_ecs c now level msg info : let l := ecs_line c now level msg info in
  says l ["log"; "level"] level /\ says l ["message"] msg /\ says l ["@timestamp"] now /\
  says l ["log"; "logger"] "github.com/lerenn/asyncapi-codegen/pkg/extensions/loggers/ecs.go" /\
  (forall v, c_provider c = Some v -> says l ["asyncapi"; "provider"] v) /\
  (forall v, c_channel c = Some v -> says l ["asyncapi"; "channel"] v) /\
  (forall v, c_message c = Some v -> says l ["event"; "original"] v) /\
  (forall v, c_correlation c = Some v -> says l ["trace"; "id"] v) /\
  (c_direction c = Some "publication" -> says l ["event"; "action"] "published-message") /\
  (c_direction c = Some "reception" -> says l ["event"; "action"] "received-message").
Proof.
  cbn zeta. rewrite ecs_line_tail. pose proof (ecs_tail_keys c now level msg) as T.
  assert (P : forall k ks, ks = split "." k -> parts_of k ks) by (intros; now apply parts_split).
  repeat split; intros;
    (match goal with
     | |- says _ ["log"; "level"] _ => apply (keeps _ _ "log.level")
     | |- says _ ["log"; "logger"] _ => apply (keeps _ _ "log.logger")
     | |- says _ ["message"] _ => apply (keeps _ _ "message")
     | |- says _ ["@timestamp"] _ => apply (keeps _ _ "@timestamp")
     | |- says _ ["asyncapi"; "provider"] _ => apply (keeps _ _ "asyncapi.provider")
     | |- says _ ["asyncapi"; "channel"] _ => apply (keeps _ _ "asyncapi.channel")
     | |- says _ ["event"; "original"] _ => apply (keeps _ _ "event.original")
     | |- says _ ["trace"; "id"] _ => apply (keeps _ _ "trace.id")
     | |- says _ ["event"; "action"] _ => apply (keeps _ _ "event.action")
     end; [apply P; vm_compute; reflexivity|exact T|]);
    unfold ecs_tail, ecs_info; rewrite !elem_of_app, !elem_of_cons, !elem_of_nil;
    try match goal with E : _ = Some _ |- _ => rewrite E end; cbn;
    rewrite ?elem_of_cons, ?elem_of_nil; tauto.
Qed.
Example C66_ecs_ex :
  ecs_line (mkContext (Some "kafka") None (Some "reception") None (Some "42")) "now" "info" "hello"
    [("message", "mine"); ("log", "x"); ("broker.host", "h")] =
  [("message", LText "hello");
   ("log", LMap [("level", LText "info"); ("logger", LText "github.com/lerenn/asyncapi-codegen/pkg/extensions/loggers/ecs.go")]);
   ("broker", LMap [("host", LText "h")]); ("asyncapi", LMap [("provider", LText "kafka")]);
   ("event", LMap [("action", LText "received-message")]); ("trace", LMap [("id", LText "42")]); ("@timestamp", LText "now")].
Proof. vm_compute. reflexivity. Qed.

(** The price: an entry of the caller is kept exactly when its key clashes with none of the logger's. *)
Theorem C66_caller_entries c now level msg info k ks v : parts_of k ks ->
  says (structure_logs info) ks v -> (forall a, a ∈ ecs_keys -> ~ clash a k) -> says (ecs_line c now level msg info) ks v.
Proof.
  intros P S N. rewrite ecs_line_tail. apply (structure_says _ k ks v P) in S as (pre & post & -> & H).
  apply (structure_says _ k ks v P). exists pre, (post ++ ecs_tail c now level msg)%list.
  split; [now rewrite <- app_assoc|]. intros kv [M|M]%elem_of_app; [now apply H|]. apply N.
  eapply sublist_elem; [apply (ecs_tail_keys c now level msg)|]. apply elem_of_list_fmap. now exists kv.
Qed.
Example C66_caller_entries_ex : clash "log.level" "log" /\ ~ clash "log.level" "broker.host" /\
  parts_of "broker.host" ["broker"; "host"].
Proof.
  split; [apply clash_split; right; now exists ["level"]|]. split; [apply clashb_false; vm_compute; reflexivity|].
  apply parts_split. reflexivity.
Qed.

Print Assumptions C51_last_value.
Print Assumptions C51_functional.
Print Assumptions C66_ecs.
Print Assumptions C66_caller_entries.
