(** C42, C43: references and dependencies. *)
From stdpp Require Import gmap list strings.
From Coq Require Import Ascii String.
From Verif.Model Require Import GoStrings Reference.
From Verif.Spec Require Import ReferenceSpec.
From Verif.Proof Require Import GoStringsProof ReferenceProof.
Local Open Scope string_scope.

(** A specification with schema User {id, address {city}}, message Ping {payload -> User, headers ->
    4}, a server, a channel "lights" with the message, and a dependency "other.yaml" (document 7)
    defining schema Shared. *)
Definition ex_spec : spec := mkSpec
  (fun k => if String.eqb k "schemas" then {["User" := 1]} else if String.eqb k "messages" then {["Ping" := 10]}
            else if String.eqb k "servers" then {["main" := 20]} else ∅)
  {["lights" := 30]} {["other.yaml" := 7]}.
Definition ex_other : spec := mkSpec (fun k => if String.eqb k "schemas" then {["Shared" := 5]} else ∅) ∅ ∅.
Definition ex_world : world := mkWorld
  (fun d => if Nat.eqb d 7 then ex_other else ex_spec)
  (fun l => if Nat.eqb l 1 then {["id" := 2; "address" := 3]} else if Nat.eqb l 3 then {["city" := 4]} else ∅)
  (fun m => if Nat.eqb m 10 then Some 1 else None)
  (fun m => if Nat.eqb m 10 then Some 3 else None)
  (fun c => if Nat.eqb c 30 then {["Ping" := 10]} else ∅).

(** Every reference string: a schema is returned exactly when the reference designates it. *)
Theorem C42_schema_exact v3 kinds w s ref l :
  as_schema (reference v3 kinds w s ref) = Ok l <-> designates (schema_steps v3 w) w s ref l.
Proof. exact (reference_schema_exact v3 kinds w s ref l). Qed.
Example C42_schema_exact_ex :
  map (fun r => as_schema (reference3 ex_world ex_spec r))
    ["#/components/schemas/User"; "#/components/schemas/User/address/city"; "#/components/messages/Ping/payload/id";
     "#/channels/lights/messages/Ping/header/city"; "./other.yaml#/components/schemas/Shared";
     "#/components/schemas/Unknown"; "#/components/servers/main"; "nowhere.yaml#/components/schemas/Shared"; "User"]
  = [Ok 1; Ok 4; Ok 2; Ok 4; Ok 5; Err; Err; Err; Err].
Proof. vm_compute. reflexivity. Qed.

Theorem C42_message_exact v3 kinds w s ref l :
  as_message (reference v3 kinds w s ref) = Ok l <-> designates (message_steps v3 w) w s ref l.
Proof. exact (reference_message_exact v3 kinds w s ref l). Qed.
Example C42_message_exact_ex :
  map (fun r => as_message (reference3 ex_world ex_spec r))
    ["#/components/messages/Ping"; "#/channels/lights/messages/Ping"; "#/components/messages/Pong"; "#/components/schemas/User"]
  = [Ok 10; Ok 10; Err; Err].
Proof. vm_compute. reflexivity. Qed.

(** Servers, parameters, tags and so on: one is returned exactly when the reference designates a component of the kind asked for; what is written
    behind the name of the component is ignored (C42_behind_refuted). *)
Theorem C42_other_exact v3 kinds w s kind ref l : kind ∈ kinds -> kind ∉ ["schemas"; "messages"; "channels"] ->
  as_other kind (reference v3 kinds w s ref) = Ok l <-> designates (other_steps kind) w s ref l.
Proof. exact (reference_other_exact v3 kinds w s kind ref l). Qed.
Example C42_other_exact_ex :
  map (fun r => as_other "servers" (reference3 ex_world ex_spec r))
    ["#/components/servers/main"; "#/components/servers/none"; "#/components/schemas/User"; "#/components/tags/main"]
  = [Ok 20; Err; Err; Err] /\ as_other "tags" (reference3 ex_world ex_spec "#/components/servers/main") = Err.
Proof. split; vm_compute; reflexivity. Qed.
(** A reference to a variable of the server gives the server. *)
Theorem C42_behind_refuted : as_other "servers" (reference3 ex_world ex_spec "#/components/servers/main/variables/port") = Ok 20.
Proof. vm_compute. reflexivity. Qed.
Print Assumptions C42_other_exact.
Print Assumptions C42_behind_refuted.

(** A reference to a component of any supported kind by its name returns it, or nil (which the
    accessors turn into an error): no crash. *)
Theorem C42_component3_partial w s kind name :
  kind = "schemas" \/ kind = "messages" \/ kind ∈ v3_kinds -> step_name name ->
  reference3 w s ("#" ++ pointer ["components"; kind; name]) =
  Ok ((if String.eqb kind "schemas" then OSchema else if String.eqb kind "messages" then OMessage
       else if String.eqb kind "channels" then OChannel else OOther kind) (comps s kind !! name)).
Proof. exact (reference_component true v3_kinds w s kind name (fun _ H => H)). Qed.
Example C42_component3_ex :
  reference3 ex_world ex_spec ("#" ++ pointer ["components"; "servers"; "main"]) = Ok (OOther "servers" (Some 20)) /\
  as_other "servers" (reference3 ex_world ex_spec "#/components/servers/none") = Err.
Proof. split; vm_compute; reflexivity. Qed.

Theorem C42_component2_partial w s kind name :
  kind = "schemas" \/ kind = "messages" \/ kind = "parameters" -> step_name name ->
  reference2 w s ("#" ++ pointer ["components"; kind; name]) =
  Ok ((if String.eqb kind "schemas" then OSchema else if String.eqb kind "messages" then OMessage
       else OOther kind) (comps s kind !! name)).
Proof.
  intros H N. unfold reference2. rewrite (reference_component false v2_kinds w s kind name); [| |destruct H as [?|[?|?]]|exact N].
  - destruct H as [->|[->| ->]]; reflexivity.
  - intros k Hk. apply elem_of_list_singleton in Hk as ->. apply (bool_decide_unpack _). vm_compute. exact I.
  - auto.
  - auto.
  - right. right. apply elem_of_list_singleton. assumption.
Qed.

(** Below a schema the code crashes exactly when the parent of the last step is missing. *)
Theorem C42_schema_crash_exactly v3 kinds w s name ns : Forall step_name (name :: ns) ->
  as_schema (reference v3 kinds w s ("#" ++ pointer ("components" :: "schemas" :: name :: ns))) = Panic <->
  exists ns' n, ns = (ns' ++ [n])%list /\ ~ exists l l', comps s "schemas" !! name = Some l /\ leads w l ns' l'.
Proof. exact (reference_schema_panic v3 kinds w s name ns). Qed.

(** Malformed or dangling references crash: too few steps, a missing parent, a missing channel; so
    does a standard JSON pointer through "properties". *)
Theorem C42_crash_refuted :
  as_schema (reference3 ex_world ex_spec "#/components") = Panic /\
  as_schema (reference3 ex_world ex_spec "#/components/schemas") = Panic /\
  as_schema (reference3 ex_world ex_spec "#/components/schemas/Unknown/id") = Panic /\
  as_schema (reference3 ex_world ex_spec "#/components/schemas/User/properties/id") = Panic /\
  as_message (reference3 ex_world ex_spec "#/channels/unknown/messages/Ping") = Panic /\
  as_schema (reference2 ex_world ex_spec "#/components/messages/Ping/headers/city") = Panic.
Proof. vm_compute. repeat split. Qed.

(** C43. With [k] the file's name without leading "./": any spelling is found by any spelling. *)
Theorem C43_found_partial v3 kinds w s k a b d r :
  strip_prefix "./" k = None -> k <> "" -> without "#" k -> without "#" r ->
  spelling k a -> spelling k b ->
  reference v3 kinds w (add_dependency a d s) (b ++ "#" ++ r) = reference v3 kinds w (specs w d) ("#" ++ r).
Proof. exact (dep_found v3 kinds w s k a b d r). Qed.
Example C43_found_ex :
  as_schema (reference3 ex_world (add_dependency "./dir/x.yaml" 7 ex_spec) "dir/x.yaml#/components/schemas/Shared") = Ok 5 /\
  as_schema (reference3 ex_world (add_dependency "dir/x.yaml" 7 ex_spec) "./dir/x.yaml#/components/schemas/Shared") = Ok 5.
Proof. split; vm_compute; reflexivity. Qed.

(** References naming another file, or no file, do not see it. *)
Theorem C43_other v3 kinds w s k k' a b d r :
  strip_prefix "./" k = None -> strip_prefix "./" k' = None -> k' <> "" -> k <> k' ->
  without "#" k' -> without "#" r -> spelling k a -> spelling k' b ->
  reference v3 kinds w (add_dependency a d s) (b ++ "#" ++ r) = reference v3 kinds w s (b ++ "#" ++ r).
Proof. exact (dep_other v3 kinds w s k k' a b d r). Qed.
Example C43_other_ex :
  as_schema (reference3 ex_world (add_dependency "./x.yaml" 9 ex_spec) "other.yaml#/components/schemas/Shared") = Ok 5.
Proof. vm_compute. reflexivity. Qed.

Theorem C43_local v3 kinds w s a d r : without "#" r ->
  reference v3 kinds w (add_dependency a d s) ("#" ++ r) = reference v3 kinds w s ("#" ++ r).
Proof. exact (dep_local v3 kinds w s a d r). Qed.

(** For all texts: the dependency given as [a] answers exactly the references that name its file, and all others are as without it. *)
Theorem C43_exact v3 kinds w s k k' a b d r :
  file_named a k -> file_named b k' -> b <> "" -> without "#" b -> without "#" r ->
  (k = k' -> reference v3 kinds w (add_dependency a d s) (b ++ "#" ++ r) = reference v3 kinds w (specs w d) ("#" ++ r)) /\
  (k <> k' -> reference v3 kinds w (add_dependency a d s) (b ++ "#" ++ r) = reference v3 kinds w s (b ++ "#" ++ r)).
Proof. exact (dep_exact v3 kinds w s k k' a b d r). Qed.
(** Every text names exactly one file. *)
Theorem C43_one_file f : exists k, file_named f k /\ forall k', file_named f k' -> k' = k.
Proof.
  exists (trim_prefix "./" f). split; [|intros k' H; symmetry; exact (named_trim f k' H)].
  unfold trim_prefix, file_named. destruct (strip_prefix "./" f) as [q|] eqn:E; cbn; [left; now apply strip_prefix_some|right]. split; [reflexivity|].
  intros rest ->. now rewrite strip_prefix_app in E.
Qed.
Example C43_exact_ex : file_named "././x.yaml" "./x.yaml" /\ file_named "x.yaml" "x.yaml" /\
  as_schema (reference3 ex_world (add_dependency "././x.yaml" 7 ex_spec) "././x.yaml#/components/schemas/Shared") = Ok 5 /\
  as_schema (reference3 ex_world (add_dependency "././x.yaml" 7 ex_spec) "x.yaml#/components/schemas/Shared") = Err.
Proof.
  split; [left; reflexivity|]. split; [right; split; [reflexivity|intros rest; cbn; discriminate]|]. split; vm_compute; reflexivity.
Qed.

(** Only one "./" is removed: a doubled one is another file. *)
Theorem C43_doubled_refuted :
  as_schema (reference3 ex_world (add_dependency "././x.yaml" 7 ex_spec) "./x.yaml#/components/schemas/Shared") = Err.
Proof. vm_compute. reflexivity. Qed.

Print Assumptions C42_schema_exact.
Print Assumptions C42_message_exact.
Print Assumptions C42_component3_partial.
Print Assumptions C42_component2_partial.
Print Assumptions C42_schema_crash_exactly.
Print Assumptions C42_crash_refuted.
Print Assumptions C43_found_partial.
Print Assumptions C43_exact.
Print Assumptions C43_one_file.
Print Assumptions C43_other.
Print Assumptions C43_local.
Print Assumptions C43_doubled_refuted.
