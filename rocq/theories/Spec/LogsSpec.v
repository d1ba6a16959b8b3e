(** What a structured log says about a dotted key. *)
From stdpp Require Import list strings.
From Coq Require Import String Ascii.
From Verif.Model Require Import Logs.
Local Open Scope string_scope.

(** [ks] are the parts of the key [s]: no part has a dot, and they make up the key. *)
Fixpoint dotted (ks : list string) : string :=
  match ks with
  | [] => ""
  | [k] => k
  | k :: r => k +:+ "." +:+ dotted r
  end.
Definition parts_of (s : string) (ks : list string) : Prop :=
  ks <> [] /\ Forall (fun k => "."%char ∉ list_ascii_of_string k) ks /\ s = dotted ks.

(** The text found by following the parts through the nested maps. *)
Inductive says : lmap -> list string -> string -> Prop :=
| says_text m k v : (k, LText v) ∈ m -> says m [k] v
| says_map m k sub ks v : (k, LMap sub) ∈ m -> says sub ks v -> says m (k :: ks) v.

(** Two keys that cannot both have a value: they are equal or one continues the other. *)
Definition clash (a b : string) : Prop :=
  exists ks ls, parts_of a ks /\ parts_of b ls /\ (ks `prefix_of` ls \/ ls `prefix_of` ks).

(** No map has two entries for one key. *)
Inductive functional : lmap -> Prop :=
| functional_intro m : NoDup m.*1 -> (forall k sub, (k, LMap sub) ∈ m -> functional sub) -> functional m.

(** The keys the ECS logger itself writes. *)
Definition ecs_keys : list string :=
  ["log.level"; "asyncapi.provider"; "asyncapi.channel"; "event.action"; "event.original"; "trace.id"; "message";
   "@timestamp"; "log.logger"].
