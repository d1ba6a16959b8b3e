(** Structured logs.
    Modelled code: pkg/extensions/loggers/common.go:10-47 and pkg/extensions/loggers/ecs.go:21-83
    (the entries of one log line). Not modelled: fmt.Sprintf("%+v", value), json.Marshal and the
    clock; values are the texts they give. *)
From stdpp Require Import list strings.
From Coq Require Import Ascii String.
From Verif.Model Require Import GoStrings.
Local Open Scope string_scope.

(** A map[string]any holding texts and maps, as an association list without repeated keys. *)
Inductive lval := LText (s : string) | LMap (m : list (string * lval)).
Notation lmap := (list (string * lval)).

(** [m[k]] *)
Fixpoint lget (k : string) (m : lmap) : option lval :=
  match m with
  | [] => None
  | (k', v) :: r => if String.eqb k k' then Some v else lget k r
  end.
(** [m[k] = v] *)
Fixpoint lput (k : string) (v : lval) (m : lmap) : lmap :=
  match m with
  | [] => [(k, v)]
  | (k', v') :: r => if String.eqb k k' then (k', v) :: r else (k', v') :: lput k v r
  end.

(** common.go:10-39 on the parts of the key: strings.Split of the whole key the first time,
    afterwards strings.Split(strings.Join(l[1:], "."), "."), which is l[1:]
    (LogsProof.split_join). *)
Fixpoint insert (l : list string) (value : string) (m : lmap) : lmap :=
  match l with
  | [] => m                                       (* strings.Split never gives this *)
  | [k] => lput k (LText value) m
  | k :: rest =>
      let subm := match lget k m with
                  | Some (LMap sub) => sub
                  | Some (LText _) => []          (* "explicitly drop the old value" *)
                  | None => []
                  end in
      lput k (LMap (insert rest value subm)) m
  end.
Definition insert_log (key value : string) (m : lmap) : lmap := insert (split "." key) value m.

(** common.go:41-47 *)
Definition structure_logs (info : list (string * string)) : lmap :=
  fold_left (fun m kv => insert_log kv.1 kv.2 m) info [].

(** What IfContextSetWith finds in the context (ecs.go:23-44). *)
Record context := mkContext {
  c_provider : option string; c_channel : option string; c_direction : option string;
  c_message : option string; c_correlation : option string }.

(** ecs.go:21-63; [now]: the time. *)
Definition ecs_info (c : context) (now msg : string) (info : list (string * string)) : list (string * string) :=
  let opt k o := match o with Some v => [(k, v)] | None => [] end in
  (info ++ opt "asyncapi.provider" (c_provider c) ++ opt "asyncapi.channel" (c_channel c)
   ++ match c_direction c with
      | Some d => if String.eqb d "publication" then [("event.action", "published-message")]
                  else if String.eqb d "reception" then [("event.action", "received-message")] else []
      | None => []
      end
   ++ opt "event.original" (c_message c) ++ opt "trace.id" (c_correlation c)
   ++ [("message", msg); ("@timestamp", now);
       ("log.logger", "github.com/lerenn/asyncapi-codegen/pkg/extensions/loggers/ecs.go")])%list.

(** ecs.go:65-91: the structure that is printed. *)
Definition ecs_line (c : context) (now level msg : string) (info : list (string * string)) : lmap :=
  structure_logs (ecs_info c now msg (info ++ [("log.level", level)])).
