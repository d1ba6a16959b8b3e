(** Unmarshalling of additional properties:
    pkg/codegen/generators/v3/templates/marshaling/additional_properties.tmpl:37-69 (v2: the same code). *)
From stdpp Require Import gmap list strings.
From Coq Require Import String.

Section Decode.
  (** [J]: JSON values; [T]: the type of the additional properties; [V]: values of the declared ones. *)
  Context {J T V : Type}.
  (** json.Unmarshal of a value into T, and into the field of a declared property.
      Simplification: the effect on a field does not depend on what the field held (it does for null). *)
  Context (as_extra : J -> option T) (as_field : nat -> J -> option V).
  (** The JSON names of the declared properties; package encoding/json compares names as they are, and
      if there is no such field, folded. *)
  Context (names : list string) (fold : string -> string).

  (** 41-45: the members of the object into a map; the last of several members of one name wins. *)
  Definition decode_map (ms : list (string * J)) : option (gmap string T) :=
    fold_left (fun acc kv =>
      match acc, as_extra kv.2 with Some m, Some t => Some (<[kv.1 := t]> m) | _, _ => None end) ms (Some ∅).

  (** 49-53: the members into the structure. *)
  Fixpoint index_from (i : nat) (p : string -> bool) (l : list string) : option nat :=
    match l with
    | [] => None
    | x :: r => if p x then Some i else index_from (S i) p r
    end.
  Definition field_of (k : string) : option nat :=
    match index_from 0 (String.eqb k) names with
    | Some i => Some i
    | None => index_from 0 (fun n => String.eqb (fold k) (fold n)) names
    end.
  Definition decode_fields (ms : list (string * J)) : option (list (option V)) :=
    fold_left (fun acc kv =>
      match acc with
      | None => None
      | Some a => match field_of kv.1 with
                  | None => Some a
                  | Some i => match as_field i kv.2 with Some v => Some (<[i := Some v]> a) | None => None end
                  end
      end) ms (Some (replicate (List.length names) None)).

  (** 55-68: the additional properties are those that have no declared name. *)
  Definition unmarshal (ms : list (string * J)) : option (list (option V) * gmap string T) :=
    match decode_map ms with
    | None => None
    | Some m =>
        match decode_fields ms with
        | None => None
        | Some a => Some (a, filter (fun kt => kt.1 ∉ names) m)
        end
    end.

  (** The members that MarshalJSON (4-35) writes: declared properties that are set, in order, then the
      additional properties in the order of the iteration. *)
  Context (enc_field : nat -> V -> J) (enc_extra : T -> J).
  Fixpoint field_members (i : nat) (ns : list string) (fs : list (option V)) : list (string * J) :=
    match ns, fs with
    | n :: ns, Some v :: fs => (n, enc_field i v) :: field_members (S i) ns fs
    | _ :: ns, None :: fs => field_members (S i) ns fs
    | _, _ => []
    end.
  Definition members (fs : list (option V)) (extras : list (string * T)) : list (string * J) :=
    field_members 0 names fs ++ map (fun kt => (kt.1, enc_extra kt.2)) extras.
End Decode.
