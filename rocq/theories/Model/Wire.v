(** The JSON of the generated types: what encoding/json writes for a value of such a type and what it reads into one.
    Modelled code: pkg/codegen/generators/v3/templates/schema_definition.tmpl:11-42 (the fields with their tags), marshaling/additional_properties.tmpl,
    marshaling/time.tmpl, pkg/codegen/generators/helpers.go:19-37 (the json tag), with the rules of encoding/json for these types. The types are those
    of Types.v, JSON is that of Decoding.v.
    Simplified: JSON is a value, not a text (C53 has the text of additional properties); two keys are the same up to case when they are so in ASCII; floats,
    dates, times and what an interface{} holds are given by the JSON they are written as; a structure that is read twice because its key comes
    twice is read anew the second time; nil and empty maps are not distinguished; keys contain no comma, quote, backquote or backslash. Custom Go
    types (x-go-type) are not modelled, nor are those of version 2 with additional properties, which are written by other code. *)
From stdpp Require Import gmap list strings.
From Coq Require Import ZArith Ascii String.
From Verif.Model Require Import Decoding Types.
Local Open Scope string_scope.

(** ** Definitions with tags *)
(** [w_key]: the key as converted for the tag; [w_go]: the name of the Go field; [w_omit]: omitempty. *)
Record wfield := mkW { w_key : string; w_go : string; w_pointer : bool; w_omit : bool; w_type : gotype }.
Inductive wdef :=
| WStruct (fs : list wfield) (addl : option gotype)
| WType (t : gotype) (time_marshalling : bool).

Section definition.
  (** template.ConvertKey, template.Namify; x-omitempty of the property. *)
  Variables convert namify : string -> string.
  Variable omitempty : gschema -> option bool.
  Variables dates force : bool.
  (** helpers.go:31-37 (should_add_omit_empty of Validations.v). The mark of the property is that of the list of its parent. *)
  Definition omits (required : bool) (p : gschema) : bool := match omitempty p with Some b => b | None => negb required end.
  Definition wire_field (kp : string * (bool * gschema)) : option wfield :=
    t ← schema_name dates kp.2.2;
    Some (mkW (convert kp.1) (namify kp.1) (is_field_pointer force kp.2.1 kp.2.2) (omits kp.2.1 kp.2.2) t).
  (** schema_definition.tmpl:11-42, as own_definition of Types.v. *)
  Definition wire_definition (s : gschema) : option wdef :=
    match s with
    | GSchema name type format _ props _ addl _ =>
        if String.eqb type "object" then
          fs ← mapM wire_field props;
          match addl with
          | Some a => t ← schema_name dates a; Some (WStruct fs (Some t))
          | None => Some (WStruct fs None)
          end
        else t ← schema_name dates s; Some (WType t (is_date_generated dates format))
    end.
End definition.

(** ** Names of fields *)
(** encoding/json, isValidTag: letters, digits and some others; bytes above 127 are taken for letters. *)
Definition tag_char (a : ascii) : bool :=
  let n := nat_of_ascii a in
  ((48 <=? n) && (n <=? 57) || (65 <=? n) && (n <=? 90) || (97 <=? n) && (n <=? 122) || (128 <=? n)
   || existsb (Ascii.eqb a) (list_ascii_of_string "!#$%&()*+-./:;<=>?@[]^_{|}~ "))%nat%bool.
Definition valid_tag (s : string) : bool :=
  match s with "" => false | _ => forallb tag_char (list_ascii_of_string s) end.
(** encoding/json, typeFields: the tag "-" alone hides the field, a name that is not valid gives way to that of the Go field. *)
Definition json_name (f : wfield) : option string :=
  if (String.eqb (w_key f) "-" && negb (w_omit f))%bool then None
  else Some (if valid_tag (w_key f) then w_key f else w_go f).
(** encoding/json, dominantField: of several fields of one name the only one that has it from its tag, or none. *)
Definition tagged (f : wfield) : bool := valid_tag (w_key f).
Definition dominates (f g : wfield) : bool :=
  match json_name f, json_name g with
  | Some n, Some m => negb (String.eqb n m) || (tagged f && negb (tagged g))
  | _, _ => true
  end.
Fixpoint visible_from (before fs : list wfield) : list (option string) :=
  match fs with
  | [] => []
  | f :: r => (if forallb (dominates f) (before ++ r) then json_name f else None) :: visible_from (before ++ [f]) r
  end.
(** The names of the fields in JSON, [None] for those that do not take part. *)
Definition names (fs : list wfield) : list (option string) := visible_from [] fs.

(** encoding/json, object: the field of that name, or else the first one that is the same up to case. *)
Fixpoint index (p : string -> bool) (l : list (option string)) : option nat :=
  match l with
  | [] => None
  | Some n :: r => if p n then Some O else S <$> index p r
  | None :: r => S <$> index p r
  end.
Definition select (l : list (option string)) (k : string) : option nat :=
  match index (String.eqb k) l with
  | Some i => Some i
  | None => index (fun n => String.eqb (fold n) (fold k)) l
  end.

(** ** Values *)
(** [VNil]: nil pointers, slices and interfaces; [VNum]: floats; [VAtom]: dates and times; [VAny]: what an interface holds; of a structure, the values of
    its fields in order and its additional properties in the order in which the map is iterated. *)
Inductive gv :=
| VNil
| VBool (b : bool) | VStr (s : string) | VInt (z : Z) | VNum (n : num) | VAtom (s : string) | VAny (j : json)
| VPtr (v : gv) | VSlice (l : list gv)
| VStruct (vs : list gv) (extra : list (string * gv)).

Definition in_range (bits : Z) (z : Z) : bool := ((- 2 ^ (bits - 1) <=? z) && (z <? 2 ^ (bits - 1)))%Z.

Section wire.
  (** The type definitions of the generated package. *)
  Variable env : string -> option wdef.
  (** More than the longest chain of definitions. *)
  Variable fuel : nat.
  (** strconv.ParseFloat and back, for float32 and float64; civil.ParseDate and time.Parse(RFC3339) and back; what is kept of a value by an
      interface{}, numbers fitting in a float64. *)
  Variables float32 float64 : num -> option num.
  Variables date time : string -> option string.
  Variable any : json -> json.
  (** How the zero date and the zero time are written. *)
  Variables date0 time0 : string.

  (** What a type is made of: a structure, with whether the functions for additional properties are those of the type; another type; a date or a time
      without its functions, which is a structure without exported fields. *)
  Inductive shape :=
  | ShStruct (fs : list wfield) (addl : option gotype) (own : bool)
  | ShPlain (t : gotype)
  | ShHidden.
  (** [type A B] does not inherit the functions of B. *)
  Definition bare (s : shape) : shape :=
    match s with
    | ShStruct fs a _ => ShStruct fs a false
    | ShPlain (TDate | TTime) => ShHidden
    | _ => s
    end.
  Fixpoint resolve (n : nat) (t : gotype) : option shape :=
    match t with
    | TNamed x =>
        match n, env x with
        | S n', Some (WStruct fs a) => Some (ShStruct fs a (match a with Some _ => true | None => false end))
        | S n', Some (WType t' true) => Some (ShPlain TTime)
        | S n', Some (WType t' false) => bare <$> resolve n' t'
        | _, _ => None
        end
    | _ => Some (ShPlain t)
    end.

  (** The zero value of a type. *)
  Fixpoint zero (n : nat) (t : gotype) : gv :=
    match t with
    | TNamed x =>
        match n, env x with
        | S n', Some (WStruct fs _) => VStruct (map (fun f => if w_pointer f then VNil else zero n' (w_type f)) fs) []
        | S n', Some (WType t' _) => zero n' t'
        | _, _ => VNil
        end
    | TBool => VBool false
    | TString => VStr ""
    | TInt32 | TInt64 => VInt 0
    | TFloat32 | TFloat64 => VNum (Int 0)
    | TDate => VAtom date0
    | TTime => VAtom time0
    | _ => VNil
    end.
  Definition zero_field (f : wfield) : gv := if w_pointer f then VNil else zero fuel (w_type f).

  (** ** Reading *)
  (** encoding/json, value and literalStore; [None]: an error. A null gives nil or leaves the zero value. For a structure with its own functions
      (additional_properties.tmpl:37-69), all the members are read as additional properties, then those that are declared are taken out. *)
  Fixpoint decode (j : json) (t : gotype) : option gv :=
    match resolve fuel t with
    | None => None
    | Some ShHidden => match j with JNull | JObj _ => Some (zero fuel t) | _ => None end
    | Some (ShStruct fs a own) =>
        match j with
        | JNull => Some (zero fuel t)
        | JObj kvs =>
            match (fix members (kvs : list (string * json)) (vs : list gv) : option (list gv) :=
                     match kvs with
                     | [] => Some vs
                     | (k, x) :: r =>
                         match select (names fs) k with
                         | None => members r vs
                         | Some i =>
                             match fs !! i with
                             | None => None
                             | Some f =>
                                 match (if w_pointer f then match x with JNull => Some VNil | _ => VPtr <$> decode x (w_type f) end
                                        else decode x (w_type f)) with
                                 | Some v => members r (<[i := v]> vs)
                                 | None => None
                                 end
                             end
                         end
                     end) kvs (map zero_field fs),
                  (match own, a with
                   | true, Some ta =>
                       (fix extras (kvs : list (string * json)) (m : list (string * gv)) : option (list (string * gv)) :=
                          match kvs with
                          | [] => Some m
                          | (k, x) :: r =>
                              match decode x ta with
                              | Some v => extras r (if existsb (fun f => String.eqb (w_key f) k) fs then m else put k v m)
                              | None => None
                              end
                          end) kvs []
                   | _, _ => Some []
                   end) with
            | Some vs, Some m => Some (VStruct vs m)
            | _, _ => None
            end
        | _ => None
        end
    | Some (ShPlain p) =>
        match p, j with
        | TSlice _, JNull | TInterface, JNull => Some VNil
        | (TBool | TString | TInt32 | TInt64 | TFloat32 | TFloat64 | TDate | TTime), JNull => Some (zero fuel t)
        | TBool, JBool b => Some (VBool b)
        | TString, JStr s => Some (VStr s)
        | TInt32, JNum (Int z) => if in_range 32 z then Some (VInt z) else None
        | TInt64, JNum (Int z) => if in_range 64 z then Some (VInt z) else None
        | TFloat32, JNum n => VNum <$> float32 n
        | TFloat64, JNum n => VNum <$> float64 n
        | TDate, JStr s => VAtom <$> date s
        | TTime, JStr s => VAtom <$> time s
        | TInterface, _ => Some (VAny (any j))
        | TSlice e, JArr l =>
            match (fix elements (l : list json) : option (list gv) :=
                     match l with
                     | [] => Some []
                     | x :: r => match decode x e, elements r with Some v, Some vs => Some (v :: vs) | _, _ => None end
                     end) l with
            | Some vs => Some (VSlice vs)
            | None => None
            end
        | _, _ => None
        end
    end.

  (** ** Writing *)
  (** encoding/json, isEmptyValue: structures, dates and times are never empty. *)
  Definition empty (v : gv) : bool :=
    match v with
    | VNil => true
    | VBool b => negb b
    | VStr s => String.eqb s ""
    | VInt z => (z =? 0)%Z
    | VNum (Int z) => (z =? 0)%Z
    | VSlice [] => true
    | _ => false
    end.

  (** encoding/json; [None]: the value is not of the type. additional_properties.tmpl:4-35: the structure first, then the additional properties. *)
  Fixpoint encode (v : gv) (t : gotype) : option json :=
    match resolve fuel t with
    | None => None
    | Some ShHidden => Some (JObj [])
    | Some (ShStruct fs a own) =>
        match v with
        | VStruct vs extra =>
            match (fix members (ns : list (option string)) (fs : list wfield) (vs : list gv) {struct vs} : option (list (string * json)) :=
                     match vs, ns, fs with
                     | [], [], [] => Some []
                     | v :: vs, n :: ns, f :: fs =>
                         match members ns fs vs with
                         | None => None
                         | Some r =>
                             match n with
                             | None => Some r
                             | Some k =>
                                 if (w_omit f && empty v)%bool then Some r
                                 else match (if w_pointer f then match v with VNil => Some JNull | VPtr v' => encode v' (w_type f) | _ => None end
                                             else encode v (w_type f)) with
                                      | Some x => Some ((k, x) :: r)
                                      | None => None
                                      end
                             end
                         end
                     | _, _, _ => None
                     end) (names fs) fs vs,
                  (match own, a with
                   | true, Some ta =>
                       (fix extras (m : list (string * gv)) : option (list (string * json)) :=
                          match m with
                          | [] => Some []
                          | (k, v) :: r => match encode v ta, extras r with Some x, Some xs => Some ((k, x) :: xs) | _, _ => None end
                          end) extra
                   | _, _ => Some []
                   end) with
            | Some ms, Some xs => Some (JObj (ms ++ xs)%list)
            | _, _ => None
            end
        | _ => None
        end
    | Some (ShPlain p) =>
        match p, v with
        | TBool, VBool b => Some (JBool b)
        | TString, VStr s => Some (JStr s)
        | (TInt32 | TInt64), VInt z => Some (JNum (Int z))
        | (TFloat32 | TFloat64), VNum n => Some (JNum n)
        | (TDate | TTime), VAtom s => Some (JStr s)
        | TInterface, VNil => Some JNull
        | TInterface, VAny j => Some j
        | TSlice _, VNil => Some JNull
        | TSlice e, VSlice l =>
            match (fix elements (l : list gv) : option (list json) :=
                     match l with
                     | [] => Some []
                     | x :: r => match encode x e, elements r with Some j, Some js => Some (j :: js) | _, _ => None end
                     end) l with
            | Some js => Some (JArr js)
            | None => None
            end
        | _, _ => None
        end
    end.
End wire.
