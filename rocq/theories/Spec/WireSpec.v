(** Values of Go types, the JSON a type has room for, the JSON a schema admits. *)
From stdpp Require Import list strings.
From Coq Require Import ZArith String.
From Verif.Spec Require Import TypesSpec.
From Verif.Model Require Import Decoding Types Wire.
Local Open Scope string_scope.
Local Open Scope list_scope.

Definition keys (fs : list wfield) : list string := map w_key fs.
(** No other key is the same up to case. *)
Definition apart_from (ks : list string) (k : string) : Prop := Forall (fun k' => fold k' <> fold k) ks.

(** ** Go *)
(** Names that encoding/json takes from the tags. *)
Definition good_keys (fs : list wfield) : Prop :=
  NoDup (keys fs) /\ Forall (fun f => valid_tag (w_key f) = true /\ w_key f <> "-") fs.
(** A type that has functions of its own for JSON. *)
Definition own_functions (d : option wdef) : Prop :=
  match d with Some (WStruct _ (Some _)) | Some (WType _ true) => True | _ => False end.
(** The definitions are such as compile and keep functions: C74, C78; the declared properties of an object with additional ones are of their type,
    if that is not interface{}. *)
Record good_env (env : string -> option wdef) : Prop := {
  good_tags : forall n fs a, env n = Some (WStruct fs a) -> good_keys fs;
  good_uniform : forall n fs ta, env n = Some (WStruct fs (Some ta)) -> ta = TInterface \/ Forall (fun f => w_type f = ta) fs;
  good_functions : forall n t m, env n = Some (WType t m) ->
    match t with TTime => m = true | TDate => False | TNamed b => m = false /\ ~ own_functions (env b) | _ => m = false end }.
(** No type contains itself (C76): what a type is made of directly is of a smaller rank. *)
Definition ranked (env : string -> option wdef) (fuel : nat) : Prop :=
  exists rank : string -> nat,
    (forall n, (rank n < fuel)%nat) /\
    (forall n b m, env n = Some (WType (TNamed b) m) -> (rank b < rank n)%nat) /\
    (forall n fs a f b, env n = Some (WStruct fs a) -> f ∈ fs -> w_pointer f = false -> w_type f = TNamed b -> (rank b < rank n)%nat).

(** Every name is defined, no type is custom or broken. *)
Inductive known (env : string -> option wdef) : gotype -> Prop :=
| known_basic t : t ∈ [TBool; TString; TDate; TTime; TInt32; TInt64; TFloat32; TFloat64; TInterface] -> known env t
| known_slice t : known env t -> known env (TSlice t)
| known_name n : is_Some (env n) -> known env (TNamed n).
Definition all_known (env : string -> option wdef) : Prop :=
  forall n d, env n = Some d ->
    match d with
    | WStruct fs a => Forall (fun f => known env (w_type f)) fs /\ (forall t, a = Some t -> known env t)
    | WType t _ => known env t
    end.

Section values.
  Variable env : string -> option wdef.
  Variables float32 float64 : num -> option num.
  Variables date time : string -> option string.
  Variable any : json -> json.
  (** What is asked of the value of a field, of the elements of slices and maps, of the keys of additional properties. *)
  Variable ok_field : wfield -> gv -> Prop.
  Variable ok_item : gv -> Prop.
  Variable ok_extra : list wfield -> string -> Prop.

  Inductive has_type : gotype -> gv -> Prop :=
  | ht_bool b : has_type TBool (VBool b)
  | ht_string s : has_type TString (VStr s)
  | ht_int32 z : (- 2 ^ 31 <= z < 2 ^ 31)%Z -> has_type TInt32 (VInt z)
  | ht_int64 z : (- 2 ^ 63 <= z < 2 ^ 63)%Z -> has_type TInt64 (VInt z)
  | ht_float32 n : float32 n = Some n -> has_type TFloat32 (VNum n)
  | ht_float64 n : float64 n = Some n -> has_type TFloat64 (VNum n)
  | ht_date s : date s = Some s -> has_type TDate (VAtom s)
  | ht_time s : time s = Some s -> has_type TTime (VAtom s)
  | ht_nothing : has_type TInterface VNil
  | ht_any j : j <> JNull -> any j = j -> has_type TInterface (VAny j)
  | ht_nil e : has_type (TSlice e) VNil
  | ht_slice e l : Forall (fun v => has_type e v /\ ok_item v) l -> has_type (TSlice e) (VSlice l)
  | ht_struct n fs a vs m :
      env n = Some (WStruct fs a) ->
      Forall2 (fun f v => field_type f v /\ ok_field f v) fs vs ->
      (a = None -> m = []) ->
      (forall ta, a = Some ta -> Forall (fun kv => has_type ta kv.2 /\ ok_item kv.2 /\ ok_extra fs kv.1) m) ->
      NoDup (map fst m) ->
      has_type (TNamed n) (VStruct vs m)
  | ht_defined n t b v : env n = Some (WType t b) -> has_type t v -> has_type (TNamed n) v
  with field_type : wfield -> gv -> Prop :=
  | ft_nil f : w_pointer f = true -> field_type f VNil
  | ft_pointer f v : w_pointer f = true -> has_type (w_type f) v -> field_type f (VPtr v)
  | ft_value f v : w_pointer f = false -> has_type (w_type f) v -> field_type f v.
End values.

(** What JSON can tell apart: an empty slice that is omitted is not nil, a pointer to nil is not nil; an additional property that is not declared. *)
Definition kept_field (f : wfield) (v : gv) : Prop := v <> VPtr VNil /\ (w_omit f = true -> v <> VSlice []).
Definition kept_extra (fs : list wfield) (k : string) : Prop := apart_from (keys fs) k.

(** ** The JSON that fits in a type *)
(** The field a key is for: the one of that name, or else the first that is the same up to case. *)
Inductive taken_by (fs : list wfield) (k : string) : wfield -> Prop :=
| taken_exactly f : f ∈ fs -> w_key f = k -> taken_by fs k f
| taken_folded l1 f l2 : k ∉ keys fs -> fs = l1 ++ f :: l2 -> fold (w_key f) = fold k -> Forall (fun g => fold (w_key g) <> fold k) l1 -> taken_by fs k f.

Section fits.
  Variable env : string -> option wdef.
  Variables float32 float64 : num -> option num.
  Variables date time : string -> option string.
  (** What is asked of the keys of an object. *)
  Variable ok_keys : list wfield -> list string -> Prop.
  Inductive fits : gotype -> json -> Prop :=
  | fits_null t : known env t -> fits t JNull
  | fits_bool b : fits TBool (JBool b)
  | fits_string s : fits TString (JStr s)
  | fits_int32 z : (- 2 ^ 31 <= z < 2 ^ 31)%Z -> fits TInt32 (JNum (Int z))
  | fits_int64 z : (- 2 ^ 63 <= z < 2 ^ 63)%Z -> fits TInt64 (JNum (Int z))
  | fits_float32 n : is_Some (float32 n) -> fits TFloat32 (JNum n)
  | fits_float64 n : is_Some (float64 n) -> fits TFloat64 (JNum n)
  | fits_date s : is_Some (date s) -> fits TDate (JStr s)
  | fits_time s : is_Some (time s) -> fits TTime (JStr s)
  | fits_any j : fits TInterface j
  | fits_slice e l : known env e -> (forall x, x ∈ l -> fits e x) -> fits (TSlice e) (JArr l)
  | fits_struct n fs a kvs :
      env n = Some (WStruct fs a) ->
      (forall k x f, (k, x) ∈ kvs -> taken_by fs k f -> fits (w_type f) x) ->
      (forall k x ta, (k, x) ∈ kvs -> a = Some ta -> fits ta x) ->
      ok_keys fs (map fst kvs) ->
      fits (TNamed n) (JObj kvs)
  | fits_defined n t b j : env n = Some (WType t b) -> fits t j -> fits (TNamed n) j.
End fits.
(** No key twice, and none that is that of a property up to case only. *)
Definition clear_keys (fs : list wfield) (ks : list string) : Prop :=
  NoDup ks /\ forall k, k ∈ ks -> k ∈ keys fs \/ apart_from (keys fs) k.

(** ** What arrives *)
Section arrives.
  Variable env : string -> option wdef.
  Variables float32 float64 : num -> option num.
  Variables date time : string -> option string.
  Variable any : json -> json.
  Variables date0 time0 : string.
  Inductive is_zero : gotype -> gv -> Prop :=
  | zero_bool : is_zero TBool (VBool false)
  | zero_string : is_zero TString (VStr "")
  | zero_int t : t ∈ [TInt32; TInt64] -> is_zero t (VInt 0)
  | zero_float t : t ∈ [TFloat32; TFloat64] -> is_zero t (VNum (Int 0))
  | zero_date : is_zero TDate (VAtom date0)
  | zero_time : is_zero TTime (VAtom time0)
  | zero_nil t : t = TInterface \/ (exists e, t = TSlice e) -> is_zero t VNil
  | zero_struct n fs a vs : env n = Some (WStruct fs a) ->
      Forall2 (fun f v => (w_pointer f = true /\ v = VNil) \/ (w_pointer f = false /\ is_zero (w_type f) v)) fs vs -> is_zero (TNamed n) (VStruct vs [])
  | zero_defined n t b v : env n = Some (WType t b) -> is_zero t v -> is_zero (TNamed n) v.
  Inductive arrives : gotype -> json -> gv -> Prop :=
  | arrives_null t v : is_zero t v -> arrives t JNull v
  | arrives_bool b : arrives TBool (JBool b) (VBool b)
  | arrives_string s : arrives TString (JStr s) (VStr s)
  | arrives_int t z : t ∈ [TInt32; TInt64] -> arrives t (JNum (Int z)) (VInt z)
  | arrives_float32 n n' : float32 n = Some n' -> arrives TFloat32 (JNum n) (VNum n')
  | arrives_float64 n n' : float64 n = Some n' -> arrives TFloat64 (JNum n) (VNum n')
  | arrives_date s s' : date s = Some s' -> arrives TDate (JStr s) (VAtom s')
  | arrives_time s s' : time s = Some s' -> arrives TTime (JStr s) (VAtom s')
  | arrives_any j : j <> JNull -> arrives TInterface j (VAny (any j))
  | arrives_slice e l vs : Forall2 (arrives e) l vs -> arrives (TSlice e) (JArr l) (VSlice vs)
  | arrives_struct n fs a kvs vs m :
      env n = Some (WStruct fs a) ->
      (* every field holds the member of its key, or is not set *)
      Forall2 (fun f v => (exists x, (w_key f, x) ∈ kvs /\ arrives_field f x v) \/ (w_key f ∉ map fst kvs /\ arrives_field f JNull v)) fs vs ->
      (* the others are the additional properties *)
      (a = None -> m = []) ->
      (forall ta, a = Some ta -> Forall2 (fun kx kv => kx.1 = kv.1 /\ arrives ta kx.2 kv.2) (filter (fun kx : string * json => kx.1 ∉ keys fs) kvs) m) ->
      arrives (TNamed n) (JObj kvs) (VStruct vs m)
  | arrives_defined n t b j v : env n = Some (WType t b) -> arrives t j v -> arrives (TNamed n) j v
  with arrives_field : wfield -> json -> gv -> Prop :=
  | arrives_nil f : w_pointer f = true -> arrives_field f JNull VNil
  | arrives_pointer f j v : w_pointer f = true -> j <> JNull -> arrives (w_type f) j v -> arrives_field f j (VPtr v)
  | arrives_value f j v : w_pointer f = false -> arrives (w_type f) j v -> arrives_field f j v.
End arrives.

(** ** The JSON that a schema admits *)
Section admits.
  (** The schemas of the components. *)
  Variable defs : string -> option gschema.
  Variables float32 float64 : num -> option num.
  Variables date time : string -> option string.
  Variable dates : bool.
  (** The integers that a format admits; the keys that may stand next to those of an object. *)
  Variable integers : string -> Z -> Prop.
  Variable beside : list string -> string -> Prop.
  Inductive admits : gschema -> json -> Prop :=
  | admits_reference x m c j : reference_of x m -> defs m = Some c -> admits c j -> admits x j
  | admits_anything n f ps it ad j : admits (GSchema n "" f "" ps it ad None) j
  | admits_bool n f ps it ad r b : admits (GSchema n "boolean" f "" ps it ad r) (JBool b)
  | admits_string n f ps it ad r s :
      (dates = true -> f = "date" -> is_Some (date s)) -> (dates = true -> f = "date-time" -> is_Some (time s)) ->
      admits (GSchema n "string" f "" ps it ad r) (JStr s)
  | admits_integer n f ps it ad r z : integers f z -> admits (GSchema n "integer" f "" ps it ad r) (JNum (Int z))
  | admits_number n f ps it ad r x :
      (if String.eqb f "float" then is_Some (float32 x) else is_Some (float64 x)) ->
      admits (GSchema n "number" f "" ps it ad r) (JNum x)
  | admits_array n f ps it ad r l : (forall x, x ∈ l -> admits it x) -> admits (GSchema n "array" f "" ps (Some it) ad r) (JArr l)
  | admits_object n f ps it ad r kvs :
      NoDup (map fst kvs) ->
      (forall k p, (k, (true, p)) ∈ ps -> k ∈ map fst kvs) ->
      (forall k b p x, (k, (b, p)) ∈ ps -> (k, x) ∈ kvs -> admits p x) ->
      (forall k x a, (k, x) ∈ kvs -> k ∉ map fst ps -> ad = Some a -> admits a x) ->
      (forall k, k ∈ map fst kvs -> k ∉ map fst ps -> beside (map fst ps) k) ->
      admits (GSchema n "object" f "" ps it ad r) (JObj kvs).
End admits.
Definition sized (format : string) (z : Z) : Prop :=
  if String.eqb format "int32" then (- 2 ^ 31 <= z < 2 ^ 31)%Z else (- 2 ^ 63 <= z < 2 ^ 63)%Z.

(** ** The types of a document *)
(** [nodes]: the schemas of a document; [defs]: those of the components, by the name of their types. Every schema is of a type the templates know and has no Go
    type of its own; the types are those generated for the schemas (C74), and no others; the keys are not converted; a required property is not marked with
    x-omitempty. *)
Record types_of (convert namify : string -> string) (omitempty : gschema -> option bool) (dates force : bool)
    (nodes : gschema -> Prop) (defs : string -> option gschema) (env : string -> option wdef) : Prop := {
  of_children : forall x c, nodes x -> child x c -> nodes c;
  of_known : forall n t f e ps it ad r, nodes (GSchema n t f e ps it ad r) -> e = "" /\ known_type (GSchema n t f e ps it ad r);
  of_objects : forall x, nodes x -> g_type x = "object" -> env (g_name x) = wire_definition convert namify omitempty dates force x;
  of_references : forall x m, nodes x -> reference_of x m -> is_Some (defs m);
  of_components : forall m c, defs m = Some c -> nodes c /\ g_name c = m /\ env m = wire_definition convert namify omitempty dates force c;
  of_only : forall n d, env n = Some d -> exists x, nodes x /\ wire_definition convert namify omitempty dates force x = Some d;
  of_keys : forall x k b p, nodes x -> (k, (b, p)) ∈ g_props x -> convert k = k;
  of_required : forall x k p, nodes x -> (k, (true, p)) ∈ g_props x -> omitempty p <> Some true }.
(** Nothing is null: no element of a slice or a map is nil, and no field, unless it is omitted. *)
Definition filled_field (f : wfield) (v : gv) : Prop := v <> VPtr VNil /\ (v = VNil -> w_omit f = true).
Definition filled_item (v : gv) : Prop := v <> VNil.
