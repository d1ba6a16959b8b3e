(** What merging constraints means, what a schema declares, and how the generated struct tags are
    read: reflect.StructTag.Lookup, encoding/json and go-playground/validator. *)
From stdpp Require Import list strings.
From Coq Require Import NArith Ascii String.
From Verif.Model Require Import Validations.

(** ** Constraints, by name *)
Inductive constraint :=
| KRequired | KMultipleOf | KMaximum | KExclusiveMaximum | KMinimum | KExclusiveMinimum
| KMaxLength | KMinLength | KPattern | KMaxItems | KMinItems | KUniqueItems | KMaxProperties
| KMinProperties | KEnum | KConst | KAllOf | KAnyOf | KOneOf | KIsRequired | KShouldOmitEmpty.

(** The value of a constraint when it is set, [None] when it has its zero value. *)
Inductive kvalue {F T : Type} :=
| VFloat (x : F) | VNat (n : N) | VString (s : string) | VBool (b : bool)
| VStrings (l : list string) | VAnys (l : list jany) | VAny (a : jany) | VSchemas (l : list T).
Arguments kvalue : clear implicits.

Section get.
  Context {F T : Type} (is0 : F -> bool).
  Definition set_list {A} (k : list A -> kvalue F T) (l : list A) : option (kvalue F T) :=
    match l with [] => None | _ => Some (k l) end.
  Definition set_nat (n : N) : option (kvalue F T) := match n with N0 => None | _ => Some (VNat n) end.
  Definition set_float (x : F) : option (kvalue F T) := if is0 x then None else Some (VFloat x).
  Definition set_string (s : string) : option (kvalue F T) :=
    match s with EmptyString => None | _ => Some (VString s) end.
  Definition set_flag (b : bool) : option (kvalue F T) := if b then Some (VBool true) else None.

  Definition get (k : constraint) (v : validations F T) : option (kvalue F T) :=
    match k with
    | KRequired => set_list VStrings (vRequired v)
    | KMultipleOf => set_list VStrings (vMultipleOf v)
    | KMaximum => set_float (vMaximum v)
    | KExclusiveMaximum => set_float (vExclusiveMaximum v)
    | KMinimum => set_float (vMinimum v)
    | KExclusiveMinimum => set_float (vExclusiveMinimum v)
    | KMaxLength => set_nat (vMaxLength v)
    | KMinLength => set_nat (vMinLength v)
    | KPattern => set_string (vPattern v)
    | KMaxItems => set_nat (vMaxItems v)
    | KMinItems => set_nat (vMinItems v)
    | KUniqueItems => set_flag (vUniqueItems v)
    | KMaxProperties => set_nat (vMaxProperties v)
    | KMinProperties => set_nat (vMinProperties v)
    | KEnum => set_list VAnys (vEnum v)
    | KConst => VAny <$> vConst v
    | KAllOf => set_list VSchemas (vAllOf v)
    | KAnyOf => set_list VSchemas (vAnyOf v)
    | KOneOf => set_list VSchemas (vOneOf v)
    | KIsRequired => set_flag (vIsRequired v)
    | KShouldOmitEmpty => VBool <$> vShouldOmitEmpty v
    end.
End get.

(** ** What a schema document declares *)
Record declared {F : Type} := mkDeclared {
  dMinLength : option N;
  dMaxLength : option N;
  dMinimum : option F;
  dMaximum : option F;
  dExclusiveMinimum : option F;
  dExclusiveMaximum : option F;
  dUnique : bool;
  dEnum : option (list jany);
  dConst : option jany;
  dRequired : bool;
}.
Arguments declared : clear implicits.

(** Decoding of the document (encoding/json leaves absent fields at their zero value) and the
    marking of required properties. The other fields do not matter for the tags. *)
Definition decode {F T} (zero : F) (d : declared F) : validations F T :=
  {| vRequired := []; vMultipleOf := [];
     vMaximum := default zero (dMaximum d);
     vExclusiveMaximum := default zero (dExclusiveMaximum d);
     vMinimum := default zero (dMinimum d);
     vExclusiveMinimum := default zero (dExclusiveMinimum d);
     vMaxLength := default 0%N (dMaxLength d);
     vMinLength := default 0%N (dMinLength d);
     vPattern := ""; vMaxItems := 0; vMinItems := 0;
     vUniqueItems := dUnique d;
     vMaxProperties := 0; vMinProperties := 0;
     vEnum := default [] (dEnum d);
     vConst := dConst d;
     vAllOf := []; vAnyOf := []; vOneOf := [];
     vIsRequired := dRequired d;
     vShouldOmitEmpty := None |}.

(** ** Reading struct tags *)
Local Open Scope string_scope.
Definition dquote : ascii := """"%char.
Definition backslash : ascii := "\"%char.
Definition comma : ascii := ","%char.

(** The text up to the first character satisfying [p], and what follows that character. *)
Fixpoint cut (p : ascii -> bool) (s : string) : option (string * string) :=
  match s with
  | "" => None
  | String c r =>
      if p c then Some ("", r)
      else match cut p r with Some (a, b) => Some (String c a, b) | None => None end
  end.

Fixpoint skip_spaces (s : string) : string :=
  match s with
  | String c r => if Ascii.eqb c " "%char then skip_spaces r else s
  | "" => ""
  end.

(** reflect.StructTag.Lookup: space-separated [name:"value"] pairs. A value with a backslash is
    an escape and outside this reader: [None]. *)
Fixpoint lookup_tag (fuel : nat) (key s : string) : option string :=
  match fuel with
  | O => None
  | S fuel' =>
      match cut (Ascii.eqb ":"%char) (skip_spaces s) with
      | Some (name, String q r) =>
          if Ascii.eqb q dquote then
            match cut (Ascii.eqb dquote) r with
            | Some (value, rest) =>
                if existsb (Ascii.eqb backslash) (list_ascii_of_string value) then None
                else if String.eqb name key then Some value
                else lookup_tag fuel' key rest
            | None => None
            end
          else None
      | _ => None
      end
  end.
Definition tag_value (key tag : string) : option string := lookup_tag (S (String.length tag)) key tag.

(** strings.Split(s, sep) for a one-character separator. *)
Fixpoint split_on (sep : ascii) (s : string) : list string :=
  match s with
  | "" => [""]
  | String c r =>
      if Ascii.eqb c sep then "" :: split_on sep r
      else match split_on sep r with
           | x :: xs => String c x :: xs
           | [] => [String c ""]
           end
  end.

(** encoding/json: the key of a field with the given tag and Go name, [None] when the field is
    skipped; and whether it has omitempty. Names with characters outside letters, digits and
    common punctuation are ignored (isValidTag; here for ASCII). *)
Definition json_char (c : ascii) : bool :=
  existsb (Ascii.eqb c)
    (list_ascii_of_string
       ("abcdefghijklmnopqrstuvwxyzABCDEFGHIJKLMNOPQRSTUVWXYZ0123456789" ++
        "!#$%&()*+-./:;<=>?@[]^_{|}~ ")).
Definition json_name_ok (s : string) : bool :=
  negb (String.eqb s "") && forallb json_char (list_ascii_of_string s).
Definition json_key (go_name tag : string) : option string :=
  match tag_value "json" tag with
  | None => Some go_name
  | Some v =>
      if String.eqb v "-" then None
      else match split_on comma v with
           | n :: _ => if json_name_ok n then Some n else Some go_name
           | [] => Some go_name
           end
  end.
Definition json_omitempty (tag : string) : bool :=
  match tag_value "json" tag with
  | None => false
  | Some v => match split_on comma v with
              | _ :: opts => existsb (String.eqb "omitempty") opts
              | [] => false
              end
  end.

(** go-playground/validator: comma-separated directives, each a name and possibly "=" and a
    parameter; a directive with "|" is an alternative and outside this reader. *)
Definition read_directive (s : string) : option (string * option string) :=
  if existsb (Ascii.eqb "|"%char) (list_ascii_of_string s) then None
  else match cut (Ascii.eqb "="%char) s with
       | Some (n, p) => Some (n, Some p)
       | None => Some (s, None)
       end.
Definition read_validate (tag : string) : option (list (string * option string)) :=
  match tag_value "validate" tag with
  | None => Some []
  | Some v => mapM read_directive (split_on comma v)
  end.

(** The parameter of "oneof": values in single quotes, or without spaces and quotes. *)
Fixpoint oneof_values (fuel : nat) (s : string) : list string :=
  match fuel with
  | O => []
  | S fuel' =>
      match skip_spaces s with
      | "" => []
      | String c r =>
          if Ascii.eqb c "'"%char then
            match cut (Ascii.eqb "'"%char) r with
            | Some (v, rest) => v :: oneof_values fuel' rest
            | None => []
            end
          else
            match cut (Ascii.eqb " "%char) (String c r) with
            | Some (v, rest) => v :: oneof_values fuel' rest
            | None => [String c r]
            end
      end
  end.

(** Directives as they are meant. *)
Inductive directive {F : Type} :=
| DOmitEmpty | DRequired | DMin (n : F) | DMax (n : F) | DGte (x : F) | DLte (x : F) | DGt (x : F)
| DLt (x : F) | DUnique | DOneOf (l : list string) | DEq (s : string).
Arguments directive : clear implicits.

Section expected.
  Context {F : Type} (show : F -> string) (of_uint : N -> F).

  (** How a directive is written, as name and parameter. *)
  Definition meaning (d : directive F) (w : string * option string) : Prop :=
    match d with
    | DOmitEmpty => w = ("omitempty", None)
    | DRequired => w = ("required", None)
    | DMin n => w = ("min", Some (show n))
    | DMax n => w = ("max", Some (show n))
    | DGte x => w = ("gte", Some (show x))
    | DLte x => w = ("lte", Some (show x))
    | DGt x => w = ("gt", Some (show x))
    | DLt x => w = ("lt", Some (show x))
    | DUnique => w = ("unique", None)
    | DOneOf l => exists p, w = ("oneof", Some p) /\ oneof_values (S (String.length p)) p = l
    | DEq s => w = ("eq", Some s)
    end.

  Definition strings_only (l : list jany) : option (list string) :=
    mapM (fun a => match a with JString s => Some s | JOther => None end) l.

  Definition opt {A} (o : option A) (f : A -> directive F) : list (directive F) :=
    match o with Some a => [f a] | None => [] end.

  (** The directives a declared schema asks for, apart from omitempty. Enumerations and constants
      that are not strings are not expressible. *)
  Definition wanted (d : declared F) : list (directive F) :=
    (if dRequired d then [DRequired] else []) ++
    opt (dMinLength d) (fun n => DMin (of_uint n)) ++
    opt (dMaxLength d) (fun n => DMax (of_uint n)) ++
    opt (dMinimum d) DGte ++
    opt (dMaximum d) DLte ++
    opt (dExclusiveMinimum d) DGt ++
    opt (dExclusiveMaximum d) DLt ++
    (if dUnique d then [DUnique] else []) ++
    opt (dEnum d ≫= strings_only) DOneOf ++
    opt (dConst d ≫= fun a => match a with JString s => Some s | JOther => None end) DEq.

  (** Optional fields are validated only when they are there. *)
  Definition wanted_all (d : declared F) : list (directive F) :=
    match wanted d with
    | [] => []
    | ds => if dRequired d then ds else DOmitEmpty :: ds
    end.
End expected.

(** Text without the characters that have a meaning in tags. *)
Definition plain_char (c : ascii) : bool :=
  negb (existsb (Ascii.eqb c) [comma; dquote; backslash; "|"%char; "`"%char]).
Definition plain (s : string) : Prop := forallb plain_char (list_ascii_of_string s) = true.
Definition no_quote (s : string) : Prop :=
  forallb (fun c => negb (Ascii.eqb c "'"%char)) (list_ascii_of_string s) = true.

(** Documents whose constraints can be expressed in tags: bounds different from zero (the zero
    value stands for absence), a non-empty enumeration, plain texts. *)
Section expressible.
  Context {F : Type} (is0 : F -> bool) (of_uint : N -> F).
  Definition num_ok (o : option F) : Prop := match o with Some x => is0 x = false | None => True end.
  Definition uint_ok (o : option N) : Prop :=
    match o with Some n => is0 (of_uint n) = false | None => True end.
  Definition enum_ok (o : option (list jany)) : Prop :=
    match o with
    | Some l =>
        l <> [] /\
        Forall (fun a => match a with JString s => plain s /\ no_quote s | JOther => True end) l
    | None => True
    end.
  Definition expressible (d : declared F) : Prop :=
    num_ok (dMinimum d) /\ num_ok (dMaximum d) /\
    num_ok (dExclusiveMinimum d) /\ num_ok (dExclusiveMaximum d) /\
    uint_ok (dMinLength d) /\ uint_ok (dMaxLength d) /\ enum_ok (dEnum d) /\
    match dConst d with Some (JString s) => plain s | _ => True end.

  (** The texts of a document have no characters with a meaning in tags. *)
  Definition texts_ok (d : declared F) : Prop :=
    Forall (fun a => match a with JString s => plain s /\ no_quote s | JOther => True end) (default [] (dEnum d)) /\
    match dConst d with Some (JString s) => plain s | _ => True end.
  (** What is left of a document in which the zero bounds and an empty enumeration are struck out, as well as the requirement of a field
      that is neither a pointer nor an array. *)
  Definition kept {A} (p : A -> bool) (o : option A) : option A := o ≫= fun x => if p x then None else Some x.
  Definition said (d : declared F) (nilable : bool) : declared F :=
    mkDeclared F (kept (fun n => is0 (of_uint n)) (dMinLength d)) (kept (fun n => is0 (of_uint n)) (dMaxLength d))
      (kept is0 (dMinimum d)) (kept is0 (dMaximum d)) (kept is0 (dExclusiveMinimum d)) (kept is0 (dExclusiveMaximum d)) (dUnique d)
      (kept (fun l => match l with [] => true | _ => false end) (dEnum d)) (dConst d) (dRequired d && nilable).
End expressible.
