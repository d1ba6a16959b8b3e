(** The rules of Go for the statements of Conversion.v (https://go.dev/ref/spec: conversions, assignability, selectors, short variable declarations; a
    variable that is declared and not used is an error), and the messages for which they are met. *)
From stdpp Require Import list strings.
From Coq Require Import String.
From Verif.Model Require Import Types Conversion.
Local Open Scope string_scope.

(** The types declared in the package: the underlying type of each, a structure counting as its own. *)
Definition package_types := string -> option gotype.

Global Instance gotype_dec : EqDecision gotype.
Proof. solve_decision. Defined.
Global Instance xtype_dec : EqDecision xtype.
Proof. solve_decision. Defined.

Section rules.
  Variable env : package_types.
  Variable fields : place -> option xtype.

  Definition underlying (t : xtype) : xtype := match t with X (TNamed n) => match env n with Some u => X u | None => X TBroken end | _ => t end.
  (** A type that can be written: no missing type, no undeclared name. *)
  Fixpoint written (t : gotype) : bool :=
    match t with TNamed n => match env n with Some _ => true | None => false end | TSlice u => written u | TBroken => false | _ => true end.
  Fixpoint xwritten (t : xtype) : bool := match t with X t => written t | XPointer t => xwritten t | _ => true end.
  (** An identifier used as a type: predeclared, or declared in the package. *)
  Definition named (s : string) : option xtype :=
    if String.eqb s "string" then Some (X TString) else if String.eqb s "bool" then Some (X TBool)
    else if String.eqb s "int32" then Some (X TInt32) else if String.eqb s "int64" then Some (X TInt64)
    else if String.eqb s "float32" then Some (X TFloat32) else if String.eqb s "float64" then Some (X TFloat64)
    else if env s then Some (X (TNamed s)) else None.
  Definition named_type (n : tname) : option xtype := match n with Known t => Some t | Ident s => named s end.

  Definition numeric (t : xtype) : bool :=
    match t with X TInt32 | X TInt64 | X TFloat32 | X TFloat64 | XUint _ => true | _ => false end.
  Definition same (t u : xtype) : bool := bool_decide (t = u).
  Definition convertible (from to : xtype) : bool :=
    let f := underlying from in let t := underlying to in
    same f t || (numeric f && numeric t) || (same f XBytes && same t (X TString)) || (same f (X TString) && same t XBytes) || same t (X TInterface).
  Definition assignable (from to : xtype) : bool := same from to || same (underlying to) (X TInterface).
  Definition nilable (t : xtype) : bool :=
    match underlying t with XPointer _ | X (TSlice _) | X TInterface | XBytes => true | _ => false end.
  (** Only time.Time has the method Format, which can be called through a pointer; a type defined from it does not inherit it. *)
  Definition has_format (t : xtype) : bool := same t (X TTime) || same t (XPointer (X TTime)).
  Definition float (bits : nat) : xtype := X (if Nat.eqb bits 32 then TFloat32 else TFloat64).

  (** Variables in scope with their types, the innermost first. *)
  Definition scope := list (string * xtype).
  Fixpoint lookup_var (sc : scope) (x : string) : option xtype :=
    match sc with [] => None | (y, t) :: sc => if String.eqb x y then Some t else lookup_var sc x end.
  Definition declares (sc : scope) (x : string) : bool := if lookup_var sc x then true else false.
  Definition mentions (l : list string) (x : string) : bool := existsb (String.eqb x) l.

  Fixpoint type_of (sc : scope) (e : expr) : option xtype :=
    match e with
    | Input => Some XBytes
    | Field f => t ← fields f; if xwritten t then Some t else None
    | Var x => lookup_var sc x
    | Parsed e => t ← type_of sc e; if convertible t (X TString) then Some (X TTime) else None
    | Word n e => t ← type_of sc e; if assignable t XBytes then Some (XUint n) else None
    | FromBits n e => t ← type_of sc e; if assignable t (XUint n) then Some (float n) else None
    | ToBits n e => t ← type_of sc e; if assignable t (float n) then Some (XUint n) else None
    | Convert n e => t ← type_of sc e; u ← named_type n; if convertible t u then Some u else None
    | Deref e => t ← type_of sc e; match t with XPointer u => Some u | _ => None end
    | Address e => XPointer <$> type_of sc e
    | Format e => t ← type_of sc e; if has_format t then Some (X TString) else None
    | Marshal e => _ ← type_of sc e; Some XBytes
    end.
  Fixpoint uses (e : expr) : list string :=
    match e with
    | Input | Field _ => []
    | Var x => [x]
    | Parsed e | Word _ e | FromBits _ e | ToBits _ e | Convert _ e | Deref e | Address e | Format e | Marshal e => uses e
    end.

  (** A block: what its statements declare is used in it. Gives the variables that are used and not declared in it. *)
  Definition block (check : scope -> scope -> stmt -> option (scope * list string)) :=
    fix block (outer inner : scope) (used : list string) (l : list stmt) {struct l} : option (list string) :=
    match l with
    | [] => if forallb (fun v : string * xtype => mentions used v.1) inner then Some (List.filter (fun x => negb (declares inner x)) used) else None
    | s :: l => '(inner', u) ← check outer inner s; block outer inner' (used ++ u)%list l
    end.
  (** A statement in a block, after the declarations [inner] of the block: the declarations after it and what it uses. [err] is declared along, and used at
      once. *)
  Definition err : string * xtype := ("err", X TInterface).
  Definition loop_scope : scope := [("k", X TString); ("v", XBytes)].
  Fixpoint check (outer inner : scope) (s : stmt) {struct s} : option (scope * list string) :=
    let sc := (inner ++ outer)%list in
    match s with
    | Let x e => t ← type_of sc e; if declares inner x then None else Some ((x, t) :: inner, uses e)
    | Let2 x e =>
        t ← type_of sc e;
        if declares inner x then
          u ← lookup_var inner x; if declares inner "err" then None else if assignable t u then Some (err :: inner, "err" :: uses e) else None
        else Some ((x, t) :: (if declares inner "err" then inner else err :: inner), "err" :: uses e)
    | Make x _ => if declares inner x then None else Some ((x, XBytes) :: inner, [])
    | Assign f e =>
        t ← type_of sc e; u ← fields f; if xwritten u && assignable t u then Some (inner, uses e) else None
    | Unmarshal e d =>
        t ← type_of sc e; _ ← type_of sc d;
        if negb (assignable t XBytes) || declares inner "err" then None else Some (err :: inner, "err" :: (uses e ++ uses d)%list)
    | FailIfNil f => t ← fields f; if xwritten t && nilable t then Some (inner, []) else None
    | IfSet f b =>
        t ← fields f;
        if xwritten t && nilable t then u ← block check sc [] [] b; Some (inner, u) else None
    | Put n x e =>
        b ← lookup_var sc x; t ← type_of sc e;
        if assignable b XBytes && assignable t (XUint n) then Some (inner, x :: uses e) else None
    | Emit _ e => t ← type_of sc e; if assignable t XBytes then Some (inner, uses e) else None
    | Loop cs =>
        us ← mapM (fun c : string * list stmt => block check (loop_scope ++ sc)%list [] [] c.2) cs;
        let u := ((if cs then [] else ["k"]) ++ List.concat us)%list in
        if mentions u "k" && mentions u "v" then Some (inner, List.filter (fun x => negb (declares loop_scope x)) u) else None
    end.
  Definition compiles (l : list stmt) : bool := if block check [] [] [] l then true else false.
End rules.

(** ** Messages *)
(** The names that the package declares are exported. *)
Definition exported (s : string) : Prop := exists c r, s = String c r /\ (65 <= Ascii.nat_of_ascii c <= 90)%nat.
Definition exports (env : package_types) : Prop := forall s u, env s = Some u -> exported s.
(** The package declares the schema [s] and, if it is not a structure, with the underlying type of what schema-name writes. *)
Definition declared (env : package_types) (dates : bool) (s : gschema) : Prop :=
  if String.eqb (g_type s) "object" then env (g_name s) = Some (TNamed (g_name s))
  else exists t u, schema_name dates s = Some t /\ underlying env (X t) = X u /\ written env t = true /\ env (g_name s) = Some u.

Section supported.
  Variables (env : package_types) (v3 dates force : bool).
  (** The schema of a part has a type that can be written and no custom Go type; a reference stands alone and its target is declared. *)
  Definition part_ok (p : part) : Prop :=
    g_ext (own p) = "" /\ (exists t, schema_name dates (own p) = Some t /\ written env t = true) /\
    match target p with
    | Some t => g_type (own p) = "" /\ g_ref (own p) = Some (g_name t) /\ g_ext t = "" /\ declared env dates t
    | None => g_type (own p) = "object" -> env (g_name (own p)) = Some (TNamed (g_name (own p)))
    end.
  Definition message_ok (m : message) : Prop :=
    part_ok (m_payload m) /\ (target (m_payload m) = None -> g_ref (own (m_payload m)) = None) /\
    forall hs, m_headers m = Some hs -> NoDup (map h_key hs) /\ Forall (fun h => part_ok (h_part h)) hs.

  (** The payloads whose conversions compile. *)
  Definition payload_supported (p : part) : bool :=
    let s := followed p in
    let date := is_date_generated dates (g_format s) in
    if String.eqb (g_type s) "object" || String.eqb (g_type s) "array" || String.eqb (g_type s) "integer" then true
    else if String.eqb (g_type s) "string" then
      negb date || (match target p with None => true | Some _ => false end && String.eqb (g_format s) "date-time")
    else match target p with Some t => String.eqb (g_type t) "" && bool_decide (env (g_name t) = Some TString) | None => false end.
  (** The headers whose conversions compile. *)
  Definition header_supported (h : header) : bool :=
    let p := h_part h in let s := own p in
    let declared := is_field_pointer force (h_declared h || h_flag h) s in
    let seen := is_field_pointer force (h_listed h || h_flag h) s in
    if String.eqb (g_type s) "object" then h_flag h || declared
    else
      Bool.eqb declared seen && (h_flag h || declared) &&
      (if String.eqb (g_type s) "string" then
         negb (is_date_generated dates (g_format s)) || (String.eqb (g_format s) "date-time" && negb (h_flag h && declared))
       else match target p with
            | Some t => v3 && negb (is_date_generated dates (g_format s)) && bool_decide (env (g_name t) = Some TString)
            | None => false
            end).
  Definition required_object (h : header) : bool := h_flag h && String.eqb (g_type (own (h_part h))) "object".
  (** The messages both of whose functions compile. *)
  Definition message_supported (m : message) : bool :=
    payload_supported (m_payload m) &&
    match m_headers m with
    | None => true
    | Some hs => negb (Nat.eqb (List.length hs) 0) && forallb header_supported hs && Nat.leb (List.length (List.filter required_object hs)) 1
    end.
End supported.
