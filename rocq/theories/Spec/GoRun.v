(** What the statements of Conversion.v do when they are executed (https://go.dev/ref/spec: conversions, assignments, range and switch
    statements; packages encoding/binary, encoding/json, math, time). JSON and RFC 3339 are oracles. *)
From stdpp Require Import gmap list strings.
From Coq Require Import String ZArith.
From Verif.Model Require Import Types Codec Conversion.
From Verif.Spec Require Import ConversionSpec.
Local Open Scope string_scope.

(** A result, an error that is returned, a panic, or statements that have no meaning. *)
Inductive outcome (E A : Type) := Next (a : A) | Fail (e : E) | Panic | Stuck.
Arguments Next {_ _}. Arguments Fail {_ _}. Arguments Panic {_ _}. Arguments Stuck {_ _}.
Definition after {E A B} (o : outcome E A) (f : A -> outcome E B) : outcome E B :=
  match o with Next a => f a | Fail e => Fail e | Panic => Panic | Stuck => Stuck end.

(** Values. [VFloat]: by its bits; [VJson]: structures, slices, interfaces and what else the conversions treat by JSON only. *)
Inductive value (J T : Type) :=
| VBytes (b : string) | VStr (s : string) | VInt (bits : nat) (z : Z) | VUint (bits : nat) (z : Z) | VFloat (bits : nat) (z : Z)
| VTime (t : T) | VJson (j : J) | VNil | VPtr (v : value J T).
Arguments VBytes {_ _}. Arguments VStr {_ _}. Arguments VInt {_ _}. Arguments VUint {_ _}. Arguments VFloat {_ _}. Arguments VTime {_ _}.
Arguments VJson {_ _}. Arguments VNil {_ _}. Arguments VPtr {_ _}.

(** Bytes as numbers. *)
Definition numbers (s : string) : list Z := map (fun a => Z.of_nat (Ascii.nat_of_ascii a)) (list_ascii_of_string s).
Definition text (l : list Z) : string := string_of_list_ascii (map (fun z => Ascii.ascii_of_nat (Z.to_nat z)) l).

Section run.
  Context {J T E : Type}.
  Notation value := (value J T).
  Variables (marshal : value -> string + E) (unmarshal : xtype -> string -> value + E).
  Variables (tformat : T -> string) (tparse : string -> T + E).
  (** "field ... should not be nil", json.InvalidUnmarshalError. *)
  Variables (err_nil err_unmarshal : E).
  Variable env : package_types.
  Variable fields : place -> option xtype.

  Definition convert_to (u : xtype) (v : value) : option value :=
    match u, v with
    | X TString, VBytes b => Some (VStr b)
    | X TString, VStr s => Some (VStr s)
    | XBytes, VStr s => Some (VBytes s)
    | XBytes, VBytes b => Some (VBytes b)
    | X TInt32, (VInt _ z | VUint _ z) => Some (VInt 32 (to_signed 4 (z mod 2 ^ 32)%Z))
    | X TInt64, (VInt _ z | VUint _ z) => Some (VInt 64 (to_signed 8 (z mod 2 ^ 64)%Z))
    | XUint n, (VInt _ z | VUint _ z) => Some (VUint n (z mod 2 ^ Z.of_nat n)%Z)
    | X TInterface, v => Some v
    | X TTime, VTime t => Some (VTime t)
    | X (TNamed _), VJson j => Some (VJson j)
    | _, _ => None
    end.

  Record state := mkState { vars : list (string * value); store : place -> value; headers : gmap string string; body : option string }.
  Definition set_var (x : string) (v : value) (s : state) : state := mkState ((x, v) :: vars s) (store s) (headers s) (body s).
  Definition same_place (f g : place) : bool :=
    match f, g with Payload, Payload => true | Header k, Header l => String.eqb k l | _, _ => false end.
  Definition set_field (f : place) (v : value) (s : state) : state :=
    mkState (vars s) (fun g => if same_place f g then v else store s g) (headers s) (body s).
  Definition emit (p : place) (b : string) (s : state) : state :=
    match p with
    | Payload => mkState (vars s) (store s) (headers s) (Some b)
    | Header k => mkState (vars s) (store s) (<[k := b]> (headers s)) (body s)
    end.
  Fixpoint var (l : list (string * value)) (x : string) : option value :=
    match l with [] => None | (y, v) :: l => if String.eqb x y then Some v else var l x end.

  (** The broker message that is converted: its payload, and its headers in the order in which the map is walked. *)
  Variables (input : string) (incoming : list (string * string)).

  Fixpoint eval (s : state) (e : expr) : outcome E value :=
    match e with
    | Input => Next (VBytes input)
    | Field f => Next (store s f)
    | Var x => match var (vars s) x with Some v => Next v | None => Stuck end
    | Parsed e =>
        after (eval s e) (fun v =>
        match v with
        | VBytes b | VStr b => match tparse b with inl t => Next (VTime t) | inr x => Fail x end
        | _ => Stuck
        end)
    | Word n e =>
        after (eval s e) (fun v =>
        match v with
        | VBytes b => let l := numbers b in
            if Nat.ltb (List.length l) (n / 8) then Panic else Next (VUint n (le_get (take (n / 8) l)))
        | _ => Stuck
        end)
    | FromBits n e => after (eval s e) (fun v => match v with VUint _ z => Next (VFloat n z) | _ => Stuck end)
    | ToBits n e => after (eval s e) (fun v => match v with VFloat _ z => Next (VUint n z) | _ => Stuck end)
    | Convert t e =>
        after (eval s e) (fun v =>
        match named_type env t with
        | Some u => match convert_to (underlying env u) v with Some w => Next w | None => Stuck end
        | None => Stuck
        end)
    | Deref e => after (eval s e) (fun v => match v with VPtr w => Next w | VNil => Panic | _ => Stuck end)
    | Address e => after (eval s e) (fun v => Next (VPtr v))
    | Format e =>
        after (eval s e) (fun v =>
        match v with VTime t | VPtr (VTime t) => Next (VStr (tformat t)) | VNil => Panic | _ => Stuck end)
    | Marshal e => after (eval s e) (fun v => match marshal v with inl b => Next (VBytes b) | inr x => Fail x end)
    end.

  (** The variables declared in a block end with it. *)
  Definition leave (outer : state) (s : state) : state := mkState (vars outer) (store s) (headers s) (body s).
  Definition in_block (exec : state -> stmt -> outcome E state) :=
    fix in_block (s : state) (l : list stmt) {struct l} : outcome E state :=
    match l with [] => Next s | c :: l => after (exec s c) (fun s' => in_block s' l) end.
  (** The first case whose key is that of the header. *)
  Fixpoint switch (cases : list (string * (state -> outcome E state))) (k : string) (s : state) : outcome E state :=
    match cases with
    | [] => Next s
    | (k', f) :: r => if String.eqb k k' then f s else switch r k s
    end.
  Fixpoint walk (cases : list (string * (state -> outcome E state))) (l : list (string * string)) (s : state) : outcome E state :=
    match l with
    | [] => Next s
    | (k, v) :: r =>
        after (switch cases k (set_var "k" (VStr k) (set_var "v" (VBytes v) s))) (fun s' => walk cases r (leave s s'))
    end.

  Fixpoint exec (s : state) (c : stmt) {struct c} : outcome E state :=
    match c with
    | Let x e | Let2 x e => after (eval s e) (fun v => Next (set_var x v s))
    | Make x n => Next (set_var x (VBytes (text (repeat 0%Z n))) s)
    | Assign f e => after (eval s e) (fun v => Next (set_field f v s))
    | Unmarshal e d =>
        after (eval s e) (fun v =>
        match v with
        | VBytes b =>
            match d with
            | Address (Field f) =>
                match fields f with
                | Some t => match unmarshal t b with inl w => Next (set_field f w s) | inr x => Fail x end
                | None => Stuck
                end
            | Field f => match store s f with VPtr _ => Stuck | _ => Fail err_unmarshal end  (* a pointer that is set: not needed here *)
            | _ => Stuck
            end
        | _ => Stuck
        end)
    | FailIfNil f => match store s f with VNil => Fail err_nil | _ => Next s end
    | IfSet f b => match store s f with VNil => Next s | _ => after (in_block exec s b) (fun s' => Next (leave s s')) end
    | Put n x e =>
        after (eval s e) (fun v =>
        match v, var (vars s) x with
        | VUint _ z, Some (VBytes b) =>
            let l := numbers b in
            if Nat.ltb (List.length l) (n / 8) then Panic else Next (set_var x (VBytes (text (be_put (n / 8) z ++ drop (n / 8) l)%list)) s)
        | _, _ => Stuck
        end)
    | Emit p e => after (eval s e) (fun v => match v with VBytes b => Next (emit p b s) | _ => Stuck end)
    | Loop cs => walk (map (fun c : string * list stmt => (c.1, fun s => in_block exec s c.2)) cs) incoming s
    end.

  (** The function that fills a message, from the zero values [zero] on, and the one that reads the message [m]. *)
  Definition fills (zero : place -> value) (l : list stmt) : outcome E (place -> value) :=
    after (in_block exec (mkState [] zero ∅ None) l) (fun s => Next (store s)).
  Definition gives (m : place -> value) (l : list stmt) : outcome E (gmap string string * string) :=
    after (in_block exec (mkState [] m ∅ None) l) (fun s => match body s with Some b => Next (headers s, b) | None => Stuck end).
End run.

(** The values of a type. *)
Fixpoint holds {J T} (env : package_types) (t : xtype) (v : value J T) : Prop :=
  match v with
  | VNil => exists u, t = XPointer u
  | VPtr w => match t with XPointer u => holds env u w | _ => False end
  | VStr _ => underlying env t = X TString
  | VBytes _ => underlying env t = XBytes
  | VInt n z => (n = 32%nat /\ underlying env t = X TInt32 \/ n = 64%nat /\ underlying env t = X TInt64) /\
                (- 2 ^ (Z.of_nat n - 1) <= z < 2 ^ (Z.of_nat n - 1))%Z
  | VUint n _ => underlying env t = XUint n
  | VFloat n _ => underlying env t = float n
  | VTime _ => underlying env t = X TTime
  | VJson _ => exists u, underlying env t = X u /\ u <> TString /\ u <> TInt32 /\ u <> TInt64 /\ u <> TFloat32 /\ u <> TFloat64 /\ u <> TTime
  end.
