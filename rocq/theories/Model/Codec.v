(** Conversion between generated messages and broker messages.
    Modelled code: pkg/codegen/generators/v3/templates/message.tmpl:53-277; the corresponding
    lines of v2/templates/message.tmpl:44-259 are the same except for the Go type names used in
    conversions. *)
From stdpp Require Import gmap strings list.
From Coq Require Import ZArith.
Open Scope Z_scope.

(** ** Integer payloads

    Bytes are integers between 0 and 255; a payload is a list of bytes. *)

(** encoding/binary: [n] bytes of [x], least significant first ([uint32(x)], [uint64(x)] for a
    signed [x] is reduction modulo 256^n: two's complement). *)
Fixpoint le_put (n : nat) (x : Z) : list Z :=
  match n with
  | O => []
  | S n' => x mod 256 :: le_put n' (x / 256)
  end.

(** binary.BigEndian.PutUint32 / PutUint64. *)
Definition be_put (n : nat) (x : Z) : list Z := rev (le_put n x).

(** binary.LittleEndian.Uint32 / Uint64 on the bytes that are read. *)
Fixpoint le_get (bs : list Z) : Z :=
  match bs with
  | [] => 0
  | b :: bs' => b + 256 * le_get bs'
  end.

(** int32(u), int64(u): two's complement on [n] bytes. *)
Definition to_signed (n : nat) (u : Z) : Z :=
  if u <? 2 ^ (8 * Z.of_nat n - 1) then u else u - 2 ^ (8 * Z.of_nat n).

(** The parts of a payload schema the template looks at: the format written where the payload is
    declared ([.Payload.Format]) and, when that is a reference, the format of the referenced
    schema ([$payload.Format], [$payload = .Payload.ReferenceTo], 57-61 and 178-182).
    [true] means "int32"; anything else is 64 bits. *)
Record intpayload := mkInt { isref : bool; fmt_here : bool; fmt_ref : bool }.
Definition resolved_fmt (p : intpayload) : bool := if isref p then fmt_ref p else fmt_here p.

Definition width (int32 : bool) : nat := if int32 then 4%nat else 8%nat.

(** The Go type of the Payload field: int32 or int64, by the resolved format. *)
Definition int_range (p : intpayload) (x : Z) : Prop :=
  let n := Z.of_nat (width (resolved_fmt p)) in - 2 ^ (8 * n - 1) <= x < 2 ^ (8 * n - 1).

(** 191-199: the width depends on [.Payload.Format], not on [$payload.Format]. *)
Definition int_encode (p : intpayload) (x : Z) : list Z := be_put (width (fmt_here p)) x.

(** 75-81: the width depends on [$payload.Format]; Uint32/Uint64 panic ([None]) when the slice
    is too short and ignore what follows. *)
Definition int_decode (p : intpayload) (bs : list Z) : option Z :=
  let n := width (resolved_fmt p) in
  if (length bs <? n)%nat then None else Some (to_signed n (le_get (take n bs))).

(** ** Headers

    [O]: Go values of object headers; [T]: time.Time; [Er]: errors. JSON and RFC3339 are oracles. *)
Inductive hkind := HString | HObject | HDate.

(** One property of the headers schema: its kind, [$value.IsRequired] and whether the Go field is
    a pointer ([isFieldPointer], helpers.go:130-139). *)
Record hdecl := mkH { hkd : hkind; hreq : bool; hptr : bool }.

(** Declarations for which the generated code compiles: 253 compares the field with nil when the
    header is optional, so the field must be a pointer. *)
Definition hcompiles (d : hdecl) : bool := hreq d || hptr d.

Inductive hval (O T : Type) := VString (s : string) | VObject (o : O) | VDate (t : T).
Arguments VString {_ _}.
Arguments VObject {_ _}.
Arguments VDate {_ _}.
(** A field of the Headers struct: [None] is a nil pointer. *)
Notation hfield O T := (option (hval O T)).
(** A message's Headers struct, indexed by header name. *)
Notation hstruct O T := (gmap string (option (hval O T))).

Section Headers.
  Context {O T Er : Type}.
  Variable marshal : O -> string + Er.
  Variable unmarshal : string -> O + Er.
  Variable tformat : T -> string.
  Variable tparse : string -> T + Er.
  Variable err_nil : Er.                       (** "field … should not be nil" (238) *)
  Variable err_unmarshal_nil : Er.             (** json.InvalidUnmarshalError: nil pointer *)
  Variable zero_o : O.
  Variable zero_t : T.


  (** Go zero value of the field: nil for pointers. *)
  Definition zero_field (d : hdecl) : hfield O T :=
    if hptr d then None
    else Some match hkd d with HString => VString "" | HObject => VObject zero_o | HDate => VDate zero_t end.

  (** The field holds a value of its Go type. *)
  Definition field_ok (d : hdecl) (f : hfield O T) : Prop :=
    match f with
    | None => hptr d = true
    | Some v => match hkd d, v with
                | HString, VString _ => True | HObject, VObject _ => True | HDate, VDate _ => True
                | _, _ => False
                end
    end.

  (** 241-251 and 254-264: the bytes of a header that is set. *)
  Definition hrender (v : hval O T) : string + Er :=
    match v with
    | VString s => inl s
    | VObject o => marshal o
    | VDate t => inl (tformat t)
    end.

  (** The header declarations in template order (Go templates range over maps in key order). *)
  Definition hdecls := list (string * hdecl).

  (** 230-267: generated statements, one per header. A field that is missing from the struct does
      not exist in Go; it is treated as nil. *)
  Fixpoint henc (ds : hdecls) (m : hstruct O T) (acc : gmap string string) : gmap string string + Er :=
    match ds with
    | [] => inl acc
    | (k, d) :: ds' =>
        match m !! k with
        | Some (Some v) =>
            match hrender v with
            | inl b => henc ds' m (<[k := b]> acc)
            | inr e => inr e
            end
        | _ => if hreq d then inr err_nil else henc ds' m acc
        end
    end.

  (** 122-161: value stored in the field of declaration [d] for the bytes [v]. 124 unmarshals an
      object into the pointer held by the field, which is nil: an error. *)
  Definition hparse (d : hdecl) (v : string) : hval O T + Er :=
    match hkd d with
    | HString => inl (VString v)
    | HObject => if hptr d then inr err_unmarshal_nil
                 else match unmarshal v with inl o => inl (VObject o) | inr e => inr e end
    | HDate => match tparse v with inl t => inl (VDate t) | inr e => inr e end
    end.

  Fixpoint hfind (ds : hdecls) (k : string) : option hdecl :=
    match ds with
    | [] => None
    | (k', d) :: ds' => if bool_decide (k = k') then Some d else hfind ds' k
    end.

  (** 109-166: loop over the broker headers, in the order [bs]. *)
  Fixpoint hdec (ds : hdecls) (bs : list (string * string)) (m : hstruct O T) : hstruct O T + Er :=
    match bs with
    | [] => inl m
    | (k, v) :: bs' =>
        match hfind ds k with
        | None => hdec ds bs' m
        | Some d =>
            match hparse d v with
            | inl x => hdec ds bs' (<[k := Some x]> m)
            | inr e => inr e
            end
        end
    end.

  (** 55: zero value of the struct. *)
  Definition hzero (ds : hdecls) : hstruct O T :=
    list_to_map (map (fun kd => (fst kd, zero_field (snd kd))) ds).

  (** ** Messages with a string payload (73, 103, 214: the payload is copied as it is). *)
  Record smsg := mkSmsg { sheaders : hstruct O T; spayload : string }.

  (** 175-277. *)
  Definition to_broker (ds : hdecls) (m : smsg) : (gmap string string * string) + Er :=
    match henc ds (sheaders m) ∅ with
    | inl h => inl (h, spayload m)
    | inr e => inr e
    end.

  (** 54-172, the headers being visited in the order [bs]. *)
  Definition from_broker (ds : hdecls) (bs : list (string * string)) (payload : string) : smsg + Er :=
    match hdec ds bs (hzero ds) with
    | inl h => inl (mkSmsg h payload)
    | inr e => inr e
    end.
End Headers.
Arguments smsg : clear implicits.

(** ** Headers on the wire *)

(** pkg/extensions/brokers/kafka/kafka.go:167-169: the headers of the map, appended in iteration
    order [l]. *)
Definition kafka_headers (l : list (string * string)) : list (string * string) :=
  fold_left (fun acc kv => acc ++ [kv]) l [].
(** kafka.go:298-301 and 332-335. *)
Definition kafka_received (hs : list (string * string)) : gmap string string :=
  fold_left (fun m kv => <[kv.1 := kv.2]> m) hs ∅.

(** pkg/extensions/brokers/nats/nats.go:89-91 and natsjetstream/natsjetstream.go:212-214, with
    nats.Header.Set: the key gets the single value. *)
Definition nats_headers (l : list (string * string)) : gmap string (list string) :=
  fold_left (fun m kv => <[kv.1 := [kv.2]]> m) l ∅.
(** nats.go:130-135 and natsjetstream.go:263-268, over the received headers in order [l]. *)
Definition nats_received (l : list (string * list string)) : gmap string string :=
  fold_left (fun m kv => match kv.2 with v :: _ => <[kv.1 := v]> m | [] => m end) l ∅.
