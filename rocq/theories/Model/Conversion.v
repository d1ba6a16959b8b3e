(** The statements of the functions that convert between generated messages and broker messages.
    Modelled code: pkg/codegen/generators/v3/templates/message.tmpl:53-277 and v2/templates/message.tmpl:44-259, statement by
    statement. What the statements do with values is in Codec.v; here they are syntax, so that it can be asked whether they compile. *)
From stdpp Require Import list strings.
From Coq Require Import String.
From Verif.Model Require Import Types.
Local Open Scope string_scope.

(** ** Syntax *)
(** Go types: those of Types.v, []byte, uintN and pointers. A conversion names a type that the template writes ([Known]) or that comes from the
    document ([Ident]). The fields of a message: msg.Payload, and msg.Headers.X for the header with key X. *)
Inductive xtype := X (t : gotype) | XBytes | XUint (bits : nat) | XPointer (t : xtype).
Inductive tname := Known (t : xtype) | Ident (s : string).
Inductive place := Payload | Header (k : string).

(** [Input]: bMsg.Payload; [Field f]: a field of the message; [Parsed e]: the time that time.Parse(time.RFC3339, string(e)) gives; [Word n e]:
    binary.LittleEndian.UintN(e); [FromBits n e], [ToBits n e]: math.FloatNfrombits(e), math.FloatNbits(e); [Convert t e]: t(e); [Format e]:
    e.Format(time.RFC3339); [Marshal e]: the bytes that json.Marshal(e) gives. *)
Inductive expr :=
| Input | Field (f : place) | Var (x : string) | Parsed (e : expr) | Word (bits : nat) (e : expr) | FromBits (bits : nat) (e : expr)
| ToBits (bits : nat) (e : expr) | Convert (t : tname) (e : expr) | Deref (e : expr) | Address (e : expr) | Format (e : expr) | Marshal (e : expr).

(** [Let x e]: x := e; [Let2 x e]: x, err := e, followed by a test of err; [Make x n]: x := make([]byte, n); [Assign f e]: f = e; [Unmarshal e d]:
    err := json.Unmarshal(e, d), followed by a test of err; [FailIfNil f]: if f == nil, an error is returned; [IfSet f b]: if f != nil { b };
    [Put n x e]: binary.BigEndian.PutUintN(x, e); [Emit p e]: e becomes the payload or the header [p] of the broker message; [Loop cs]:
    for k, v := range bMsg.Headers { switch { ... } }, each case comparing k with the string it is given with. *)
Inductive stmt :=
| Let (x : string) (e : expr) | Let2 (x : string) (e : expr) | Make (x : string) (size : nat) | Assign (f : place) (e : expr) | Unmarshal (e d : expr)
| FailIfNil (f : place) | IfSet (f : place) (body : list stmt) | Put (bits : nat) (x : string) (e : expr) | Emit (p : place) (e : expr)
| Loop (cases : list (string * list stmt)).

(** ** What the templates look at *)
(** A payload or a header: its schema, and the schema that ReferenceTo leads to when Reference is not empty. *)
Record part := mkPart { own : gschema; target : option gschema }.
Definition g_format (s : gschema) : string := let 'GSchema _ _ f _ _ _ _ _ := s in f.
Definition g_ext (s : gschema) : string := let 'GSchema _ _ _ x _ _ _ _ := s in x.
Definition g_ref (s : gschema) : option string := let 'GSchema _ _ _ _ _ _ _ r := s in r.
(** v3 message.tmpl:57-61, 178-182: [$payload]. *)
Definition followed (p : part) : gschema := match target p with Some t => t | None => own p end.
(** A header: its key; whether the schema that the structure is generated from lists it as required ([h_declared]), whether [.Headers] does
    ([h_listed]; the two are the same schema unless [.Headers] is a reference), its flag IsRequired, its schema. *)
Record header := mkHeader { h_key : string; h_declared : bool; h_listed : bool; h_flag : bool; h_part : part }.
Record message := mkMessage { m_payload : part; m_headers : option (list header) }.

Section conversion.
  Variables v3 dates force : bool.
  Notation dated := (is_date_generated dates).
  Notation is s t := (String.eqb (g_type s) t).

  (** v3 helpers.go:130-139 with the parent that the functions give (message.tmpl:121, 235). *)
  Definition seen_pointer (h : header) : bool := is_field_pointer force (h_listed h || h_flag h) (own (h_part h)).

  (** The fields of the message: message.tmpl:26-38, schema_definition.tmpl:13-19 for those of the headers. *)
  Definition field_type (m : message) (f : place) : option xtype :=
    match f with
    | Payload => X <$> schema_name dates (own (m_payload m))
    | Header k =>
        hs ← m_headers m;
        '(_, h) ← list_find (fun h => h_key h = k) hs;
        t ← schema_name dates (own (h_part h));
        Some (if is_field_pointer force (h_declared h || h_flag h) (own (h_part h)) then XPointer (X t) else X t)
    end.

  (** v3 message.tmpl:63-106, v2:54-97. Follow leads one step, as ReferenceTo (schema.go:472-477). *)
  Definition decode_payload (p : part) : list stmt :=
    let s := followed p in
    (if is s "string" then
       if dated (g_format s) then [Let2 "t" (Parsed Input); Let "payload" (Var "t")] else [Let "payload" (Convert (Known (X TString)) Input)]
     else if is s "integer" then
       if String.eqb (g_format s) "int32" then [Let "payload" (Convert (Known (X TInt32)) (Word 32 Input))]
       else [Let "payload" (Convert (Known (X TInt64)) (Word 64 Input))]
     else if is s "number" then
       if String.eqb (g_format s) "float" then [Let "payload" (FromBits 32 (Word 32 Input))] else [Let "payload" (FromBits 64 (Word 64 Input))]
     else [Unmarshal Input (Address (Field Payload))])
    ++ (if is s "string" || is s "integer" || is s "numeric" then
          match target p with
          | Some t => [Assign Payload (Convert (Ident (g_name t)) (Var "payload"))]
          | None => [Assign Payload (Var "payload")]
          end
        else []).

  (** v3 message.tmpl:184-217, v2:166-199. The format of integers is that of the payload, not followed (193). *)
  Definition encode_payload (p : part) : list stmt :=
    let s := followed p in
    if is s "object" || is s "array" then [Let2 "payload" (Marshal (Field Payload))]
    else if is s "integer" then
      if String.eqb (g_format (own p)) "int32" then [Make "payload" 4; Put 32 "payload" (Convert (Known (XUint 32)) (Field Payload))]
      else [Make "payload" 8; Put 64 "payload" (Convert (Known (XUint 64)) (Field Payload))]
    else if is s "number" then
      if String.eqb (g_format s) "float" then [Make "payload" 4; Put 32 "payload" (ToBits 32 (Field Payload))]
      else [Make "payload" 8; Put 64 "payload" (ToBits 64 (Field Payload))]
    else if is s "string" && dated (g_format s) then [Let "payload" (Convert (Known XBytes) (Format (Field Payload)))]
    else [Let "payload" (Convert (Known XBytes) (Field Payload))].

  (** v3 message.tmpl:135-139, 155-159: a reference gives the type to convert to. In v2:126, 142 only the type does. Without a name the value is between
      parentheses. *)
  Definition header_value (h : part) : expr :=
    let t := match target h with Some r => if v3 then g_name r else g_type (own h) | None => g_type (own h) end in
    if String.eqb t "" then Var "v" else Convert (Ident t) (Var "v").

  (** v3 message.tmpl:121-163, v2:113-145. *)
  Definition decode_header (h : header) : list stmt :=
    let s := own (h_part h) in
    let f := Header (h_key h) in
    if seen_pointer h then
      if is s "object" then [Unmarshal (Var "v") (Field f)]
      else if dated (g_format s) then [Let2 "t" (Parsed (Var "v")); Assign f (Address (Var "t"))]
      else [Let "h" (header_value (h_part h)); Assign f (Address (Var "h"))]
    else
      if is s "object" then [Unmarshal (Var "v") (Address (Field f))]
      else if dated (g_format s) then [Let2 "t" (Parsed (Var "v")); Assign f (Var "t")]
      else [Assign f (header_value (h_part h))].

  (** v3 message.tmpl:233-266, v2:215-248. In [*msg.Headers.X.Format(...)] the selection binds more tightly than the star. *)
  Definition encode_header (h : header) : list stmt :=
    let s := own (h_part h) in
    let f := Header (h_key h) in
    if h_flag h then
      let star e := if seen_pointer h then Deref e else e in
      (if seen_pointer h then [FailIfNil f] else [])
      ++ (if is s "object" then [Let2 "h" (Marshal (star (Field f))); Emit f (Var "h")]
          else if dated (g_format s) then [Emit f (Convert (Known XBytes) (star (Format (Field f))))]
          else [Emit f (Convert (Known XBytes) (star (Field f)))])
    else
      [IfSet f
        (if is s "object" then [Let2 "h" (Marshal (Deref (Field f))); Emit f (Var "h")]
         else if dated (g_format s) then [Emit f (Convert (Known XBytes) (Format (Field f)))]
         else [Emit f (Convert (Known XBytes) (Deref (Field f)))])].

  (** v3 message.tmpl:54-170: brokerMessageToX. *)
  Definition decoder (m : message) : list stmt :=
    decode_payload (m_payload m) ++ match m_headers m with Some hs => [Loop (map (fun h => (h_key h, decode_header h)) hs)] | None => [] end.
  (** v3 message.tmpl:173-277: toBrokerMessage; the map of the headers, declared and returned in all cases, is left out. *)
  Definition encoder (m : message) : list stmt :=
    encode_payload (m_payload m) ++ match m_headers m with Some hs => flat_map encode_header hs | None => [] end ++ [Emit Payload (Var "payload")].
End conversion.
