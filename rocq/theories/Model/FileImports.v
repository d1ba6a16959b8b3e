(** The import block of a generated file, and the packages that its text uses.
    Modelled code: pkg/codegen/generators/v3/templates/imports.tmpl (the same in v2), generator.go:20-112 of both versions, and the qualifiers
    (the part before the dot in [json.Marshal]) in the text of the templates controller.tmpl, subscriber.tmpl, types.tmpl, message.tmpl,
    schema_definition.tmpl, schema_name.tmpl, marshaling/*.tmpl, parameter.tmpl; pkg/codegen/codegen.go:96-113. *)
From stdpp Require Import gmap list strings.
From Coq Require Import Ascii String.
From Verif.Model Require Import Reference Imports Types Conversion.
Local Open Scope string_scope.
Local Open Scope list_scope.

(** ** The block *)
(** A line of the block: the name that is written before the path, "" when there is none, and the path. *)
Record import := mkImp { imp_name : string; imp_path : string }.

(** imports.tmpl:10-28 *)
Definition fixed_imports : list string :=
  ["encoding/json"; "time"; "errors"; "fmt"; "context"; "encoding/binary"; "math";
   "github.com/lerenn/asyncapi-codegen/pkg/extensions"; "github.com/google/uuid"; "cloud.google.com/go/civil"].

(** imports.tmpl:30-31 with extensions.go:103-112 (Imports.v); [l]: the collected map, in the order of its iteration. *)
Definition custom_block (l : list (string * string)) : list import :=
  omap (fun pn : string * string => if String.eqb pn.1 "" then None else Some (mkImp pn.2 pn.1)) l.
Definition import_block (l : list (string * string)) : list import := map (mkImp "") fixed_imports ++ custom_block l.

(** ** Qualifiers *)
(** The qualifiers in the text of a custom Go type (x-go-type), such as "[]*uuid.UUID": the identifiers that a dot follows.
    Simplification: ASCII; the text has no comment and no string. *)
Definition is_ident (a : ascii) : bool :=
  let n := nat_of_ascii a in
  ((48 <=? n) && (n <=? 57) || (65 <=? n) && (n <=? 90) || (97 <=? n) && (n <=? 122) || (n =? 95))%nat%bool.
Fixpoint qualifiers_from (word l : list ascii) : list (list ascii) :=
  match l with
  | [] => []
  | a :: r =>
      if is_ident a then qualifiers_from (word ++ [a]) r
      else if Ascii.eqb a "." then match word with [] => [] | _ => [word] end ++ qualifiers_from [] r
      else qualifiers_from [] r
  end.
Definition qualifiers (s : string) : list string := map string_of_list_ascii (qualifiers_from [] (list_ascii_of_string s)).

(** schema_name.tmpl:5 (the custom type), 20, 22. *)
Fixpoint type_uses (t : gotype) : list string :=
  match t with
  | TDate => ["civil"]
  | TTime => ["time"]
  | TSlice t => type_uses t
  | TCustom s => qualifiers s
  | _ => []
  end.

(** schema_definition.tmpl:11-42; additional_properties.tmpl:8, 26, 30, 41-63 writes the type of the additional properties again; time.tmpl. *)
Definition def_uses (d : gdef) : list string :=
  match d with
  | DStruct fs a => flat_map (fun f => type_uses (f_type f)) fs ++ match a with Some t => type_uses t ++ ["json"; "fmt"] | None => [] end
  | DType t m => type_uses t ++ if m then ["json"; "time"] else []
  end.

(** The statements of Conversion.v: message.tmpl:67-91, 124-155 and 188-211, 238-261. *)
Definition xtype_uses (t : xtype) : list string :=
  match t with X t => type_uses t | _ => [] end.
Fixpoint expr_uses (e : expr) : list string :=
  match e with
  | Input | Field _ | Var _ => []
  | Parsed e | Format e => "time" :: expr_uses e
  | Word _ e => "binary" :: expr_uses e
  | FromBits _ e | ToBits _ e => "math" :: expr_uses e
  | Convert (Known t) e => xtype_uses t ++ expr_uses e
  | Convert (Ident _) e | Deref e | Address e => expr_uses e
  | Marshal e => "json" :: expr_uses e
  end.
Fixpoint stmt_uses (s : stmt) : list string :=
  match s with
  | Let _ e | Let2 _ e | Assign _ e | Emit _ e => expr_uses e
  | Make _ _ => []
  | Unmarshal e d => "json" :: expr_uses e ++ expr_uses d
  | FailIfNil _ => ["fmt"; "extensions"]
  | IfSet _ b => flat_map stmt_uses b
  | Put _ _ e => "binary" :: expr_uses e
  | Loop cs => flat_map (fun c : string * list stmt => flat_map stmt_uses c.2) cs
  end.

(** ** Messages and types *)
(** A message that is generated, as message.tmpl reads it: what Conversion.v needs of it, its headers with whether they are a reference, and
    whether it has a correlation identifier (v3: HaveCorrelationID, v2: CorrelationIDLocation is not ""). *)
Record xmessage := mkX { x_message : message; x_headers : option (gschema * bool); x_correlated : bool }.

Section types.
  Variable order : visit.
  Variables v3 dates force : bool.

  Definition schema_uses (s : gschema) : option (list string) :=
    flat_map (fun nd => def_uses nd.2) <$> schema_definition order dates force s.
  Definition name_uses (s : gschema) : option (list string) := type_uses <$> schema_name dates s.

  (** v3 message.tmpl:12-311, v2:3-290: the definitions of headers and payload, the structure, NewX with its identifier (46), the signatures of the two
      functions and their statements. Marshal errors of headers return extensions.BrokerMessage{} as the signature does. *)
  Definition payload_definition (p : part) : option (list string) :=
    if (String.eqb (g_type (own p)) "object" || String.eqb (g_type (own p)) "array") && match target p with None => true | _ => false end
    then schema_uses (own p) else Some [].
  Definition headers_uses (h : option (gschema * bool)) : option (list string) :=
    match h with
    | None => Some []
    | Some (s, r) =>
        d ← (if r : bool then Some [] else schema_uses s);
        n ← name_uses s;
        Some (d ++ n)
    end.
  Definition message_uses (x : xmessage) : option (list string) :=
    let m := x_message x in
    h ← headers_uses (x_headers x);
    d ← payload_definition (m_payload m);
    n ← name_uses (own (m_payload m));
    Some (h ++ d ++ n ++ (if x_correlated x then ["uuid"] else []) ++ ["extensions"]
            ++ flat_map stmt_uses (decoder v3 dates force m) ++ flat_map stmt_uses (encoder dates force m)).

  (** types.tmpl:6-56: what is always there; v3:58-85, v2:59-87: the types of the parameters (v2 only, parameter.tmpl:9), the messages, the schemas of
      the components. [params]: the schemas of the parameters. The constants use no package. *)
  Definition types_uses (params : list gschema) (messages : list xmessage) (schemas : list gschema) : option (list string) :=
    ps ← mapM name_uses (if v3 then [] else params);
    ms ← mapM message_uses messages;
    ss ← mapM schema_uses schemas;
    Some (["extensions"; "fmt"] ++ List.concat ps ++ List.concat ms ++ List.concat ss).
End types.

(** ** Controllers *)
(** An operation of a side (v2: a channel), as far as the packages go: whether its channel has a parameters object, whether the address of the
    channel is not "", whether its message has a correlation identifier, whether it is the reply of another one (v3: ReplyOf), the reply it has
    itself (v3), with whether its address stands in an optional field of the message and whether the channel of the reply has a parameters object;
    whether the side waits for it (v2, controller.tmpl:316). *)
Record xop := mkXOp { xo_params : bool; xo_address : bool; xo_correlated : bool; xo_reply_of : bool; xo_reply : option (bool * bool); xo_waits : bool }.
Record xside := mkSide { xs_receive : list xop; xs_send : list xop }.
Definition whenever (b : bool) (l : list string) : list string := if b then l else [].

(** v3 controller.tmpl:1-101 (v2:1-102): the controller, its construction, its middlewares, its end. *)
Definition base_uses : list string := ["extensions"; "context"].
(** subscriber.tmpl: nothing without operations. *)
Definition subscriber_uses (s : xside) : list string := whenever (negb (match xs_receive s with [] => true | _ => false end)) ["context"].
(** v3 controller.tmpl:105-134, v2:104-131 *)
Definition all_uses (s : xside) : list string := whenever (negb (match xs_receive s with [] => true | _ => false end)) ["context"; "extensions"].
(** v3 controller.tmpl:136-242, 281-311, v2:133-272. Addresses with parameters are written fmt.Sprintf(...) (helpers.go:108-128). *)
Definition listening_uses (o : xop) : list string := ["context"; "fmt"; "extensions"].
(** v3 controller.tmpl:251-279 *)
Definition answering_uses (o : xop) : list string :=
  match xo_reply o with Some (optional, _) => "context" :: whenever optional ["fmt"; "extensions"] | None => [] end.
(** v3 controller.tmpl:313-372, v2:274-314. In v2 the path is always written and there is no ReplyOf. *)
Definition sending_uses (v3 : bool) (o : xop) : list string :=
  ["context"; "extensions"] ++ whenever (xo_params o && (xo_address o || negb v3)) ["fmt"]
    ++ whenever (xo_correlated o && negb (v3 && xo_reply_of o)) ["uuid"].
(** v3 controller.tmpl:376-527 *)
Definition requesting_uses (o : xop) : list string :=
  match xo_reply o with Some _ => ["context"; "extensions"; "fmt"] ++ whenever (xo_correlated o) ["uuid"] | None => [] end.
(** v2 controller.tmpl:316-439 *)
Definition waiting_uses (o : xop) : list string :=
  whenever (xo_waits o) (["context"; "extensions"] ++ whenever (xo_params o) ["fmt"]).
(** generator.go:73-98 *)
Definition side_uses (v3 : bool) (s : xside) : list string :=
  subscriber_uses s ++ base_uses ++ all_uses s
    ++ flat_map (fun o => listening_uses o ++ (if v3 then answering_uses o else waiting_uses o)) (xs_receive s)
    ++ flat_map (fun o => sending_uses v3 o ++ (if v3 then requesting_uses o else [])) (xs_send s).

(** ** The file *)
(** options.go: the parts that are asked for. *)
Record parts := mkParts { p_application : bool; p_user : bool; p_types : bool }.
Record document := mkDoc {
  d_application : xside; d_user : xside; d_params : list gschema; d_messages : list xmessage; d_schemas : list gschema;
  d_custom : list (string * string) }.

(** generator.go:21-51: the parts one after the other. [None]: the execution of a template fails. *)
Definition file_uses (order : visit) (v3 dates force : bool) (p : parts) (d : document) : option (list string) :=
  t ← (if p_types p then types_uses order v3 dates force (d_params d) (d_messages d) (d_schemas d) else Some []);
  Some (whenever (p_application p) (side_uses v3 (d_application d)) ++ whenever (p_user p) (side_uses v3 (d_user d)) ++ t).

(** codegen.go:96-113. [imports.Process] of golang.org/x/tools is not part of the repository. What is taken from it: lines that are the same are merged,
    those whose package is not used are taken out, and for each qualifier that no line declares it adds what it finds ([find], maybe nothing).
    [declares]: the name that a line declares, which is the written one or that of the package. Imports named "." or "_" are not modelled. *)
Section process.
  Variable package_name : string -> string.
  Variable find : string -> option import.
  Definition declares (i : import) : string := if String.eqb (imp_name i) "" then package_name (imp_path i) else imp_name i.
  #[global] Instance import_dec : EqDecision import.
  Proof. solve_decision. Defined.
  Definition process (l : list import) (uses : list string) : list import :=
    filter (fun i => declares i ∈ uses) (remove_dups l)
      ++ omap find (remove_dups (filter (fun u => u ∉ map declares l) uses)).
  (** [formatting]: not DisableFormatting. *)
  Definition generated_imports (formatting : bool) (l : list import) (uses : list string) : list import :=
    if formatting then process l uses else l.
End process.
