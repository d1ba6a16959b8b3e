(** Requests and replies of generated types, on their way through the version wrapper and a broker.
    Modelled code: pkg/codegen/generators/v3/templates/controller.tmpl:254-280, 323-372, 386-526 (System.v) with the conversions of message.tmpl:54-278
    (Conversion.v, Typed.v), pkg/extensions/versioning/wrapper.go:79-87 (Versioning.v), brokers/kafka and brokers/nats (Transport.v), and message.tmpl:41-51,
    279-305 for an identifier that is a header.
    Simplified: a message that cannot be converted or published is the empty one (Send… returns an error instead: C18, C20); the message that comes with a
    conversion error is the zero one, instead of what was filled before. Neither happens to the messages C110 speaks of. *)
From stdpp Require Import gmap list strings.
From Coq Require Import String.
From Verif.Model Require Import Decoding Types Wire JsonText Codec Conversion Typed BrokerMessage Versioning Transport.
From Verif.Spec Require Import ConversionSpec GoRun.
Local Open Scope string_scope.

Section typed_request.
  Context {T E : Type}.
  Variable wenv : string -> option wdef.
  Variable fuel : nat.
  Variables float32 float64 : num -> option num.
  Variables date time : string -> option string.
  Variable any : json -> json.
  Variables date0 time0 : string.
  Variables (err_write err_read : E).
  Variables (tformat : T -> string) (tparse : string -> T + E).
  Variables (err_nil err_unmarshal err_panic : E).
  Variables v3 dates force : bool.
  Notation store := (place -> GoRun.value (gotype * gv) T).

  (** The two messages of an operation with a reply, the header that holds the identifier of each, whether it is required. *)
  Variables request reply : message.
  Variables key1 key2 : string.
  Variables required1 required2 : bool.
  Variables zero1 zero2 : store.
  (** The wrapper, its version; what the broker makes of headers; the order in which the map of headers is walked. *)
  Variable cfg : wcfg.
  Variable ver : option string.
  Variable carry : gmap string string -> gmap string string.
  Variable order : gmap string string -> list (string * string).

  Inductive rmsg := Request (σ : store) | Reply (σ : store).
  (** A message of one of the two channels. *)
  Record wmsg := mkWmsg { w_reply : bool; w_headers : gmap string string; w_payload : string }.

  (** message.tmpl:281-291 *)
  Definition read_id (key : string) (σ : store) : string :=
    match σ (Header key) with GoRun.VStr s | GoRun.VPtr (GoRun.VStr s) => s | _ => "" end.
  (** message.tmpl:47, 294-296 *)
  Definition write_id (key : string) (required : bool) (id : string) (σ : store) : store :=
    fun f => if GoRun.same_place (Header key) f then (if required then GoRun.VStr id else GoRun.VPtr (GoRun.VStr id)) else σ f.

  Notation env := (package wenv fuel).
  Notation types m := (Conversion.field_type dates force m).
  Notation marshal := (Typed.marshal (T := T) wenv fuel err_write).
  Notation unmarshal := (Typed.unmarshal (T := T) wenv fuel float32 float64 date time any date0 time0 err_read).
  (** controller.tmpl:361-370: toBrokerMessage, then Publish. *)
  Definition published (m : message) (σ : store) : option (gmap string string * string) :=
    match GoRun.gives marshal unmarshal tformat tparse err_nil err_unmarshal env (types m) "" [] σ (encoder dates force m) with
    | Next (h, x) =>
        match w_publish cfg ver (mkBmsg (Some h) (Some x)) with
        | Some (mkBmsg (Some h1) (Some x1)) => Some (carry h1, x1)
        | _ => None
        end
    | _ => None
    end.
  (** message.tmpl:54-172 *)
  Definition received (m : message) (zero : store) (h : gmap string string) (x : string) : store * option E :=
    match GoRun.fills marshal unmarshal tformat tparse err_nil err_unmarshal env (types m) x (order h) zero (decoder v3 dates force m) with
    | Next σ => (σ, None)
    | Fail e => (zero, Some e)
    | _ => (zero, Some err_panic)
    end.

  Definition encode_r (d : rmsg) : wmsg :=
    let '(r, p) := match d with Request σ => (false, published request σ) | Reply σ => (true, published reply σ) end in
    let '(h, x) := default (∅, "") p in mkWmsg r h x.
  Definition decode_r (w : wmsg) : rmsg * option E :=
    if w_reply w then let '(σ, e) := received reply zero2 (w_headers w) (w_payload w) in (Reply σ, e)
    else let '(σ, e) := received request zero1 (w_headers w) (w_payload w) in (Request σ, e).
  Definition corr_r (d : rmsg) : string := match d with Request σ => read_id key1 σ | Reply σ => read_id key2 σ end.
  Definition set_corr_r (id : string) (d : rmsg) : rmsg :=
    match d with Request σ => Request (write_id key1 required1 id σ) | Reply σ => Reply (write_id key2 required2 id σ) end.
  (** controller.tmpl:259-262: the function of the application gets the request and fills the reply. *)
  Definition answer_r (f : store -> store -> store) (req d : rmsg) : rmsg :=
    match req, d with Request σ, Reply σ' => Reply (f σ σ') | _, _ => d end.
End typed_request.
Arguments rmsg : clear implicits.
