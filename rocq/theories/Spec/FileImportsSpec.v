(** What the Go compiler asks of the imports of a file, and what a document asks for. *)
From stdpp Require Import list strings.
From Coq Require Import Ascii String.
From Verif.Model Require Import Types Conversion FileImports.
From Verif.Spec Require Import TypesSpec.
Local Open Scope string_scope.

(** The packages that are always imported, by their own names. *)
Definition packages : list (string * string) :=
  [("encoding/json", "json"); ("time", "time"); ("errors", "errors"); ("fmt", "fmt"); ("context", "context"); ("encoding/binary", "binary");
   ("math", "math"); ("github.com/lerenn/asyncapi-codegen/pkg/extensions", "extensions"); ("github.com/google/uuid", "uuid");
   ("cloud.google.com/go/civil", "civil")].
Definition knows (package_name : string -> string) : Prop := forall p n, (p, n) ∈ packages -> package_name p = n.

(** Every import is used, everything used is imported, no name is declared twice. *)
Record accepted (name : import -> string) (l : list import) (uses : list string) : Prop := {
  acc_used : forall i, i ∈ l -> name i ∈ uses;
  acc_found : forall u, u ∈ uses -> exists i, i ∈ l /\ name i = u;
  acc_once : NoDup (map name l);
}.

(** The text of a Go type names something of the package [u]: [u] is a whole identifier in it, followed by a dot. *)
Definition letter_or_digit (a : ascii) : Prop :=
  let n := nat_of_ascii a in (48 <= n <= 57 \/ 65 <= n <= 90 \/ 97 <= n <= 122 \/ n = 95)%nat.
Definition qualified (text u : string) : Prop :=
  exists before after, list_ascii_of_string text = (before ++ list_ascii_of_string u ++ "."%char :: after)%list /\
    u <> "" /\ Forall letter_or_digit (list_ascii_of_string u) /\ (forall a, last before = Some a -> ~ letter_or_digit a).

(** A custom type somewhere in the document uses the package [u]. *)
Definition in_document (d : document) (s : gschema) : Prop :=
  s ∈ d_params d \/ s ∈ d_schemas d \/
  exists x, x ∈ d_messages d /\ (s = own (m_payload (x_message x)) \/ exists r, x_headers x = Some (s, r)).
Definition custom_use (d : document) (u : string) : Prop :=
  exists s x, in_document d s /\ inside s x /\ qualified (g_ext x) u.

(** The type of the payload of a message, behind the reference if it is one. *)
Definition payload_type (x : xmessage) : string := g_type (followed (m_payload (x_message x))).

(** A side that makes identifiers itself: it sends a message with one, which in version 3 is not only the reply to another one. *)
Definition side_sends (v3 : bool) (s : xside) : Prop :=
  exists o, o ∈ xs_send s /\ xo_correlated o = true /\ (v3 = true -> xo_reply_of o = false \/ xo_reply o <> None).
(** A side that formats texts: it receives something, or sends to an address that has parameters (in version 3 to one that the document gives), or asks
    for a reply. *)
Definition side_formats (v3 : bool) (s : xside) : Prop :=
  xs_receive s <> [] \/
  exists o, o ∈ xs_send s /\ (xo_params o = true /\ (v3 = true -> xo_address o = true) \/ v3 = true /\ xo_reply o <> None).
