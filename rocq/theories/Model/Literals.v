(** Where the templates put texts of the document into string literals of the generated code.

    Modelled code: pkg/codegen/generators/v3/templates/types.tmpl:2, 87-93, controller.tmpl:89, message.tmpl:121, 246-263,
    schema_definition.tmpl:18, helpers.go:108-115 (a channel without parameters), and the same in v2/templates (types.tmpl:2, 87-93, controller.tmpl:89,
    message.tmpl:112, 228-245, helpers.go:105-112). text/template writes strings as they are. For an address with parameters see Address.v. *)
From stdpp Require Import list strings.
From Coq Require Import NArith.
From Verif.Model Require Import Additional.
Local Open Scope N_scope.
Local Open Scope list_scope.

Definition own (s : string) : gostring := map Rune (txt s).
(** "{{ s }}" *)
Definition between (s : gostring) : gostring := own """" ++ s ++ own """".

(** types.tmpl:2 *)
Definition version_constant (version : gostring) : gostring := own "const AsyncAPIVersion = " ++ between version.
(** controller.tmpl:89 *)
Definition version_context (version : gostring) : gostring :=
  own "ctx = context.WithValue(ctx, extensions.ContextKeyIsVersion, " ++ between version ++ own ")".
(** types.tmpl:91, [name]: namifyWithoutParam of the name of the channel; v2: [address] is the key of the channel *)
Definition path_constant (name address : gostring) : gostring := name ++ own "Path = " ++ between address.
(** message.tmpl:121 (v2: 112) *)
Definition header_case (key : gostring) : gostring := own "case k == " ++ between key ++ own ":".
(** message.tmpl:246-263 (v2: 228-245): the left side of each assignment *)
Definition header_store (key : gostring) : gostring := own "headers[" ++ between key ++ own "]".
(** schema_definition.tmpl:18, [tags]: what generateJSONTags and generateValidateTags give *)
Definition field_tags (tags : gostring) : gostring := own "`" ++ tags ++ own "`".
Section literals.
  Variable printable : N -> bool.
  (** helpers.go:114 (v2: 111) *)
  Definition channel_address (address : gostring) : gostring := map Rune (quote printable address).
End literals.
