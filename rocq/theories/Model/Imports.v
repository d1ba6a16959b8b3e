(** Custom imports: pkg/asyncapi/v3/extensions.go and pkg/asyncapi/v2/extensions.go. *)
From stdpp Require Import gmap list strings.
From Coq Require Import String Ascii.
From Verif.Model Require Import Reference.
Local Open Scope string_scope.

(** extensions.go:26-29 [GoTypeImportExtension] *)
Record go_import := mkImport { i_name : string; i_path : string }.

(** What matters here of a schema (pkg/asyncapi/v3/schema.go): its properties in the order in which the
    map is iterated, its items, its custom import; [s_others] are its alternatives (anyOf, oneOf, allOf)
    and additional properties, which the code does not look at.
    Simplification: schemas are finite trees (references are separate pointers, not followed here). *)
Inductive ischema :=
  ISchema (props : list (string * ischema)) (items : option ischema) (others : list ischema) (imp : option go_import).

(** extensions.go:55-68 *)
Definition add_import (i : go_import) (m : gmap string string) : res (gmap string string) :=
  match m !! i_path i with
  | Some n => if String.eqb n (i_name i) then Ok m else Err
  | None => Ok (<[i_path i := i_name i]> m)
  end.

(** extensions.go:40-69 [goTypeImports]; the map is updated in place, also before an error. *)
Fixpoint go_type_imports (s : ischema) (m : gmap string string) : res (gmap string string) :=
  match s with
  | ISchema props items _ imp =>
      let own m := match imp with Some i => add_import i m | None => Ok m end in
      let its m := match items with
                   | Some it => match go_type_imports it m with Ok m => own m | e => e end
                   | None => own m
                   end in
      (fix go (l : list (string * ischema)) (m : gmap string string) : res (gmap string string) :=
         match l with
         | [] => its m
         | (_, p) :: r => match go_type_imports p m with Ok m => go r m | e => e end
         end) props m
  end.

(** The loops over the components: [over f l m] stops at the first error. *)
Fixpoint over {A B} (f : A -> B -> res B) (l : list A) (m : B) : res B :=
  match l with
  | [] => Ok m
  | a :: r => match f a m with Ok m => over f r m | e => e end
  end.

Record imessage := mkIMessage { im_payload : option ischema; im_headers : option ischema }.
(** The components, in the order in which the maps are iterated; [parameters] are read in v2 only. *)
Record components := mkComponents {
  c_schemas : list (string * ischema); c_messages : list (string * imessage);
  c_parameters : list (string * option ischema) }.

Definition opt_imports (o : option ischema) (m : gmap string string) : res (gmap string string) :=
  match o with Some s => go_type_imports s m | None => Ok m end.

(** extensions.go:76-100: the map that is collected; [v2]: with the parameters (v2/extensions.go:98-104). *)
Definition collect (v2 : bool) (c : components) : res (gmap string string) :=
  match over (fun kv m => go_type_imports kv.2 m) (c_schemas c) ∅ with
  | Ok m =>
      match over (fun kv m => match opt_imports (im_payload kv.2) m with
                              | Ok m => opt_imports (im_headers kv.2) m
                              | e => e
                              end) (c_messages c) m with
      | Ok m => if v2 then over (fun kv m => opt_imports kv.2 m) (c_parameters c) m else Ok m
      | e => e
      end
  | e => e
  end.

(** strings.TrimSpace, for ASCII *)
Definition is_space (a : ascii) : bool :=
  let n := nat_of_ascii a in (Nat.eqb n 32 || (Nat.leb 9 n && Nat.leb n 13))%bool.
Fixpoint trim_left (l : list ascii) : list ascii :=
  match l with a :: r => if is_space a then trim_left r else l | [] => [] end.
Definition trim_space (s : string) : string :=
  string_of_list_ascii (rev (trim_left (rev (trim_left (list_ascii_of_string s))))).

(** extensions.go:103-112 [importsMapToList]; [l]: the pairs in the order of the iteration. *)
Definition import_line (path name : string) : string :=
  trim_space (String.append name (String.append " """ (String.append path """"))).
Definition map_to_lines (l : list (string * string)) : list string :=
  omap (fun pn => if String.eqb pn.1 "" then None else Some (import_line pn.1 pn.2)) l.

Section Collect.
  (** The order in which Go iterates over the collected map. *)
  Context (iter : gmap string string -> list (string * string)).
  (** extensions.go:75-101 [CustomImports] *)
  Definition custom_imports (v2 : bool) (c : components) : res (list string) :=
    match collect v2 c with Ok m => Ok (map_to_lines (iter m)) | Err => Err | Panic => Panic end.
End Collect.
