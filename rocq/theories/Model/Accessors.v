(** The generated code that reads and writes the field of a location ("$message.header#/a/b"): correlation identifiers and reply addresses.
    Modelled code: pkg/codegen/generators/v3/templates/message.tmpl:41-51, 279-305, v2/templates/message.tmpl:32-42, 261-287,
    v3/templates/controller.tmpl:265-278, 393-405. The path that the templates write for a location is in Location.v; here it is a list of fields, the
    first of which is Headers or Payload. *)
From stdpp Require Import list strings.
From Coq Require Import String.
From Verif.Model Require Import Types.
Local Open Scope string_scope.

(** Values of Go, as far as locations need them. A structure gives the value of each field. *)
Inductive value := Nil | Text (s : string) | Pointer (v : value) | Struct (fields : string -> value) | Other.

(** [Set_ path address]: msg.path = x, or = &x; [Get path star]: msg.path, or the value behind it when it is not nil, else nothing. *)
Inductive access := Set_ (path : list string) (address : bool) | Get (path : list string) (star : bool).

(** The template flags: [required] is CorrelationIDRequired. NewX (41-51) and SetCorrelationID (294-296) write, CorrelationID (281-291) reads. *)
Definition write (path : list string) (required : bool) : access := Set_ path (negb required).
Definition read (path : list string) (required : bool) : access := Get path (negb required).

(** ** Running *)
(** A selection follows a pointer. [None]: nil dereference, or not a structure. *)
Definition field (v : value) (k : string) : option value :=
  match v with Struct f => Some (f k) | Pointer (Struct f) => Some (f k) | _ => None end.
Fixpoint get (path : list string) (v : value) : option value :=
  match path with [] => Some v | k :: r => w ← field v k; get r w end.
Definition replace_field (v : value) (k : string) (w : value) : option value :=
  let update f := Struct (fun k' => if String.eqb k' k then w else f k') in
  match v with Struct f => Some (update f) | Pointer (Struct f) => Some (Pointer (update f)) | _ => None end.
Fixpoint put (path : list string) (x v : value) : option value :=
  match path with
  | [] => Some x
  | k :: r => w ← field v k; w' ← put r x w; replace_field v k w'
  end.

Section message.
  Variables (path : list string) (required : bool).
  (** message.tmpl:294-296, and 47 on the zero value. *)
  Definition set_id (id : string) (msg : value) : option value := put path (if required then Text id else Pointer (Text id)) msg.
  (** message.tmpl:281-291. *)
  Definition get_id (msg : value) : option string :=
    v ← get path msg;
    if required then match v with Text s => Some s | _ => None end
    else match v with Nil => Some "" | Pointer (Text s) => Some s | _ => None end.
  (** controller.tmpl:267-275: the address, or an error ([inl]) when it is missing. *)
  Definition get_address (msg : value) : option (unit + string) :=
    v ← get path msg;
    if required then match v with Text s => Some (inr s) | _ => None end
    else match v with Nil => Some (inl tt) | Pointer (Text s) => Some (inr s) | _ => None end.
End message.
(** message.tmpl:301-304: the path and the flag are those of the response, the request has its own. *)
Definition set_as_response (path : list string) (required : bool) (req_id : option string) (msg : value) : option value :=
  id ← req_id; set_id path required id msg.

(** The zero value of a field; structures are unfolded [n] times. *)
Definition find_field (fs : list Types.field) (k : string) : option Types.field := List.find (fun f => String.eqb (f_key f) k) fs.
Fixpoint zero (defs : string -> option gdef) (n : nat) (pointer : bool) (t : gotype) : value :=
  if pointer then Nil
  else match t with
       | TString => Text ""
       | TNamed s =>
           match n, defs s with
           | S n, Some (DStruct fs _) =>
               Struct (fun k => match find_field fs k with Some f => zero defs n (f_pointer f) (f_type f) | None => Other end)
           | _, _ => Other
           end
       | TSlice _ | TInterface => Nil
       | _ => Other
       end.
(** message.tmpl:41-51: NewX. *)
Definition new_message (defs : string -> option gdef) (n : nat) (name : string) (path : list string) (required : bool) (uuid : string) : option value :=
  set_id path required uuid (zero defs n false (TNamed name)).
