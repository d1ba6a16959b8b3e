(** Messages: references, alternatives (oneOf) and traits.
    Modelled code: pkg/asyncapi/v3/message.go:66-118 (the parts about schemas), 122-180, 222-250,
    260-300, 401-596, pkg/asyncapi/v3/message_trait.go, pkg/asyncapi/v2/message.go:57-111, 115-190,
    320-416, pkg/asyncapi/v3/operation.go:195-235 (ApplyTrait) and the copy library
    github.com/mohae/deepcopy as it is used here.
    Not modelled: names (but for tags), bindings and documentation objects beyond their presence,
    null entries in lists. *)
From stdpp Require Import gmap list strings.
From Coq Require Import Ascii String.
From Verif.Model Require Import GoStrings Reference Slices Schema Location.
Local Open Scope string_scope.

(** A tag or a security scheme: what is compared (Name) and the rest. *)
Record tag := mkTag { tag_name : string; tag_rest : string }.

(** What message traits (v3/message_trait.go:6-32) and messages have in common. Pointers to
    documentation and bindings objects are kept as the objects they are copied from; the correlation
    ID is its location. *)
Record about := mkAbout {
  a_corr : option string;
  a_content : string;
  a_title : string;
  a_summary : string;
  a_descr : string;
  a_tags : list tag;
  a_docs : option string;
  a_bindings : option string;
  a_examples : list string;
}.

Record msg := mkMsg {
  m_parts : parts;
  m_about : about;
  m_oneof : list nat;
  m_traits : list nat;
  m_ref : string;
  m_refto : option nat;
}.
Record trait := mkTrait { t_parts : parts; t_about : about; t_ref : string; t_refto : option nat }.

Definition no_about : about := mkAbout None "" "" "" "" [] None None [].
Definition empty_msg : msg := mkMsg (mkParts None None) no_about [] [] "" None.
Definition empty_trait : trait := mkTrait (mkParts None None) no_about "" None.
Definition with_parts p m := mkMsg p (m_about m) (m_oneof m) (m_traits m) (m_ref m) (m_refto m).
Definition with_about a m := mkMsg (m_parts m) a (m_oneof m) (m_traits m) (m_ref m) (m_refto m).
Definition with_ref r m := mkMsg (m_parts m) (m_about m) (m_oneof m) (m_traits m) r (m_refto m).
Definition with_mrefto r m := mkMsg (m_parts m) (m_about m) (m_oneof m) (m_traits m) (m_ref m) r.

(** The whole document: schemas, messages and traits. *)
Record doc := mkDoc { d_heap : heap; d_msgs : gmap nat msg; d_traits : gmap nat trait; d_next : nat }.
Definition message (d : doc) (m : nat) : msg := default empty_msg (d_msgs d !! m).
Definition set_message (m : nat) (c : msg) (d : doc) : doc :=
  mkDoc (d_heap d) (<[m := c]> (d_msgs d)) (d_traits d) (d_next d).
Definition upd_message (m : nat) (f : msg -> msg) (d : doc) : doc := set_message m (f (message d m)) d.
Definition set_heap (h : heap) (d : doc) : doc := mkDoc h (d_msgs d) (d_traits d) (d_next d).
Definition trait_at (d : doc) (t : nat) : trait := default empty_trait (d_traits d !! t).
Definition set_trait (t : nat) (c : trait) (d : doc) : doc :=
  mkDoc (d_heap d) (d_msgs d) (<[t := c]> (d_traits d)) (d_next d).
(** A local variable holding a message. *)
Definition alloc_message (c : msg) (d : doc) : nat * doc :=
  (d_next d, mkDoc (d_heap d) (<[d_next d := c]> (d_msgs d)) (d_traits d) (S (d_next d))).

(** Outcomes: out of steps, an error, a nil dereference, or a result. *)
Inductive out (A : Type) := OFuel | OErr | OPanic | ODone (x : A).
Arguments OFuel {A}. Arguments OErr {A}. Arguments OPanic {A}. Arguments ODone {A} x.
Definition obind {A B} (r : out A) (k : A -> out B) : out B :=
  match r with ODone x => k x | OFuel => OFuel | OErr => OErr | OPanic => OPanic end.
Fixpoint oeach {A} (f : A -> doc -> out doc) (l : list A) (d : doc) : out doc :=
  match l with [] => ODone d | x :: r => obind (f x d) (oeach f r) end.

(** *** ApplyTrait, the parts without schemas *)
(** v3/message.go:519-541: "override if not set". *)
Definition keep_string (own new : string) : string := if String.eqb own "" then new else own.
Definition keep_option {A} (own new : option A) : option A := match own with Some x => Some x | None => new end.

(** v3/message.go:513-553; the bindings of the trait are not looked at. *)
Definition apply_about (a t : about) : about := mkAbout
  (keep_option (a_corr a) (a_corr t))
  (keep_string (a_content a) (a_content t))
  (keep_string (a_title a) (a_title t))
  (keep_string (a_summary a) (a_summary t))
  (keep_string (a_descr a) (a_descr t))
  (dedup_by tag_name (a_tags a ++ a_tags t))
  (keep_option (a_docs a) (a_docs t))
  (a_bindings a)
  (a_examples a ++ a_examples t)%list.

(** Operations (v3/operation.go:26-47) and their traits, as far as ApplyTrait goes. *)
Record operation_info := mkInfo {
  o_title : string; o_summary : string; o_descr : string;
  o_security : list tag; o_tags : list tag;
  o_docs : option string; o_bindings : option string;
}.
(** v3/operation.go:195-235 *)
Definition apply_operation_trait (a t : operation_info) : operation_info := mkInfo
  (keep_string (o_title a) (o_title t))
  (keep_string (o_summary a) (o_summary t))
  (keep_string (o_descr a) (o_descr t))
  (dedup_by tag_name (o_security a ++ o_security t))
  (dedup_by tag_name (o_tags a ++ o_tags t))
  (keep_option (o_docs a) (o_docs t))
  (keep_option (o_bindings a) (o_bindings t)).

(** How an operation is read: the field Description has the key "string" (operation.go:32), that of
    the trait "description" (operation_trait.go:11). [fields] is the JSON object. *)
Definition read_operation_descr (fields : gmap string string) : string := default "" (fields !! "string").
Definition read_trait_descr (fields : gmap string string) : string := default "" (fields !! "description").

Section message.
  Variable iter : nat -> gmap string nat -> list (string * nat).
  Variable resolve : heap -> string -> res nat.
  (** ReferenceMessage and ReferenceMessageTrait. *)
  Variable resolve_message : string -> res nat.
  Variable resolve_trait : string -> res nat.

  Definition lift (r : run) (d : doc) : out doc :=
    match r with Done h => ODone (set_heap h d) | OutOfFuel => OFuel | Failed => OErr end.

  (** v3/message.go:558-576, 578-596; [get], [put]: the part of the message; [into]: what is merged
      into (the headers, in both). *)
  Definition merge_part (fuel : nat) (get : parts -> option nat) (put : option nat -> parts -> parts)
      (into : parts -> option nat) (m : nat) (new : option nat) (d : doc) : out doc :=
    match new with
    | None => ODone d
    | Some p =>
        match get (m_parts (message d m)) with
        | None =>
            let '(n, h) := alloc (cell (d_heap d) (follow (d_heap d) p)) (d_heap d) in
            let d := upd_message m (fun c => with_parts (put (Some n) (m_parts c)) c) (set_heap h d) in
            obind (lift (generate_metadata iter fuel false n (d_heap d)) d) (fun d =>
            lift (set_dependencies iter resolve false fuel n (d_heap d)) d)
        | Some _ =>
            match into (m_parts (message d m)) with
            | Some s => ODone (set_heap (merge_with iter s (cell (d_heap d) p) (d_heap d)) d)
            | None => ODone d
            end
        end
    end.
  Definition put_headers (p : option nat) (m : parts) : parts := mkParts p (p_payload m).
  Definition put_payload (p : option nat) (m : parts) : parts := mkParts (p_headers m) p.

  (** v3/message.go:500-556 *)
  Definition apply_trait (fuel : nat) (m : nat) (t : trait) (d : doc) : out doc :=
    obind (merge_part fuel p_headers put_headers p_headers m (p_headers (t_parts t)) d) (fun d =>
    obind (merge_part fuel p_payload put_payload p_headers m (p_payload (t_parts t)) d) (fun d =>
    ODone (upd_message m (fun c => with_about (apply_about (m_about c) (t_about t)) c) d))).

  (** v3/message_trait.go:75-123, 125-139 *)
  Definition schema_dependencies (v2 : bool) (fuel : nat) (p : option nat) (d : doc) : out doc :=
    match p with
    | Some s => lift (set_dependencies iter resolve v2 fuel s (d_heap d)) d
    | None => ODone d
    end.
  Definition trait_dependencies (fuel : nat) (t : nat) (d : doc) : out doc :=
    obind (if String.eqb (t_ref (trait_at d t)) "" then ODone d
           else match resolve_trait (t_ref (trait_at d t)) with
                | Ok r => let c := trait_at d t in
                          ODone (set_trait t (mkTrait (t_parts c) (t_about c) (t_ref c) (Some r)) d)
                | _ => OErr
                end) (fun d =>
    obind (schema_dependencies false fuel (p_headers (t_parts (trait_at d t))) d) (fun d =>
    schema_dependencies false fuel (p_payload (t_parts (trait_at d t))) d)).

  (** mohae/deepcopy: copies everything that can be reached, references included. *)
  Fixpoint copy_list (copy : nat -> heap -> option (nat * heap)) (l : list nat) (h : heap) : option (list nat * heap) :=
    match l with
    | [] => Some ([], h)
    | x :: r =>
        match copy x h with
        | Some (y, h) => match copy_list copy r h with Some (ys, h) => Some (y :: ys, h) | None => None end
        | None => None
        end
    end.
  Fixpoint copy_entries (copy : nat -> heap -> option (nat * heap)) (l : list (string * nat)) (h : heap)
      : option (gmap string nat * heap) :=
    match l with
    | [] => Some (∅, h)
    | (k, x) :: r =>
        match copy x h with
        | Some (y, h) => match copy_entries copy r h with Some (g, h) => Some (<[k := y]> g, h) | None => None end
        | None => None
        end
    end.
  Definition head_option {A} (l : list A) : option A := match l with x :: _ => Some x | [] => None end.
  Notation "'do' x , h <- e ; k" := (match e with Some (x, h) => k | None => None end)
    (at level 200, x pattern, h pattern, e at level 100, k at level 200).
  Fixpoint deep_copy (fuel : nat) (s : nat) (h : heap) : option (nat * heap) :=
    match fuel with
    | 0 => None
    | S fuel =>
        let c := cell h s in
        let many l h := copy_list (deep_copy fuel) l h in
        do refto, h <- many (opt_list (s_refto c)) h;
        do props, h <- match s_props c with
                       | None => Some (None, h)
                       | Some p => do g, h <- copy_entries (deep_copy fuel) (iter p (map_at h (Some p))) h;
                                   let '(m, h) := alloc_map h in Some (Some m, set_map m g h)
                       end;
        do pattern, h <- many (s_pattern c) h;
        do addprops, h <- many (opt_list (s_addprops c)) h;
        do additems, h <- many (s_additems c) h;
        do items, h <- many (opt_list (s_items c)) h;
        do contains, h <- many (s_contains c) h;
        do anyof, h <- many (s_anyof c) h;
        do oneof, h <- many (s_oneof c) h;
        do allof, h <- many (s_allof c) h;
        do neg, h <- many (opt_list (s_not c)) h;
        Some (alloc (mkSch (s_type c) (s_ref c) (head_option refto) props pattern (head_option addprops) additems
                       (head_option items) contains anyof oneof allof (head_option neg)
                       (s_required c) (s_isreq c) (s_import c)) h)
    end.

  (** v3/message.go:457-487 *)
  Definition merge_message_part (fuel : nat) (get : parts -> option nat) (put : option nat -> parts -> parts)
      (m : nat) (new : option nat) (d : doc) : out doc :=
    match new with
    | None => ODone d
    | Some p =>
        match get (m_parts (message d m)) with
        | None =>
            match deep_copy fuel p (d_heap d) with
            | Some (n, h) => ODone (upd_message m (fun c => with_parts (put (Some n) (m_parts c)) c) (set_heap h d))
            | None => OFuel
            end
        | Some s => ODone (set_heap (merge_with iter s (cell (d_heap d) p) (d_heap d)) d)
        end
    end.

  (** v3/message.go:401-455. [m2] is passed by value; mergeWithMessageFromReference works on its own
      copy of it, which is lost afterwards. *)
  Fixpoint merge_message (fuel : nat) (m : nat) (m2 : msg) (d : doc) : out doc :=
    match fuel with
    | 0 => OFuel
    | S fuel =>
        obind (if String.eqb (m_ref (message d m)) "" then ODone d
               else match resolve_message (m_ref (message d m)) with
                    | Ok r => let d := upd_message m (with_ref "") d in merge_message fuel m (message d r) d
                    | _ => OErr
                    end) (fun d =>
        obind (if String.eqb (m_ref m2) "" then ODone d
               else match resolve_message (m_ref m2) with
                    | Ok r => let '(q, d) := alloc_message m2 d in merge_message fuel q (message d r) d
                    | _ => OErr
                    end) (fun d =>
        obind (merge_message_part fuel p_payload put_payload m (p_payload (m_parts m2)) d) (fun d =>
        merge_message_part fuel p_headers put_headers m (p_headers (m_parts m2)) d)))
    end.

  Definition message_reference (m : nat) (d : doc) : out doc :=
    if String.eqb (m_ref (message d m)) "" then ODone d
    else match resolve_message (m_ref (message d m)) with
         | Ok r => ODone (upd_message m (with_mrefto (Some r)) d)
         | _ => OErr
         end.

  (** v2/message.go:131-150: the headers must be an object. *)
  Definition headers_object (m : nat) (d : doc) : out doc :=
    match p_headers (m_parts (message d m)) with
    | None => ODone d
    | Some s => if String.eqb (s_type (cell (d_heap d) (follow (d_heap d) s))) "object" then ODone d else OErr
    end.

  (** setDependencies, v3/message.go:122-163 and v2/message.go:84-111 *)
  Fixpoint message_dependencies (v2 : bool) (fuel : nat) (m : nat) (d : doc) : out doc :=
    match fuel with
    | 0 => OFuel
    | S fuel =>
        let alternative v d := obind (message_dependencies v2 fuel v d) (fun d => merge_message fuel m (message d v) d) in
        obind (message_reference m d) (fun d =>
        obind (schema_dependencies v2 fuel (p_payload (m_parts (message d m))) d) (fun d =>
        obind (schema_dependencies v2 fuel (p_headers (m_parts (message d m))) d) (fun d =>
        obind (if v2 then headers_object m d else ODone d) (fun d =>
        obind (oeach alternative (m_oneof (message d m)) d) (fun d =>
        if v2 then ODone d
        else oeach (fun t d => obind (trait_dependencies fuel t d) (fun d =>
               let c := trait_at d t in
               apply_trait fuel m (match t_refto c with Some r => trait_at d r | None => c end) d))
             (m_traits (message d m)) d)))))
    end.

  (** generateMetadata, v3/message.go:66-118, 222-240 and v2/message.go:57-80: the schemas, the
      check of the headers (v3), the alternatives, the correlation ID. Returns CorrelationIDRequired
      of the message itself. *)
  Definition schema_metadata (fuel : nat) (p : option nat) (d : doc) : out doc :=
    match p with Some s => lift (generate_metadata iter fuel false s (d_heap d)) d | None => ODone d end.
  Fixpoint message_metadata (v2 : bool) (fuel : nat) (m : nat) (d : doc) : out (bool * doc) :=
    match fuel with
    | 0 => OFuel
    | S fuel =>
        obind (schema_metadata fuel (p_payload (m_parts (message d m))) d) (fun d =>
        obind (schema_metadata fuel (p_headers (m_parts (message d m))) d) (fun d =>
        obind (if v2 then ODone d else headers_object m d) (fun d =>
        obind (oeach (fun v d => obind (message_metadata v2 fuel v d) (fun '(_, d) => ODone d)) (m_oneof (message d m)) d) (fun d =>
        match correlation_id (a_corr (m_about (message d m))) (m_parts (message d m)) (d_heap d) with
        | Some (b, p, h) => ODone (b, upd_message m (with_parts p) (set_heap h d))
        | None => OPanic
        end))))
    end.
End message.

(** v3/message.go:490-495 and every other Follow of v3: one step. v2/message.go:411-416: to the end. *)
Definition follow_message (d : doc) (m : nat) : nat :=
  match m_refto (message d m) with Some r => r | None => m end.
Fixpoint follow_message2 (fuel : nat) (d : doc) (m : nat) : option nat :=
  match fuel with
  | 0 => None
  | S fuel => match m_refto (message d m) with Some r => follow_message2 fuel d r | None => Some m end
  end.
