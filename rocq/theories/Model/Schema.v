(** Schemas as a graph of pointers, their composition and the resolution of their references.
    Modelled code: pkg/asyncapi/v3/schema.go:78-480 and pkg/asyncapi/v2/schema.go:63-440
    (generateMetadata as far as IsRequired is concerned, setDependencies, setReference, MergeWith,
    Follow), pkg/utils/slice.go.
    Not modelled here: names (Model/Naming.v), the other validation fields (Model/Validations.v),
    null entries in maps and lists. *)
From stdpp Require Import gmap list strings.
From Coq Require Import Ascii String.
From Verif.Model Require Import Reference Slices.
Local Open Scope string_scope.

(** A schema structure. Pointers are numbers; [s_props] is the Go map itself, a reference to a
    cell of the map heap (nil: [None]), since structure copies share it. The lists of compositions
    do not distinguish nil from empty. [s_import]: x-go-type-import (name, path). *)
Record sch := mkSch {
  s_type : string;
  s_ref : string;
  s_refto : option nat;
  s_props : option nat;
  s_pattern : list nat;
  s_addprops : option nat;
  s_additems : list nat;
  s_items : option nat;
  s_contains : list nat;
  s_anyof : list nat;
  s_oneof : list nat;
  s_allof : list nat;
  s_not : option nat;
  s_required : list string;
  s_isreq : bool;
  s_import : option (string * string);
}.
Definition empty_sch : sch := mkSch "" "" None None [] None [] None [] [] [] [] None [] false None.

Definition with_type t s := mkSch t (s_ref s) (s_refto s) (s_props s) (s_pattern s) (s_addprops s) (s_additems s)
  (s_items s) (s_contains s) (s_anyof s) (s_oneof s) (s_allof s) (s_not s) (s_required s) (s_isreq s) (s_import s).
Definition with_refto r s := mkSch (s_type s) (s_ref s) r (s_props s) (s_pattern s) (s_addprops s) (s_additems s)
  (s_items s) (s_contains s) (s_anyof s) (s_oneof s) (s_allof s) (s_not s) (s_required s) (s_isreq s) (s_import s).
Definition with_props p s := mkSch (s_type s) (s_ref s) (s_refto s) p (s_pattern s) (s_addprops s) (s_additems s)
  (s_items s) (s_contains s) (s_anyof s) (s_oneof s) (s_allof s) (s_not s) (s_required s) (s_isreq s) (s_import s).
Definition with_anyof l s := mkSch (s_type s) (s_ref s) (s_refto s) (s_props s) (s_pattern s) (s_addprops s) (s_additems s)
  (s_items s) (s_contains s) l (s_oneof s) (s_allof s) (s_not s) (s_required s) (s_isreq s) (s_import s).
Definition with_oneof l s := mkSch (s_type s) (s_ref s) (s_refto s) (s_props s) (s_pattern s) (s_addprops s) (s_additems s)
  (s_items s) (s_contains s) (s_anyof s) l (s_allof s) (s_not s) (s_required s) (s_isreq s) (s_import s).
Definition with_allof l s := mkSch (s_type s) (s_ref s) (s_refto s) (s_props s) (s_pattern s) (s_addprops s) (s_additems s)
  (s_items s) (s_contains s) (s_anyof s) (s_oneof s) l (s_not s) (s_required s) (s_isreq s) (s_import s).
Definition with_required r s := mkSch (s_type s) (s_ref s) (s_refto s) (s_props s) (s_pattern s) (s_addprops s) (s_additems s)
  (s_items s) (s_contains s) (s_anyof s) (s_oneof s) (s_allof s) (s_not s) r (s_isreq s) (s_import s).
Definition with_isreq b s := mkSch (s_type s) (s_ref s) (s_refto s) (s_props s) (s_pattern s) (s_addprops s) (s_additems s)
  (s_items s) (s_contains s) (s_anyof s) (s_oneof s) (s_allof s) (s_not s) (s_required s) b (s_import s).

(** The heap: schema cells, map cells, and the next unused pointer. *)
Record heap := mkHeap {
  cells : gmap nat sch;
  maps : gmap nat (gmap string nat);
  next : nat;
}.

Definition cell (h : heap) (l : nat) : sch := default empty_sch (cells h !! l).
Definition map_at (h : heap) (m : option nat) : gmap string nat :=
  match m with Some m => default ∅ (maps h !! m) | None => ∅ end.
Definition set_cell (l : nat) (c : sch) (h : heap) : heap := mkHeap (<[l := c]> (cells h)) (maps h) (next h).
Definition set_map (m : nat) (g : gmap string nat) (h : heap) : heap := mkHeap (cells h) (<[m := g]> (maps h)) (next h).
Definition upd (l : nat) (f : sch -> sch) (h : heap) : heap := set_cell l (f (cell h l)) h.
Definition alloc (c : sch) (h : heap) : nat * heap :=
  (next h, mkHeap (<[next h := c]> (cells h)) (maps h) (S (next h))).
Definition alloc_map (h : heap) : nat * heap :=
  (next h, mkHeap (cells h) (<[next h := ∅]> (maps h)) (S (next h))).

Section schema.
  (** The order in which Go iterates over a map (per map). *)
  Variable iter : nat -> gmap string nat -> list (string * nat).

  (** [&Schema{ReferenceTo: v}] for each [v]. *)
  Fixpoint alloc_refs (vs : list nat) (h : heap) : list nat * heap :=
    match vs with
    | [] => ([], h)
    | v :: r =>
        let '(p, h) := alloc (with_refto (Some v) empty_sch) h in
        let '(ps, h) := alloc_refs r h in (p :: ps, h)
    end.

  (** v3/schema.go:338-411: mergeWithSchemaAllOf, AnyOf, OneOf (the same code three times). *)
  Definition merge_list (get : sch -> list nat) (put : list nat -> sch -> sch) (s : nat) (s2 : sch) (h : heap) : heap :=
    let extra := match s_refto s2 with Some r => get (cell h r) | None => [] end in
    let '(ps, h) := alloc_refs extra h in
    upd s (fun c => put (get c ++ get s2 ++ ps)%list c) h.

  (** 424-431: the loop over [s2.Properties]; [m] is [s.Properties]. *)
  Definition add_own (m : nat) (h : heap) (kv : string * nat) : heap :=
    match map_at h (Some m) !! fst kv with
    | Some _ => h
    | None => set_map m (<[fst kv := snd kv]> (map_at h (Some m))) h
    end.

  (** 444-468: the loop over [s2.ReferenceTo.Properties]. *)
  Definition add_ref (s m : nat) (h : heap) (kv : string * nat) : heap :=
    let '(k, v) := kv in
    match map_at h (Some m) !! k with
    | Some _ => h
    | None =>
        let c := cell h v in
        let '(p, h) := if String.eqb (s_type c) "object"
                       then alloc (with_isreq (s_isreq c) (with_refto (Some v) empty_sch)) h
                       else (v, h) in
        let h := set_map m (<[k := p]> (map_at h (Some m))) h in
        if s_isreq c then upd s (fun c => with_required (s_required c ++ [k])%list c) h else h
    end.

  (** 413-469 *)
  Definition merge_props (s : nat) (s2 : sch) (h : heap) : heap :=
    let rprops := match s_refto s2 with Some r => s_props (cell h r) | None => None end in
    match s_props s2, rprops with
    | None, None => h
    | _, _ =>
        let '(m, h) := match s_props (cell h s) with
                       | Some m => (m, h)
                       | None => let '(m, h) := alloc_map h in (m, upd s (with_props (Some m)) h)
                       end in
        let h := match s_props s2 with
                 | Some p => fold_left (add_own m) (iter p (map_at h (Some p))) h
                 | None => h
                 end in
        (* the properties of the reference are read again: they may just have been created, when the
           reference is [s] itself *)
        match (match s_refto s2 with Some r => s_props (cell h r) | None => None end) with
        | Some p => fold_left (add_ref s m) (iter p (map_at h (Some p))) h
        | None => h
        end
    end.

  (** 318-336 for a non-nil receiver *)
  Definition merge_with (s : nat) (s2 : sch) (h : heap) : heap :=
    let h := upd s (with_type "object") h in
    let h := merge_list s_allof with_allof s s2 h in
    let h := merge_list s_anyof with_anyof s s2 h in
    let h := merge_list s_oneof with_oneof s s2 h in
    let h := merge_props s s2 h in
    upd s (fun c => with_required (remove_duplicate (s_required c ++ s_required s2)) c) h.

  (** A computation that may need more steps than given, or stop with an error or a panic. *)
  Inductive run := OutOfFuel | Failed | Done (h : heap).
  Definition bind (r : run) (k : heap -> run) : run :=
    match r with Done h => k h | OutOfFuel => OutOfFuel | Failed => Failed end.
  Fixpoint each {A} (f : A -> heap -> run) (l : list A) (h : heap) : run :=
    match l with [] => Done h | x :: r => bind (f x h) (each f r) end.
  Definition opt_list (o : option nat) : list nat := match o with Some x => [x] | None => [] end.

  (** ReferenceSchema of the specification; it walks through properties, hence the heap. *)
  Variable resolve : heap -> string -> res nat.

  Definition over_list (old new : list string) : list string := match new with [] => old | _ => new end.
  Definition over_nats (old new : list nat) : list nat := match new with [] => old | _ => new end.

  (** v3 290-304; v2 121-128, 115-120. [Validations.Merge] (Model/Validations.v) on the two fields
      kept here; in v2 the compositions are validation fields and are overwritten as well. *)
  Definition set_reference (v2 : bool) (s : nat) (h : heap) : run :=
    if String.eqb (s_ref (cell h s)) "" then Done h
    else match resolve h (s_ref (cell h s)) with
         | Ok r =>
             let t := cell h r in
             Done (upd s (fun c =>
               let c := with_isreq (s_isreq c || s_isreq t)%bool
                          (with_required (over_list (s_required c) (s_required t)) (with_refto (Some r) c)) in
               if v2 then with_anyof (over_nats (s_anyof c) (s_anyof t))
                            (with_oneof (over_nats (s_oneof c) (s_oneof t))
                               (with_allof (over_nats (s_allof c) (s_allof t)) c))
               else c) h)
         | _ => Failed
         end.

  (** v3 172-288, v2 121-300. The children are read when their loop starts. *)
  Fixpoint set_dependencies (v2 : bool) (fuel : nat) (s : nat) (h : heap) : run :=
    match fuel with
    | 0 => OutOfFuel
    | S fuel =>
        let go := set_dependencies v2 fuel in
        let composed v h := bind (go v h) (fun h => Done (merge_with s (cell h v) h)) in
        let props h := match s_props (cell h s) with
                       | Some p => map snd (iter p (map_at h (Some p)))
                       | None => []
                       end in
        bind (set_reference v2 s h) (fun h =>
        bind (each go (props h) h) (fun h =>
        bind (if v2 then Done h else each go (s_pattern (cell h s)) h) (fun h =>
        bind (if v2 then Done h else each go (opt_list (s_addprops (cell h s))) h) (fun h =>
        bind (if v2 then Done h else each go (s_additems (cell h s)) h) (fun h =>
        bind (each go (opt_list (s_items (cell h s))) h) (fun h =>
        bind (if v2 then Done h else each go (s_contains (cell h s)) h) (fun h =>
        bind (each composed (s_anyof (cell h s)) h) (fun h =>
        bind (each composed (s_oneof (cell h s)) h) (fun h =>
        bind (each composed (s_allof (cell h s)) h) (fun h =>
        if v2 then each go (opt_list (s_addprops (cell h s))) h
        else each go (opt_list (s_not (cell h s))) h))))))))))
    end.

  (** generateMetadata, the IsRequired part (v3 81-168, v2 63-108). *)
  Fixpoint generate_metadata (fuel : nat) (isreq : bool) (s : nat) (h : heap) : run :=
    match fuel with
    | 0 => OutOfFuel
    | S fuel =>
        let c := cell h s in
        let plain := (s_pattern c ++ opt_list (s_addprops c) ++ s_additems c ++ opt_list (s_items c)
                      ++ s_contains c ++ s_anyof c ++ s_oneof c ++ s_allof c ++ opt_list (s_not c))%list in
        let props := match s_props c with Some p => iter p (map_at h (Some p)) | None => [] end in
        bind (each (fun kv => generate_metadata fuel (is_in_slice (s_required c) (fst kv)) (snd kv)) props h) (fun h =>
        bind (each (generate_metadata fuel false) plain h) (fun h =>
        Done (upd s (with_isreq isreq) h)))
    end.

  (** v3/specification.go, components.go:64-78: every component schema in some order. *)
  Definition process (v2 : bool) (fuel : nat) (components : list nat) (h : heap) : run :=
    bind (each (generate_metadata fuel false) components h) (fun h =>
    each (set_dependencies v2 fuel) components h).
End schema.

(** v3/schema.go:472-478 and v2: one step. *)
Definition follow (h : heap) (s : nat) : nat :=
  match s_refto (cell h s) with Some r => r | None => s end.

(** ReferenceSchema on the current graph (v3/specification.go, v2/specification.go; Model/Reference.v). *)
Definition resolve_in (v2 : bool) (w : world) (s : spec) (h : heap) (ref : string) : res nat :=
  let w := mkWorld (specs w) (fun l => map_at h (s_props (cell h l))) (msg_payload w) (msg_headers w) (chan_msgs w) in
  as_schema ((if v2 then reference2 else reference3) w s ref).
