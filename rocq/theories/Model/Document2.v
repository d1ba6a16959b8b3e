(** The processing of a document of version 2: the names, links and correlation identifiers of its messages, and what the templates are given.
    Modelled code: pkg/asyncapi/v2/specification.go:68-110 (Process, generateMetadata, setDependencies), channel.go:23-81, operation.go:24-43,
    parameter.go:22-40, components.go:17-64, message.go:57-111, 131-190, 202-223, 306-416.
    Simplified: whether the linking of a schema and the merging of an alternative into its message succeed, fail or panic is given, as is the type of
    headers once linked; names of schemas are in Names.v; what merging does is in Message.v, of it only the following is kept here: a message with
    alternatives forgets its reference (message.go:345-362), not what it is linked to, and has a payload if one of them has; that it also takes
    the payload of the message it refers to is left out. Entries that are null are left out, and names of parameters.
    generateMetadata and setDependencies of every object stop at the first error, none looks at what the others did: they are lists of
    actions, in the order of the code. *)
From stdpp Require Import gmap list strings.
From Coq Require Import NArith Ascii String.
From Verif.Model Require Import GoStrings Reference Linking Naming Operations Package Package2.
Local Open Scope string_scope.

(** message.go:37-56; [correlation]: the location of its correlation identifier. *)
Inductive message := Message (id : nat) (ref : string) (correlation : option string) (headers payload : option nat) (one_of : list message).
Definition m_id (m : message) : nat := let 'Message i _ _ _ _ _ := m in i.
Definition m_ref (m : message) : string := let 'Message _ r _ _ _ _ := m in r.
Definition m_correlation (m : message) : option string := let 'Message _ _ c _ _ _ := m in c.
Definition m_headers (m : message) : option nat := let 'Message _ _ _ h _ _ := m in h.
Definition m_payload (m : message) : option nat := let 'Message _ _ _ _ p _ := m in p.
Definition m_one_of (m : message) : list message := let 'Message _ _ _ _ _ a := m in a.

(** operation.go:12-21, parameter.go:8-20, channel.go:8-20, components.go:6-14, specification.go:25-38. *)
Record operation := mkOp { op_id : string; op_message : message }.
Record parameter := mkParam { p_id : nat; p_ref : string }.
Record channel := mkChan { c_subscribe : option operation; c_publish : option operation; c_parameters : list (string * parameter) }.
Inductive document := Doc (s : spec) (chans : list (string * channel)) (schemas : list (string * nat)) (messages : list (string * message))
                          (params : list (string * parameter)) (others : list document).
Definition d_spec (d : document) : spec := let 'Doc s _ _ _ _ _ := d in s.
Definition d_channels (d : document) : list (string * channel) := let 'Doc _ c _ _ _ _ := d in c.
Definition d_schemas (d : document) : list (string * nat) := let 'Doc _ _ c _ _ _ := d in c.
Definition d_messages (d : document) : list (string * message) := let 'Doc _ _ _ m _ _ := d in m.
Definition d_params (d : document) : list (string * parameter) := let 'Doc _ _ _ _ p _ := d in p.

(** Of messages, Name, ReferenceTo and CorrelationIDLocation; of parameters, ReferenceTo. *)
Record state := mkState { names : gmap nat string; links : gmap nat nat; places : gmap nat string; links_p : gmap nat nat }.
Definition start : state := mkState ∅ ∅ ∅ ∅.

Inductive action :=
| AName (i : nat) (n : string)
| AShort                                            (** an index out of range *)
| ALocation (location : string)                     (** message.go:131-134, 225-304 *)
| ASchema (i : nat)
| AHeaders (i : nat)
| AMerge (i j : nat)                                (** message.go:321-343 *)
| AMessage (s : spec) (i : nat) (ref : string)
| AParameter (s : spec) (i : nat) (ref : string)
| APlace (s : spec) (i : nat) (own : option string) (ref : string).

Section document2.
  Variable namify : string -> string.
  Variable itoa : nat -> string.
  Variable w : world.
  (** The correlation identifier of the message at an address; the linking of a schema; whether headers, linked, are an object. *)
  Variable correlation_at : nat -> option string.
  Variable schema : nat -> res unit.
  Variable headers_object : nat -> bool.
  (** The merging of an alternative into a message. *)
  Variable merge : nat -> nat -> res unit.

  (** ** generateMetadata *)
  (** message.go:57-80, 113-121, 131-134, 163-173. *)
  Fixpoint meta_message (name : string) (m : message) : list action :=
    let 'Message i _ c _ _ alts := m in
    (AName i (namify name) ::
    (fix go (k : nat) (alts : list message) : list action :=
       match alts with
       | [] => []
       | a :: rest => meta_message (namify name +:+ "Message" +:+ itoa k) a ++ go (S k) rest
       end) O alts ++
    match c with Some location => [ALocation location] | None => [] end)%list.
  (** operation.go:24-37: the name of a message given by reference is the fourth part of the reference. *)
  Definition meta_operation (name : string) (o : operation) : list action :=
    if String.eqb (m_ref (op_message o)) "" then meta_message (namify name +:+ "Message") (op_message o)
    else match split "/" (m_ref (op_message o)) !! 3%nat with
         | Some n => meta_message (n +:+ "Message") (op_message o)
         | None => [AShort]
         end.
  (** channel.go:23-55 *)
  Definition suffix (c : channel) (t : string) : string := if (has (c_subscribe c) && has (c_publish c))%bool then t else "".
  Definition meta_channel (path : string) (c : channel) : list action :=
    (match c_subscribe c with Some o => meta_operation (namify path +:+ suffix c "Subscribe") o | None => [] end ++
     match c_publish c with Some o => meta_operation (namify path +:+ suffix c "Publish") o | None => [] end)%list.
  (** specification.go:77-91, components.go:17-39: the order of maps is that of the lists. *)
  Fixpoint meta_document (d : document) : list action :=
    let 'Doc _ chans _ messages _ others := d in
    (List.concat (map meta_document others) ++ List.concat (map (fun kc => meta_channel kc.1 kc.2) chans) ++
     List.concat (map (fun km => meta_message (km.1 +:+ "Message") km.2) messages))%list.

  (** ** setDependencies *)
  (** message.go:84-111, 123-150, 175-190: payload, reference, headers, alternatives, correlation identifier. *)
  Fixpoint set_message (s : spec) (m : message) : list action :=
    let 'Message i r c h p alts := m in
    (match p with Some x => [ASchema x] | None => [] end ++
     (if String.eqb r "" then [] else [AMessage s i r]) ++
     match h with Some x => [ASchema x; AHeaders x] | None => [] end ++
     List.concat (map (fun a => set_message s a ++ [AMerge i (m_id a)]) alts) ++
     [APlace s i c (match alts with [] => r | _ :: _ => "" end)])%list.
  (** parameter.go:28-40 *)
  Definition set_parameter (s : spec) (p : parameter) : list action :=
    if String.eqb (p_ref p) "" then [] else [AParameter s (p_id p) (p_ref p)].
  (** operation.go:39-43, channel.go:57-81 *)
  Definition set_operation (s : spec) (o : option operation) : list action := match o with Some o => set_message s (op_message o) | None => [] end.
  Definition set_channel (s : spec) (c : channel) : list action :=
    (set_operation s (c_subscribe c) ++ set_operation s (c_publish c) ++ List.concat (map (fun kp => set_parameter s kp.2) (c_parameters c)))%list.
  (** specification.go:94-109, components.go:41-64 *)
  Fixpoint set_document (d : document) : list action :=
    let 'Doc s chans schemas messages params others := d in
    (List.concat (map set_document others) ++ List.concat (map (fun kc => set_channel s kc.2) chans) ++
     map (fun ks => ASchema ks.2) schemas ++ List.concat (map (fun km => set_message s km.2) messages) ++
     List.concat (map (fun kp => set_parameter s kp.2) params))%list.

  (** message.go:202-223 [getCorrelationIDLocation]: its own, or that of the message it refers to. *)
  Definition place_of (s : spec) (own : option string) (ref : string) : res string :=
    match own with
    | Some location => Ok location
    | None =>
        if String.eqb ref "" then Ok ""
        else match as_message (reference2 w s ref) with
             | Ok p => Ok (match correlation_at p with Some location => location | None => "" end)
             | Err => Err
             | Panic => Panic
             end
    end.
  Definition keep_with (r : res unit) (t : state) : res state := match r with Ok _ => Ok t | Err => Err | Panic => Panic end.
  Definition set_with {A} (r : res A) (f : A -> state) : res state := match r with Ok x => Ok (f x) | Err => Err | Panic => Panic end.
  Definition act (a : action) (t : state) : res state :=
    match a with
    | AName i n => Ok (mkState (<[i := n]> (names t)) (links t) (places t) (links_p t))
    | AShort => Panic
    | ALocation location => keep_with (parent_of location) t
    | ASchema i => keep_with (schema i) t
    | AHeaders i => if headers_object i then Ok t else Err
    | AMerge i j => keep_with (merge i j) t
    | AMessage s i ref => set_with (as_message (reference2 w s ref)) (fun p => mkState (names t) (<[i := p]> (links t)) (places t) (links_p t))
    | AParameter s i ref => set_with (as_other "parameters" (reference2 w s ref)) (fun p => mkState (names t) (links t) (places t) (<[i := p]> (links_p t)))
    | APlace s i own ref => set_with (place_of s own ref) (fun l => mkState (names t) (links t) (<[i := l]> (places t)) (links_p t))
    end.
  Fixpoint run (l : list action) (t : state) : res state :=
    match l with
    | [] => Ok t
    | a :: rest => match act a t with Ok t' => run rest t' | Err => Err | Panic => Panic end
    end.
  (** specification.go:68-74 *)
  Definition process (d : document) : res state :=
    match run (meta_document d) start with Ok t => run (set_document d) t | Err => Err | Panic => Panic end.

  (** ** What the templates are given *)
  (** message.go:411-416 [Follow]: at most [n] links; [None]: there are more, maybe without end. *)
  Fixpoint follow (n : nat) (l : gmap nat nat) (i : nat) : option nat :=
    match l !! i with
    | None => Some i
    | Some p => match n with O => None | S n' => follow n' l p end
    end.
  (** Payload <> nil: given, made for the correlation identifier (message.go:253-276) or merged (message.go:381-395). *)
  Fixpoint has_payload (m : message) : bool :=
    let 'Message _ _ c _ p alts := m in
    (has p || match c with Some l => has_prefix "$message.payload#" l | None => false end || existsb has_payload alts)%bool.
  Definition located (t : state) (i : nat) : bool := match places t !! i with Some l => negb (String.eqb l "") | None => false end.
  (** types.tmpl:71-77: a message is generated from the operation when it has a payload. *)
  Definition operation2_of (n : nat) (t : state) (o : operation) : option operation2 :=
    let i := m_id (op_message o) in
    q ← follow n (links t) i; Some (mkOperation2 (op_id o) q (located t i) (if has_payload (op_message o) then Some i else None)).
  Definition optional {A B} (f : A -> option B) (o : option A) : option (option B) := match o with None => Some None | Some x => Some <$> f x end.
  Definition chan2_of (n : nat) (t : state) (kc : string * channel) : option (string * chan2) :=
    p ← optional (operation2_of n t) (c_publish kc.2);
    s ← optional (operation2_of n t) (c_subscribe kc.2);
    Some (kc.1, mkChan2 (namify kc.1) (match c_parameters kc.2 with [] => false | _ :: _ => true end) p s).
  Definition channels2_of (n : nat) (t : state) (d : document) : option (list (string * chan2)) := mapM (chan2_of n t) (d_channels d).
  Definition details2_of (t : state) : details :=
    mkDetails (fun _ => false) (fun _ => false) (fun _ => false) (fun _ => false) (fun i => default "" (names t !! i)) (located t).
  Definition messages2_of (d : document) : list (nat * bool) := map (fun km => (m_id km.2, has_payload km.2)) (d_messages d).
End document2.
