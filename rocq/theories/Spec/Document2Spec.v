(** What the processing of a document of version 2 should do. *)
From stdpp Require Import gmap list strings.
From Coq Require Import NArith Ascii String.
From Verif.Model Require Import Reference Naming Names Operations Package Package2 Document2.
From Verif.Spec Require Import ReferenceSpec NamingSpec LinkingSpec PackageSpec.
Local Open Scope string_scope.
Local Open Scope list_scope.

(** ** What is in a document, with the document it stands in *)
Fixpoint inside (m : message) : list message := let 'Message _ _ _ _ _ alts := m in m :: List.concat (map inside alts).
Definition operations_in (c : channel) : list operation := option_list (c_subscribe c) ++ option_list (c_publish c).
Fixpoint files (d : Document2.document) : list Document2.document := let 'Doc _ _ _ _ _ others := d in List.concat (map files others) ++ [d].
Definition operations_of (d : Document2.document) : list operation := List.concat (map (fun kc => operations_in kc.2) (d_channels d)).
Definition outer_messages (d : Document2.document) : list message := map op_message (operations_of d) ++ map snd (d_messages d).
Definition msg_in (d : Document2.document) (s : spec) (m : message) : Prop :=
  exists f o, f ∈ files d /\ d_spec f = s /\ o ∈ outer_messages f /\ m ∈ inside o.
Definition parameter_in (d : Document2.document) (s : spec) (p : parameter) : Prop :=
  exists f k, f ∈ files d /\ d_spec f = s /\ ((k, p) ∈ d_params f \/ exists kc, kc ∈ d_channels f /\ (k, p) ∈ c_parameters kc.2).

(** Every message has its own address, and every parameter. *)
Definition message_ids (d : Document2.document) : list nat :=
  List.concat (map (fun f => List.concat (map (fun o => map m_id (inside o)) (outer_messages f))) (files d)).
Definition apart (d : Document2.document) : Prop :=
  NoDup (message_ids d) /\
  forall s p s' p', parameter_in d s p -> parameter_in d s' p' -> p_id p = p_id p' -> (s, p) = (s', p').

Section spec.
  Variable w : world.
  Variable correlation_at : nat -> option string.
  Variable schema : nat -> res unit.
  Variable headers_object : nat -> bool.
  Variable merge : nat -> nat -> res unit.

  Definition message_at (s : spec) (ref : string) (p : nat) : Prop := designates (message_steps false w) w s ref p.
  Definition parameter_at (s : spec) (ref : string) (p : nat) : Prop := designates (other_steps "parameters") w s ref p.

  (** The documents that can be processed. *)
  Record acceptable2 (d : Document2.document) : Prop := mkAcceptable2 {
    ac_long : forall f o, f ∈ files d -> o ∈ operations_of f -> m_ref (op_message o) <> "" ->
      exists a b c r, m_ref (op_message o) = (a +:+ "/" +:+ b +:+ "/" +:+ c +:+ "/" +:+ r);
    ac_location : forall s m l, msg_in d s m -> m_correlation m = Some l -> has_path l;
    ac_message : forall s m, msg_in d s m -> m_ref m <> "" -> exists p, message_at s (m_ref m) p;
    ac_parameter : forall s p, parameter_in d s p -> p_ref p <> "" -> exists q, parameter_at s (p_ref p) q;
    ac_payload : forall s m x, msg_in d s m -> m_payload m = Some x -> schema x = Ok tt;
    ac_headers : forall s m x, msg_in d s m -> m_headers m = Some x -> schema x = Ok tt /\ headers_object x = true;
    ac_alternatives : forall s m a, msg_in d s m -> a ∈ m_one_of m -> merge (m_id m) (m_id a) = Ok tt;
    ac_schemas : forall f k x, f ∈ files d -> (k, x) ∈ d_schemas f -> schema x = Ok tt;
  }.

  (** Where the correlation identifier of a message is: where it says, or where the message that it refers to says. *)
  Inductive place (s : spec) (m : message) : string -> Prop :=
  | place_own l : m_correlation m = Some l -> place s m l
  | place_referred p l : m_correlation m = None -> m_one_of m = [] -> m_ref m <> "" -> message_at s (m_ref m) p -> correlation_at p = Some l -> place s m l
  | place_unsaid p : m_correlation m = None -> m_one_of m = [] -> m_ref m <> "" -> message_at s (m_ref m) p -> correlation_at p = None -> place s m ""
  | place_nowhere : m_correlation m = None -> m_ref m = "" \/ m_one_of m <> [] -> place s m "".

  (** The addresses of the messages of the components are those that references find, and what is there is what they are. *)
  Record stored (d : Document2.document) : Prop := {
    st_messages : forall k i, comps (d_spec d) "messages" !! k = Some i <-> exists m, (k, m) ∈ d_messages d /\ m_id m = i;
    st_correlation : forall k m, (k, m) ∈ d_messages d -> correlation_at (m_id m) = m_correlation m;
  }.
End spec.

(** A document for which everything the generated code uses should be there: the messages of its operations and components are written with their
    payload or, in operations, refer to the components of the same document; those that refer to others have no alternatives and no correlation
    identifier of their own; names are ASCII; channels with parameters have none in their key. *)
Definition ascii_text (s : string) : Prop := Forall is_ascii (list_ascii_of_string s).
Definition with_payload (m : message) : Prop := exists x, m_payload m = Some x.
Definition refers_here (m : message) : Prop := exists r, m_ref m = ("#" +:+ r).
Record plain (d : Document2.document) : Prop := {
  pl_channels : forall k c, (k, c) ∈ d_channels d -> ascii_text k /\ (c_parameters c <> [] -> "}"%char ∉ list_ascii_of_string k);
  pl_messages : forall k m, (k, m) ∈ d_messages d -> ascii_text k /\ with_payload m;
  pl_operations : forall o, o ∈ operations_of d -> m_ref (op_message o) = "" -> with_payload (op_message o);
  pl_refers : forall m, m ∈ outer_messages d -> m_ref m <> "" -> refers_here m /\ m_one_of m = [] /\ m_correlation m = None;
}.
