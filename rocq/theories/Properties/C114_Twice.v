(** C114: doing it again. Generate (codegen.go:103-106) processes the specification of the CodeGen each
    time it is called, and a schema that is reached twice is processed twice. *)
From stdpp Require Import gmap list strings.
From Coq Require Import Ascii String Lia.
From Verif.Model Require Import GoStrings Reference Slices Schema Location Message.
From Verif.Spec Require Import SlicesSpec SchemaSpec LocationSpec MessageSpec MergeSpec CopySpec.
From Verif.Proof Require Import SlicesProof SchemaProof LocationProof MergeProof CopyProof MessageProof TwiceProof.
From Verif.Properties Require Import C40_C41_Schema C44_C45_Message.
Local Open Scope string_scope.

(** Merging the same schemas again, any number of them, changes nothing at all: no property, no
    required name, no new schema. None of them is a composition itself. *)
Theorem C114_merge iter s l h :
  (forall m g, iter m g ≡ₚ map_to_list g) -> closed h -> valid h s ->
  Forall (fun v => valid h v /\ apart h s v /\ plain_element h v) l ->
  let merged h := fold_left (fun h v => merge_with iter s (cell h v) h) l h in
  merged (merged h) = merged h.
Proof. exact (fun P => merge_all_twice iter P s l h). Qed.
(** Ext (5) with 8, a reference to Base, and with 4: the first time changes it, the second does not. *)
Lemma apart8 : apart ex_heap 5 8.
Proof.
  constructor; [discriminate|vm_compute; discriminate|]. intros m [H|(r & H & G)] E; [vm_compute in H; discriminate|].
  assert (Some 1 = Some r) as [= <-] by (rewrite <- H; vm_compute; reflexivity).
  assert (Some 100 = Some m) as [= <-] by (rewrite <- G; vm_compute; reflexivity). vm_compute in E. discriminate.
Qed.
Example C114_merge_ex :
  Forall (fun v => valid ex_heap v /\ apart ex_heap 5 v /\ plain_element ex_heap v) [8; 4] /\
  let merged h := fold_left (fun h v => merge_with listing 5 (cell h v) h) [8; 4] h in
  map_to_list (props ex_heap (cell ex_heap 5)) ≡ₚ [("name", 6); ("age", 7)] /\
  map_to_list (props (merged ex_heap) (cell (merged ex_heap) 5)) ≡ₚ [("id", 2); ("name", 6); ("age", 7); ("home", 200)].
Proof.
  split; [|split; apply (bool_decide_unpack _); vm_compute; exact I].
  apply Forall_cons_2; [|apply Forall_cons_2; [|apply Forall_nil_2]].
  - split; [eexists; vm_compute; reflexivity|]. split; [exact apart8|]. split; [vm_compute; auto|].
    intros r H. assert (Some 1 = Some r) as [= <-] by (rewrite <- H; vm_compute; reflexivity). vm_compute. auto.
  - split; [eexists; vm_compute; reflexivity|]. split; [apply apart_check; vm_compute; reflexivity|]. split; [vm_compute; auto|].
    intros r H. vm_compute in H. discriminate.
Qed.

(** The traits of a message with headers, applied again: the headers and all other schemas are as they
    were, and so is all the rest of the message but the examples, which are added once more. *)
Theorem C114_traits iter resolve fuel m s ts (l : list nat) d :
  (forall m g, iter m g ≡ₚ map_to_list g) -> closed (d_heap d) -> valid (d_heap d) s ->
  p_headers (m_parts (message d m)) = Some s ->
  Forall2 (fun t v => p_headers (t_parts t) = Some v /\ p_payload (t_parts t) = None) ts l ->
  Forall (fun v => valid (d_heap d) v /\ apart (d_heap d) s v /\ plain_element (d_heap d) v) l ->
  exists d1 d2, oeach (apply_trait iter resolve fuel m) ts d = ODone d1 /\ oeach (apply_trait iter resolve fuel m) ts d1 = ODone d2 /\
    d_heap d2 = d_heap d1 /\ m_parts (message d2 m) = m_parts (message d1 m).
Proof. exact (traits_twice iter resolve fuel m s ts l d). Qed.
Example C114_traits_ex :
  Forall (fun v => valid ex_heap v /\ apart ex_heap 5 v /\ plain_element ex_heap v) [1; 4] /\
  Forall2 (fun t v => p_headers (t_parts t) = Some v /\ p_payload (t_parts t) = None) [headers_trait 1; headers_trait 4] [1; 4] /\
  p_headers (m_parts (message headers_doc 1)) = Some 5.
Proof.
  split; [|split; [repeat constructor|reflexivity]].
  apply Forall_cons_2; [|apply Forall_cons_2; [|apply Forall_nil_2]];
  (split; [eexists; vm_compute; reflexivity|]; split; [apply apart_check; vm_compute; reflexivity|]; split; [vm_compute; auto|];
   intros r H; vm_compute in H; discriminate).
Qed.
Theorem C114_about iter resolve fuel m ts d d1 d2 :
  oeach (apply_trait iter resolve fuel m) ts d = ODone d1 -> oeach (apply_trait iter resolve fuel m) ts d1 = ODone d2 ->
  let one := m_about (message d1 m) in
  m_about (message d2 m) =
    mkAbout (a_corr one) (a_content one) (a_title one) (a_summary one) (a_descr one) (a_tags one) (a_docs one) (a_bindings one)
      (a_examples one ++ List.concat (a_examples <$> (t_about <$> ts)))%list.
Proof.
  intros H1 H2. cbn zeta. rewrite (apply_traits_about iter resolve fuel m ts d1 d2 H2), (apply_traits_about iter resolve fuel m ts d d1 H1).
  apply about_twice.
Qed.
Example C114_about_ex :
  let traits := oeach (apply_trait listing (fun _ _ => Err) 5 1) [about_trait "t1" "" [mkTag "a" "2"; mkTag "b" "3"]; about_trait "t2" "s2" []] in
  match traits about_doc with
  | ODone d1 => match traits d1 with
                | ODone d2 => m_about (message d2 1) =
                    mkAbout None "json" "mine" "s2" "" [mkTag "a" "1"; mkTag "b" "3"] None None ["t1"; "t2"; "t1"; "t2"]
                | _ => False
                end
  | _ => False
  end.
Proof. vm_compute. reflexivity. Qed.
Theorem C114_operation traits own :
  fold_left apply_operation_trait traits (fold_left apply_operation_trait traits own) = fold_left apply_operation_trait traits own.
Proof. exact (operation_twice traits own). Qed.
Example C114_operation_ex :
  let traits := [mkInfo "t" "s" "" [] [mkTag "a" ""] None (Some "nats"); mkInfo "u" "" "d" [] [mkTag "b" ""] (Some "x") (Some "kafka")] in
  fold_left apply_operation_trait traits (mkInfo "" "" "" [] [] None None) = mkInfo "t" "s" "d" [] [mkTag "a" ""; mkTag "b" ""] (Some "x") (Some "nats").
Proof. reflexivity. Qed.

(** *** Where the second time differs from the first *)
(** Message 1 has headers (5) and no payload, its trait has a payload (1): the first time this becomes
    the payload of the message, the second time its fields are added to the headers. *)
Definition headers_only : doc := mkDoc ex_heap (list_to_map [(1, with_parts (mkParts (Some 5) None) empty_msg)]) ∅ 10.
Theorem C114_payload_refuted :
  let apply d := apply_trait listing (fun _ _ => Err) 5 1 payload_trait d in
  "id" ∈ payload_names 1 (apply headers_only) /\ header_names 1 (apply headers_only) ≡ₚ ["name"; "age"] /\
  header_names 1 (obind (apply headers_only) apply) ≡ₚ ["name"; "age"; "id"; "home"].
Proof. cbn zeta. split; [|split]; (apply (bool_decide_unpack _); vm_compute; exact I). Qed.

(** Two calls of Generate: the whole specification, twice. *)
Definition process_twice (resolve : heap -> string -> res nat) (order1 order2 : list nat) (h : heap) : run :=
  bind (process listing resolve false 10 order1 h) (process listing resolve false 10 order2).

(** The fields that a schema lacks because its parts were processed too late (C60_order_refuted) are there
    the second time. *)
Theorem C114_late_refuted :
  run_props (process listing (resolve_in false no_world order_spec) false 10 [1; 2; 3] order_heap) 1 = Some [] /\
  run_props (process_twice (resolve_in false no_world order_spec) [1; 2; 3] [1; 2; 3] order_heap) 1 = Some [("x", 4)].
Proof. split; vm_compute; reflexivity. Qed.

(** Base (2) has an optional name (3), Extra requires it: the second time name is required in Base as
    well, since both share its definition (which of them comes last decides). *)
Definition run_flag (r : run) (s : nat) : option bool := match r with Done h => Some (s_isreq (cell h s)) | _ => None end.
Theorem C114_flag_refuted :
  s_required (cell flag_heap 2) = [] /\ props flag_heap (cell flag_heap 2) !! "name" = Some 3 /\
  run_flag (process listing (resolve_in false no_world flag_spec) false 10 [2; 1] flag_heap) 3 = Some false /\
  run_flag (process_twice (resolve_in false no_world flag_spec) [2; 1] [2; 1] flag_heap) 3 = Some true /\
  run_flag (process_twice (resolve_in false no_world flag_spec) [2; 1] [1; 2] flag_heap) 3 = Some false.
Proof. repeat (split; [vm_compute; reflexivity|]). vm_compute. reflexivity. Qed.

(** The compositions of a part are added each time: A (1) is composed of B, B of C. *)
Definition run_allof (r : run) (s : nat) : option nat := match r with Done h => Some (List.length (s_allof (cell h s))) | _ => None end.
Theorem C114_growth_refuted :
  run_allof (process listing (resolve_in false no_world order_spec) false 10 [3; 2; 1] order_heap) 1 = Some 2 /\
  run_allof (process_twice (resolve_in false no_world order_spec) [3; 2; 1] [3; 2; 1] order_heap) 1 = Some 3.
Proof. split; vm_compute; reflexivity. Qed.

Print Assumptions C114_merge.
Print Assumptions C114_traits.
Print Assumptions C114_about.
Print Assumptions C114_operation.
Print Assumptions C114_payload_refuted.
Print Assumptions C114_late_refuted.
Print Assumptions C114_flag_refuted.
Print Assumptions C114_growth_refuted.
