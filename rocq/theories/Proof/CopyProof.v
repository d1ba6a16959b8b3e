From stdpp Require Import gmap list strings.
From Coq Require Import Ascii String Lia.
From Verif.Model Require Import Reference Schema Location Message.
From Verif.Spec Require Import SchemaSpec LocationSpec CopySpec.
From Verif.Proof Require Import SchemaProof LocationProof MergeProof.
Local Open Scope string_scope.

Lemma kept_refl h : kept h h. Proof. constructor; auto. Qed.
Lemma kept_valid h h' x : kept h h' -> valid h x -> valid h' x.
Proof. intros K V. unfold valid. now rewrite (ke_cells _ _ K). Qed.
Lemma kept_valid_map h h' x : kept h h' -> valid_map h x -> valid_map h' x.
Proof. intros K V. unfold valid_map. now rewrite (ke_maps _ _ K). Qed.
Lemma kept_trans h1 h2 h3 : kept h1 h2 -> kept h2 h3 -> kept h1 h3.
Proof.
  intros A B. constructor.
  - pose proof (ke_next _ _ A). pose proof (ke_next _ _ B). lia.
  - intros x V. rewrite (ke_cells _ _ B); [now apply (ke_cells _ _ A)|now apply (kept_valid h1)].
  - intros x V. rewrite (ke_maps _ _ B); [now apply (ke_maps _ _ A)|now apply (kept_valid_map h1)].
Qed.
Lemma kept_cell h h' x : kept h h' -> valid h x -> cell h' x = cell h x.
Proof. intros K V. unfold cell. now rewrite (ke_cells _ _ K). Qed.
Lemma kept_props h h' x : closed h -> kept h h' -> valid h x -> props h' (cell h' x) = props h (cell h x).
Proof.
  intros C K V. rewrite (kept_cell h h') by assumption. unfold props, map_at. destruct (s_props (cell h x)) as [m|] eqn:E; [|reflexivity].
  rewrite (ke_maps _ _ K); [reflexivity|]. eapply ok_props; [eapply cell_ok; eassumption|exact E].
Qed.
Lemma kept_reaches h h' x path z : closed h -> kept h h' -> valid h x -> reaches h x path z <-> reaches h' x path z.
Proof.
  intros C K. revert x. induction path as [|k path IH]; intros x V; split; intros H; inversion H as [|? ? m ? ? E R]; subst.
  - constructor.
  - constructor.
  - assert (Vm : valid h m) by (eapply props_in; eassumption). econstructor; [now rewrite (kept_props h h'), E|]. now apply (IH m Vm).
  - rewrite (kept_props h h') in E by assumption. assert (Vm : valid h m) by (eapply props_in; eassumption).
    econstructor; [exact E|]. now apply (IH m Vm).
Qed.
Lemma reaches_valid h x path z : closed h -> valid h x -> reaches h x path z -> valid h z.
Proof. intros C V H. induction H as [|? ? ? ? ? E R IH]; [exact V|]. apply IH. eapply props_in; eassumption. Qed.

Lemma copied_mono h0 h1 h2 h3 x y : closed h0 -> valid h0 x -> closed h2 -> kept h0 h1 -> kept h2 h3 ->
  copied h1 x h2 y -> copied h0 x h3 y.
Proof.
  intros C0 V C2 K K' [A B D E F]. pose proof (ke_next _ _ K) as Nx. constructor.
  - now apply (kept_valid h2).
  - lia.
  - intros path z R. destruct (D path z) as (w & Rw & Sf & L); [now apply (kept_reaches h0 h1)|].
    exists w. split; [now apply (kept_reaches h2 h3)|]. split; [|lia].
    rewrite (kept_cell h2 h3 w K') by (eapply reaches_valid; eassumption).
    now rewrite <- (kept_cell h0 h1 z K) by (eapply reaches_valid; eassumption).
  - intros path w R. apply (kept_reaches h2 h3) in R; [|assumption..]. destruct (E path w R) as (z & Rz & Sf & L).
    apply (kept_reaches h0 h1) in Rz; [|assumption..]. exists z. split; [exact Rz|]. split; [|lia].
    rewrite (kept_cell h2 h3 w K') by (eapply reaches_valid; eassumption).
    now rewrite <- (kept_cell h0 h1 z K) by (eapply reaches_valid; eassumption).
  - intros m. rewrite (kept_cell h2 h3) by assumption. intros G. apply F in G. lia.
Qed.

Lemma kept_alloc c h : closed h -> kept h (snd (alloc c h)).
Proof.
  intros C. constructor; cbn; [lia| |auto]. intros x V. rewrite lookup_insert_ne; [reflexivity|].
  intros <-. unfold valid in V. rewrite (fresh_cell h C) in V. now destruct V.
Qed.

Section copy.
  Variable iter : nat -> gmap string nat -> list (string * nat).
  Hypothesis iter_perm : forall m g, iter m g ≡ₚ map_to_list g.

  Definition copies (copy : nat -> heap -> option (nat * heap)) : Prop :=
    forall s h n h', closed h -> valid h s -> copy s h = Some (n, h') -> closed h' /\ kept h h' /\ copied h s h' n.

  Lemma copy_list_spec copy l h ns h' : copies copy -> closed h -> Forall (valid h) l -> copy_list copy l h = Some (ns, h') ->
    closed h' /\ kept h h' /\ Forall (valid h') ns.
  Proof.
    intros Q. revert h ns. induction l as [|x l IH]; intros h ns C F E; cbn [copy_list] in E.
    { injection E as <- <-. auto using kept_refl. }
    inversion F as [|? ? V F']; subst. destruct (copy x h) as [[y h1]|] eqn:E1; [|discriminate].
    destruct (Q _ _ _ _ C V E1) as (C1 & K1 & D1).
    destruct (copy_list copy l h1) as [[ys h2]|] eqn:E2; [|discriminate]. injection E as <- <-.
    destruct (IH h1 ys C1) as (C2 & K2 & F2); [|exact E2|].
    { eapply Forall_impl; [exact F'|]. intros z. now apply kept_valid. }
    split; [exact C2|]. split; [eapply kept_trans; eassumption|]. constructor; [|exact F2].
    eapply kept_valid; [exact K2|]. apply (cp_valid _ _ _ _ D1).
  Qed.

  Lemma copy_entries_spec copy (l : list (string * nat)) h g h' : copies copy -> closed h -> Forall (fun kv => valid h (snd kv)) l ->
    NoDup (l.*1) -> copy_entries copy l h = Some (g, h') ->
    closed h' /\ kept h h' /\
    (forall k x, (k, x) ∈ l -> exists y, g !! k = Some y /\ copied h x h' y) /\
    (forall k y, g !! k = Some y -> exists x, (k, x) ∈ l /\ copied h x h' y).
  Proof.
    intros Q. revert h g. induction l as [|[k x] l IH]; intros h g C F N E; cbn [copy_entries] in E.
    { injection E as <- <-. split; [exact C|]. split; [apply kept_refl|]. split.
      - intros k x H. now apply elem_of_nil in H.
      - intros k y H. now rewrite lookup_empty in H. }
    inversion F as [|? ? V F']; subst. cbn [snd] in V. destruct (copy x h) as [[y h1]|] eqn:E1; [|discriminate].
    destruct (Q _ _ _ _ C V E1) as (C1 & K1 & D1).
    destruct (copy_entries copy l h1) as [[g' h2]|] eqn:E2; [|discriminate]. injection E as <- <-.
    cbn [fmap list_fmap fst] in N. apply NoDup_cons in N as [Nk N].
    rewrite Forall_forall in F'.
    destruct (IH h1 g' C1) as (C2 & K2 & A2 & B2); [|exact N|exact E2|].
    { rewrite Forall_forall. intros kv H. apply (kept_valid h); [exact K1|now apply F']. }
    split; [exact C2|]. split; [eapply kept_trans; eassumption|].
    assert (D : copied h x h2 y) by (eapply (copied_mono h h h1 h2); eauto using kept_refl).
    assert (M : forall k' x' y', (k', x') ∈ l -> copied h1 x' h2 y' -> copied h x' h2 y').
    { intros k' x' y' H. apply (copied_mono h h1 h2 h2); auto using kept_refl. apply (F' _ H). }
    assert (Ne : forall k' x', (k', x') ∈ l -> k' <> k).
    { intros k' x' H ->. apply Nk. apply elem_of_list_fmap. exists (k, x'). auto. }
    split.
    - intros k' x' H. apply elem_of_cons in H as [[= -> ->]|H].
      + exists y. split; [apply lookup_insert|exact D].
      + destruct (A2 k' x' H) as (y' & G & D'). exists y'. rewrite lookup_insert_ne by (intros ->; now apply (Ne _ _ H)).
        split; [exact G|]. now apply (M k').
    - intros k' y' G. apply lookup_insert_Some in G as [[<- <-]|[Nk' G]].
      + exists x. split; [left|exact D].
      + destruct (B2 k' y' G) as (x' & H & D'). exists x'. split; [now right|]. now apply (M k').
  Qed.

  Lemma head_valid h l x : Forall (valid h) l -> head_option l = Some x -> valid h x.
  Proof. destruct l; [discriminate|]. cbn. intros F [= <-]. now inversion F. Qed.
  Lemma opt_head_valid h (l : list nat) x : Forall (valid h) l -> x ∈ opt_list (head_option l) -> valid h x.
  Proof.
    destruct l; cbn; [intros _ H; now apply elem_of_nil in H|]. intros F H. apply elem_of_list_singleton in H as ->. now inversion F.
  Qed.

  Lemma deep_copies fuel : copies (deep_copy iter fuel).
  Proof.
    induction fuel as [|fuel Q]; intros s h n h' C V E; [discriminate|]. cbn [deep_copy] in E.
    pose proof (cell_ok h s C V) as Ok.
    assert (Ch : forall x, x ∈ (s_pattern (cell h s) ++ opt_list (s_addprops (cell h s)) ++ s_additems (cell h s)
        ++ opt_list (s_items (cell h s)) ++ s_contains (cell h s) ++ s_anyof (cell h s) ++ s_oneof (cell h s)
        ++ s_allof (cell h s) ++ opt_list (s_not (cell h s)))%list -> valid h x) by apply (ok_children _ _ Ok).
    assert (Cr : forall x, x ∈ opt_list (s_refto (cell h s)) -> valid h x).
    { intros x H. destruct (s_refto (cell h s)) as [r|] eqn:Er; [|now apply elem_of_nil in H].
      apply elem_of_list_singleton in H as ->. now apply (ok_refto _ _ Ok). }
    set (c := cell h s) in *.
    assert (Sub : forall h1 l, kept h h1 -> (forall x, x ∈ l -> valid h x) -> Forall (valid h1) l).
    { intros h1 l K H. rewrite Forall_forall. intros x Hx. apply (kept_valid h); [exact K|auto]. }
    destruct (copy_list (deep_copy iter fuel) (opt_list (s_refto c)) h) as [[refto h1]|] eqn:E1; [|discriminate].
    destruct (copy_list_spec _ _ _ _ _ Q C (Sub h _ (kept_refl h) Cr) E1) as (C1 & K1 & F1).
    match type of E with match ?e with _ => _ end = _ => destruct e as [[pm h2]|] eqn:E2; [|discriminate] end.
    assert (P : closed h2 /\ kept h1 h2 /\
      match pm with
      | None => s_props c = None
      | Some m => next h <= m /\ valid_map h2 m /\ s_props c <> None /\
          (forall k x, props h c !! k = Some x -> exists y, map_at h2 (Some m) !! k = Some y /\ copied h x h2 y) /\
          (forall k y, map_at h2 (Some m) !! k = Some y -> exists x, props h c !! k = Some x /\ copied h x h2 y)
      end).
    { destruct (s_props c) as [p|] eqn:Ep; [|injection E2 as <- <-; auto using kept_refl].
      destruct (copy_entries (deep_copy iter fuel) (iter p (map_at h1 (Some p))) h1) as [[g h0]|] eqn:E0; [|discriminate].
      assert (Vp : valid_map h p) by (apply (ok_props _ _ Ok); exact Ep).
      assert (Mp : map_at h1 (Some p) = props h c).
      { unfold props. rewrite Ep. unfold map_at. now rewrite (ke_maps _ _ K1). }
      assert (In : forall k x, (k, x) ∈ iter p (map_at h1 (Some p)) <-> props h c !! k = Some x).
      { intros k x. rewrite iter_perm, elem_of_map_to_list, Mp. reflexivity. }
      destruct (copy_entries_spec _ (iter p (map_at h1 (Some p))) _ g h0 Q C1) as (C0 & K0 & A0 & B0); [| |exact E0|].
      { rewrite Forall_forall. intros [k x] H. cbn. apply In in H. apply (kept_valid h); [exact K1|]. eapply props_in; eassumption. }
      { rewrite iter_perm. apply NoDup_fst_map_to_list. }
      cbn [alloc_map] in E2. injection E2 as <- <-.
      set (m := next h0). set (h00 := mkHeap (cells h0) (<[m := ∅]> (maps h0)) (S (next h0))).
      assert (Vm : valid_map h00 m) by (unfold valid_map, h00; cbn; rewrite lookup_insert; eauto).
      assert (K00 : kept h0 (set_map m g h00)).
      { constructor; cbn; [lia|auto|]. intros x Hx. assert (x <> m) by (intros ->; unfold valid_map, m in Hx; rewrite (fresh_map h0 C0) in Hx; now destruct Hx).
        rewrite !lookup_insert_ne by congruence. reflexivity. }
      assert (C00 : closed (set_map m g h00)).
      { apply closed_set_map; [exact (closed_alloc_map h0 C0)|exact Vm|]. intros k v G.
        destruct (B0 k v G) as (x & _ & D). exact (cp_valid _ _ _ _ D). }
      assert (Em : map_at (set_map m g h00) (Some m) = g) by (unfold map_at, set_map; cbn; now rewrite lookup_insert).
      assert (Mono : forall x y, valid h x -> copied h1 x h0 y -> copied h x (set_map m g h00) y).
      { intros x y Hx. now apply (copied_mono h h1 h0). }
      split; [exact C00|]. split; [eapply kept_trans; eassumption|].
      split; [pose proof (ke_next _ _ K1); pose proof (ke_next _ _ K0); unfold m; lia|].
      split; [unfold valid_map, set_map; cbn; rewrite lookup_insert; eauto|]. split; [discriminate|]. match goal with |- context [map_at ?hh (Some m)] => change (map_at hh (Some m)) with (map_at (set_map m g h00) (Some m)) end. rewrite Em. split.
      - intros k x H. pose proof (props_in _ _ _ _ C H) as Vx. apply In in H. destruct (A0 k x H) as (y & G & D). exists y. auto.
      - intros k y G. destruct (B0 k y G) as (x & H & D). apply In in H. pose proof (props_in _ _ _ _ C H). exists x. auto. }
    destruct P as (C2 & K2 & P). clear E2. assert (K02 : kept h h2) by (eapply kept_trans; eassumption).
    Ltac many E Sub Q Ch Kh Cn h3 C3 K3 F3 ns :=
      match type of E with
      | match copy_list ?f ?l ?hh with _ => _ end = _ =>
          let E3 := fresh in
          destruct (copy_list f l hh) as [[ns h3]|] eqn:E3; [|discriminate];
          let Fl := fresh in
          assert (Fl : Forall (valid hh) l)
            by (apply (Sub hh l Kh); intros x Hx; apply Ch; rewrite !elem_of_app; clear - Hx; tauto);
          destruct (copy_list_spec _ _ _ _ _ Q Cn Fl E3) as (C3 & K3 & F3); clear E3 Fl
      end.
    many E Sub Q Ch K02 C2 h3 C3 K3 F3 pat. assert (K03 : kept h h3) by (eapply kept_trans; eassumption).
    many E Sub Q Ch K03 C3 h4 C4 K4 F4 addp. assert (K04 : kept h h4) by (eapply kept_trans; eassumption).
    many E Sub Q Ch K04 C4 h5 C5 K5 F5 addi. assert (K05 : kept h h5) by (eapply kept_trans; eassumption).
    many E Sub Q Ch K05 C5 h6 C6 K6 F6 ite. assert (K06 : kept h h6) by (eapply kept_trans; eassumption).
    many E Sub Q Ch K06 C6 h7 C7 K7 F7 cont. assert (K07 : kept h h7) by (eapply kept_trans; eassumption).
    many E Sub Q Ch K07 C7 h8 C8 K8 F8 anyo. assert (K08 : kept h h8) by (eapply kept_trans; eassumption).
    many E Sub Q Ch K08 C8 h9 C9 K9 F9 oneo. assert (K09 : kept h h9) by (eapply kept_trans; eassumption).
    many E Sub Q Ch K09 C9 h10 C10 K10 F10 allo. assert (K010 : kept h h10) by (eapply kept_trans; eassumption).
    many E Sub Q Ch K010 C10 h11 C11 K11 F11 neg. assert (K011 : kept h h11) by (eapply kept_trans; eassumption).
    assert (K10_ : kept h10 h11) by exact K11.
    assert (K9_ : kept h9 h11) by (eapply kept_trans; eassumption).
    assert (K8_ : kept h8 h11) by (eapply kept_trans; eassumption).
    assert (K7_ : kept h7 h11) by (eapply kept_trans; eassumption).
    assert (K6_ : kept h6 h11) by (eapply kept_trans; eassumption).
    assert (K5_ : kept h5 h11) by (eapply kept_trans; eassumption).
    assert (K4_ : kept h4 h11) by (eapply kept_trans; eassumption).
    assert (K3_ : kept h3 h11) by (eapply kept_trans; eassumption).
    assert (K2_ : kept h2 h11) by (eapply kept_trans; eassumption).
    assert (K1_ : kept h1 h11) by (eapply kept_trans; eassumption).
    assert (Up : forall a l, kept a h11 -> Forall (valid a) l -> Forall (valid h11) l).
    { intros a l Ka F. eapply Forall_impl; [exact F|]. intros x. now apply kept_valid. }
    apply (Up _ _ K1_) in F1. apply (Up _ _ K3_) in F3. apply (Up _ _ K4_) in F4. apply (Up _ _ K5_) in F5. apply (Up _ _ K6_) in F6.
    apply (Up _ _ K7_) in F7. apply (Up _ _ K8_) in F8. apply (Up _ _ K9_) in F9. apply (Up _ _ K10_) in F10.
    clear Sub Ch Cr Up.
    match type of E with Some (alloc ?x _) = _ => set (c' := x) in E end.
    assert (Okc : ok_sch h11 c').
    { constructor.
      - intros r Hr. exact (head_valid _ _ _ F1 Hr).
      - intros p Hp. change (pm = Some p) in Hp. subst pm. apply (kept_valid_map h2); [exact K2_|]. apply P.
      - intros x Hx. change (x ∈ (pat ++ opt_list (head_option addp) ++ addi ++ opt_list (head_option ite) ++ cont ++ anyo
          ++ oneo ++ allo ++ opt_list (head_option neg))%list) in Hx. rewrite !elem_of_app in Hx.
        rewrite Forall_forall in F3, F5, F7, F8, F9, F10.
        destruct Hx as [Hx|[Hx|[Hx|[Hx|[Hx|[Hx|[Hx|[Hx|Hx]]]]]]]]; auto; first [exact (opt_head_valid _ _ _ F4 Hx)|exact (opt_head_valid _ _ _ F6 Hx)|exact (opt_head_valid _ _ _ F11 Hx)]. }
    injection E as <- <-. change (mkHeap _ _ _) with (snd (alloc c' h11)).
    pose proof (kept_alloc c' h11 C11) as Ka. pose proof (closed_alloc c' h11 C11 Okc) as Ca.
    assert (Kall : kept h (snd (alloc c' h11))) by (eapply kept_trans; [exact K011|exact Ka]).
    split; [exact Ca|]. split; [exact Kall|].
    assert (Ec : cell (snd (alloc c' h11)) (next h11) = c').
    { apply cell_some. cbn. apply lookup_insert. }
    assert (Sf : same_face c c') by (repeat split).
    assert (Nn : next h <= next h11) by apply (ke_next _ _ K011).
    assert (Pp : props (snd (alloc c' h11)) c' = map_at h2 pm).
    { unfold props. change (s_props c') with pm. destruct pm as [m|]; [|reflexivity]. unfold map_at.
      assert (Km : kept h2 (snd (alloc c' h11))) by (eapply kept_trans; [exact K2_|exact Ka]).
      rewrite (ke_maps _ _ Km); [reflexivity|apply P]. }
    assert (Mono : forall x y, valid h x -> copied h x h2 y -> copied h x (snd (alloc c' h11)) y).
    { intros x y Hx. apply (copied_mono h h h2); [exact C|exact Hx|exact C2|apply kept_refl|]. eapply kept_trans; [exact K2_|exact Ka]. }
    constructor.
    - unfold valid. cbn. rewrite lookup_insert. eauto.
    - exact Nn.
    - intros path z R. inversion R as [|? k x ? ? G R']; subst.
      { exists (next h11). split; [constructor|]. split; [now rewrite Ec|exact Nn]. }
      fold c in G. pose proof (props_in _ _ _ _ C G) as Vx. destruct pm as [m|].
      2: { unfold props in G. rewrite P in G. cbn [map_at] in G. now rewrite lookup_empty in G. }
      destruct P as (_ & _ & _ & A & _). destruct (A k x G) as (y & Gy & D). apply (Mono x y Vx) in D.
      destruct (cp_there _ _ _ _ D _ _ R') as (w & Rw & Sw & L). exists w. split; [|auto].
      econstructor; [|exact Rw]. now rewrite Ec, Pp.
    - intros path w R. inversion R as [|? k y ? ? G R']; subst.
      { exists s. split; [constructor|]. split; [now rewrite Ec|exact Nn]. }
      rewrite Ec, Pp in G. destruct pm as [m|]; [|cbn [map_at] in G; now rewrite lookup_empty in G].
      destruct P as (_ & _ & _ & _ & B). destruct (B k y G) as (x & Gx & D). pose proof (props_in _ _ _ _ C Gx) as Vx.
      apply (Mono x y Vx) in D. destruct (cp_back _ _ _ _ D _ _ R') as (z & Rz & Sz & L). exists z. split; [|auto].
      econstructor; [exact Gx|exact Rz].
    - rewrite Ec. change (s_props c') with pm. intros m ->. apply P.
  Qed.
End copy.
