From stdpp Require Import list strings.
From Coq Require Import String Lia.
From Verif.Model Require Import Types Accessors.
From Verif.Spec Require Import AccessorsSpec.
Local Open Scope string_scope.

Section proof.
  Context (defs : string -> option gdef).

  Lemma leads_unique name path th p t th' p' t' :
    leads defs name path th p t -> leads defs name path th' p' t' -> th = th' /\ p = p' /\ t = t'.
  Proof.
    intros H. revert th' p' t'. induction H as [name fs a k f D F|name fs a k f name' r th p t D F E H IH N]; intros th' p' t' H'.
    - inversion H' as [? fs' a' ? f' D' F'|? fs' a' ? f' ? ? ? ? ? D' F' E' L' N']; subst; [|done].
      rewrite D in D'. injection D' as <- <-. rewrite F in F'. by injection F' as <-.
    - inversion H' as [? fs' a' ? f' D' F'|? fs' a' ? f' n2 ? th2 ? ? D' F' E' L' N']; subst; [done|].
      rewrite D in D'. injection D' as <- <-. rewrite F in F'. injection F' as <-. rewrite E in E'. injection E' as <-.
      by destruct (IH _ _ _ L') as (-> & -> & ->).
  Qed.
  Lemma leads_nonempty name path th p t : leads defs name path th p t -> path <> [].
  Proof. by destruct 1. Qed.

  Lemma read_exact name path req :
    compiles defs name (read path req) <-> exists th, leads defs name path th (negb req) TString.
  Proof.
    unfold read. split.
    - inversion 1 as [| | | |? th H0 E|? th H0 E]; subst; eauto.
    - intros [th H]. destruct (negb req); econstructor; eauto.
  Qed.
  Lemma read_write name path req : compiles defs name (read path req) -> compiles defs name (write path req).
  Proof. intros [th H]%read_exact. unfold write. destruct (negb req); econstructor; eauto. Qed.

  (** ** Running *)
  Lemma typed_fields n fs a v :
    defs n = Some (DStruct fs a) -> typed defs false (TNamed n) v ->
    exists g, v = Struct g /\ forall k f, find_field fs k = Some f -> typed defs (f_pointer f) (f_type f) (g k).
  Proof.
    intros D H. inversion H as [| | |? fs' a' g D' G|? ? _ N]; subst.
    - rewrite D in D'. injection D' as <- <-. eauto.
    - by destruct (N n fs a).
  Qed.
  Lemma typed_any b n fs a v :
    defs n = Some (DStruct fs a) -> typed defs b (TNamed n) v ->
    (b = true /\ v = Nil) \/
    exists g, (v = Struct g \/ (b = true /\ v = Pointer (Struct g))) /\ forall k f, find_field fs k = Some f -> typed defs (f_pointer f) (f_type f) (g k).
  Proof.
    intros D H. destruct b.
    - inversion H as [?|? w Hw| | |]; subst; [by left|]. destruct (typed_fields _ _ _ _ D Hw) as (g & -> & G). right. eauto.
    - destruct (typed_fields _ _ _ _ D H) as (g & -> & G). right. eauto.
  Qed.

  Lemma put_spec name path th p t x : leads defs name path th p t -> typed defs p t x -> forall b v, typed defs b (TNamed name) v ->
    match put path x v with
    | Some v' => typed defs b (TNamed name) v' /\ get path v' = Some x /\ forall p', apart path p' -> get p' v' = get p' v
    | None => b = true \/ th = true
    end /\ (b = false -> th = false -> put path x v <> None).
  Proof.
    intros H Hx. induction H as [name fs a k f D F|name fs a k f name' r th p t D F E H IH N]; intros b v Hv.
    - destruct (typed_any _ _ _ _ _ D Hv) as [[-> ->]|(g & Hg & G)]; [cbn; auto|].
      assert (Hput : exists v', put [k] x v = Some v' /\ typed defs b (TNamed name) v' /\ (forall k', field v' k' = if String.eqb k' k then Some x else field v k')).
      { set (g' := fun k' => if String.eqb k' k then x else g k').
        assert (Ht : typed defs false (TNamed name) (Struct g')).
        { econstructor; [exact D|]. intros k' f' F'. unfold g'. destruct (String.eqb_spec k' k) as [->|]; [|by apply G].
          rewrite F in F'. by injection F' as <-. }
        destruct Hg as [->|[-> ->]]; [exists (Struct g')|exists (Pointer (Struct g'))]; (split; [reflexivity|]).
        - split; [inversion Hv; subst; try (by constructor); exact Ht|]. intros k'. cbn. unfold g'. by destruct (String.eqb k' k).
        - split; [by constructor|]. intros k'. cbn. unfold g'. by destruct (String.eqb k' k). }
      destruct Hput as (v' & -> & Ht & Hf). split; [|done]. split; [done|]. split.
      + cbn. rewrite Hf, String.eqb_refl. done.
      + intros p' Hp. inversion Hp as [? l ? s Hkl|? ? s Ha]; subst; [|inversion Ha]. cbn. rewrite Hf.
        destruct (String.eqb_spec l k) as [->|]; [done|reflexivity].
    - destruct (typed_any _ _ _ _ _ D Hv) as [[-> ->]|(g & Hg & G)]; [cbn; auto|].
      assert (Hfk : field v k = Some (g k)) by (destruct Hg as [->|[_ ->]]; reflexivity).
      pose proof (G _ _ F) as Gk. rewrite E in Gk. destruct (IH Hx _ _ Gk) as [IH1 IH2]. cbn. rewrite Hfk. cbn.
      destruct (put r x (g k)) as [w|] eqn:Ew; cbn.
      2:{ destruct IH1 as [->| ->]; cbn; (split; [right; auto using orb_true_r|]).
          - intros _ [=].
          - intros _ Ho. apply orb_false_iff in Ho as [_ Ho]. discriminate. }
      destruct IH1 as (Tw & Gw & Aw).
      assert (Hput : exists v', replace_field v k w = Some v' /\ typed defs b (TNamed name) v' /\ (forall k', field v' k' = if String.eqb k' k then Some w else field v k')).
      { set (g' := fun k' => if String.eqb k' k then w else g k').
        assert (Ht : typed defs false (TNamed name) (Struct g')).
        { econstructor; [exact D|]. intros k' f' F'. unfold g'. destruct (String.eqb_spec k' k) as [->|]; [|by apply G].
          rewrite F in F'. injection F' as <-. by rewrite E. }
        destruct Hg as [->|[-> ->]]; [exists (Struct g')|exists (Pointer (Struct g'))]; (split; [reflexivity|]).
        - split; [inversion Hv; subst; try (by constructor); exact Ht|]. intros k'. cbn. unfold g'. by destruct (String.eqb k' k).
        - split; [by constructor|]. intros k'. cbn. unfold g'. by destruct (String.eqb k' k). }
      destruct Hput as (v' & -> & Ht & Hf). split; [|done]. split; [done|]. split.
      + cbn. rewrite Hf, String.eqb_refl. exact Gw.
      + intros p' Hp. inversion Hp as [? l ? s Hkl|? ? s Ha]; subst; cbn; rewrite Hf.
        * destruct (String.eqb_spec l k) as [->|]; [done|reflexivity].
        * rewrite String.eqb_refl, Hfk. cbn. by apply Aw.
  Qed.

  Lemma get_spec name path th p t : leads defs name path th p t -> forall b v, typed defs b (TNamed name) v ->
    match get path v with Some x => typed defs p t x | None => b = true \/ th = true end.
  Proof.
    induction 1 as [name fs a k f D F|name fs a k f name' r th p t D F E H IH N]; intros b v Hv.
    - destruct (typed_any _ _ _ _ _ D Hv) as [[-> ->]|(g & Hg & G)]; [cbn; auto|].
      assert (Hfk : field v k = Some (g k)) by (destruct Hg as [->|[_ ->]]; reflexivity). cbn. rewrite Hfk. cbn. by apply G.
    - destruct (typed_any _ _ _ _ _ D Hv) as [[-> ->]|(g & Hg & G)]; [cbn; auto|].
      assert (Hfk : field v k = Some (g k)) by (destruct Hg as [->|[_ ->]]; reflexivity). cbn. rewrite Hfk. cbn.
      pose proof (G _ _ F) as Gk. rewrite E in Gk. specialize (IH _ _ Gk). destruct (get r (g k)); [done|].
      right. destruct IH as [->| ->]; auto using orb_true_r.
  Qed.

  Lemma string_value p x : typed defs p TString x -> if p then x = Nil \/ exists s, x = Pointer (Text s) else exists s, x = Text s.
  Proof.
    inversion 1 as [|? v Hv|s| |? ? N]; subst; eauto; [|done]. right. inversion Hv; subst; eauto; done.
  Qed.
  Lemma written_value req id : typed defs (negb req) TString (if req then Text id else Pointer (Text id)).
  Proof. destruct req; repeat constructor. Qed.

  Lemma replace_get v k w v' : replace_field v k w = Some v' -> field v' k = Some w.
  Proof.
    destruct v as [| |v|g|]; cbn; try discriminate; [destruct v; try discriminate|]; intros [= <-]; cbn; by rewrite String.eqb_refl.
  Qed.
  Lemma put_get path x : forall v v', put path x v = Some v' -> get path v' = Some x.
  Proof.
    induction path as [|k r IH]; intros v v' H; [by injection H as <-|].
    cbn in H. apply bind_Some in H as (w & _ & H). apply bind_Some in H as (w' & Hw & H). apply replace_get in H. cbn. rewrite H. cbn. by eapply IH.
  Qed.

  (** The zero value: panics exactly when a pointer is on the way. *)
  Lemma zero_put name path th p t x : leads defs name path th p t -> forall n, (List.length path <= n)%nat ->
    put path x (zero defs n false (TNamed name)) = None <-> th = true.
  Proof.
    induction 1 as [name fs a k f D F|name fs a k f name' r th p t D F E H IH N]; intros n Hn.
    - destruct n as [|n]; [cbn in Hn; lia|]. cbn. rewrite D. cbn. done.
    - destruct n as [|n]; [cbn in Hn; lia|]. cbn [put zero]. rewrite D. cbn [field mbind option_bind]. rewrite F, E.
      destruct (f_pointer f).
      + destruct r as [|k' r]; [done|]. destruct n; cbn; done.
      + specialize (IH n ltac:(cbn in Hn; lia)).
        destruct (put r x (zero defs n false (TNamed name'))) as [w|]; cbn; [split; [discriminate|]; intros Hth; by apply IH in Hth|].
        split; [|done]. intros _. by apply IH.
  Qed.

  Lemma replace_other v k w v' k' : replace_field v k w = Some v' -> k' <> k -> field v' k' = field v k'.
  Proof.
    intros H N. apply String.eqb_neq in N. destruct v; try discriminate; cbn in H.
    - destruct v; try discriminate. injection H as <-. cbn. by rewrite N.
    - injection H as <-. cbn. by rewrite N.
  Qed.
  Lemma put_apart path other x : apart path other -> forall v v', put path x v = Some v' -> get other v' = get other v.
  Proof.
    induction 1 as [k l r s N|k r s _ IH]; intros v v' H; cbn in H; apply bind_Some in H as (w & Hw & H); apply bind_Some in H as (w' & Hw' & H); cbn.
    - by rewrite (replace_other _ _ _ _ l H) by congruence.
    - rewrite (replace_get _ _ _ _ H), Hw. cbn. by eapply IH.
  Qed.
  Lemma zero_get name path p t : leads defs name path false p t -> forall n, (List.length path <= n)%nat ->
    exists n', get path (zero defs n false (TNamed name)) = Some (zero defs n' p t).
  Proof.
    intros H. remember false as th eqn:Eth in H. revert Eth.
    induction H as [name fs a k f D F|name fs a k f name' r th p t D F E H IH N]; intros Eth n Hn; (destruct n as [|n]; [cbn in Hn; lia|]).
    - exists n. cbn. rewrite D. cbn. by rewrite F.
    - apply orb_false_iff in Eth as [Ef ->]. cbn [get zero]. rewrite D. cbn.
      rewrite F, E, Ef.
      apply IH; [done|]. cbn in Hn. lia.
  Qed.
End proof.
