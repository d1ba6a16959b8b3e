From stdpp Require Import list strings.
From Coq Require Import String Lia.
From Verif.Model Require Import Types Conversion.
From Verif.Spec Require Import ConversionSpec.
Local Open Scope string_scope.

Definition run (env : package_types) (fields : place -> option xtype) (outer : scope) :=
  fix run (inner : scope) (used : list string) (l : list stmt) {struct l} : option (scope * list string) :=
  match l with
  | [] => Some (inner, used)
  | s :: l => '(inner', u) ← check env fields outer inner s; run inner' (used ++ u)%list l
  end.
Definition finish (inner : scope) (used : list string) : option (list string) :=
  if forallb (fun v : string * xtype => mentions used v.1) inner then Some (List.filter (fun x => negb (declares inner x)) used) else None.

Section proof.
  Context (env : package_types) (v3 dates force : bool).
  Context (Hexp : exports env).

  Lemma block_run fields outer inner used l :
    block (check env fields) outer inner used l = '(i, u) ← run env fields outer inner used l; finish i u.
  Proof using.
    revert inner used. induction l as [|s l IH]; intros inner used; [reflexivity|].
    change (block (check env fields) outer inner used (s :: l))
      with ('(inner', u) ← check env fields outer inner s; block (check env fields) outer inner' (used ++ u)%list l).
    change (run env fields outer inner used (s :: l))
      with ('(inner', u) ← check env fields outer inner s; run env fields outer inner' (used ++ u)%list l).
    destruct (check env fields outer inner s) as [[i u]|]; [apply IH | reflexivity].
  Qed.
  Lemma run_app fields outer inner used a b :
    run env fields outer inner used (a ++ b)%list = '(i, u) ← run env fields outer inner used a; run env fields outer i u b.
  Proof using.
    revert inner used. induction a as [|s a IH]; intros inner used; [reflexivity|].
    change (run env fields outer inner used ((s :: a) ++ b)%list)
      with ('(inner', u) ← check env fields outer inner s; run env fields outer inner' (used ++ u)%list (a ++ b)%list).
    change (run env fields outer inner used (s :: a))
      with ('(inner', u) ← check env fields outer inner s; run env fields outer inner' (used ++ u)%list a).
    destruct (check env fields outer inner s) as [[i u]|]; [apply IH | reflexivity].
  Qed.

  Lemma lower_undeclared c r : (90 < Ascii.nat_of_ascii c)%nat -> env (String c r) = None.
  Proof using Hexp.
    intros H. destruct (env (String c r)) as [u|] eqn:E; [|reflexivity].
    destruct (Hexp _ _ E) as (c' & r' & [= -> ->] & ?). lia.
  Qed.
  Lemma exported_named s u : env s = Some u -> named env s = Some (X (TNamed s)).
  Proof using Hexp.
    intros E. unfold named.
    repeat match goal with |- context [String.eqb s ?t] => destruct (String.eqb_spec s t) as [->|_];
      [rewrite lower_undeclared in E by (vm_compute; lia); discriminate E|] end.
    by rewrite E.
  Qed.

  Notation dated := (is_date_generated dates).
  Notation is s t := (String.eqb (g_type s) t).

  Lemma bytes_string : convertible env XBytes (X TString) = true.
  Proof using. reflexivity. Qed.
  Lemma assign_bytes : assignable env XBytes XBytes = true.
  Proof using. reflexivity. Qed.
  Lemma string_bytes : convertible env (X TString) XBytes = true.
  Proof using. reflexivity. Qed.

  (** ** One header *)
  Definition value_type (h : part) : option xtype :=
    let t := match target h with Some r => if v3 then g_name r else g_type (own h) | None => g_type (own h) end in
    if String.eqb t "" then Some XBytes else u ← named env t; if convertible env XBytes u then Some u else None.
  Definition via (p : bool) (t : xtype) : xtype := if p then XPointer t else t.
  Definition dec_ok (h : header) (T : xtype) : bool :=
    let s := own (h_part h) in let p := seen_pointer force h in
    if is s "object" then true
    else if dated (g_format s) then assignable env (via p (X TTime)) T
    else match value_type (h_part h) with Some u => assignable env (via p u) T | None => false end.

  Lemma decode_header_block fields sc h T :
    fields (Header (h_key h)) = Some T -> xwritten env T = true ->
    block (check env fields) (loop_scope ++ sc)%list [] [] (decode_header v3 dates force h) = if dec_ok h T then Some ["v"] else None.
  Proof using.
    intros HT HW. unfold decode_header, dec_ok. rewrite block_run.
    destruct (seen_pointer force h), (is (own (h_part h)) "object"); cbn.
    - rewrite HT. cbn. rewrite HW. reflexivity.
    - destruct (dated _); cbn.
      + rewrite bytes_string; cbn. rewrite HT. cbn. rewrite HW. cbn. by destruct (assignable _ _ _).
      + unfold header_value, value_type.
        destruct (String.eqb _ ""); cbn; rewrite ?HT; cbn; rewrite ?HW; cbn; [by destruct (assignable _ _ _)|].
        destruct (named env _) as [u|]; cbn; [|reflexivity].
        destruct (convertible env XBytes u); cbn; [|reflexivity].
        rewrite ?HT; cbn; rewrite ?HW; cbn. by destruct (assignable _ _ _).
    - rewrite HT. cbn. rewrite HW. reflexivity.
    - destruct (dated _); cbn.
      + rewrite bytes_string; cbn. rewrite HT. cbn. rewrite HW. cbn. by destruct (assignable _ _ _).
      + unfold header_value, value_type.
        destruct (String.eqb _ ""); cbn; rewrite ?HT; cbn; rewrite ?HW; cbn; [by destruct (assignable _ _ _)|].
        destruct (named env _) as [u|]; cbn; [|reflexivity].
        destruct (convertible env XBytes u); cbn; [|reflexivity].
        rewrite ?HT; cbn; rewrite ?HW; cbn. by destruct (assignable _ _ _).
  Qed.

  Definition pointed (T : xtype) : option xtype := match T with XPointer u => Some u | _ => None end.
  Definition enc_ok (h : header) (T : xtype) : bool :=
    let s := own (h_part h) in
    if h_flag h then
      if seen_pointer force h then
        nilable env T && match pointed T with
                         | Some u => is s "object" || (negb (dated (g_format s)) && convertible env u XBytes)
                         | None => false
                         end
      else is s "object" || (if dated (g_format s) then has_format T else convertible env T XBytes)
    else
      nilable env T && (if is s "object" then if pointed T then true else false
                        else if dated (g_format s) then has_format T
                        else match pointed T with Some u => convertible env u XBytes | None => false end).

  Lemma encode_header_run fields inner used h T :
    fields (Header (h_key h)) = Some T -> xwritten env T = true -> (declares inner "h" = true -> declares inner "err" = true) ->
    run env fields [] inner used (encode_header dates force h) =
      if enc_ok h T then
        if required_object h then
          if declares inner "h" then None
          else Some (("h", XBytes) :: (if declares inner "err" then inner else err :: inner), (used ++ ["err"; "h"])%list)
        else Some (inner, used)
      else None.
  Proof using.
    intros HT HW Herr. unfold encode_header, enc_ok, required_object.
    destruct (h_flag h); cbn [andb].
    - rewrite run_app. destruct (seen_pointer force h) eqn:Hp.
      + cbn. rewrite HT. cbn. rewrite HW. cbn.
        destruct (nilable env T); cbn; [|reflexivity].
        destruct (is (own (h_part h)) "object"); cbn.
        { rewrite HT. cbn. rewrite HW. cbn. destruct T as [| | |u]; cbn; try reflexivity.
          destruct (declares inner "h") eqn:Hh; cbn.
          - rewrite Herr by done. unfold declares in Hh. by destruct (lookup_var inner "h").
          - rewrite assign_bytes. cbn. by rewrite app_nil_r, <- app_assoc. }
        destruct (dated _); cbn.
        { rewrite HT. cbn. rewrite HW. cbn. destruct (has_format T) eqn:HF; cbn; destruct T; cbn; reflexivity. }
        rewrite HT. cbn. rewrite HW. cbn. destruct T as [| | |u]; cbn; try reflexivity.
        destruct (convertible env u XBytes); cbn; [|reflexivity]. rewrite ?string_bytes. cbn. rewrite ?assign_bytes. cbn. by rewrite ?app_nil_r.
      + cbn. destruct (is (own (h_part h)) "object"); cbn.
        { rewrite HT. cbn. rewrite HW. cbn.
          destruct (declares inner "h") eqn:Hh; cbn.
          - rewrite Herr by done. unfold declares in Hh. by destruct (lookup_var inner "h").
          - rewrite assign_bytes. cbn. by rewrite <- app_assoc. }
        destruct (dated _); cbn.
        { rewrite HT. cbn. rewrite HW. cbn. destruct (has_format T) eqn:HF; cbn; [|reflexivity]. rewrite ?string_bytes. cbn. rewrite ?assign_bytes. cbn. by rewrite ?app_nil_r. }
        rewrite HT. cbn. rewrite HW. cbn.
        destruct (convertible env T XBytes); cbn; [|reflexivity]. rewrite ?string_bytes. cbn. rewrite ?assign_bytes. cbn. by rewrite ?app_nil_r.
    - cbn. rewrite HT. cbn. rewrite HW. cbn. destruct (nilable env T); cbn; [|reflexivity].
      destruct (is (own (h_part h)) "object"); cbn.
      { rewrite HT. cbn. rewrite HW. cbn. destruct T as [| | |u]; cbn; try reflexivity. rewrite ?assign_bytes. cbn. by rewrite ?app_nil_r. }
      destruct (dated _); cbn.
      { rewrite HT. cbn. rewrite HW. cbn. destruct (has_format T) eqn:HF; cbn; [|reflexivity]. rewrite ?string_bytes. cbn. rewrite ?assign_bytes. cbn. by rewrite ?app_nil_r. }
      rewrite HT. cbn. rewrite HW. cbn. destruct T as [| | |u]; cbn; try reflexivity.
      destruct (convertible env u XBytes); cbn; [|reflexivity]. rewrite ?string_bytes. cbn. rewrite ?assign_bytes. cbn. by rewrite ?app_nil_r.
  Qed.

  (** ** The payload *)
  Definition assigned (p : part) (from : xtype) (t : gotype) : bool :=
    match target p with
    | Some r => match named env (g_name r) with Some u => convertible env from u && assignable env u (X t) | None => false end
    | None => assignable env from (X t)
    end.
  Definition pdec_ok (p : part) (t : gotype) : bool :=
    let s := followed p in
    if is s "string" then assigned p (X (if dated (g_format s) then TTime else TString)) t
    else if is s "integer" then assigned p (X (if String.eqb (g_format s) "int32" then TInt32 else TInt64)) t
    else negb (is s "number") && negb (is s "numeric").
  Definition penc_ok (p : part) (t : gotype) : bool :=
    let s := followed p in
    if is s "object" || is s "array" then true
    else if is s "integer" then
      if String.eqb (g_format (own p)) "int32" then convertible env (X t) (XUint 32) else convertible env (X t) (XUint 64)
    else if is s "number" then
      if String.eqb (g_format s) "float" then assignable env (X t) (X TFloat32) else assignable env (X t) (X TFloat64)
    else if is s "string" && dated (g_format s) then has_format (X t)
    else convertible env (X t) XBytes.

  Definition passes (r : option (scope * list string)) : bool :=
    match r with Some (i, u) => if finish i u then true else false | None => false end.

  Lemma decode_payload_run fields p t :
    fields Payload = Some (X t) -> written env t = true -> passes (run env fields [] [] [] (decode_payload dates p)) = pdec_ok p t.
  Proof using.
    intros HT HW. unfold decode_payload, pdec_ok. rewrite run_app.
    set (s := followed p).
    assert (Hass : forall i u from, lookup_var i "payload" = Some from ->
      run env fields [] i u match target p with
          | Some t => [Assign Payload (Convert (Ident (g_name t)) (Var "payload"))]
          | None => [Assign Payload (Var "payload")]
          end =
      if assigned p from t then Some (i, (u ++ ["payload"])%list) else None).
    { intros i u from Hi. unfold assigned. destruct (target p) as [r|]; cbn.
      - rewrite app_nil_r, Hi. cbn. destruct (named env (g_name r)) as [w|]; cbn; [|reflexivity].
        destruct (convertible env from w); cbn; [|reflexivity]. rewrite HT. cbn. rewrite HW. cbn.
        by destruct (assignable _ _ _).
      - rewrite app_nil_r, Hi. cbn. rewrite HT. cbn. rewrite HW. cbn. by destruct (assignable _ _ _). }
    destruct (String.eqb_spec (g_type s) "string") as [E|E]; cbn [orb].
    { destruct (dated (g_format s)); cbn; rewrite ?bytes_string; cbn.
      - rewrite (Hass _ _ (X TTime)) by reflexivity. by destruct (assigned _ _ _).
      - rewrite (Hass _ _ (X TString)) by reflexivity. by destruct (assigned _ _ _). }
    destruct (String.eqb_spec (g_type s) "integer") as [E2|E2]; cbn [orb].
    { destruct (String.eqb (g_format s) "int32").
      - change (run env fields [] [] [] [Let "payload" (Convert (Known (X TInt32)) (Word 32 Input))])
          with (Some ([("payload", X TInt32)] : scope, [] : list string)).
        cbn [mbind option_bind]. rewrite (Hass _ _ (X TInt32)) by reflexivity. by destruct (assigned _ _ _).
      - change (run env fields [] [] [] [Let "payload" (Convert (Known (X TInt64)) (Word 64 Input))])
          with (Some ([("payload", X TInt64)] : scope, [] : list string)).
        cbn [mbind option_bind]. rewrite (Hass _ _ (X TInt64)) by reflexivity. by destruct (assigned _ _ _). }
    destruct (String.eqb_spec (g_type s) "number") as [E3|E3]; cbn [orb negb andb].
    { rewrite E3. destruct (String.eqb (g_format s) "float"); reflexivity. }
    cbn. rewrite HT. cbn. rewrite HW. cbn.
    destruct (String.eqb_spec (g_type s) "numeric") as [E4|E4]; cbn; [|reflexivity].
    destruct (target p); reflexivity.
  Qed.

  (** ** The decoder *)
  Definition typed (fields : place -> option xtype) (T : header -> xtype) (hs : list header) : Prop :=
    Forall (fun h => fields (Header (h_key h)) = Some (T h) /\ xwritten env (T h) = true) hs.

  Lemma cases_blocks fields T sc hs :
    typed fields T hs ->
    mapM (fun c : string * list stmt => block (check env fields) (loop_scope ++ sc)%list [] [] c.2)
      (map (fun h => (h_key h, decode_header v3 dates force h)) hs) =
      if forallb (fun h => dec_ok h (T h)) hs then Some (map (fun _ => ["v"]) hs) else None.
  Proof using.
    induction 1 as [|h hs [HT HW] Hhs IH]; [reflexivity|].
    cbn [map]. cbn [mapM snd]. rewrite (decode_header_block _ _ _ _ HT HW). cbn [forallb].
    destruct (dec_ok h (T h)); cbn; [|reflexivity].
    etransitivity; [apply (f_equal (fun o => o ≫= fun k => Some (["v"] :: k))), IH|].
    by destruct (forallb _ hs).
  Qed.
  Lemma check_loop fields T inner hs :
    typed fields T hs ->
    check env fields [] inner (Loop (map (fun h => (h_key h, decode_header v3 dates force h)) hs)) =
      if negb (Nat.eqb (List.length hs) 0) && forallb (fun h => dec_ok h (T h)) hs then Some (inner, []) else None.
  Proof using.
    intros H.
    change (check env fields [] inner (Loop (map (fun h => (h_key h, decode_header v3 dates force h)) hs))) with
      (us ← mapM (fun c : string * list stmt => block (check env fields) (loop_scope ++ (inner ++ []))%list [] [] c.2)
         (map (fun h => (h_key h, decode_header v3 dates force h)) hs);
       let u := ((if map (fun h => (h_key h, decode_header v3 dates force h)) hs then [] else ["k"]) ++ List.concat us)%list in
       if mentions u "k" && mentions u "v" then Some (inner, List.filter (fun x => negb (declares loop_scope x)) u) else None).
    rewrite (cases_blocks _ _ _ _ H).
    destruct (forallb _ hs) eqn:E; cbn; [|by rewrite andb_false_r].
    destruct hs as [|h hs]; [reflexivity|]. cbn.
    assert (Hf : forall l : list header, List.filter (fun x => negb (declares loop_scope x)) (List.concat (map (fun _ => ["v"]) l)) = []).
    { induction l as [|? l IH]; [reflexivity|]. exact IH. }
    by rewrite Hf.
  Qed.

  Lemma decoder_compiles fields T t m :
    fields Payload = Some (X t) -> written env t = true ->
    (forall hs, m_headers m = Some hs -> typed fields T hs) ->
    compiles env fields (decoder v3 dates force m) =
      pdec_ok (m_payload m) t &&
      match m_headers m with Some hs => negb (Nat.eqb (List.length hs) 0) && forallb (fun h => dec_ok h (T h)) hs | None => true end.
  Proof using.
    intros HT HW Hhs. unfold compiles, decoder. rewrite block_run, run_app.
    rewrite <- (decode_payload_run fields) by done.
    destruct (run env fields [] [] [] (decode_payload dates (m_payload m))) as [[i u]|]; cbn [passes mbind option_bind]; [|reflexivity].
    destruct (m_headers m) as [hs|].
    - change (run env fields [] i u [Loop (map (fun h => (h_key h, decode_header v3 dates force h)) hs)]) with
        ('(i', u') ← check env fields [] i (Loop (map (fun h => (h_key h, decode_header v3 dates force h)) hs)); Some (i', (u ++ u')%list)).
      rewrite (check_loop _ T) by auto.
      destruct (negb _ && _); cbn; [|by rewrite andb_false_r]. rewrite app_nil_r, andb_true_r. reflexivity.
    - cbn. by rewrite andb_true_r.
  Qed.

  (** ** The encoder *)
  Definition state (i : scope) (u : list string) : Prop :=
    lookup_var i "payload" = Some XBytes /\ (declares i "h" = true -> declares i "err" = true) /\
    Forall (fun v : string * xtype => v.1 = "payload" \/ mentions u v.1 = true) i.

  Lemma encode_payload_run fields p t :
    fields Payload = Some (X t) -> written env t = true ->
    if penc_ok p t then exists i u, run env fields [] [] [] (encode_payload dates p) = Some (i, u) /\ state i u /\ declares i "h" = false
    else run env fields [] [] [] (encode_payload dates p) = None.
  Proof using.
    intros HT HW. unfold encode_payload, penc_ok.
    set (s := followed p).
    assert (S1 : state [("payload", XBytes)] ["payload"]) by (repeat split; [done | repeat constructor]).
    assert (S2 : state [("payload", XBytes)] []) by (repeat split; [done | repeat constructor]).
    assert (S3 : state [("payload", XBytes); err] ["err"]) by (repeat split; repeat constructor; by right).
    destruct (is s "object" || is s "array").
    { cbn. rewrite HT. cbn. rewrite HW. cbn. eauto. }
    destruct (is s "integer").
    { destruct (String.eqb (g_format (own p)) "int32"); cbn; rewrite HT; cbn; rewrite HW; cbn;
        destruct (convertible _ _ _); cbn; eauto. }
    destruct (is s "number").
    { destruct (String.eqb (g_format s) "float"); cbn; rewrite HT; cbn; rewrite HW; cbn; unfold float; cbn;
        destruct (assignable env (X t) _); cbn; eauto. }
    destruct (is s "string" && dated (g_format s)); cbn; rewrite HT; cbn; rewrite HW; cbn.
    { destruct (has_format (X t)); cbn; eauto. }
    destruct (convertible _ _ _); cbn; eauto.
  Qed.

  Lemma mentions_app l l' x : mentions (l ++ l')%list x = mentions l x || mentions l' x.
  Proof using. apply existsb_app. Qed.
  Lemma encode_headers_run fields T hs : typed fields T hs -> forall i u,
    state i u ->
    if forallb (fun h => enc_ok h (T h)) hs && Nat.leb (List.length (List.filter required_object hs) + (if declares i "h" then 1 else 0)) 1
    then exists i' u', run env fields [] i u (flat_map (encode_header dates force) hs) = Some (i', u') /\ state i' u'
    else run env fields [] i u (flat_map (encode_header dates force) hs) = None.
  Proof using.
    induction 1 as [|h hs [HT HW] Hhs IH]; intros i u Hs.
    { destruct (declares i "h"); exists i, u; split; [reflexivity | exact Hs | reflexivity | exact Hs]. }
    cbn [flat_map forallb List.filter]. destruct Hs as (Hp & He & Hu). rewrite run_app, (encode_header_run _ _ _ _ _ HT HW He).
    destruct (enc_ok h (T h)); cbn [andb]; [|reflexivity].
    destruct (required_object h) eqn:Ho.
    - destruct (declares i "h") eqn:Hh; cbn [mbind option_bind].
      { destruct (forallb _ hs); cbn [andb]; [|reflexivity]. cbn [List.length].
        destruct (Nat.leb_spec (S (List.length (List.filter required_object hs)) + 1) 1); [lia | reflexivity]. }
      set (i' := ("h", XBytes) :: (if declares i "err" then i else err :: i)).
      assert (Hs' : state i' (u ++ ["err"; "h"])%list).
      { split; [|split].
        - cbn. by destruct (declares i "err").
        - intros _. unfold declares. cbn. destruct (declares i "err") eqn:E; [|reflexivity]. exact E.
        - constructor; [right; rewrite mentions_app; cbn; apply orb_true_r|].
          assert (Forall (fun v : string * xtype => v.1 = "payload" \/ mentions (u ++ ["err"; "h"]) v.1 = true) i).
          { eapply Forall_impl; [exact Hu|]. intros v [?|Hm]; [by left|]. right. rewrite mentions_app, Hm. reflexivity. }
          destruct (declares i "err"); [done|]. constructor; [|done]. right. rewrite mentions_app. cbn. apply orb_true_r. }
      specialize (IH _ _ Hs').
      replace (declares i' "h") with true in IH by reflexivity.
      cbn [List.length]. rewrite Nat.add_0_r. rewrite Nat.add_1_r in IH. exact IH.
    - cbn [mbind option_bind]. apply IH. by split.
  Qed.

  Lemma finish_state i u : state i u -> finish i (u ++ ["payload"])%list <> None.
  Proof using.
    intros (Hp & He & Hu). unfold finish.
    replace (forallb _ i) with true; [done|]. symmetry. apply forallb_forall. intros v Hv.
    rewrite Forall_forall in Hu. destruct (Hu v) as [E|E]; [by apply elem_of_list_In | |].
    - rewrite E, mentions_app. cbn. apply orb_true_r.
    - by rewrite mentions_app, E.
  Qed.

  Lemma encoder_compiles fields T t m :
    fields Payload = Some (X t) -> written env t = true ->
    (forall hs, m_headers m = Some hs -> typed fields T hs) ->
    compiles env fields (encoder dates force m) =
      penc_ok (m_payload m) t &&
      match m_headers m with
      | Some hs => forallb (fun h => enc_ok h (T h)) hs && Nat.leb (List.length (List.filter required_object hs)) 1
      | None => true
      end.
  Proof using.
    intros HT HW Hhs. unfold compiles, encoder. rewrite block_run, run_app.
    pose proof (encode_payload_run fields (m_payload m) t HT HW) as HP.
    destruct (penc_ok (m_payload m) t); [|by rewrite HP].
    destruct HP as (i & u & -> & Hs & Hh). cbn [mbind option_bind andb].
    assert (Hend : forall i u, state i u -> (if ('(i, u) ← run env fields [] i u [Emit Payload (Var "payload")]; finish i u) : option (list string) then true else false) = true).
    { intros i' u' Hs'. pose proof (finish_state _ _ Hs') as HF. destruct Hs' as (Hp & _). cbn. rewrite app_nil_r, Hp. cbn. rewrite assign_bytes. cbn.
      by destruct (finish i' (u' ++ ["payload"])%list). }
    destruct (m_headers m) as [hs|].
    - rewrite run_app. pose proof (encode_headers_run fields T hs (Hhs _ eq_refl) i u Hs) as HE.
      rewrite Hh, Nat.add_0_r in HE. destruct (_ && _).
      + destruct HE as (i' & u' & -> & Hs'). cbn [mbind option_bind]. by apply Hend.
      + by rewrite HE.
    - by apply Hend.
  Qed.
  (** ** What is supported *)
  Lemma same_refl t : same t t = true.
  Proof using. by apply bool_decide_eq_true. Qed.
  Lemma payload_exact p t :
    part_ok env dates p -> (target p = None -> g_ref (own p) = None) -> schema_name dates (own p) = Some t -> written env t = true ->
    payload_supported env dates p = pdec_ok p t && penc_ok p t.
  Proof using Hexp.
    intros (Hx & _ & Hp) Hr Ht Hw. unfold payload_supported, pdec_ok, penc_ok, assigned, followed.
    destruct (target p) as [r|].
    - destruct Hp as (Hty & Href & Hxr & Hd).
      destruct (own p) as [n ty f x ps it ad rf]. cbn in Hx, Hty, Href, Ht. subst. cbn in Ht. injection Ht as <-.
      cbn in Hw. destruct (env (g_name r)) as [u|] eqn:Hu; [|discriminate]. cbn [g_format].
      rewrite (exported_named _ _ Hu).
      unfold declared in Hd. destruct r as [n' ty f' x ps' it' ad' rf']. cbn [g_type g_name g_ext g_format] in *. subst x.
      destruct (String.eqb_spec ty "object") as [->|No]; [reflexivity|].
      destruct Hd as (t' & u' & Ht' & Hut & Hwt & Hu'). rewrite Hu in Hu'. injection Hu' as <-.
      cbn in Ht'. rewrite (proj2 (String.eqb_neq _ _) No) in Ht'. cbn [orb].
      destruct (String.eqb_spec ty "") as [->|Ne]; cbn [negb] in Ht'.
      { cbn. unfold convertible. cbn. rewrite Hu. destruct u; reflexivity. }
      destruct (String.eqb_spec ty "array") as [->|Na]; [reflexivity|].
      destruct (String.eqb_spec ty "integer") as [->|Ni]; cbn [orb].
      { cbn in Ht'. injection Ht' as <-. unfold assignable, convertible. cbn. rewrite Hu, same_refl. cbn.
        destruct (String.eqb f' "int32"); cbn in Hut; injection Hut as <-; destruct (String.eqb f "int32"); reflexivity. }
      destruct (String.eqb_spec ty "string") as [->|Ns].
      { cbn in Ht'. unfold assignable, convertible. cbn. rewrite Hu, same_refl. cbn.
        destruct (dated f'); cbn; cbn in Ht'.
        - rewrite andb_comm. cbn. by rewrite andb_false_r.
        - injection Ht' as <-. cbn in Hut. injection Hut as <-. reflexivity. }
      destruct (String.eqb_spec ty "number") as [->|Nn]; [reflexivity|].
      destruct (String.eqb_spec ty "boolean") as [->|Nb].
      { cbn in Ht'. injection Ht' as <-. cbn in Hut. injection Hut as <-. unfold convertible. cbn. rewrite Hu. reflexivity. }
      injection Ht' as <-. discriminate Hwt.
    - specialize (Hr eq_refl). destruct (own p) as [n ty f x ps it ad rf]. cbn [g_type g_name g_ext g_format g_ref] in *. subst x rf.
      cbn in Ht.
      destruct (String.eqb_spec ty "object") as [->|No]; [reflexivity|].
      destruct (String.eqb_spec ty "array") as [->|Na]; [reflexivity|].
      destruct (String.eqb_spec ty "integer") as [->|Ni]; cbn [orb].
      { cbn in Ht. injection Ht as <-. destruct (String.eqb f "int32"); reflexivity. }
      destruct (String.eqb_spec ty "") as [->|Ne]; cbn [negb] in Ht.
      { injection Ht as <-. reflexivity. }
      destruct (String.eqb_spec ty "string") as [->|Ns].
      { cbn in Ht. unfold is_date_generated in *. destruct dates; cbn in *.
        - destruct (String.eqb_spec f "date") as [->|]; cbn in *; [injection Ht as <-; reflexivity|].
          destruct (String.eqb f "date-time"); cbn in *; injection Ht as <-; reflexivity.
        - injection Ht as <-. reflexivity. }
      destruct (String.eqb_spec ty "number") as [->|Nn]; [reflexivity|].
      destruct (String.eqb_spec ty "boolean") as [->|Nb]; cbn in Ht; injection Ht as <-; [reflexivity | discriminate Hw].
  Qed.

  Ltac sames :=
    repeat (match goal with
            | |- context [same ?a ?b] => first [change (same a b) with true | change (same a b) with false]
            | |- context [bool_decide ?P] => first [change (bool_decide P) with true | change (bool_decide P) with false]
            end; cbn).
  Definition stored (h : header) (t : gotype) : xtype := via (is_field_pointer force (h_declared h || h_flag h) (own (h_part h))) (X t).
  Lemma header_exact h t :
    part_ok env dates (h_part h) -> schema_name dates (own (h_part h)) = Some t -> written env t = true ->
    header_supported env v3 dates force h = dec_ok h (stored h t) && enc_ok h (stored h t).
  Proof using Hexp.
    intros (Hx & _ & Hp) Ht Hw. unfold header_supported, dec_ok, enc_ok, stored, seen_pointer.
    assert (Hdp : h_flag h = true -> is_field_pointer force (h_declared h || h_flag h) (own (h_part h)) =
                                     is_field_pointer force (h_listed h || h_flag h) (own (h_part h))).
    { intros ->. by rewrite !orb_true_r. }
    revert Hdp.
    generalize (is_field_pointer force (h_declared h || h_flag h) (own (h_part h))) as d.
    generalize (is_field_pointer force (h_listed h || h_flag h) (own (h_part h))) as p. intros p d Hdp.
    unfold value_type.
    destruct (target (h_part h)) as [r|].
    - destruct Hp as (Hty & Href & Hxr & Hd). clear Hd.
      destruct (own (h_part h)) as [n ty f x ps it ad rf]. cbn [g_type g_name g_ext g_format g_ref] in *. subst. cbn in Ht. injection Ht as <-.
      cbn in Hw. destruct (env (g_name r)) as [u|] eqn:Hu; [|discriminate].
      assert (Hne : String.eqb (g_name r) "" = false).
      { destruct (Hexp _ _ Hu) as (c & r' & -> & _). reflexivity. }
      pose proof (exported_named _ _ Hu) as Hn.
      unfold has_format, assignable, convertible, nilable, via.
      destruct v3; cbn; rewrite ?Hne, ?Hn; cbn; rewrite ?Hu;
        (destruct (dated f), (h_flag h); [rewrite <- (Hdp eq_refl)| |rewrite <- (Hdp eq_refl)|];
         destruct d; cbn; rewrite ?Hu; try destruct p; cbn; rewrite ?Hu; destruct u; cbn; rewrite ?Hu, ?same_refl; first [reflexivity | sames; rewrite ?same_refl; reflexivity]).
    - destruct (own (h_part h)) as [n ty f x ps it ad rf]. cbn [g_type g_name g_ext g_format g_ref] in *. subst x. clear Hp. cbn in Ht.
      destruct (String.eqb_spec ty "object") as [->|No].
      { unfold nilable, via. destruct (h_flag h); [rewrite <- (Hdp eq_refl)|]; destruct d; cbn; try reflexivity.
        cbn in Ht. injection Ht as <-. cbn in Hw |- *. destruct (env n) as [u|] eqn:Hu; [|discriminate]. by destruct u. }
      destruct (String.eqb_spec ty "string") as [->|Ns].
      { cbn in Ht. unfold is_date_generated in *. destruct dates; cbn in *.
        - destruct (String.eqb_spec f "date") as [->|]; cbn in *.
          + injection Ht as <-. rewrite andb_false_r. destruct (h_flag h); [rewrite <- (Hdp eq_refl)|]; destruct d; cbn; try reflexivity; destruct p; reflexivity.
          + destruct (String.eqb f "date-time"); cbn in *; injection Ht as <-;
            (destruct (h_flag h); [rewrite <- (Hdp eq_refl)|]; destruct d; cbn; try reflexivity; destruct p; reflexivity).
        - injection Ht as <-. destruct (h_flag h); [rewrite <- (Hdp eq_refl)|]; destruct d; cbn; try reflexivity; destruct p; reflexivity. }
      rewrite andb_false_r.
      destruct (String.eqb_spec ty "") as [->|Ne]; cbn [negb] in Ht.
      { destruct rf as [n'|]; injection Ht as <-.
        - cbn in Hw. destruct (env n') as [u|] eqn:Hu; [|discriminate].
          unfold has_format, assignable, convertible, nilable, via.
          destruct (dated f), (h_flag h); [rewrite <- (Hdp eq_refl)| |rewrite <- (Hdp eq_refl)|];
            destruct d; cbn; rewrite ?Hu; try destruct p; cbn; rewrite ?Hu; destruct u; reflexivity.
        - unfold has_format, assignable, convertible, nilable, via.
          destruct (dated f), (h_flag h); [rewrite <- (Hdp eq_refl)| |rewrite <- (Hdp eq_refl)|];
            destruct d; cbn; try destruct p; reflexivity. }
      assert (Hnd : dated f = true -> assignable env (via p (X TTime)) (via d (X t)) = false).
      { intros _. assert (t = TBool \/ t = TInt32 \/ t = TInt64 \/ t = TFloat32 \/ t = TFloat64 \/ exists e, t = TSlice e) as Hc.
        { destruct (String.eqb ty "boolean"); [injection Ht as <-; eauto 10|].
          destruct (String.eqb ty "integer"); [injection Ht as <-; destruct (String.eqb f "int32"); eauto 10|].
          destruct (String.eqb ty "array").
          { destruct it as [it|]; [|discriminate]. destruct (schema_name dates it); [|discriminate]. cbn in Ht. injection Ht as <-. eauto 10. }
          destruct (String.eqb ty "number"); injection Ht as <-; [destruct (String.eqb f "float"); eauto 10 | discriminate Hw]. }
        destruct Hc as [->|[->|[->|[->|[->|[e ->]]]]]]; destruct p, d; reflexivity. }
      destruct (dated f); [by rewrite Hnd|].
      assert (Hnn : named env ty = None).
      { destruct (String.eqb_spec ty "boolean") as [->|N1]; [unfold named; cbn; by rewrite lower_undeclared by (vm_compute; lia)|].
        destruct (String.eqb_spec ty "integer") as [->|N2]; [unfold named; cbn; by rewrite lower_undeclared by (vm_compute; lia)|].
        destruct (String.eqb_spec ty "array") as [->|N3]; [unfold named; cbn; by rewrite lower_undeclared by (vm_compute; lia)|].
        destruct (String.eqb_spec ty "number") as [->|N4]; [unfold named; cbn; by rewrite lower_undeclared by (vm_compute; lia)|].
        injection Ht as <-. discriminate Hw. }
      rewrite Hnn. reflexivity.
  Qed.

  Lemma field_header m hs h :
    m_headers m = Some hs -> NoDup (map h_key hs) -> h ∈ hs ->
    field_type dates force m (Header (h_key h)) = t ← schema_name dates (own (h_part h)); Some (stored h t).
  Proof using.
    intros Hm Hnd Hin. unfold field_type. rewrite Hm. cbn.
    destruct (list_find_elem_of (fun x => h_key x = h_key h) hs h Hin eq_refl) as [[j x] Hj]. rewrite Hj. cbn.
    apply list_find_Some in Hj as (Hj & Hk & _).
    apply elem_of_list_lookup in Hin as [j' Hj'].
    assert (j = j').
    { eapply NoDup_lookup; [exact Hnd | |]; rewrite list_lookup_fmap; [rewrite Hj|rewrite Hj']; cbn; [by rewrite Hk|done]. }
    subst. rewrite Hj in Hj'. injection Hj' as ->. reflexivity.
  Qed.

  Theorem message_exact m :
    message_ok env dates m ->
    message_supported env v3 dates force m =
      compiles env (field_type dates force m) (decoder v3 dates force m) && compiles env (field_type dates force m) (encoder dates force m).
  Proof using Hexp.
    intros (Hp & Hr & Hh). pose proof Hp as (_ & (t & Ht & Hw) & _).
    set (T h := stored h (default TBroken (schema_name dates (own (h_part h))))).
    assert (Hty : forall hs, m_headers m = Some hs -> typed (field_type dates force m) T hs).
    { intros hs Hm. destruct (Hh _ Hm) as [Hnd Hok]. rewrite Forall_forall in Hok. apply Forall_forall. intros h Hin.
      rewrite (field_header _ _ _ Hm Hnd Hin). destruct (Hok _ Hin) as (_ & (th & Hth & Hwh) & _). unfold T. rewrite Hth. cbn.
      split; [done|]. unfold stored, via. by case_match. }
    assert (HT : field_type dates force m Payload = Some (X t)) by (cbn; by rewrite Ht).
    rewrite (decoder_compiles _ T t) by done. rewrite (encoder_compiles _ T t) by done.
    unfold message_supported. rewrite (payload_exact _ t) by done.
    destruct (m_headers m) as [hs|]; [|by rewrite !andb_true_r].
    destruct (Hh _ eq_refl) as [Hnd Hok].
    assert (Hs : forallb (header_supported env v3 dates force) hs = forallb (fun h => dec_ok h (T h)) hs && forallb (fun h => enc_ok h (T h)) hs).
    { clear -Hok Hexp. induction Hok as [|h hs Ho _ IH]; [reflexivity|]. cbn [forallb]. rewrite IH.
      pose proof Ho as (_ & (th & Hth & Hwh) & _). assert (ET : T h = stored h th) by (unfold T; by rewrite Hth). rewrite ET.
      rewrite (header_exact h th) by done.
      generalize (forallb (fun h => dec_ok h (T h)) hs), (forallb (fun h => enc_ok h (T h)) hs), (dec_ok h (stored h th)), (enc_ok h (stored h th)).
      by intros [] [] [] []. }
    rewrite Hs. clear.
    repeat match goal with |- context [pdec_ok ?a ?b] => destruct (pdec_ok a b) | |- context [penc_ok ?a ?b] => destruct (penc_ok a b)
      | |- context [forallb ?f hs] => destruct (forallb f hs) | |- context [Nat.eqb ?a ?b] => destruct (Nat.eqb a b)
      | |- context [Nat.leb ?a ?b] => destruct (Nat.leb a b) end; reflexivity.
  Qed.

End proof.
