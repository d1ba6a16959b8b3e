From stdpp Require Import gmap list strings.
From Coq Require Import Ascii String Lia.
From Verif.Model Require Import GoStrings Reference.
From Verif.Spec Require Import ReferenceSpec.
From Verif.Proof Require Import GoStringsProof.
Local Open Scope string_scope.

Lemma step_name_lacks s : step_name s <-> lacks "/" s /\ lacks "#" s.
Proof. reflexivity. Qed.

Lemma pointer_slashed ns : pointer ns = slashed ns.
Proof.
  unfold pointer. induction ns as [|n ns IH]; [reflexivity|]. cbn [map].
  destruct ns as [|m ns].
  - cbn [map String.concat slashed]. now rewrite sapp_nil_r.
  - change (String.concat "" (("/" ++ n) :: map (fun n => "/" ++ n) (m :: ns)))
      with (("/" ++ n) ++ "" ++ String.concat "" (map (fun n => "/" ++ n) (m :: ns))).
    rewrite IH. cbn [slashed]. rewrite sapp_nil. reflexivity.
Qed.

Lemma names_lacks ns c : (c = "/"%char \/ c = "#"%char) -> Forall step_name ns -> Forall (lacks c) ns.
Proof.
  intros Hc F. eapply Forall_impl; [exact F|]. intros n [A B]. destruct Hc; subst; [exact A|exact B].
Qed.

Lemma get_dependency_local w s r : lacks "#" r -> get_dependency w s (String "#" r) = Ok (s, r).
Proof.
  intros H. unfold get_dependency.
  change (String "#" r) with ("" ++ String "#" r). rewrite split_app by apply lacks_nil.
  rewrite split_lacks by exact H. reflexivity.
Qed.

Lemma get_dependency_file w s file r : lacks "#" file -> lacks "#" r -> file <> "" ->
  get_dependency w s (file ++ String "#" r) =
  match deps s !! trim_prefix "./" file with Some d => Ok (specs w d, r) | None => Err end.
Proof.
  intros Hf Hr Hn. unfold get_dependency. rewrite split_app by exact Hf. rewrite split_lacks by exact Hr.
  destruct (String.eqb_spec file ""); [congruence|reflexivity].
Qed.

Lemma path_split n ns : Forall step_name (n :: ns) ->
  split "/" (trim_prefix "/" (pointer (n :: ns))) = n :: ns.
Proof.
  intros F. rewrite pointer_slashed. cbn [slashed].
  change (String "/" (n ++ slashed ns)) with ("/" ++ (n ++ slashed ns)). rewrite trim_prefix_app.
  apply split_slashed. apply names_lacks; auto.
Qed.

Lemma pointer_lacks ns : Forall step_name ns -> lacks "#" (pointer ns).
Proof. intros F. rewrite pointer_slashed. apply lacks_slashed; [congruence|]. apply names_lacks; auto. Qed.

(** The reference "#/a/b/..." for steps without separators. *)
Lemma reference_steps w s n ns : Forall step_name (n :: ns) ->
  get_dependency w s (String "#" (pointer (n :: ns))) = Ok (s, pointer (n :: ns)) /\
  split "/" (trim_prefix "/" (pointer (n :: ns))) = n :: ns.
Proof.
  intros F. split; [apply get_dependency_local, pointer_lacks; exact F|apply path_split; exact F].
Qed.

Lemma known_names : Forall step_name ["components"; "schemas"; "messages"; "channels"].
Proof.
  repeat constructor; apply step_name_lacks; split; unfold lacks; apply (bool_decide_unpack _); vm_compute; exact I.
Qed.

Lemma reference_schema_path v3 kinds w s name ns :
  Forall step_name (name :: ns) ->
  reference v3 kinds w s (String "#" (pointer ("components" :: "schemas" :: name :: ns))) =
  match schema_from w (comps s "schemas" !! name) ns with
  | Ok q => Ok (OSchema q) | Err => Err | Panic => Panic
  end.
Proof.
  intros F. pose proof known_names as K.
  apply Forall_cons in K as [K1 K]. apply Forall_cons in K as [K2 K].
  destruct (reference_steps w s "components" ("schemas" :: name :: ns)) as [E1 E2].
  { repeat (constructor; [assumption|]). exact F. }
  unfold reference. rewrite E1, E2. cbn [at_ lookup list_lookup drop String.eqb Ascii.eqb Bool.eqb].
  now rewrite drop_0.
Qed.

Lemma reference_message_path v3 kinds w s name ns :
  Forall step_name (name :: ns) ->
  reference v3 kinds w s (String "#" (pointer ("components" :: "messages" :: name :: ns))) =
  message_from w (comps s "messages" !! name) ns.
Proof.
  intros F. pose proof known_names as K.
  apply Forall_cons in K as [K1 K]. apply Forall_cons in K as [K2 K]. apply Forall_cons in K as [K3 K].
  destruct (reference_steps w s "components" ("messages" :: name :: ns)) as [E1 E2].
  { repeat (constructor; [assumption|]). exact F. }
  unfold reference. rewrite E1, E2. cbn [at_ lookup list_lookup drop String.eqb Ascii.eqb Bool.eqb].
  now rewrite drop_0.
Qed.

Lemma reference_kind v3 kinds w s kind name :
  step_name kind -> step_name name -> kind ∈ kinds -> kind <> "schemas" -> kind <> "messages" ->
  reference v3 kinds w s (String "#" (pointer ["components"; kind; name])) =
  Ok ((if String.eqb kind "channels" then OChannel else OOther kind) (comps s kind !! name)).
Proof.
  intros Hk Hn Hin N1 N2. pose proof known_names as K. apply Forall_cons in K as [K1 _].
  destruct (reference_steps w s "components" [kind; name]) as [E1 E2].
  { repeat (constructor; [assumption|]). constructor. }
  unfold reference. rewrite E1, E2. cbn [at_ lookup list_lookup drop].
  change (String.eqb "components" "components") with true. cbn iota.
  destruct (String.eqb_spec kind "schemas"); [congruence|]. destruct (String.eqb_spec kind "messages"); [congruence|].
  rewrite bool_decide_true by exact Hin. reflexivity.
Qed.

(** [schema_from], exactly. *)
Lemma schema_from_some w l ns l' : leads w l ns l' -> schema_from w (Some l) ns = Ok (Some l').
Proof. induction 1 as [|l n l1 ns l2 H _ IH]; cbn [schema_from]; [reflexivity|]. now rewrite H. Qed.

Lemma schema_from_ok w p ns l' : schema_from w p ns = Ok (Some l') -> exists l, p = Some l /\ leads w l ns l'.
Proof.
  revert p. induction ns as [|n ns IH]; intros p; cbn [schema_from].
  - intros [= ->]. eexists. split; [reflexivity|constructor].
  - destruct p as [l|]; [|discriminate]. intros H. apply IH in H as (l1 & E & L). exists l. split; [reflexivity|].
    econstructor; eassumption.
Qed.

Lemma schema_from_nil w p ns : schema_from w p ns = Ok None <->
  (p = None /\ ns = []) \/
  exists l ns' n l', p = Some l /\ ns = (ns' ++ [n])%list /\ leads w l ns' l' /\ schema_props w l' !! n = None.
Proof.
  revert p. induction ns as [|n ns IH]; intros p; cbn [schema_from].
  - split; [intros [= ->]; auto|]. intros [[-> _]|(l & ns' & n & l' & _ & E & _)]; [reflexivity|].
    destruct ns'; discriminate.
  - destruct p as [l|].
    + rewrite IH. split.
      * intros [[H ->]|(l1 & ns' & m & l' & H & -> & L & N)]; right.
        -- exists l, [], n, l. repeat split; [constructor|exact H].
        -- exists l, (n :: ns'), m, l'. repeat split; [econstructor; eassumption|exact N].
      * intros [[E _]|(l1 & ns' & m & l' & [= <-] & E & L & N)]; [discriminate|].
        destruct ns' as [|x ns']; cbn in E; injection E as -> ->.
        -- inversion L; subst. left. auto.
        -- inversion L as [|? ? l2 ? ? H1 H2]; subst. right. exists l2, ns', m, l'. auto.
    + split; [discriminate|]. intros [[_ E]|(l1 & ns' & m & l' & E & _)]; discriminate.
Qed.

Lemma schema_from_noerr w p ns : schema_from w p ns <> Err.
Proof. revert p. induction ns as [|n ns IH]; intros p; cbn [schema_from]; [congruence|]. destruct p; [apply IH|congruence]. Qed.

(** File part. *)
Lemma trim_dot p : trim_prefix "./" ("./" ++ p) = p.
Proof. apply trim_prefix_app. Qed.

Lemma reference_in_file v3 kinds w s file r d :
  lacks "#" file -> lacks "#" r -> file <> "" ->
  deps s !! trim_prefix "./" file = Some d ->
  reference v3 kinds w s (file ++ String "#" r) = reference v3 kinds w (specs w d) (String "#" r).
Proof.
  intros Hf Hr Hn E. unfold reference. rewrite get_dependency_file by assumption. rewrite E.
  rewrite get_dependency_local by exact Hr. reflexivity.
Qed.

Lemma reference_no_file v3 kinds w s file r :
  lacks "#" file -> lacks "#" r -> file <> "" ->
  deps s !! trim_prefix "./" file = None ->
  reference v3 kinds w s (file ++ String "#" r) = Err.
Proof.
  intros Hf Hr Hn E. unfold reference. rewrite get_dependency_file by assumption. now rewrite E.
Qed.

(** * Exactly what is designated *)

Lemma split_join sep s x xs : split sep s = x :: xs ->
  Forall (lacks sep) (x :: xs) /\ s = x ++ fold_right (fun n r => String sep (n ++ r)) "" xs.
Proof.
  revert x xs. induction s as [|c s IH]; intros x xs; cbn [split].
  - intros [= <- <-]. split; [repeat constructor; apply lacks_nil|reflexivity].
  - destruct (Ascii.eqb_spec c sep) as [->|N].
    + intros [= <- E]. destruct (split_nonnil sep s) as (y & ys & E2). rewrite E2 in E. subst xs.
      destruct (IH _ _ E2) as [F ->]. split; [constructor; [apply lacks_nil|exact F]|]. reflexivity.
    + destruct (split_nonnil sep s) as (y & ys & E2). rewrite E2. intros [= <- <-].
      destruct (IH _ _ E2) as [F ->]. apply Forall_cons in F as [F1 F2]. split; [|reflexivity].
      constructor; [|exact F2]. apply lacks_cons. auto.
Qed.

Lemma fold_slashed ns : fold_right (fun n r => String "/" (n ++ r)) "" ns = slashed ns.
Proof. induction ns as [|n ns IH]; [reflexivity|]. cbn. now rewrite IH. Qed.

Lemma get_dependency_document w s ref used r : get_dependency w s ref = Ok (used, r) <-> document w s ref used r.
Proof.
  split.
  - unfold get_dependency. destruct (split "#" ref) as [|file [|r' [|? ?]]] eqn:E; try discriminate.
    apply split_join in E as [F ->]. apply Forall_cons in F as [F1 F]. apply Forall_cons in F as [F2 _].
    cbn [fold_right]. rewrite sapp_nil_r. destruct (String.eqb_spec file "") as [->|N].
    + intros [= <- <-]. rewrite sapp_nil. constructor. exact F2.
    + destruct (deps s !! trim_prefix "./" file) as [d|] eqn:D; [|discriminate]. intros [= <- <-].
      change (file ++ String "#" r') with (file ++ "#" ++ r').
      econstructor; [exact N|exact F1|exact F2| |exact D].
      unfold trim_prefix. destruct (strip_prefix "./" file) as [k|] eqn:S; cbn.
      * left. now apply strip_prefix_some.
      * right. split; [reflexivity|]. intros k ->. now rewrite strip_prefix_app in S.
  - intros D. inversion D as [p H E1 E2 E3|file key p d N H1 H2 SF Dk E1 E2 E3]; subst.
    + apply get_dependency_local. exact H.
    + change (file ++ "#" ++ r) with (file ++ String "#" r). rewrite get_dependency_file by assumption.
      replace (trim_prefix "./" file) with key; [now rewrite Dk|].
      destruct SF as [->|[-> SF]]; [now rewrite trim_prefix_app|]. unfold trim_prefix.
      destruct (strip_prefix "./" key) as [k|] eqn:S; [|reflexivity]. apply strip_prefix_some in S. now apply SF in S.
Qed.

Lemma trim_slash r : trim_prefix "/" r = match r with String "/" r' => r' | _ => r end.
Proof.
  unfold trim_prefix. destruct r as [|c r]; [reflexivity|]. cbn [strip_prefix].
  revert c. intros [[] [] [] [] [] [] [] []]; reflexivity.
Qed.

Lemma writes_split p n ns : n <> "" -> writes p (n :: ns) <-> split "/" (trim_prefix "/" p) = n :: ns.
Proof.
  intros N. unfold writes. rewrite pointer_slashed. cbn [slashed]. split.
  - intros [F [->|E]].
    + change (String "/" (n ++ slashed ns)) with ("/" ++ (n ++ slashed ns)). rewrite trim_prefix_app.
      now apply split_slashed.
    + change ("/" ++ p) with (String "/" p) in E. injection E as ->.
      rewrite <- (split_slashed n ns F). f_equal.
      apply Forall_cons in F as [F _]. destruct n as [|c n]; [congruence|]. apply lacks_cons in F as [F _].
      apply trim_prefix_lacks. rewrite sapp_cons. cbn [strip_prefix].
      destruct (Ascii.eqb_spec "/" c); [congruence|reflexivity].
  - intros E. apply split_join in E as [F E]. rewrite fold_slashed in E. split; [exact F|].
    unfold trim_prefix in E. destruct (strip_prefix "/" p) as [q|] eqn:S; cbn in E.
    + apply strip_prefix_some in S. subst. left. reflexivity.
    + subst. right. reflexivity.
Qed.

Definition by_path (v3 : bool) (kinds : list string) (w : world) (used : spec) (path : list string) : res obj :=
  at_ path 0 (fun p0 =>
    if String.eqb p0 "components" then
      at_ path 1 (fun kind =>
        if String.eqb kind "schemas" then
          at_ path 2 (fun n =>
            match schema_from w (comps used "schemas" !! n) (drop 3 path) with
            | Ok q => Ok (OSchema q) | Err => Err | Panic => Panic
            end)
        else if String.eqb kind "messages" then
          at_ path 2 (fun n => message_from w (comps used "messages" !! n) (drop 3 path))
        else if bool_decide (kind ∈ kinds) then
          at_ path 2 (fun n =>
            Ok ((if String.eqb kind "channels" then OChannel else OOther kind) (comps used kind !! n)))
        else Err)
    else if (v3 && String.eqb p0 "channels")%bool then
      if (List.length path <? 3)%nat then at_ path 1 (fun n => Ok (OChannel (channels used !! n)))
      else at_ path 1 (fun n => at_ path 2 (fun what =>
        if String.eqb what "messages" then
          match channels used !! n with
          | None => Panic
          | Some c => at_ path 3 (fun m => message_from w (chan_msgs w c !! m) (drop 4 path))
          end
        else Err))
    else Err).

Lemma reference_by_path v3 kinds w s ref :
  reference v3 kinds w s ref =
  match get_dependency w s ref with
  | Panic => Panic | Err => Err
  | Ok (used, r) => by_path v3 kinds w used (split "/" (trim_prefix "/" r))
  end.
Proof. reflexivity. Qed.

Lemma at_some {A} path i (f : string -> res A) x : path !! i = Some x -> at_ path i f = f x.
Proof. unfold at_. now intros ->. Qed.

Lemma message_from_schema w p ns l : message_from w p ns = Ok (OSchema (Some l)) <->
  exists m f l0 ns', p = Some m /\ ns = f :: ns' /\ field_of w m f l0 /\ leads w l0 ns' l.
Proof.
  split.
  - destruct ns as [|f ns]; cbn [message_from]; [discriminate|].
    assert (D : forall q, match schema_from w q ns with Ok q => Ok (OSchema q) | Err => Err | Panic => Panic end
                          = Ok (OSchema (Some l)) -> exists l0, q = Some l0 /\ leads w l0 ns l).
    { intros q H. destruct (schema_from w q ns) as [| |o] eqn:E; try discriminate. injection H as ->.
      now apply schema_from_ok in E. }
    destruct (String.eqb_spec f "payload") as [->|].
    { destruct p as [m|]; [|discriminate]. intros H. apply D in H as (l0 & E & L).
      exists m, "payload", l0, ns. repeat split; [constructor; exact E|exact L]. }
    destruct (String.eqb_spec f "header") as [->|].
    { destruct p as [m|]; [|discriminate]. intros H. apply D in H as (l0 & E & L).
      exists m, "header", l0, ns. repeat split; [constructor; exact E|exact L]. }
    intros H. apply D in H as (l0 & E & L). discriminate.
  - intros (m & f & l0 & ns' & -> & -> & [l1 E|l1 E] & L); cbn [message_from String.eqb Ascii.eqb Bool.eqb];
      rewrite E, (schema_from_some _ _ _ _ L); reflexivity.
Qed.

Lemma message_from_message w p ns l : message_from w p ns = Ok (OMessage (Some l)) <-> ns = [] /\ p = Some l.
Proof.
  split.
  - destruct ns as [|f ns]; cbn [message_from]; [intros [= ->]; auto|].
    intros H. exfalso. revert H. repeat case_match; congruence.
  - intros [-> ->]. reflexivity.
Qed.

Lemma as_schema_ok o l : as_schema o = Ok l <-> o = Ok (OSchema (Some l)).
Proof. destruct o as [| |[[p|]|p|p|k p]]; cbn; split; congruence. Qed.
Lemma as_message_ok o l : as_message o = Ok l <-> o = Ok (OMessage (Some l)).
Proof. destruct o as [| |[p|[p|]|p|k p]]; cbn; split; congruence. Qed.

Lemma by_path_schema v3 kinds w used path l :
  by_path v3 kinds w used path = Ok (OSchema (Some l)) <-> schema_steps v3 w used path l.
Proof.
  split.
  - unfold by_path. destruct path as [|p0 path]; cbn [at_ lookup list_lookup]; [discriminate|].
    destruct (String.eqb_spec p0 "components") as [->|N0].
    + destruct path as [|kind path]; cbn [at_ lookup list_lookup]; [discriminate|].
      destruct (String.eqb_spec kind "schemas") as [->|N1].
      { destruct path as [|n path]; cbn [at_ lookup list_lookup drop]; [discriminate|]. rewrite drop_0.
        destruct (schema_from w (comps used "schemas" !! n) path) as [| |o] eqn:E; try discriminate.
        intros [= ->]. apply schema_from_ok in E as (l0 & E & L). econstructor; eassumption. }
      destruct (String.eqb_spec kind "messages") as [->|N2].
      { destruct path as [|n path]; cbn [at_ lookup list_lookup drop]; [discriminate|]. rewrite drop_0.
        intros H. apply message_from_schema in H as (m & f & l0 & ns' & E & -> & F & L).
        change ("components" :: "messages" :: n :: f :: ns') with (["components"; "messages"; n] ++ f :: ns')%list.
        econstructor; [constructor; exact E|exact F|exact L]. }
      case_bool_decide; [|discriminate].
      destruct path as [|n path]; cbn [at_ lookup list_lookup drop]; [discriminate|].
      destruct (String.eqb kind "channels"); discriminate.
    + destruct v3; cbn [andb]; [|discriminate]. destruct (String.eqb_spec p0 "channels") as [->|]; [|discriminate].
      destruct (List.length ("channels" :: path) <? 3)%nat.
      { destruct path; cbn [at_ lookup list_lookup]; discriminate. }
      destruct path as [|c [|what path]]; cbn [at_ lookup list_lookup]; try discriminate.
      destruct (String.eqb_spec what "messages") as [->|]; [|discriminate].
      destruct (channels used !! c) as [ch|] eqn:Ec; [|discriminate].
      destruct path as [|n path]; cbn [at_ lookup list_lookup drop]; [discriminate|]. rewrite ?drop_0.
      intros H. apply message_from_schema in H as (m & f & l0 & ns' & E & -> & F & L).
      change ("channels" :: c :: "messages" :: n :: f :: ns') with (["channels"; c; "messages"; n] ++ f :: ns')%list.
      econstructor; [econstructor; [reflexivity|exact Ec|exact E]|exact F|exact L].
  - intros H. inversion H as [n l0 ns l' E L|steps m f l0 ns l' M F L]; subst.
    + unfold by_path. cbn. rewrite ?drop_0, E, (schema_from_some _ _ _ _ L). reflexivity.
    + inversion M as [n m' E|c ch n m' -> Ec E]; subst; unfold by_path; cbn -[message_from].
      * rewrite ?drop_0. apply message_from_schema. rewrite E. eauto 10.
      * rewrite Ec, ?drop_0. apply message_from_schema. rewrite E. eauto 10.
Qed.

Lemma by_path_message v3 kinds w used path l :
  by_path v3 kinds w used path = Ok (OMessage (Some l)) <-> message_steps v3 w used path l.
Proof.
  split.
  - unfold by_path. destruct path as [|p0 path]; cbn [at_ lookup list_lookup]; [discriminate|].
    destruct (String.eqb_spec p0 "components") as [->|N0].
    + destruct path as [|kind path]; cbn [at_ lookup list_lookup]; [discriminate|].
      destruct (String.eqb_spec kind "schemas") as [->|N1].
      { destruct path as [|n path]; cbn [at_ lookup list_lookup drop]; [discriminate|]. rewrite ?drop_0.
        destruct (schema_from w (comps used "schemas" !! n) path); discriminate. }
      destruct (String.eqb_spec kind "messages") as [->|N2].
      { destruct path as [|n path]; cbn [at_ lookup list_lookup drop]; [discriminate|]. rewrite ?drop_0.
        intros H. apply message_from_message in H as [-> E]. constructor. exact E. }
      case_bool_decide; [|discriminate].
      destruct path as [|n path]; cbn [at_ lookup list_lookup drop]; [discriminate|].
      destruct (String.eqb kind "channels"); discriminate.
    + destruct v3; cbn [andb]; [|discriminate]. destruct (String.eqb_spec p0 "channels") as [->|]; [|discriminate].
      destruct (List.length ("channels" :: path) <? 3)%nat.
      { destruct path; cbn [at_ lookup list_lookup]; discriminate. }
      destruct path as [|c [|what path]]; cbn [at_ lookup list_lookup]; try discriminate.
      destruct (String.eqb_spec what "messages") as [->|]; [|discriminate].
      destruct (channels used !! c) as [ch|] eqn:Ec; [|discriminate].
      destruct path as [|n path]; cbn [at_ lookup list_lookup drop]; [discriminate|]. rewrite drop_0.
      intros H. apply message_from_message in H as [-> E]. econstructor; [reflexivity|exact Ec|exact E].
  - intros M. inversion M as [n m' E|c ch n m' -> Ec E]; subst; unfold by_path; cbn -[message_from].
    + rewrite E. reflexivity.
    + rewrite Ec, E. reflexivity.
Qed.

Lemma schema_steps_head v3 w s steps l : schema_steps v3 w s steps l -> exists n ns, steps = n :: ns /\ n <> "".
Proof.
  intros [n l0 ns l' E L|steps' m f l0 ns l' M F L]; [do 2 eexists; split; [reflexivity|discriminate]|].
  inversion M; subst; (do 2 eexists; split; [reflexivity|discriminate]).
Qed.
Lemma message_steps_head v3 w s steps l : message_steps v3 w s steps l -> exists n ns, steps = n :: ns /\ n <> "".
Proof. intros [? ? ?|? ? ? ? ? ? ?]; (do 2 eexists; split; [reflexivity|discriminate]). Qed.

Lemma designates_reference (by_steps : spec -> list string -> nat -> Prop) v3 kinds w s ref l mk :
  (forall used steps, by_steps used steps l -> exists n ns, steps = n :: ns /\ n <> "") ->
  (forall used path, by_path v3 kinds w used path = Ok (mk (Some l)) <-> by_steps used path l) ->
  reference v3 kinds w s ref = Ok (mk (Some l)) <-> designates by_steps w s ref l.
Proof.
  intros Hh Hb. rewrite reference_by_path. unfold designates. split.
  - destruct (get_dependency w s ref) as [| |[used r]] eqn:E; try discriminate.
    apply get_dependency_document in E. intros H. apply Hb in H. destruct (Hh _ _ H) as (n & ns & Es & N).
    exists used, r, (n :: ns). split; [exact E|]. split; [|now rewrite <- Es]. now apply writes_split.
  - intros (used & p & steps & D & W & B). apply get_dependency_document in D. rewrite D.
    destruct (Hh _ _ B) as (n & ns & -> & N). apply (writes_split p n ns N) in W. rewrite W. now apply Hb.
Qed.

Lemma reference_schema_exact v3 kinds w s ref l :
  as_schema (reference v3 kinds w s ref) = Ok l <-> designates (schema_steps v3 w) w s ref l.
Proof.
  rewrite as_schema_ok. apply (designates_reference (schema_steps v3 w) v3 kinds w s ref l OSchema).
  - intros. eapply schema_steps_head; eassumption.
  - intros. apply by_path_schema.
Qed.
Lemma reference_message_exact v3 kinds w s ref l :
  as_message (reference v3 kinds w s ref) = Ok l <-> designates (message_steps v3 w) w s ref l.
Proof.
  rewrite as_message_ok. apply (designates_reference (message_steps v3 w) v3 kinds w s ref l OMessage).
  - intros. eapply message_steps_head; eassumption.
  - intros. apply by_path_message.
Qed.

Lemma message_from_kind w p ns k q : message_from w p ns <> Ok (OOther k q).
Proof.
  destruct ns as [|x ns]; cbn [message_from]; [discriminate|].
  destruct (String.eqb x "payload"); [destruct p; [|discriminate]; case_match; discriminate|].
  destruct (String.eqb x "header"); [destruct p; [|discriminate]; case_match; discriminate|]. case_match; discriminate.
Qed.
Lemma by_path_other v3 kinds w used kind path l : kind ∈ kinds -> kind ∉ ["schemas"; "messages"; "channels"] ->
  by_path v3 kinds w used path = Ok (OOther kind (Some l)) <-> other_steps kind used path l.
Proof.
  intros Hk Hn. split.
  - unfold by_path. destruct path as [|p0 path]; cbn [at_ lookup list_lookup]; [discriminate|].
    destruct (String.eqb_spec p0 "components") as [->|N0].
    + destruct path as [|k path]; cbn [at_ lookup list_lookup]; [discriminate|].
      destruct (String.eqb_spec k "schemas") as [->|N1].
      { destruct path as [|n path]; cbn [at_ lookup list_lookup drop]; [discriminate|]. rewrite ?drop_0.
        destruct (schema_from w (comps used "schemas" !! n) path); discriminate. }
      destruct (String.eqb_spec k "messages") as [->|N2].
      { destruct path as [|n path]; cbn [at_ lookup list_lookup drop]; [discriminate|]. rewrite ?drop_0.
        intros H. now apply message_from_kind in H. }
      case_bool_decide; [|discriminate].
      destruct path as [|n path]; cbn [at_ lookup list_lookup drop]; [discriminate|].
      destruct (String.eqb k "channels"); [discriminate|]. intros [= -> E]. now constructor.
    + destruct v3; cbn [andb]; [|discriminate]. destruct (String.eqb_spec p0 "channels") as [->|]; [|discriminate].
      destruct (List.length ("channels" :: path) <? 3)%nat.
      { destruct path; cbn [at_ lookup list_lookup]; discriminate. }
      destruct path as [|c [|what path]]; cbn [at_ lookup list_lookup]; try discriminate.
      destruct (String.eqb_spec what "messages") as [->|]; [|discriminate].
      destruct (channels used !! c) as [ch|] eqn:Ec; [|discriminate].
      destruct path as [|n path]; cbn [at_ lookup list_lookup drop]; [discriminate|]. rewrite drop_0.
      intros H. now apply message_from_kind in H.
  - intros M. inversion M as [n l' behind E]; subst. unfold by_path. cbn [at_ lookup list_lookup String.eqb Ascii.eqb Bool.eqb].
    destruct (String.eqb_spec kind "schemas") as [->|N1]; [exfalso; apply Hn; left|].
    destruct (String.eqb_spec kind "messages") as [->|N2]; [exfalso; apply Hn; right; left|].
    rewrite bool_decide_true by exact Hk.
    destruct (String.eqb_spec kind "channels") as [->|N3]; [exfalso; apply Hn; right; right; left|]. now rewrite E.
Qed.
Lemma as_other_ok kind o l : as_other kind o = Ok l <-> o = Ok (OOther kind (Some l)).
Proof.
  unfold as_other. destruct o as [| |[p|p|p|k p]]; try (split; intros; congruence).
  destruct (String.eqb_spec k kind) as [->|N].
  - destruct p; cbn; split; congruence.
  - split; [discriminate|congruence].
Qed.
Lemma reference_other_exact v3 kinds w s kind ref l : kind ∈ kinds -> kind ∉ ["schemas"; "messages"; "channels"] ->
  as_other kind (reference v3 kinds w s ref) = Ok l <-> designates (other_steps kind) w s ref l.
Proof.
  intros Hk Hn. rewrite as_other_ok. apply (designates_reference (other_steps kind) v3 kinds w s ref l (OOther kind)).
  - intros used steps H. inversion H; subst. eexists _, _. split; [reflexivity|discriminate].
  - intros. now apply by_path_other.
Qed.

(** The three outcomes for a path below a schema. *)
Lemma schema_from_panic w p ns : schema_from w p ns = Panic <->
  exists ns' n, ns = (ns' ++ [n])%list /\ ~ exists l l', p = Some l /\ leads w l ns' l'.
Proof.
  revert p. induction ns as [|x ns IH]; intros p; cbn [schema_from].
  - split; [discriminate|]. intros (ns' & n & E & _). destruct ns'; discriminate.
  - destruct p as [l|].
    + rewrite IH. split.
      * intros (ns' & n & -> & N). exists (x :: ns'), n. split; [reflexivity|].
        intros (l1 & l' & [= <-] & L). inversion L; subst. apply N. eauto.
      * intros (ns' & n & E & N). destruct ns' as [|y ns']; cbn in E; injection E as -> ->.
        -- exfalso. apply N. exists l, l. split; [reflexivity|constructor].
        -- exists ns', n. split; [reflexivity|]. intros (l1 & l' & E & L). apply N. exists l, l'.
           split; [reflexivity|]. econstructor; eassumption.
    + split; [|reflexivity]. intros _. destruct (exists_last (l := x :: ns)) as (ns' & n & E); [discriminate|].
      exists ns', n. split; [exact E|]. intros (l & l' & H & _). discriminate.
Qed.

Lemma reference_schema_panic v3 kinds w s name ns : Forall step_name (name :: ns) ->
  as_schema (reference v3 kinds w s ("#" ++ pointer ("components" :: "schemas" :: name :: ns))) = Panic <->
  exists ns' n, ns = (ns' ++ [n])%list /\ ~ exists l l', comps s "schemas" !! name = Some l /\ leads w l ns' l'.
Proof.
  intros F. change ("#" ++ pointer ("components" :: "schemas" :: name :: ns))
    with (String "#" (pointer ("components" :: "schemas" :: name :: ns))).
  rewrite reference_schema_path by exact F. rewrite <- schema_from_panic.
  destruct (schema_from w (comps s "schemas" !! name) ns) as [| |[l|]]; cbn; split; congruence.
Qed.

Lemma v3_kinds_steps : Forall step_name ("schemas" :: "messages" :: v3_kinds).
Proof.
  repeat (apply Forall_cons; split); try apply Forall_nil; try exact I;
    (split; unfold without; apply (bool_decide_unpack _); vm_compute; exact I).
Qed.

Lemma reference_component v3 kinds w s kind name :
  (forall k, k ∈ kinds -> k ∈ v3_kinds) ->
  kind = "schemas" \/ kind = "messages" \/ kind ∈ kinds -> step_name name ->
  reference v3 kinds w s ("#" ++ pointer ["components"; kind; name]) =
  Ok ((if String.eqb kind "schemas" then OSchema else if String.eqb kind "messages" then OMessage
       else if String.eqb kind "channels" then OChannel else OOther kind) (comps s kind !! name)).
Proof.
  intros Hs Hk Hn. change ("#" ++ pointer ["components"; kind; name]) with (String "#" (pointer ["components"; kind; name])).
  destruct (String.eqb_spec kind "schemas") as [->|N1].
  { rewrite reference_schema_path by (constructor; [exact Hn|constructor]). reflexivity. }
  destruct (String.eqb_spec kind "messages") as [->|N2].
  { rewrite reference_message_path by (constructor; [exact Hn|constructor]). reflexivity. }
  destruct Hk as [?|[?|Hk]]; [congruence|congruence|].
  apply reference_kind; auto. pose proof v3_kinds_steps as F. rewrite Forall_forall in F. apply F.
  apply elem_of_cons. right. apply elem_of_cons. right. auto.
Qed.

(** Dependencies. *)
Definition spelling (k p : string) : Prop := p = k \/ p = "./" ++ k.

Lemma spelling_trim k p : strip_prefix "./" k = None -> spelling k p -> trim_prefix "./" p = k.
Proof. intros N [->| ->]; [now apply trim_prefix_lacks|apply trim_prefix_app]. Qed.

Lemma spelling_nonempty k p : k <> "" -> spelling k p -> p <> "".
Proof. intros N [->| ->]; [exact N|discriminate]. Qed.
Lemma spelling_lacks k p : lacks "#" k -> spelling k p -> lacks "#" p.
Proof.
  intros N [->| ->]; [exact N|]. rewrite lacks_app. split; [|exact N].
  unfold lacks. apply (bool_decide_unpack _). vm_compute. exact I.
Qed.

Lemma dep_found v3 kinds w s k a b d r :
  strip_prefix "./" k = None -> k <> "" -> lacks "#" k -> lacks "#" r ->
  spelling k a -> spelling k b ->
  reference v3 kinds w (add_dependency a d s) (b ++ "#" ++ r) = reference v3 kinds w (specs w d) ("#" ++ r).
Proof.
  intros N E Hk Hr Ha Hb. apply reference_in_file.
  - exact (spelling_lacks _ _ Hk Hb).
  - exact Hr.
  - exact (spelling_nonempty _ _ E Hb).
  - rewrite (spelling_trim k b N Hb). unfold add_dependency. cbn [deps]. rewrite (spelling_trim k a N Ha).
    apply lookup_insert.
Qed.

Lemma dep_other v3 kinds w s k k' a b d r :
  strip_prefix "./" k = None -> strip_prefix "./" k' = None -> k' <> "" -> k <> k' -> lacks "#" k' -> lacks "#" r ->
  spelling k a -> spelling k' b ->
  reference v3 kinds w (add_dependency a d s) (b ++ "#" ++ r) = reference v3 kinds w s (b ++ "#" ++ r).
Proof.
  intros N N' E D Hk Hr Ha Hb.
  pose proof (spelling_lacks _ _ Hk Hb) as H1. pose proof (spelling_nonempty _ _ E Hb) as H2.
  assert (L : deps (add_dependency a d s) !! trim_prefix "./" b = deps s !! trim_prefix "./" b).
  { rewrite (spelling_trim k' b N' Hb). unfold add_dependency. cbn [deps]. rewrite (spelling_trim k a N Ha).
    now apply lookup_insert_ne. }
  destruct (deps s !! trim_prefix "./" b) as [d'|] eqn:Q.
  - change (b ++ "#" ++ r) with (b ++ String "#" r). rewrite !(reference_in_file _ _ _ _ _ _ d') by assumption. reflexivity.
  - change (b ++ "#" ++ r) with (b ++ String "#" r). rewrite !reference_no_file by assumption. reflexivity.
Qed.

Lemma named_trim f k : file_named f k -> trim_prefix "./" f = k.
Proof.
  intros [->|[-> N]]; [apply trim_prefix_app|]. apply trim_prefix_lacks. destruct (strip_prefix "./" k) as [q|] eqn:E; [|reflexivity].
  exfalso. apply (N q). now apply strip_prefix_some.
Qed.
Lemma dep_exact v3 kinds w s k k' a b d r :
  file_named a k -> file_named b k' -> b <> "" -> lacks "#" b -> lacks "#" r ->
  (k = k' -> reference v3 kinds w (add_dependency a d s) (b ++ "#" ++ r) = reference v3 kinds w (specs w d) ("#" ++ r)) /\
  (k <> k' -> reference v3 kinds w (add_dependency a d s) (b ++ "#" ++ r) = reference v3 kinds w s (b ++ "#" ++ r)).
Proof.
  intros Ha Hb E H1 Hr. split; intros D.
  - apply reference_in_file; try assumption. rewrite (named_trim b k' Hb). unfold add_dependency. cbn [deps]. rewrite (named_trim a k Ha), D. apply lookup_insert.
  - assert (L : deps (add_dependency a d s) !! trim_prefix "./" b = deps s !! trim_prefix "./" b).
    { rewrite (named_trim b k' Hb). unfold add_dependency. cbn [deps]. rewrite (named_trim a k Ha). now apply lookup_insert_ne. }
    destruct (deps s !! trim_prefix "./" b) as [d'|] eqn:Q; change (b ++ "#" ++ r) with (b ++ String "#" r).
    + rewrite !(reference_in_file _ _ _ _ _ _ d') by assumption. reflexivity.
    + rewrite !reference_no_file by assumption. reflexivity.
Qed.

Lemma dep_local v3 kinds w s a d r : lacks "#" r ->
  reference v3 kinds w (add_dependency a d s) ("#" ++ r) = reference v3 kinds w s ("#" ++ r).
Proof.
  intros Hr. change ("#" ++ r) with (String "#" r). unfold reference. rewrite !get_dependency_local by exact Hr.
  reflexivity.
Qed.
