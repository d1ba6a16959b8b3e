(** The code generated for a processed document of version 3. *)
From stdpp Require Import gmap list strings.
From Coq Require Import NArith Ascii String.
From Verif.Model Require Import GoStrings Reference Linking Naming Names Operations Package Document3.
From Verif.Spec Require Import ReferenceSpec NamingSpec NamesSpec LinkingSpec OperationsSpec PackageSpec Document3Spec.
From Verif.Proof Require Import GoStringsProof ReferenceProof NamingProof NamesProof LinkingProof LinkingCheck PackageProof PackageOnceProof.
Local Open Scope string_scope.
Local Open Scope list_scope.
Local Open Scope nat_scope.
Local Notation lit := list_ascii_of_string.

(** ** Names *)
Lemma lit_text l : lit (string_of_list_ascii l) = l.
Proof. apply list_ascii_of_string_of_list_ascii. Qed.
Lemma text_lit s : string_of_list_ascii (lit s) = s.
Proof. apply string_of_list_ascii_of_string. Qed.
Lemma lit_word k kind : lit (word_of k kind) = NamingSpec.name_of (lit k) ++ lit kind.
Proof. unfold word_of. by rewrite lit_app, lit_text. Qed.
Lemma text_app a b : string_of_list_ascii (a ++ b) = string_of_list_ascii a +:+ string_of_list_ascii b.
Proof. apply NamesProof.lit_inj. by rewrite lit_app, !lit_text. Qed.
Lemma exported_message : exported (lit "Message").
Proof. exists "M"%char, (lit "essage"). split; [done|]. split; apply (bool_decide_unpack _); vm_compute; exact I. Qed.
Lemma exported_name kind : exported (lit kind) -> NamingSpec.name_of (lit kind) = lit kind.
Proof. intros H. apply name_of_camel; [by apply camel_exported|done]. Qed.
Lemma word_exported k kind : exported (lit kind) -> exported_text (word_of k kind).
Proof. intros He. unfold exported_text. rewrite lit_word. by apply name_app_exported. Qed.

Section names.
  Variable ul ud : N -> bool.
  Variable uu : N -> bytes.
  Notation full := (full ul ud uu).
  Lemma full_word k kind : ascii_key k -> exported (lit kind) -> full "" k kind = word_of k kind.
  Proof.
    intros A He. unfold Document3.full. change (lit "") with (@nil ascii). rewrite (full_name_eq ul ud uu [] (lit k) (lit kind) None); [|constructor|exact A|by apply exported_ascii|].
    - cbn [number_text from_text app]. rewrite app_nil_r, (exported_name kind) by done. unfold word_of. by rewrite text_app, text_lit.
    - cbn [number_text from_text app]. rewrite app_nil_r, (exported_name kind) by done. by apply name_app_exported.
  Qed.
  Lemma full_from p k : ascii_key k -> exported_text p -> full p k "Message" = word_of k "Message" +:+ "From" +:+ p.
  Proof.
    intros A He. pose proof exported_message as Em. unfold Document3.full. unfold exported_text in He.
    assert (Ep : NamingSpec.name_of (lit p) = lit p) by (apply name_of_camel; [by apply camel_exported|done]).
    assert (Ef : from_text (lit p) = from ++ lit p) by (destruct (lit p); [by destruct He as (? & ? & ? & _)|done]).
    rewrite (full_name_eq ul ud uu (lit p) (lit k) (lit "Message") None); [|by apply exported_ascii|exact A|by apply exported_ascii|];
      cbn [number_text app]; rewrite Ep, (exported_name "Message") by done; rewrite Ef.
    - unfold word_of. rewrite !text_app, !text_lit. change (string_of_list_ascii from) with "From". apply NamesProof.lit_inj. rewrite !lit_app. by rewrite !app_assoc.
    - rewrite app_assoc. apply exported_app; [by apply name_app_exported|]. apply Forall_app. split; apply exported_words; [apply from_exported|done].
  Qed.
End names.

(** ** Parts of documents *)
Lemma part_file f p : (forall s root, files f s root -> conforms root /\ o_kind root = KSpecification) -> part_of f p ->
  exists s, in_file f s p /\ conforms p /\ (o_kind p = KSpecification \/ o_kind p = KComponents).
Proof.
  intros C H. induction H as [s root others|s root others c Hc|s root others g p Hg _ IH].
  - destruct (C s root) as [Cr Kr]; [constructor|]. exists s. split; [constructor; constructor|]. auto.
  - destruct (C s root) as [Cr Kr]; [constructor|]. apply conforms_inv in Cr as (_ & D & _ & Cc). specialize (D _ _ Hc). rewrite Kr in D.
    assert (Kc : o_kind c = KComponents).
    { cbn [declares] in D. repeat (apply elem_of_cons in D as [D|D]; [first [discriminate D|by injection D]|]). by apply elem_of_nil in D. }
    exists s. split; [constructor; eapply sighted_field; [exact Hc| |constructor]; rewrite Kr; intros [[? _]|[[? _]|[? _]]]; discriminate|]. eauto.
  - destruct IH as (s' & Hi & Cp & Kp). { intros s' r Hr. apply (C s' r). by eapply file_other. }
    exists s'. split; [|done]. by eapply in_other.
Qed.
Lemma in_field_holds o g c : conforms o -> c ∈ in_field o g <-> holds o g c.
Proof. intros C. symmetry. by apply holds_entry. Qed.
Lemma holds_kind p g c k : conforms p -> holds p g c -> (forall q, (g, q) ∈ declares (o_kind p) -> q = k) -> o_kind c = k.
Proof. intros C H D. apply conforms_inv in C as (_ & Dc & _). by apply D, (Dc g c). Qed.
Ltac declared := intros ?q ?D; cbn [declares] in *; repeat match goal with D : _ ∈ _ :: _ |- _ => apply elem_of_cons in D as [D|D]; [first [discriminate D|by injection D]|] end;
  match goal with D : _ ∈ [] |- _ => by apply elem_of_nil in D end.
Lemma part_kind p g c k : conforms p -> o_kind p = KSpecification \/ o_kind p = KComponents -> holds p g c ->
  (g, k) ∈ [("channels", KChannel); ("operations", KOperation); ("messages", KMessage); ("components", KComponents)] -> o_kind c = k.
Proof.
  intros C Kp H G. apply (holds_kind p g c k C H).
  repeat (apply elem_of_cons in G as [[= -> ->]|G]; [destruct Kp as [-> | ->]; declared|]). by apply elem_of_nil in G.
Qed.

Lemma in_concat {A B} (h : A -> list B) (xs : list A) y : y ∈ List.concat (map h xs) <-> exists x, x ∈ xs /\ y ∈ h x.
Proof.
  rewrite elem_concat. split.
  - intros (ys & Hys & Hy). apply elem_of_list_fmap in Hys as (x & -> & Hx). eauto.
  - intros (x & Hx & Hy). exists (h x). split; [apply elem_of_list_fmap; eauto|done].
Qed.

Section meta.
  Variable ul ud : N -> bool.
  Variable uu : N -> bytes.
  Variable t : texts.
  Notation meta_file := (meta_file ul ud uu t).
  Notation meta_part := (meta_part ul ud uu t).
  Notation channel_name := (channel_name ul ud uu t).

  Lemma channel_word c : ascii_key (key_of t (o_id c)) -> channel_name c = word_of (key_of t (o_id c)) "Channel".
  Proof. intros A. apply full_word; [done|apply exported_channel]. Qed.

  (** What is called how inside one part. *)
  Inductive called_in (p : object) : object -> string -> Prop :=
  | in_channel_ c : holds p "channels" c -> called_in p c (word_of (key_of t (o_id c)) "Channel")
  | in_message_ c m : holds p "channels" c -> holds c "messages" m ->
      called_in p m (word_of (key_of t (o_id m)) "Message" +:+ "From" +:+ word_of (key_of t (o_id c)) "Channel")
  | in_operation_ o : holds p "operations" o -> called_in p o (word_of (key_of t (o_id o)) "Operation")
  | in_component_ m : holds p "messages" m -> called_in p m (word_of (key_of t (o_id m)) "Message").
  Lemma called_part f x n : called t f x n <-> exists p, part_of f p /\ called_in p x n.
  Proof.
    split.
    - intros []; (eexists; split; [eassumption|]); by econstructor.
    - intros (p & Hp & []); [eapply called_channel|eapply called_in_channel|eapply called_operation|eapply called_message]; eauto.
  Qed.
  Definition ascii_part (p : object) : Prop :=
    (forall c, holds p "channels" c -> ascii_key (key_of t (o_id c)) /\ forall m, holds c "messages" m -> ascii_key (key_of t (o_id m))) /\
    (forall o, holds p "operations" o -> ascii_key (key_of t (o_id o))) /\
    (forall m, holds p "messages" m -> ascii_key (key_of t (o_id m))).

  Lemma meta_part_spec p i n : conforms p -> ascii_part p -> (i, n) ∈ meta_part p <-> exists x, called_in p x n /\ o_id x = i.
  Proof.
    intros C (Ac & Ao & Am). assert (Cc : forall c g, holds p g c -> conforms c) by (apply conforms_inv in C as (_ & _ & _ & Cc); eauto).
    unfold Document3.meta_part. rewrite !elem_of_app, in_concat. split.
    - intros [(c & Hc & H)|[H|H]].
      + apply in_field_holds in Hc; [|done]. destruct (Ac c Hc) as [Ak Akm]. unfold meta_channel in H. rewrite (channel_word c Ak) in H. apply elem_of_cons in H as [[= -> ->]|H].
        * exists c. split; [by constructor|done].
        * apply elem_of_list_fmap in H as (m & [= -> ->] & Hm). apply in_field_holds in Hm; [|by eapply Cc]. exists m. split; [|done].
          rewrite full_from; [by constructor|by apply Akm|apply word_exported, exported_channel].
      + apply elem_of_list_fmap in H as (o & [= -> ->] & Ho). apply in_field_holds in Ho; [|done]. exists o. split; [|done].
        rewrite full_word; [by constructor|by apply Ao|apply exported_operation].
      + apply elem_of_list_fmap in H as (m & [= -> ->] & Hm). apply in_field_holds in Hm; [|done]. exists m. split; [|done].
        rewrite full_word; [by constructor|by apply Am|apply exported_message].
    - intros (x & H & <-). destruct H as [c Hc|c m Hc Hm|o Ho|m Hm].
      + left. exists c. split; [by apply in_field_holds|]. destruct (Ac c Hc) as [Ak _]. unfold meta_channel. rewrite (channel_word c Ak). left.
      + left. exists c. split; [by apply in_field_holds|]. destruct (Ac c Hc) as [Ak Akm]. unfold meta_channel. rewrite (channel_word c Ak). right.
        apply elem_of_list_fmap. exists m. split; [|apply in_field_holds; [by eapply Cc|done]]. unfold meta_message.
        rewrite full_from; [done|by apply Akm|apply word_exported, exported_channel].
      + right. left. apply elem_of_list_fmap. exists o. split; [|by apply in_field_holds]. unfold meta_operation. rewrite full_word; [done|by apply Ao|apply exported_operation].
      + right. right. apply elem_of_list_fmap. exists m. split; [|by apply in_field_holds]. unfold meta_message. rewrite full_word; [done|by apply Am|apply exported_message].
  Qed.

  Lemma meta_file_spec f : (forall s root, files f s root -> conforms root /\ o_kind root = KSpecification) -> ascii_keys t f ->
    forall i n, (i, n) ∈ meta_file f <-> exists x, called t f x n /\ o_id x = i.
  Proof.
    induction f as [s root others IH] using file_induction. intros C A i n. destruct (C s root) as [Cr Kr]; [constructor|].
    assert (Ap : forall p, part_of (File s root others) p -> ascii_part p) by (intros p Hp; exact (A p Hp)).
    assert (Hg : forall g, g ∈ others -> forall i n, (i, n) ∈ meta_file g <-> exists x, called t g x n /\ o_id x = i).
    { intros g Hg. apply IH; [done| |].
      - intros s' r Hr. apply (C s' r). by eapply file_other.
      - intros p Hp. apply A. by eapply part_other. }
    cbn [Document3.meta_file]. rewrite !elem_of_app, !in_concat. setoid_rewrite called_part. split.
    - intros [(g & Hgo & H)|[(c & Hc & H)|H]].
      + apply (Hg g Hgo) in H as (x & H & <-). apply called_part in H as (p & Hp & H). exists x. split; [|done]. exists p. split; [by eapply part_other|done].
      + apply in_field_holds in Hc; [|done]. assert (Hp : part_of (File s root others) c) by by constructor.
        destruct (part_file _ _ C Hp) as (_ & _ & Cp & _). apply (meta_part_spec c i n Cp (Ap c Hp)) in H as (x & H & <-). eauto.
      + assert (Hp : part_of (File s root others) root) by constructor. apply (meta_part_spec root i n Cr (Ap root Hp)) in H as (x & H & <-). eauto.
    - intros (x & (p & Hp & H) & <-). assert (Ax := Ap p Hp). assert (Px := part_file _ _ C Hp). inversion Hp as [s0 r0 o0 E|s0 r0 o0 c0 Hc0 E|s0 r0 o0 g p0 Hgo Hgp E]; subst.
      + right. right. apply meta_part_spec; eauto.
      + right. left. exists p. split; [by apply in_field_holds|]. destruct Px as (_ & _ & Cp & _). apply meta_part_spec; eauto.
      + left. exists g. split; [done|]. apply Hg; [done|]. exists x. split; [|done]. apply called_part. eauto.
  Qed.
End meta.

(** ** The processed document *)
Lemma find_first {A} (g : A -> string) (l r : list A) x : NoDup (map g l) -> x ∈ l -> List.find (fun y => String.eqb (g y) (g x)) (l ++ r) = Some x.
Proof.
  induction l as [|y l IH]; intros N H; [by apply elem_of_nil in H|]. cbn [map] in N. apply NoDup_cons in N as [Ny N]. cbn [app List.find].
  destruct (String.eqb_spec (g y) (g x)) as [E|E].
  - apply elem_of_cons in H as [->|H]; [done|]. exfalso. apply Ny. rewrite E. apply elem_of_list_fmap. eauto.
  - apply elem_of_cons in H as [->|H]; [done|]. by apply IH.
Qed.
Lemma kind_names_map {A} kind (g : A -> string) (l : list A) : exported (lit kind) ->
  kind_names kind (map (fun a => lit (g a)) l) = map (fun a => lit (word_of (g a) kind)) l.
Proof. intros He. rewrite kind_names_word by done. rewrite map_map. apply map_ext. intros a. by rewrite lit_word. Qed.
Lemma find_ext {A} (p q : A -> bool) l : (forall x, x ∈ l -> p x = q x) -> List.find p l = List.find q l.
Proof.
  induction l as [|x l IH]; intros H; [done|]. cbn. rewrite (H x) by left. destruct (q x); [done|]. apply IH. intros y Hy. apply H. by right.
Qed.
Lemma nodup_map_filter {A B} (g : A -> B) (p : A -> bool) l : NoDup (map g l) -> NoDup (map g (List.filter p l)).
Proof.
  induction l as [|x l IH]; [done|]. cbn [map List.filter]. intros [Nx N]%NoDup_cons. destruct (p x); [|by apply IH]. cbn [map]. apply NoDup_cons. split; [|by apply IH].
  intros H. apply Nx. apply elem_of_list_fmap in H as (y & E & Hy). apply elem_of_list_In, filter_In in Hy as [Hy _]. apply elem_of_list_fmap. exists y. split; [done|]. by apply elem_of_list_In.
Qed.
Lemma map_ext_elem {A B} (g h : A -> B) l : (forall x, x ∈ l -> g x = h x) -> map g l = map h l.
Proof. intros H. apply map_ext_in. intros x Hx. apply H. by apply elem_of_list_In. Qed.

Section document.
  Variable ul ud : N -> bool.
  Variable uu : N -> bytes.
  Variable w : world.
  Variable at_address : nat -> option object.
  Variable schema : nat -> res unit.
  Variable t : texts.
  Variable f : file.
  Variable l : links.
  Hypothesis Reg : regular w at_address f.
  Hypothesis Stored : forall s x, in_file f s x -> at_address (o_id x) = Some x.
  Hypothesis Placed : placed f.
  Hypothesis Ascii : ascii_keys t f.
  Hypothesis Set_ : set_all w at_address schema f ∅ = Ok l.
  Notation fl := (followed at_address l).
  Notation root := (root_of f).
  Notation here := (here f).
  Notation stands := (stands_for w at_address here).
  Notation name_at := (name_at ul ud uu t f).
  Notation operations3 := (operations3 ul ud uu t at_address f l).
  Notation channels3 := (channels3 ul ud uu t at_address f l).
  Notation messages3 := (messages3 f).
  Notation details3 := (details3 ul ud uu t at_address f l).
  Notation channel_of := (channel_of ul ud uu t at_address f l).
  Notation operation_of := (operation_of ul ud uu t at_address f l).
  Notation own_operation := (own_operation ul ud uu t at_address f l).

  Lemma roots s r : files f s r -> conforms r /\ o_kind r = KSpecification.
  Proof. intros H. by destruct (reg_conforms _ _ _ Reg s r H). Qed.
  Lemma root_files : files f here root.
  Proof. unfold Document3Spec.here, root_of. destruct f. constructor. Qed.
  Lemma root_in : in_file f here root.
  Proof. unfold Document3Spec.here, root_of. destruct f. constructor. constructor. Qed.
  Lemma root_conforms : conforms root.
  Proof. by destruct (roots here root root_files). Qed.
  Lemma root_kind : o_kind root = KSpecification.
  Proof. by destruct (roots here root root_files). Qed.
  Lemma root_part : part_of f root.
  Proof. unfold root_of. destruct f. constructor. Qed.
  Lemma components_part k : holds root "components" k -> part_of f k.
  Proof. unfold root_of. destruct f. by constructor. Qed.
  Lemma in_conforms s x : in_file f s x -> conforms x.
  Proof. apply (in_file_conforms w at_address f Reg). Qed.
  Lemma in_holds s x g c : in_file f s x -> holds x g c -> ~ blind (o_kind x) g -> in_file f s c.
  Proof. apply (in_file_holds f). Qed.
  Lemma same s x s' y : in_file f s x -> in_file f s' y -> o_id x = o_id y -> x = y.
  Proof. intros Hx Hy E. by destruct (reg_distinct _ _ _ Reg s x s' y (anywhere_in _ _ _ Hx) (anywhere_in _ _ _ Hy) E). Qed.
  Ltac seen := unfold blind; intros [[? ?]|[[? ?]|[? ?]]]; congruence || discriminate.

  Lemma channel_in c : holds root "channels" c -> in_file f here c /\ o_kind c = KChannel.
  Proof.
    intros H. split; [apply (in_holds here root "channels" c root_in H); seen|].
    apply (part_kind root "channels" c KChannel root_conforms (or_introl root_kind) H). apply (bool_decide_unpack _). vm_compute. exact I.
  Qed.
  Lemma operation_in o : holds root "operations" o -> in_file f here o /\ o_kind o = KOperation.
  Proof.
    intros H. split; [apply (in_holds here root "operations" o root_in H); seen|].
    apply (part_kind root "operations" o KOperation root_conforms (or_introl root_kind) H). apply (bool_decide_unpack _). vm_compute. exact I.
  Qed.
  Lemma components_in k : holds root "components" k -> in_file f here k /\ o_kind k = KComponents.
  Proof.
    intros H. split; [apply (in_holds here root "components" k root_in H); seen|].
    apply (part_kind root "components" k KComponents root_conforms (or_introl root_kind) H). apply (bool_decide_unpack _). vm_compute. exact I.
  Qed.
  Lemma channel_message_in s c m : in_file f s c -> o_kind c = KChannel -> holds c "messages" m -> in_file f s m /\ o_kind m = KMessage.
  Proof.
    intros Hc K H. split; [apply (in_holds s c "messages" m Hc H); rewrite K; seen|].
    apply (holds_kind c "messages" m KMessage (in_conforms s c Hc) H). rewrite K. declared.
  Qed.
  Lemma component_message_in s c m : in_file f s c -> o_kind c = KComponents -> holds c "messages" m -> in_file f s m /\ o_kind m = KMessage.
  Proof.
    intros Hc K H. split; [apply (in_holds s c "messages" m Hc H); rewrite K; seen|].
    apply (holds_kind c "messages" m KMessage (in_conforms s c Hc) H). rewrite K. declared.
  Qed.
  Lemma written_in m : written f m -> in_file f here m /\ o_kind m = KMessage.
  Proof.
    intros (_ & [(c & Hc & H)|(k & Hk & H)]).
    - destruct (channel_in c Hc) as [Ic Kc]. by apply (channel_message_in here c).
    - destruct (components_in k Hk) as [Ik Kk]. by apply (component_message_in here k).
  Qed.
  Lemma operation_message_in s o m : in_file f s o -> o_kind o = KOperation -> holds o "messages" m -> in_file f s m /\ o_kind m = KMessage.
  Proof.
    intros Hc K H. split; [apply (in_holds s o "messages" m Hc H); rewrite K; seen|].
    apply (holds_kind o "messages" m KMessage (in_conforms s o Hc) H). rewrite K. declared.
  Qed.
  Lemma operation_channel_in s o c : in_file f s o -> o_kind o = KOperation -> holds o "channel" c -> in_file f s c /\ o_kind c = KChannel.
  Proof.
    intros Hc K H. split; [apply (in_holds s o "channel" c Hc H); rewrite K; seen|].
    apply (holds_kind o "channel" c KChannel (in_conforms s o Hc) H). rewrite K. declared.
  Qed.
  Lemma reply_in s o r : in_file f s o -> o_kind o = KOperation -> holds o "reply" r -> in_file f s r /\ o_kind r = KReply.
  Proof.
    intros Hc K H. split; [apply (in_holds s o "reply" r Hc H); rewrite K; seen|].
    apply (holds_kind o "reply" r KReply (in_conforms s o Hc) H). rewrite K. declared.
  Qed.
  Lemma reply_channel_in s r c : in_file f s r -> o_kind r = KReply -> holds r "channel" c -> in_file f s c /\ o_kind c = KChannel.
  Proof.
    intros Hc K H. split; [apply (in_holds s r "channel" c Hc H); rewrite K; seen|].
    apply (holds_kind r "channel" c KChannel (in_conforms s r Hc) H). rewrite K. declared.
  Qed.

  Lemma follows s x y : in_file f s x -> o_kind x = KChannel \/ o_kind x = KMessage -> stands_for w at_address s x y -> fl x = y.
  Proof.
    intros Hx K H. assert (K1 : o_kind x <> KCorrelationID) by (destruct K as [-> | ->]; discriminate). assert (K2 : o_kind x <> KSchema) by (destruct K as [-> | ->]; discriminate).
    destruct (followed_stands w at_address schema f Reg l s x Set_ Hx K1 K2) as [St _]. by apply (stands_for_unique w at_address s x).
  Qed.
  Lemma plain s x : in_file f s x -> o_ref x = "" -> fl x = x /\ l !! o_id x = None.
  Proof.
    intros Hx E. destruct (linked w at_address schema f Reg l s x Set_ Hx) as [_ H]. unfold followed. rewrite H by (by intros [? _]). done.
  Qed.

  (** *** Names *)
  Lemma called_place x n : called t f x n -> exists s, in_file f s x.
  Proof.
    intros H. apply called_part in H as (p & Hp & H). destruct (part_file f p roots Hp) as (s & Ip & Cp & Kp). exists s.
    destruct H as [c Hc|c m Hc Hm|o Ho|m Hm].
    - apply (in_holds s p "channels" c Ip Hc). destruct Kp as [-> | ->]; seen.
    - assert (Ic : in_file f s c) by (apply (in_holds s p "channels" c Ip Hc); destruct Kp as [-> | ->]; seen).
      apply (in_holds s c "messages" m Ic Hm). rewrite (part_kind p "channels" c KChannel Cp Kp Hc); [seen|]. apply (bool_decide_unpack _). vm_compute. exact I.
    - apply (in_holds s p "operations" o Ip Ho). destruct Kp as [-> | ->]; seen.
    - apply (in_holds s p "messages" m Ip Hm). destruct Kp as [-> | ->]; seen.
  Qed.
  Lemma part_channel p c : part_of f p -> holds p "channels" c -> o_kind c = KChannel /\ exists s, in_file f s c.
  Proof.
    intros Hp Hc. destruct (part_file f p roots Hp) as (s & Ip & Cp & Kp). split.
    - apply (part_kind p "channels" c KChannel Cp Kp Hc). apply (bool_decide_unpack _). vm_compute. exact I.
    - exists s. apply (in_holds s p "channels" c Ip Hc). destruct Kp as [-> | ->]; seen.
  Qed.
  Lemma part_operation p o : part_of f p -> holds p "operations" o -> o_kind o = KOperation.
  Proof.
    intros Hp Ho. destruct (part_file f p roots Hp) as (s & Ip & Cp & Kp). apply (part_kind p "operations" o KOperation Cp Kp Ho). apply (bool_decide_unpack _). vm_compute. exact I.
  Qed.
  Lemma part_message p m : part_of f p -> holds p "messages" m -> o_kind m = KMessage.
  Proof.
    intros Hp Ho. destruct (part_file f p roots Hp) as (s & Ip & Cp & Kp). apply (part_kind p "messages" m KMessage Cp Kp Ho). apply (bool_decide_unpack _). vm_compute. exact I.
  Qed.
  Lemma part_channel_message p c m : part_of f p -> holds p "channels" c -> holds c "messages" m -> o_kind m = KMessage.
  Proof. intros Hp Hc Hm. destruct (part_channel p c Hp Hc) as (Kc & s & Ic). by apply (channel_message_in s c). Qed.
  Lemma called_unique x n n' : called t f x n -> called t f x n' -> n = n'.
  Proof.
    intros H H'. inversion H as [p c Hp Hc|p c m Hp Hc Hm|p o Hp Ho|p m Hp Hm]; subst; inversion H' as [p' c' Hp' Hc'|p' c' m' Hp' Hc' Hm'|p' o' Hp' Ho'|p' m' Hp' Hm']; subst; try done;
      try (exfalso;
        repeat match goal with
          | A : part_of f ?p, B : holds ?p "channels" ?c, D : holds ?c "messages" ?m |- _ => pose proof (part_channel_message p c m A B D); clear D
        end;
        repeat match goal with
          | A : part_of f ?p, B : holds ?p "channels" ?c |- _ => pose proof (proj1 (part_channel p c A B)); clear B
          | A : part_of f ?p, B : holds ?p "operations" ?c |- _ => pose proof (part_operation p c A B); clear B
          | A : part_of f ?p, B : holds ?p "messages" ?c |- _ => pose proof (part_message p c A B); clear B
        end; congruence).
    - by rewrite (pl_one f Placed p c p' c' x Hp Hp' Hc Hc' Hm Hm').
    - exfalso. by apply (pl_other f Placed p c p' x Hp Hp' Hc Hm).
    - exfalso. by apply (pl_other f Placed p' c' p x Hp' Hp Hc' Hm').
  Qed.
  Lemma called_name x n : called t f x n -> name_at (o_id x) = n.
  Proof.
    intros H. unfold Document3.name_at. assert (E : names_of ul ud uu t f !! o_id x = Some n); [|by rewrite E].
    unfold names_of. apply elem_of_list_to_map_1'.
    - intros n' H'. apply elem_of_reverse, (meta_file_spec ul ud uu t f roots Ascii) in H' as (y & Hy & E).
      destruct (called_place x n H) as [s Ix], (called_place y n' Hy) as [s' Iy]. assert (y = x) as -> by by eapply same. by apply (called_unique x).
    - apply elem_of_reverse, (meta_file_spec ul ud uu t f roots Ascii). eauto.
  Qed.
  Lemma channel_named c : holds root "channels" c -> name_at (o_id c) = word_of (key_of t (o_id c)) "Channel".
  Proof. intros H. apply called_name. eapply called_channel; [apply root_part|done]. Qed.
  Lemma operation_named o : holds root "operations" o -> name_at (o_id o) = word_of (key_of t (o_id o)) "Operation".
  Proof. intros H. apply called_name. eapply called_operation; [apply root_part|done]. Qed.
  Lemma field_root g x : x ∈ in_field root g <-> holds root g x.
  Proof. apply in_field_holds, root_conforms. Qed.

  Lemma messages_written i : i ∈ messages3 <-> exists m, written f m /\ i = o_id m.
  Proof.
    unfold Document3.messages3. rewrite elem_of_list_fmap. split.
    - intros (m & -> & Hm). exists m. split; [|done]. apply elem_of_list_In, filter_In in Hm as [Hm E]. apply String.eqb_eq in E. split; [done|].
      apply elem_of_list_In, elem_of_app in Hm as [H|H]; apply in_concat in H as (c & Hc & Hm); apply field_root in Hc; [left|right]; exists c; (split; [done|]).
      + destruct (channel_in c Hc) as [Ic _]. by apply in_field_holds; [eapply in_conforms|].
      + destruct (components_in c Hc) as [Ic _]. by apply in_field_holds; [eapply in_conforms|].
    - intros (m & (E & H) & ->). exists m. split; [done|]. apply elem_of_list_In, filter_In. split; [|by apply String.eqb_eq].
      apply elem_of_list_In, elem_of_app. destruct H as [(c & Hc & Hm)|(c & Hc & Hm)]; [left|right]; apply in_concat; exists c; (split; [by apply field_root|]).
      + destruct (channel_in c Hc) as [Ic _]. apply in_field_holds; [by eapply in_conforms|done].
      + destruct (components_in c Hc) as [Ic _]. apply in_field_holds; [by eapply in_conforms|done].
  Qed.

  (** *** Operations *)
  Hypothesis Differ : differ t f.
  Lemma channel_names : NoDup (map (fun c => name_at (o_id c)) (in_field root "channels")).
  Proof.
    apply lit_map_nodup. rewrite (map_ext_elem _ (fun c => lit (word_of (key_of t (o_id c)) "Channel"))).
    - rewrite <- (kind_names_map "Channel" (fun c => key_of t (o_id c))) by apply exported_channel. apply (di_channels _ _ Differ).
    - intros c Hc. apply field_root in Hc. by rewrite channel_named.
  Qed.
  Lemma operation_names : NoDup (map (fun c => name_at (o_id c)) (in_field root "operations")).
  Proof.
    apply lit_map_nodup. rewrite (map_ext_elem _ (fun c => lit (word_of (key_of t (o_id c)) "Operation"))).
    - rewrite <- (kind_names_map "Operation" (fun c => key_of t (o_id c))) by apply exported_operation. apply (di_operations _ _ Differ).
    - intros c Hc. apply field_root in Hc. by rewrite operation_named.
  Qed.
  Lemma operation_keys : NoDup operations3.*1.
  Proof.
    change (NoDup (map fst operations3)). unfold Document3.operations3. rewrite map_map. cbn [fst].
    apply (nodup_of_map (fun k => lit (word_of k "Operation"))). rewrite map_map.
    rewrite <- (kind_names_map "Operation" (fun c => key_of t (o_id c))) by apply exported_operation. apply (di_operations _ _ Differ).
  Qed.
  Lemma find_channel_own c : holds root "channels" c -> find_channel ul ud uu t f (channel_of c) = Some c.
  Proof.
    intros H. unfold find_channel, Document3.channel_of. cbn [ch_name].
    assert (E : all_channels f = in_field root "channels" ++ skipn (List.length (in_field root "channels")) (all_channels f)).
    { unfold root_of. destruct f as [s r others]. cbn [all_channels]. by rewrite drop_app. }
    rewrite E. apply (find_first (fun c => name_at (o_id c))); [apply channel_names|by apply field_root].
  Qed.
  Lemma find_operation_own o q : holds root "operations" o -> o_name q = name_at (o_id o) -> find_operation ul ud uu t f q = Some o.
  Proof.
    intros H E. unfold find_operation. rewrite E. rewrite <- (app_nil_r (in_field root "operations")).
    apply (find_first (fun c => name_at (o_id c))); [apply operation_names|by apply field_root].
  Qed.

  Lemma single o g x : in_file f here o -> g = "reply" \/ g = "channel" -> holds o g x -> exists rest, in_field o g = x :: rest.
  Proof.
    intros Io G H. assert (C := in_conforms _ _ Io). pose proof H as H'. apply in_field_holds in H'; [|done]. destruct (in_field o g) as [|y rest] eqn:E; [by apply elem_of_nil in H'|].
    exists rest. f_equal. apply (reg_single _ _ _ Reg here o g Io ltac:(tauto)); [apply in_field_holds; [done|]; rewrite E; left|done].
  Qed.
  Lemma listed o g y rest : in_file f here o -> in_field o g = y :: rest -> holds o g y.
  Proof. intros Io E. apply in_field_holds; [by eapply in_conforms|]. rewrite E. left. Qed.
  Lemma on_channel_of o c : in_file f here o -> o_kind o = KOperation \/ o_kind o = KReply -> on_channel w at_address f o c ->
    exists ch rest, in_field o "channel" = ch :: rest /\ holds o "channel" ch /\ stands ch c /\ fl ch = c.
  Proof.
    intros Io K (ch & Hch & St). destruct (single o "channel" ch Io (or_intror eq_refl) Hch) as [rest E]. exists ch, rest. split; [done|]. split; [done|]. split; [done|].
    assert (in_file f here ch /\ o_kind ch = KChannel) as [Ic Kc] by (destruct K as [K|K]; [by apply (operation_channel_in here o)|by apply (reply_channel_in here o)]).
    apply (follows here); [done|by left|done].
  Qed.
  Lemma sole_message_of c m : own_channel f c -> sole_message w at_address f c m -> ch_messages (channel_of c) = [o_id m].
  Proof.
    intros [Hc _] (x & Hx & s1 & m1 & I1 & S1 & S2). destruct (channel_in c Hc) as [Ic Kc]. unfold Document3.channel_of. cbn [ch_messages].
    assert (E : in_field c "messages" = [x]) by (apply entry_of; [apply (conforms_inv c (in_conforms _ _ Ic))|done]). rewrite E. cbn [map].
    assert (Hm : holds c "messages" x) by (apply in_field_holds; [by eapply in_conforms|rewrite E; left]).
    destruct (channel_message_in here c x Ic Kc Hm) as [Ix Kx].
    assert (fl x = m1) as -> by (apply (follows here); [done|by right|done]).
    assert (K1 : o_kind m1 = KMessage).
    { destruct (followed_stands w at_address schema f Reg l here x Set_ Ix) as [St (s' & _ & K)]; [by rewrite Kx|by rewrite Kx|].
      assert (m1 = fl x) as -> by (apply (stands_for_unique w at_address here x); [by rewrite Kx|by rewrite Kx|done|done]). by rewrite K. }
    by rewrite (follows s1 m1 m I1 (or_intror K1) S2).
  Qed.

  Hypothesis Complete : complete w at_address t f.
  Lemma operation_shape o : holds root "operations" o -> operation_of o = own_operation o None.
  Proof.
    intros Ho. destruct (operation_in o Ho) as [Io Ko]. destruct (co_operation _ _ _ _ Complete o Ho) as (Ro & _).
    unfold Document3.operation_of. destruct (plain here o Io Ro) as [_ ->]. done.
  Qed.
  Lemma own_channel_stands c : own_channel f c -> fl c = c.
  Proof. intros [Hc Rc]. destruct (channel_in c Hc) as [Ic _]. by apply (plain here c). Qed.
  Lemma operation_channel o c : holds root "operations" o -> on_channel w at_address f o c -> o_channel (own_operation o None) = channel_of c.
  Proof.
    intros Ho Hc. destruct (operation_in o Ho) as [Io Ko]. destruct (on_channel_of o c Io (or_introl Ko) Hc) as (ch & rest & E & _ & _ & F).
    unfold Document3.own_operation. cbn [o_channel]. by rewrite E, F.
  Qed.
  Lemma on_channel_unique o c c' : in_file f here o -> o_kind o = KOperation \/ o_kind o = KReply ->
    on_channel w at_address f o c -> on_channel w at_address f o c' -> c = c'.
  Proof.
    intros Io K H H'. destruct (on_channel_of o c Io K H) as (ch & r & E & _ & _ & <-), (on_channel_of o c' Io K H') as (ch' & r' & E' & _ & _ & <-). congruence.
  Qed.
  (** The message of an operation is the one that the templates take. *)
  Lemma about_only o m : holds root "operations" o -> about w at_address f o m -> only_message (own_operation o None) (o_id m) /\
    forall i, only_message (own_operation o None) i -> i = o_id m.
  Proof.
    intros Ho H. destruct (operation_in o Ho) as [Io Ko]. assert (C := in_conforms _ _ Io). destruct (co_operation _ _ _ _ Complete o Ho) as (_ & (c & Hc & Oc) & _).
    assert (Only : only_message (own_operation o None) (o_id m)).
    { destruct H as [x rest Hx St|c' Nm Hc' Sm].
      - left. unfold Document3.own_operation. cbn [o_messages].
        assert (E : in_field o "messages" = x :: rest) by (apply entry_of; [apply (conforms_inv o C)|done]). rewrite E. cbn [map head].
        destruct (operation_message_in here o x Io Ko (listed o "messages" x rest Io E)) as [Ix Kx]. by rewrite (follows here x m Ix (or_intror Kx) St).
      - right. rewrite (on_channel_unique o c' c Io (or_introl Ko) Hc' Hc) in *. rewrite (operation_channel o c Ho Hc). split; [|by apply sole_message_of].
        unfold Document3.own_operation. cbn [o_messages]. destruct (in_field o "messages") as [|y r] eqn:E; [done|]. exfalso. apply (Nm y). by eapply listed. }
    split; [done|]. intros i Hi. destruct Only as [A|[A B]], Hi as [A'|[A' B']]; [congruence|rewrite A' in A; discriminate|rewrite A in A'; discriminate|congruence].
  Qed.
  Lemma correlates_has m : written f m -> has_correlation at_address l (o_id m) = true <-> correlates w at_address f m.
  Proof.
    intros H. destruct (written_in m H) as [Im Km]. unfold has_correlation. rewrite (Stored here m Im). pose proof (carried w at_address schema f Reg l here m Set_ Im Km) as C. unfold correlates.
    destruct (correlation_of at_address l m) as [|c r].
    - split; [done|]. intros (c & Hc & _). apply C in Hc as (? & ?). done.
    - rewrite negb_true_iff, String.eqb_neq. split.
      + intros N. exists c. split; [apply C; eauto|done].
      + intros (c' & Hc & N). apply C in Hc as (? & [= <- _]). done.
  Qed.
  Lemma reply_shape o r : o_reply (own_operation o None) = Some r -> exists x rest, in_field o "reply" = x :: rest /\ r = reply_of ul ud uu t at_address f l x.
  Proof.
    unfold Document3.own_operation. cbn [o_reply]. destruct (in_field o "reply") as [|x rest]; [done|]. cbn. intros [= <-]. eauto.
  Qed.
  Lemma reply_channel o x ch c : holds root "operations" o -> holds o "reply" x -> holds x "channel" ch -> stands ch c -> own_channel f c ->
    r_channel (reply_of ul ud uu t at_address f l x) = Some (channel_of c).
  Proof.
    intros Ho Hx Hch St Oc. destruct (operation_in o Ho) as [Io Ko]. destruct (reply_in here o x Io Ko Hx) as [Ix Kx]. unfold reply_of. cbn [r_channel].
    destruct (on_channel_of x c Ix (or_intror Kx) (ex_intro _ ch (conj Hch St))) as (ch' & rest & -> & _ & _ & ->). by rewrite own_channel_stands.
  Qed.

  Lemma operation_served o : holds root "operations" o -> served details3 channels3 messages3 (own_operation o None).
  Proof.
    intros Ho. destruct (operation_in o Ho) as [Io Ko]. destruct (co_operation _ _ _ _ Complete o Ho) as (_ & (c & Hc & Oc) & m & Am & Wm).
    pose proof (find_channel_own c (proj1 Oc)) as Fc. pose proof (operation_channel o c Ho Hc) as Ec. destruct (about_only o m Ho Am) as [Om Um]. split.
    - done.
    - change (exported_text (name_at (o_id o))). rewrite operation_named by done. apply word_exported, exported_operation.
    - rewrite Ec. cbn [has_params Document3.details3]. rewrite Fc. intros P. eexists. split; [apply elem_of_list_fmap; exists c; split; [done|apply field_root, Oc]|]. done.
    - exists (o_id m). split; [done|]. apply messages_written. eauto.
    - intros r Er. destruct (reply_shape o r Er) as (x & rest & Ex & ->). assert (Hx := listed o "reply" x rest Io Ex).
      destruct (co_reply _ _ _ _ Complete o x Ho Hx) as [(ch & d & rm & Hch & St & Od & Sd & Wd & Nd & Ad & Cd) Rd].
      pose proof (find_channel_own d (proj1 Od)) as Fd. exists (channel_of d), (o_id rm). split; [by eapply reply_channel|]. split; [by apply sole_message_of|].
      split; [apply messages_written; eauto|]. split.
      { cbn [has_params Document3.details3]. rewrite Fd. destruct (in_field d "parameters") as [|p ps] eqn:E; [done|]. exfalso. apply (Nd p).
        destruct (channel_in d (proj1 Od)) as [Id _]. by eapply listed. }
      split.
      { cbn [no_address reply_address inline_address Document3.details3]. rewrite Fd. rewrite (find_operation_own o (own_operation o None) Ho) by done. rewrite Ex.
        destruct (reply_in here o x Io Ko Hx) as [Ix Kx]. destruct (single x "channel" ch Ix (or_intror eq_refl) Hch) as [r' ->]. rewrite negb_involutive.
        apply eq_true_iff_eq. rewrite andb_true_iff, !String.eqb_eq, Ad. split; intros [A B]; (split; [|done]).
        - destruct A as [a Ha]. apply in_field_holds in Ha; [|by eapply in_conforms]. destruct (in_field x "address"); [by apply elem_of_nil in Ha|done].
        - destruct (in_field x "address") as [|a as_] eqn:E; [done|]. exists a. by eapply listed. }
      split.
      { rewrite Ec. cbn [no_address Document3.details3]. rewrite Fc. apply String.eqb_neq. by apply Rd. }
      intros i Hi. rewrite (Um i Hi). cbn [correlated Document3.details3]. rewrite !correlates_has by done. intros Cm. by apply (Cd m).
  Qed.
  Lemma operations_in k q : (k, q) ∈ operations3 <-> exists o, holds root "operations" o /\ k = key_of t (o_id o) /\ q = own_operation o None.
  Proof.
    unfold Document3.operations3. rewrite elem_of_list_fmap. split.
    - intros (o & [= -> ->] & Ho). apply field_root in Ho. exists o. by rewrite operation_shape.
    - intros (o & Ho & -> & ->). exists o. split; [by rewrite operation_shape|by apply field_root].
  Qed.
  Lemma all_served : Forall (fun ko => served details3 channels3 messages3 ko.2) operations3.
  Proof. apply Forall_forall. intros [k q] H. apply operations_in in H as (o & Ho & -> & ->). by apply operation_served. Qed.

  Lemma answered_channel o ch : holds root "operations" o -> answered_on (own_operation o None) ch ->
    exists r c, holds o "reply" r /\ on_channel w at_address f r c /\ own_channel f c /\ ch = channel_of c.
  Proof.
    intros Ho (r & Er & Ech). cbn [follow] in Er. change (follow (own_operation o None)) with (own_operation o None) in Er. destruct (reply_shape o r Er) as (x & rest & Ex & ->).
    destruct (operation_in o Ho) as [Io Ko]. assert (Hx := listed o "reply" x rest Io Ex).
    destruct (co_reply _ _ _ _ Complete o x Ho Hx) as [(c0 & d & rm & Hch & St & Od & _) _]. exists x, d. split; [done|]. split; [by exists c0|]. split; [done|].
    rewrite (reply_channel o x c0 d Ho Hx Hch St Od) in Ech. by injection Ech.
  Qed.
  Lemma nobody_clashes s : no_clash s operations3.
  Proof.
    intros k q ch H Rq An. apply operations_in in H as (o & Ho & -> & ->). destruct (answered_channel o ch Ho An) as (r & c & Hr & Hc & Oc & ->). split.
    - intros k' q' H' _. apply operations_in in H' as (o' & Ho' & -> & ->). cbn [ch_name Document3.channel_of]. rewrite channel_named by apply Oc.
      by apply (co_key _ _ _ _ Complete o o' r c).
    - intros k' q' ch' H' Rq' An' E. apply operations_in in H' as (o' & Ho' & -> & ->). destruct (answered_channel o' ch' Ho' An') as (r' & c' & Hr' & Hc' & Oc' & ->).
      cbn [ch_name Document3.channel_of] in E. assert (c' = c) as ->.
      { apply (nodup_map_inj (fun c => name_at (o_id c)) (in_field root "channels")); [apply channel_names|apply field_root, Oc'|apply field_root, Oc|done]. }
      assert (o' = o) as ->; [|done]. apply (co_alone _ _ _ _ Complete o' o r' r c); try done. destruct s; cbn in Rq, Rq'; split; rewrite ?Rq'; auto; by rewrite Rq.
  Qed.

  Lemma backed3 order schemas : (forall site ch, order site ch ≡ₚ ch_messages ch) ->
    exists c, generated3 ul ud uu t at_address f l order schemas = Some c /\ all_backed c.
  Proof.
    intros Ord. apply package_backed; [done|apply operation_keys|apply all_served| |]; [apply (nobody_clashes Application)|apply (nobody_clashes User)].
  Qed.

  (** *** Names that do not meet *)
  Hypothesis Legible : legible t f.
  Lemma written_called m : written f m -> exists n, called t f m n /\ name_at (o_id m) = n /\ type_name n.
  Proof.
    intros (_ & [(c & Hc & Hm)|(k & Hk & Hm)]); eexists; (split; [|split; [apply called_name|]]).
    - eapply called_in_channel; [apply root_part|done|done].
    - eapply called_in_channel; [apply root_part|done|done].
    - split.
      + unfold exported_text. rewrite !lit_app. apply exported_app; [apply word_exported, exported_message|]. apply Forall_app. split; apply exported_words; [apply from_exported|apply word_exported, exported_channel].
      + exists (word_of (key_of t (o_id m)) "Message" +:+ "From" +:+ string_of_list_ascii (NamingSpec.name_of (lit (key_of t (o_id c))))), "Channel". split; [apply (bool_decide_unpack _); vm_compute; exact I|].
        unfold word_of. apply NamesProof.lit_inj. rewrite !lit_app. by rewrite !app_assoc.
    - eapply called_message; [by apply components_part|done].
    - eapply called_message; [by apply components_part|done].
    - split; [apply word_exported, exported_message|]. eexists _, "Message". split; [apply (bool_decide_unpack _); vm_compute; exact I|done].
  Qed.
  Lemma message_word_from k : ~ has_from (NamingSpec.name_of (lit k)) -> ~ has_from (lit (word_of k "Message")).
  Proof.
    intros H. rewrite lit_word. apply no_from_app; [done| |apply exported_message]. intros (a & b & E). apply (f_equal List.length) in E as EL.
    destruct a as [|? [|? [|? [|? ?]]]]; cbn in E; try discriminate E. exfalso. revert EL. rewrite !app_length. cbn. lia.
  Qed.
  Lemma own_message_named c m : holds root "channels" c -> holds c "messages" m ->
    name_at (o_id m) = word_of (key_of t (o_id m)) "Message" +:+ "From" +:+ word_of (key_of t (o_id c)) "Channel".
  Proof. intros Hc Hm. apply called_name. eapply called_in_channel; [apply root_part|done|done]. Qed.
  Lemma component_message_named k m : holds root "components" k -> holds k "messages" m -> name_at (o_id m) = word_of (key_of t (o_id m)) "Message".
  Proof. intros Hc Hm. apply called_name. eapply called_message; [by apply components_part|done]. Qed.
  Lemma readable_key {A} (g : A -> string) (xs : list A) x : readable (map (fun a => lit (g a)) xs) -> x ∈ xs -> ~ has_from (NamingSpec.name_of (lit (g x))).
  Proof. intros [_ R] H. rewrite Forall_forall in R. apply R. apply elem_of_list_fmap. eauto. Qed.
  Lemma message_names : NoDup (map name_at messages3).
  Proof.
    unfold Document3.messages3. rewrite map_map. apply nodup_map_filter. rewrite map_app, !concat_map, !map_map. apply NoDup_app. split; [|split].
    - apply nodup_concat; [apply (nodup_of_map (fun c => name_at (o_id c))), channel_names| |].
      + intros c Hc. apply field_root in Hc. destruct (channel_in c Hc) as [Ic _]. destruct (le_channel_messages _ _ Legible c Hc) as [_ N].
        unfold keys in N. rewrite (kind_names_map "Message" (fun m => key_of t (o_id m))) in N by apply exported_message.
        apply (nodup_of_map (fun n => lit n)). rewrite map_map.
        rewrite (map_ext_elem _ (fun m => lit (word_of (key_of t (o_id m)) "Message") ++ (lit "From" ++ lit (word_of (key_of t (o_id c)) "Channel")))).
        * rewrite <- (map_map (fun m => lit (word_of (key_of t (o_id m)) "Message")) (fun a => a ++ (lit "From" ++ lit (word_of (key_of t (o_id c)) "Channel")))).
          apply (NoDup_fmap_2_strong (fun a => a ++ _)); [|done]. intros a b _ _. apply app_inv_tail.
        * intros m Hm. apply in_field_holds in Hm; [|by eapply in_conforms]. rewrite (own_message_named c m) by done. by rewrite !lit_app.
      + intros c c' n Hc Hc' Hn Hn'. apply elem_of_list_fmap in Hn as (m & -> & Hm), Hn' as (m' & E & Hm').
        pose proof Hc as Hc1. pose proof Hc' as Hc1'. apply field_root in Hc1, Hc1'. destruct (channel_in c Hc1) as [Ic _], (channel_in c' Hc1') as [Ic' _].
        assert (R := proj1 (le_channel_messages _ _ Legible c Hc1)). assert (R' := proj1 (le_channel_messages _ _ Legible c' Hc1')).
        pose proof (message_word_from _ (readable_key (fun m => key_of t (o_id m)) _ m R Hm)) as F. pose proof (message_word_from _ (readable_key (fun m => key_of t (o_id m)) _ m' R' Hm')) as F'.
        apply in_field_holds in Hm, Hm'; [|by eapply in_conforms|by eapply in_conforms].
        rewrite (own_message_named c m), (own_message_named c' m') in E by done. apply (f_equal lit) in E. rewrite !lit_app in E.
        apply (from_split _ _ _ _ F F') in E as [_ E]. apply NamesProof.lit_inj in E. rewrite <- !channel_named in E by done.
        by apply (nodup_map_inj (fun c => name_at (o_id c)) (in_field root "channels")); [apply channel_names|..].
    - intros n Hn Hn'. apply in_concat in Hn as (c & Hc & Hn), Hn' as (k & Hk & Hn'). apply elem_of_list_fmap in Hn as (m & -> & Hm), Hn' as (m' & E & Hm').
      apply field_root in Hc, Hk. destruct (channel_in c Hc) as [Ic _], (components_in k Hk) as [Ik _]. assert (R := proj1 (le_messages _ _ Legible k Hk)).
      pose proof (message_word_from _ (readable_key (fun m => key_of t (o_id m)) _ m' R Hm')) as F.
      apply in_field_holds in Hm, Hm'; [|by eapply in_conforms|by eapply in_conforms].
      rewrite (own_message_named c m), (component_message_named k m') in E by done. apply F. rewrite <- E, !lit_app. by eexists _, _.
    - pose proof (le_one _ _ Legible) as One. assert (Hk : forall k, k ∈ in_field root "components" -> NoDup (map (fun m => name_at (o_id m)) (in_field k "messages"))).
      { intros k Hk. apply field_root in Hk. destruct (components_in k Hk) as [Ik _]. destruct (le_messages _ _ Legible k Hk) as [_ N].
        unfold keys in N. rewrite (kind_names_map "Message" (fun m => key_of t (o_id m))) in N by apply exported_message.
        apply lit_map_nodup. rewrite (map_ext_elem _ (fun m => lit (word_of (key_of t (o_id m)) "Message"))); [done|].
        intros m Hm. apply in_field_holds in Hm; [|by eapply in_conforms]. by rewrite (component_message_named k m). }
      destruct (in_field root "components") as [|k [|k' ks]]; [constructor| |cbn in One; lia]. cbn [map List.concat]. rewrite app_nil_r. apply Hk. left.
  Qed.

  Lemma apart3 schemas : schemas_apart t f schemas -> named_apart details3 operations3 channels3 messages3 schemas.
  Proof.
    intros Sc. assert (Types : forall x, x ∈ type_names details3 messages3 schemas -> x ∈ schemas \/ exists m, written f m /\ called t f m x /\ o_kind m = KMessage /\ type_name x).
    { intros x Hx. apply elem_of_app in Hx as [Hx|Hx]; [|by left]. right. apply elem_of_list_fmap in Hx as (i & -> & Hi). apply messages_written in Hi as (m & Wm & ->).
      destruct (written_called m Wm) as (n & Cn & E & Tn). destruct (written_in m Wm) as [_ Km]. exists m. cbn [message_name Document3.details3]. rewrite E. done. }
    split.
    - intros k q H. apply operations_in in H as (o & Ho & -> & ->). cbn [o_refers o_name Document3.own_operation]. rewrite operation_named by done.
      split; [done|]. split; [apply word_exported, exported_operation|]. by eexists.
    - unfold Document3.operations3. rewrite map_map. cbn [snd o_name Document3.operation_of Document3.own_operation]. apply operation_names.
    - intros k q k' q' H H'. apply operations_in in H as (o & Ho & -> & ->), H' as (o' & Ho' & -> & ->). cbn [o_name Document3.own_operation]. intros E.
      assert (C : forall o, holds root "operations" o -> called t f o (name_at (o_id o))) by (intros x Hx; rewrite operation_named by done; eapply called_operation; [apply root_part|done]).
      apply (sc_reply _ _ _ Sc o _ o' _ (C o Ho) (C o' Ho')); [by apply operation_in|by apply operation_in|done].
    - intros nc H. apply elem_of_list_fmap in H as (c & -> & Hc). apply field_root in Hc. cbn [nc_name nc_follow]. split.
      + rewrite channel_named by done. apply word_exported, exported_channel.
      + destruct (channel_in c Hc) as [Ic _]. by rewrite (proj1 (plain here c Ic (le_plain _ _ Legible c Hc))).
    - unfold Document3.channels3. rewrite map_map. cbn [nc_name]. apply channel_names.
    - intros x Hx. apply Types in Hx as [Hx|(m & _ & _ & _ & T)]; [|done]. pose proof (sc_types _ _ _ Sc) as F. rewrite Forall_forall in F. by apply F.
    - unfold type_names. apply NoDup_app. split; [apply message_names|]. split; [|apply (sc_differ _ _ _ Sc)].
      intros x Hx. assert (Hx' : x ∈ type_names details3 messages3 schemas) by (apply elem_of_app; by left).
      apply elem_of_list_fmap in Hx as (i & -> & Hi). apply messages_written in Hi as (m & Wm & ->). destruct (written_called m Wm) as (n & Cn & E & _).
      destruct (written_in m Wm) as [_ Km]. cbn [message_name Document3.details3]. rewrite E. by apply (sc_messages _ _ _ Sc m n).
    - intros i x Hi Hx E. apply messages_written in Hi as (m' & Wm & ->). destruct (written_called m' Wm) as (n' & Cn & En & _). destruct (written_in m' Wm) as [_ Km'].
      cbn [message_name Document3.details3] in E. rewrite En in E. apply Types in Hx as [Hx|(m & _ & Cm & Km & _)].
      + apply (sc_new _ _ _ Sc m' n' Cn Km'). by rewrite <- E.
      + by apply (sc_new_messages _ _ _ Sc m x m' n' Cm Cn Km Km').
  Qed.
  Lemma once3 order schemas c : schemas_apart t f schemas -> generated3 ul ud uu t at_address f l order schemas = Some c -> declared_once c.1.
  Proof. intros Sc. apply package_once; [apply operation_keys|by apply apart3]. Qed.
End document.

(** ** Objects by their addresses *)
Lemma is_blind_blind k g : ~ blind k g -> is_blind k g = false.
Proof.
  intros H. destruct (is_blind k g) eqn:E; [|done]. exfalso. apply H. unfold blind. destruct k; cbn in E; try discriminate E; apply String.eqb_eq in E; tauto.
Qed.
Lemma sighted_seen o x : sighted o x -> x ∈ seen_of o.
Proof.
  induction 1 as [o|o g c x (cs & Hg & Hc) B _ IH]; [destruct o; left|]. destruct o as [i k r loc fields]. cbn [seen_of o_kind o_fields] in *. right.
  apply elem_concat. exists (List.concat (map seen_of cs)). split.
  - apply elem_of_list_fmap. exists (g, cs). split; [|done]. by rewrite is_blind_blind.
  - apply elem_concat. exists (seen_of c). split; [apply elem_of_list_fmap; by exists c|done].
Qed.
Lemma in_file_pairs f s x : in_file f s x -> (s, x) ∈ seen_pairs f.
Proof.
  induction 1 as [s root others x H|s root others g s' x Hg _ IH]; cbn [seen_pairs]; apply elem_of_app; [left|right].
  - apply elem_of_list_fmap. exists x. split; [done|by apply sighted_seen].
  - apply elem_concat. exists (seen_pairs g). split; [apply elem_of_list_fmap; by exists g|done].
Qed.
Lemma found_object w at_address f : regular w at_address f -> forall s x, in_file f s x -> find_object f (o_id x) = Some x.
Proof.
  intros Reg s x H. unfold find_object. destruct (List.find _ (seen_pairs f)) as [[s' y]|] eqn:E.
  - apply List.find_some in E as [I E]. apply Nat.eqb_eq in E. apply elem_of_list_In, pairs_in_file in I. cbn.
    by destruct (reg_distinct _ _ _ Reg s' y s x (anywhere_in _ _ _ I) (anywhere_in _ _ _ H) E) as [_ ->].
  - exfalso. apply in_file_pairs, elem_of_list_In in H. apply (List.find_none _ _ E) in H. by rewrite Nat.eqb_refl in H.
Qed.
