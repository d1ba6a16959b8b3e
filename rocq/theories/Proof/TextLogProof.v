(** Proofs about the text logger. *)
From stdpp Require Import list strings.
From Coq Require Import Ascii String.
From Verif.Model Require Import GoStrings Logs TextLog.
From Verif.Spec Require Import LogsSpec TextLogSpec.
From Verif.Proof Require Import LogsProof.
Local Open Scope string_scope.

Lemma lval_rect' (P : lval -> Prop) : (forall s, P (LText s)) ->
  (forall m, (forall k v, (k, v) ∈ m -> P v) -> P (LMap m)) -> forall v, P v.
Proof.
  intros T M.
  assert (M' : forall m, Forall (fun e : string * lval => P e.2) m -> P (LMap m)).
  { intros m F. apply M. intros k v H. rewrite Forall_forall in F. exact (F (k, v) H). }
  clear M. revert M'. intros M. refine (fix IH v := match v with LText s => T s | LMap m => M m _ end).
  exact ((fix go (m : lmap) : Forall (fun e : string * lval => P e.2) m :=
    match m with [] => Forall_nil_2 _ | e :: r => Forall_cons_2 _ e r (IH e.2) (go r) end) m).
Qed.

(** *** Strings *)
Lemma sapp_assoc (a b c : string) : (a +:+ b) +:+ c = a +:+ (b +:+ c).
Proof. induction a as [|x a IH]; [reflexivity|]. change (String x ((a +:+ b) +:+ c) = String x (a +:+ (b +:+ c))). now rewrite IH. Qed.
Lemma sapp_nil_r (a : string) : a +:+ "" = a.
Proof. induction a as [|x a IH]; [reflexivity|]. change (String x (a +:+ "") = String x a). now rewrite IH. Qed.
Lemma sapp_cons x (a b : string) : String x a +:+ b = String x (a +:+ b).
Proof. reflexivity. Qed.
Lemma sapp_chars (a b : string) : list_ascii_of_string (a +:+ b) = (list_ascii_of_string a ++ list_ascii_of_string b)%list.
Proof. induction a as [|x a IH]; [reflexivity|]. rewrite sapp_cons. cbn. now rewrite IH. Qed.
Lemma one_line_app a b : one_line (a +:+ b) <-> one_line a /\ one_line b.
Proof. unfold one_line. rewrite sapp_chars, elem_of_app. tauto. Qed.
Lemma margin_one_line n : one_line (margin n).
Proof.
  induction n as [|n IH]; unfold one_line; cbn [margin]; [intros H%elem_of_nil; exact H|].
  rewrite sapp_chars, elem_of_app. cbn. rewrite !elem_of_cons, elem_of_nil. intros [[H|[H|H]]|H]; [discriminate H|discriminate H|exact H|exact (IH H)].
Qed.
Lemma text_of_app a b : text_of (a ++ b) = text_of a +:+ text_of b.
Proof. induction a as [|x a IH]; [reflexivity|].
  change (line_text x +:+ text_of (a ++ b) = (line_text x +:+ text_of a) +:+ text_of b). now rewrite IH, sapp_assoc.
Qed.

Lemma margin_inside n t : inside n (margin n +:+ t) t.
Proof. induction n as [|n IH]; [apply inside_0|]. cbn [margin]. rewrite sapp_assoc. now apply inside_S. Qed.
Lemma inside_fun n l t u : inside n l t -> inside n l u -> t = u.
Proof.
  intros A. revert u. induction A as [s|n s t A IH]; intros u B; inversion B; subst; [reflexivity|]. now apply IH.
Qed.
Lemma inside_succ n l t : inside (S n) l t -> inside n l (String " " (String " " t)).
Proof.
  revert l. induction n as [|n IH]; intros l A; inversion A as [|? s ? B]; subst.
  - inversion B; subst. constructor.
  - constructor. now apply IH.
Qed.
Lemma inside_less n l t : inside (S n) l t -> exists u, inside n l u.
Proof. eauto using inside_succ. Qed.

(** A line of this block itself, not of one further in. *)
Lemma not_deeper n l k r : key_like k -> inside n l (k +:+ ":" +:+ r) -> ~ exists t, inside (S n) l t.
Proof.
  intros [_ K] I [t J%inside_succ]. pose proof (inside_fun _ _ _ _ I J) as E. destruct k as [|c k]; [discriminate E|].
  injection E as -> _. now apply (K k).
Qed.
Lemma colon_split k k' r r' : ":"%char ∉ list_ascii_of_string k -> ":"%char ∉ list_ascii_of_string k' ->
  k +:+ ":" +:+ r = k' +:+ ":" +:+ r' -> k = k' /\ r = r'.
Proof.
  revert k'. induction k as [|c k IH]; intros [|c' k'] N N' E.
  - now injection E.
  - change (String ":" r = String c' (k' +:+ ":" +:+ r')) in E. injection E as <- _. destruct N'. cbn. left.
  - change (String c (k +:+ ":" +:+ r) = String ":" r') in E. injection E as -> _. destruct N. cbn. left.
  - change (String c (k +:+ ":" +:+ r) = String c' (k' +:+ ":" +:+ r')) in E. injection E as <- E.
    cbn in N, N'. rewrite elem_of_cons in N, N'. destruct (IH k') as [-> ->]; [tauto|tauto|exact E|auto].
Qed.

(** *** The lines *)
Fixpoint elines (n : nat) (k : string) (v : lval) {struct v} : list string :=
  match v with
  | LText s => [margin n +:+ (k +:+ ": " +:+ s)]
  | LMap m => (margin n +:+ (k +:+ ":")) ::
      (fix go (es : lmap) : list string :=
         match es with [] => [] | (k', v') :: r => elines (S n) k' v' ++ go r end)%list m
  end.
Fixpoint mlines (n : nat) (m : lmap) : list string :=
  match m with [] => [] | (k, v) :: r => elines n k v ++ mlines n r end%list.
Lemma elines_map n k m : elines n k (LMap m) = (margin n +:+ (k +:+ ":")) :: mlines (S n) m.
Proof. cbn. f_equal. induction m as [|[k' v'] m IH]; [reflexivity|]. cbn [mlines]. now rewrite <- IH. Qed.
Lemma mlines_app n a b : mlines n (a ++ b) = (mlines n a ++ mlines n b)%list.
Proof. induction a as [|[k v] a IH]; [reflexivity|]. cbn. now rewrite IH, app_assoc. Qed.

Inductive plain : lmap -> Prop :=
| plain_intro m : (forall k v, (k, LText v) ∈ m -> key_like k /\ one_line k /\ one_line v) ->
    (forall k s, (k, LMap s) ∈ m -> key_like k /\ one_line k /\ plain s) -> plain m.
Inductive no_header_inside : lmap -> Prop :=
| no_header_intro m :
    (forall k s, (k, LMap s) ∈ m -> ~ ("@Timestamp" ∈ s.*1 /\ "Message" ∈ s.*1) /\ no_header_inside s) ->
    no_header_inside m.

Lemma plain_inv m : plain m -> (forall k v, (k, LText v) ∈ m -> key_like k /\ one_line k /\ one_line v) /\
  (forall k s, (k, LMap s) ∈ m -> key_like k /\ one_line k /\ plain s).
Proof. intros P. now inversion P. Qed.
Lemma plain_key m k v : plain m -> (k, v) ∈ m -> key_like k /\ one_line k.
Proof. intros [T S]%plain_inv H. destruct v as [s|s]; [apply T in H|apply S in H]; tauto. Qed.
Lemma plain_sub m m' : plain m -> (forall e, e ∈ m' -> e ∈ m) -> plain m'.
Proof. intros [T S]%plain_inv I. constructor; intros k v H%I; auto. Qed.
Lemma no_header_inv m : no_header_inside m ->
  forall k s, (k, LMap s) ∈ m -> ~ ("@Timestamp" ∈ s.*1 /\ "Message" ∈ s.*1) /\ no_header_inside s.
Proof. intros P. now inversion P. Qed.
Lemma no_header_sub m m' : no_header_inside m -> (forall e, e ∈ m' -> e ∈ m) -> no_header_inside m'.
Proof. intros T I. constructor. intros k v H%I. exact (no_header_inv m T k v H). Qed.

Lemma lget_keys k m : (exists v, lget k m = Some v) <-> k ∈ m.*1.
Proof.
  induction m as [|[x w] m IH]; cbn [lget].
  - rewrite elem_of_nil. split; [intros [? [=]]|tauto].
  - rewrite fmap_cons, elem_of_cons. destruct (String.eqb_spec k x) as [->|N]; [split; eauto|]. rewrite IH. cbn. tauto.
Qed.
Lemma headed_spec m : headed m = true <-> "@Timestamp" ∈ m.*1 /\ "Message" ∈ m.*1.
Proof.
  rewrite <- !lget_keys. unfold headed. destruct (lget "@Timestamp" m) as [a|], (lget "Message" m) as [b|];
    split; intros H; try discriminate; try reflexivity; [split; eauto|..]; destruct H as [[? [=]] [? [=]]].
Qed.

Lemma entry_lines show v : forall n k, (forall s, v = LMap s -> ~ ("@Timestamp" ∈ s.*1 /\ "Message" ∈ s.*1) /\ no_header_inside s) ->
  entry show n k v = text_of (elines n k v).
Proof.
  induction v as [s|m IH] using lval_rect'; intros n k N.
  - cbn. unfold line_text. rewrite sapp_nil_r, !sapp_assoc. reflexivity.
  - destruct (N m eq_refl) as [H NI]. clear N.
    assert (HF : headed m = false). { destruct (headed m) eqn:E; [|reflexivity]. apply headed_spec in E. contradiction. }
    assert (HH : header show (S n) m = "").
    { unfold headed in HF. unfold header. destruct (lget "@Timestamp" m), (lget "Message" m); try reflexivity. discriminate. }
    rewrite elines_map. cbn [entry]. rewrite HF, HH. cbn [text_of foldr]. unfold line_text. rewrite !sapp_assoc.
    do 4 f_equal. change ("" +:+ ?x) with x. fold (text_of (mlines (S n) m)).
    clear H HF HH. pose proof (no_header_inv m NI) as NH. clear NI.
    induction m as [|[k' v'] m IHm]; [reflexivity|]. cbn [mlines]. rewrite text_of_app. cbn [andb].
    rewrite (IH k' v').
    + f_equal. apply IHm; [|intros; apply (NH k0); now right]. intros k0 v0 H0. apply (IH k0). now right.
    + left.
    + intros s ->. apply (NH k'). left.
Qed.
Lemma entries_lines show n m h : no_header_inside m ->
  entries show h n m =
  text_of (mlines n (List.filter (fun e => negb (h && (String.eqb e.1 "@Timestamp" || String.eqb e.1 "Message"))%bool) m)).
Proof.
  intros N. pose proof (no_header_inv m N) as NH. clear N. induction m as [|[k v] m IH]; [reflexivity|].
  cbn [entries List.filter]. rewrite IH by (intros; apply (NH k0); now right).
  destruct (h && (String.eqb (k, v).1 "@Timestamp" || String.eqb (k, v).1 "Message"))%bool eqn:E; cbn [fst] in E; rewrite E; cbn [negb].
  - reflexivity.
  - cbn [mlines]. rewrite text_of_app. f_equal. apply entry_lines. intros s ->. apply (NH k). left.
Qed.

Lemma elines_one_line v : forall n k, (forall m, (k, v) ∈ m -> plain m -> Forall one_line (elines n k v)).
Proof.
  induction v as [s|s IH] using lval_rect'; intros n k m H [T P]%plain_inv.
  - cbn. destruct (T k s H) as (_ & K & Ts). repeat constructor. rewrite !one_line_app. repeat split; auto using margin_one_line.
    unfold one_line. cbn. rewrite !elem_of_cons, elem_of_nil. intros [?|[?|?]]; [discriminate..|tauto].
  - destruct (P k s H) as (_ & K & Ps). rewrite elines_map. constructor.
    + rewrite !one_line_app. repeat split; auto using margin_one_line.
      unfold one_line. cbn. rewrite !elem_of_cons, elem_of_nil. intros [?|?]; [discriminate..|tauto].
    + assert (G : forall k' v', (k', v') ∈ s -> Forall one_line (elines (S n) k' v')) by (intros k' v' Hs; now apply (IH k' v' Hs) with s).
      clear -G. induction s as [|[k' v'] s IHs]; cbn [mlines]; [constructor|]. apply Forall_app. split; [apply G; left|].
      apply IHs. intros k0 v0 H0. apply G. now right.
Qed.
Lemma mlines_one_line n m : plain m -> Forall one_line (mlines n m).
Proof.
  intros P. assert (G : forall k v, (k, v) ∈ m -> Forall one_line (elines n k v)) by (intros k v H; now apply elines_one_line with m).
  clear P. induction m as [|[k v] m IH]; cbn [mlines]; [constructor|]. apply Forall_app. split; [apply G; left|].
  apply IH. intros k0 v0 H0. apply G. now right.
Qed.

(** *** Reading *)
Lemma mlines_deep n m : Forall (fun l => exists t, inside n l t) (mlines n m).
Proof.
  assert (D : forall v k j, Forall (fun l => exists t, inside j l t) (elines j k v)).
  { clear. intros v. induction v as [s|s IH] using lval_rect'; intros k j.
    - repeat constructor. eexists. apply margin_inside.
    - rewrite elines_map. constructor; [eexists; apply margin_inside|].
      induction s as [|[k' v'] s IHs]; cbn [mlines]; [constructor|]. apply Forall_app. split.
      + eapply Forall_impl; [apply (IH k' v'); left|]. intros l [t I]. now apply inside_less in I.
      + apply IHs. intros k0 v0 H0. apply (IH k0). now right. }
  induction m as [|[k' v'] s IHs]; cbn [mlines]; [constructor|]. apply Forall_app. auto.
Qed.

Lemma says_reads m ks v : says m ks v -> plain m -> forall n, reads n (mlines n m) ks v.
Proof.
  induction 1 as [m k v H|m k s ks v H Ss IH]; intros P n; pose proof (plain_key _ _ _ P H) as [K _];
    apply elem_of_list_split in H as (m1 & m2 & ->); rewrite mlines_app; cbn [mlines].
  - cbn [elines app]. apply reads_value; [exact K|]. apply margin_inside.
  - rewrite elines_map. cbn [app]. apply reads_block; [exact K|apply margin_inside| |].
    + apply mlines_deep.
    + apply IH. apply plain_inv in P as [_ P]. eapply P. rewrite elem_of_app. right. left.
Qed.

(** The first line of an entry, and the lines further in below it. *)
Lemma elines_head n k v : exists r deep, elines n k v = (margin n +:+ (k +:+ ":" +:+ r)) :: deep /\
  match v with LText s => r = String " " s /\ deep = [] | LMap s => r = "" /\ deep = mlines (S n) s end.
Proof.
  destruct v as [s|s].
  - exists (String " " s), []. auto.
  - exists "", (mlines (S n) s). rewrite elines_map. auto.
Qed.

Lemma locate n m pre l rest : plain m -> mlines n m = (pre ++ l :: rest)%list -> (~ exists t, inside (S n) l t) ->
  exists m1 k v m2 r deep, m = (m1 ++ (k, v) :: m2)%list /\ elines n k v = l :: deep /\ l = margin n +:+ (k +:+ ":" +:+ r) /\
    match v with LText s => r = String " " s /\ deep = [] | LMap s => r = "" /\ deep = mlines (S n) s end /\
    rest = (deep ++ mlines n m2)%list.
Proof.
  intros P. revert pre. induction m as [|[k v] m IH]; intros pre E N.
  - destruct pre; discriminate.
  - cbn [mlines] in E. destruct (elines_head n k v) as (r & deep & H & V).
    destruct pre as [|l0 pre].
    + rewrite H in E. cbn in E. injection E as E1 E2. exists [], k, v, m, r, deep. rewrite H, E1. auto.
    + rewrite H in E. cbn in E. injection E as _ E.
      assert (D : Forall (fun l => exists t, inside (S n) l t) deep).
      { destruct v as [s|s]; destruct V as [_ ->]; [constructor|apply mlines_deep]. }
      apply app_eq_app in E as (k0 & [[E1 E2]|[E1 E2]]).
      * destruct k0 as [|x k0].
        -- rewrite app_nil_r in E1. cbn in E2.
           destruct (IH (plain_sub _ _ P (fun e H => elem_of_list_further _ _ _ H)) [] (eq_sym E2) N) as (m1 & k1 & v1 & m2 & r1 & d1 & -> & W).
           exists ((k, v) :: m1), k1, v1, m2, r1, d1. split; [reflexivity|exact W].
        -- cbn in E2. injection E2 as <- E2. exfalso. apply N. rewrite E1 in D. apply Forall_app in D as [_ D].
           now apply Forall_cons in D as [D _].
      * destruct (IH (plain_sub _ _ P (fun e H => elem_of_list_further _ _ _ H)) k0 E2 N) as (m1 & k1 & v1 & m2 & r1 & d1 & -> & W).
        exists ((k, v) :: m1), k1, v1, m2, r1, d1. split; [reflexivity|exact W].
Qed.

Lemma reads_says n p ks v : reads n p ks v -> forall m q, plain m -> (p ++ q)%list = mlines n m -> says m ks v.
Proof.
  induction 1 as [n pre l post k v K I|n pre l body post k ks v K I D R IH]; intros m q P E; rewrite <- app_assoc in E; cbn in E;
    symmetry in E; apply locate in E; auto.
  - destruct E as (m1 & k1 & v1 & m2 & r & deep & -> & _ & -> & V & _).
    pose proof (inside_fun _ _ _ _ I (margin_inside n _)) as F.
    destruct (plain_key _ k1 v1 P) as [[K1 _] _]; [rewrite elem_of_app; right; left|].
    apply (colon_split k k1 (String " " v) r) in F as [-> F]; [|apply K|exact K1].
    destruct v1 as [s|s]; destruct V as [-> _]; [|discriminate]. injection F as ->. constructor. rewrite elem_of_app. right. left.
  - now apply (not_deeper n l k (String " " v)).
  - destruct E as (m1 & k1 & v1 & m2 & r & deep & -> & _ & -> & V & E).
    pose proof (inside_fun _ _ _ _ I (margin_inside n _)) as F.
    destruct (plain_key _ k1 v1 P) as [[K1 _] _]; [rewrite elem_of_app; right; left|].
    apply (colon_split k k1 "" r) in F as [-> F]; [|apply K|exact K1].
    destruct v1 as [s|s]; destruct V as [-> ->]; [discriminate|].
    assert (M : (k1, LMap s) ∈ (m1 ++ (k1, LMap s) :: m2)%list) by (rewrite elem_of_app; right; left).
    apply says_map with s; [exact M|].
    assert (exists q', (body ++ q')%list = mlines (S n) s) as [q' B].
    { rewrite <- app_assoc in E. symmetry in E. apply app_eq_app in E as (k0 & [[E1 E2]|[E1 E2]]).
      - exists k0. now rewrite E1.
      - destruct m2 as [|[k2 v2] m2].
        + cbn in E2. destruct k0; [|discriminate]. rewrite app_nil_r in E1. exists []. now rewrite E1, app_nil_r.
        + destruct (elines_head n k2 v2) as (r2 & d2 & H & _). cbn [mlines] in E2. rewrite H in E2. cbn in E2.
          destruct k0 as [|x k0]; [rewrite app_nil_r in E1; exists []; now rewrite E1, app_nil_r|].
          cbn in E2. injection E2 as <- _. exfalso. rewrite E1 in D. apply Forall_app in D as [_ D]. apply Forall_cons in D as [D _].
          revert D. eapply not_deeper; [|apply margin_inside].
          apply (plain_key _ k2 v2 P). rewrite elem_of_app. right. right. left. }
    eapply IH; [|exact B]. apply plain_inv in P as [_ P]. now apply (P k1).
  - now apply (not_deeper n l k "").
Qed.

Lemma reads_iff n m ks v : plain m -> reads n (mlines n m) ks v <-> says m ks v.
Proof.
  intros P. split; [|intros; now apply says_reads].
  intros R. eapply reads_says; [exact R|exact P|apply app_nil_r].
Qed.

(** *** The order of the maps *)
Lemma same_sym m m' : same_map m m' -> same_map m' m.
Proof.
  induction 1 as [m m' P|k s s' m S IH|m m' m'' S IH S' IH'];
    [apply same_perm; now symmetry|now apply same_sub|now apply same_trans with m'].
Qed.
Lemma says_sub m m' ks v : (forall e, e ∈ m -> e ∈ m') -> says m ks v -> says m' ks v.
Proof. intros I S. inversion S; subst; [apply says_text|eapply says_map; [|eassumption]]; auto. Qed.
Lemma same_says_1 m m' : same_map m m' -> forall ks v, says m ks v -> says m' ks v.
Proof.
  induction 1 as [m m' P|k s s' m S IH|m m' m'' S IH S' IH']; intros ks v H.
  - eapply says_sub; [|exact H]. intros e. now rewrite P.
  - inversion H as [? k0 v0 M|? k0 s0 ks0 v0 M Q]; subst.
    + apply says_text. apply elem_of_cons in M as [M|M]; [discriminate|now right].
    + apply elem_of_cons in M as [[= -> ->]|M]; [eapply says_map; [left|auto]|eapply says_map; [right; exact M|exact Q]].
  - auto.
Qed.
Lemma same_says m m' ks v : same_map m m' -> says m ks v <-> says m' ks v.
Proof. intros S. split; apply same_says_1; [exact S|now apply same_sym]. Qed.
Lemma same_keys m m' : same_map m m' -> m.*1 ≡ₚ m'.*1.
Proof.
  induction 1 as [m m' P|k s s' m S IH|m m' m'' S IH S' IH']; [now rewrite P|reflexivity|now rewrite IH].
Qed.
Lemma same_plain m m' : same_map m m' -> plain m -> plain m'.
Proof.
  induction 1 as [m m' P|k s s' m S IH|m m' m'' S IH S' IH']; intros Q.
  - eapply plain_sub; [exact Q|]. intros e. now rewrite P.
  - apply plain_inv in Q as [T M]. constructor; intros k0 v0 H; apply elem_of_cons in H as [H|H].
    + discriminate.
    + apply T. now right.
    + injection H as -> ->. destruct (M k s) as (A & B & C); [left|auto].
    + apply M. now right.
  - auto.
Qed.
Lemma same_no_header m m' : same_map m m' -> no_header_inside m -> no_header_inside m'.
Proof.
  induction 1 as [m m' P|k s s' m S IH|m m' m'' S IH S' IH']; intros Q.
  - eapply no_header_sub; [exact Q|]. intros e. now rewrite P.
  - pose proof (no_header_inv _ Q) as N. constructor; intros k0 v0 H; apply elem_of_cons in H as [H|H].
    + injection H as -> ->. destruct (N k s) as (A & B); [left|]. split; [|auto].
      rewrite <- !(same_keys _ _ S). exact A.
    + apply (N k0). now right.
  - auto.
Qed.
Lemma says_lget m k v : NoDup m.*1 -> says m [k] v -> lget k m = Some (LText v).
Proof.
  intros D S. inversion S as [? ? ? M|? ? ? ? ? ? Q]; subst; [now apply lget_in|]. inversion Q.
Qed.

(** *** What the logger prints *)
Lemma lput_elem k v m e : e ∈ lput k v m -> e = (k, v) \/ e ∈ m.
Proof.
  induction m as [|[x w] m IH]; cbn [lput].
  - rewrite elem_of_list_singleton. auto.
  - destruct (String.eqb_spec k x) as [->|N]; rewrite !elem_of_cons; [tauto|]. intros [->|H]; [auto|]. apply IH in H. tauto.
Qed.
Lemma lget_elem k v m : lget k m = Some v -> (k, v) ∈ m.
Proof.
  induction m as [|[x w] m IH]; cbn [lget]; [discriminate|]. destruct (String.eqb_spec k x) as [->|N].
  - intros [= ->]. left.
  - intros H. right. auto.
Qed.
Lemma plain_nil : plain [].
Proof. constructor; intros k v H; now apply elem_of_nil in H. Qed.
Lemma plain_insert ks v m : Forall (fun k => key_like k /\ one_line k) ks -> one_line v -> plain m -> plain (insert ks v m).
Proof.
  intros F V. revert m. induction ks as [|k ks IH]; intros m P; [exact P|]. apply Forall_cons in F as [[K L] F].
  destruct ks as [|x ks].
  - cbn [insert]. apply plain_inv in P as [T M]. clear IH.
    constructor; intros k0 v0 H; apply lput_elem in H as [H|H]; [|exact (T k0 v0 H)|discriminate H|exact (M k0 v0 H)].
    injection H as -> ->. split; [exact K|]. split; [exact L|exact V].
  - rewrite insert_cons. pose proof P as P0. apply plain_inv in P as [T M].
    constructor; intros k0 v0 H; apply lput_elem in H as [H|H]; [discriminate H|exact (T k0 v0 H)| |exact (M k0 v0 H)].
    injection H as -> ->. split; [exact K|]. split; [exact L|]. apply IH; [exact F|].
    destruct (lget k m) as [[s|s]|] eqn:G; [apply plain_nil| |apply plain_nil]. apply lget_elem in G. now apply (M k).
Qed.
Lemma structure_plain info : (forall e, e ∈ info -> readable e) -> plain (structure_logs info).
Proof.
  induction info as [|e info IH] using rev_ind; intros H; [apply plain_nil|]. rewrite structure_snoc.
  destruct (H e) as [V K]; [rewrite elem_of_app; right; left|]. apply plain_insert; [|exact V|].
  - apply K. now apply parts_split.
  - apply IH. intros x X. apply H. rewrite elem_of_app. auto.
Qed.

Inductive node : lmap -> list string -> Prop :=
| node_here m k v : (k, v) ∈ m -> node m [k]
| node_in m k s p : (k, LMap s) ∈ m -> node s p -> node m (k :: p).
Lemma node_insert ks v m p : node (insert ks v m) p -> node m p \/ p `prefix_of` ks.
Proof.
  revert m p. induction ks as [|k ks IH]; intros m p N; [now left|]. destruct ks as [|x ks].
  - cbn [insert] in N. inversion N as [? k0 v0 M|? k0 s0 p0 M Q]; subst; apply lput_elem in M as [M|M].
    + injection M as -> ->. right. now exists [].
    + left. now apply node_here with v0.
    + discriminate.
    + left. now apply node_in with s0.
  - rewrite insert_cons in N. inversion N as [? k0 v0 M|? k0 s0 p0 M Q]; subst; apply lput_elem in M as [M|M].
    + injection M as -> ->. right. now exists (x :: ks).
    + left. now apply node_here with v0.
    + injection M as -> ->. apply IH in Q as [Q|Q]; [|right; now apply prefix_cons].
      destruct (lget k m) as [[s|s]|] eqn:G; [inversion Q as [? ? ? H|? ? ? ? H]; now apply elem_of_nil in H| |
        inversion Q as [? ? ? H|? ? ? ? H]; now apply elem_of_nil in H].
      apply lget_elem in G. left. now apply node_in with s.
    + left. now apply node_in with s0.
Qed.
Lemma structure_node info p : node (structure_logs info) p -> exists e, e ∈ info /\ p `prefix_of` split "." e.1.
Proof.
  induction info as [|e info IH] using rev_ind; intros N.
  - inversion N as [? ? ? H|? ? ? ? H]; now apply elem_of_nil in H.
  - rewrite structure_snoc in N. apply node_insert in N as [N|N].
    + destruct (IH N) as (e' & M & Q). exists e'. rewrite elem_of_app. auto.
    + exists e. rewrite elem_of_app, elem_of_list_singleton. auto.
Qed.
Lemma node_no_header m : (forall p, p <> [] -> ~ (node m (p ++ ["@Timestamp"]) /\ node m (p ++ ["Message"]))) -> no_header_inside m.
Proof.
  enough (G : forall v, forall m, v = LMap m ->
    (forall p, p <> [] -> ~ (node m (p ++ ["@Timestamp"]) /\ node m (p ++ ["Message"]))) -> no_header_inside m).
  { exact (G (LMap m) m eq_refl). }
  clear m. intros v. induction v as [s|m IH] using lval_rect'; intros m' [= <-] N. constructor. intros k s H. split.
  - intros [A B]. apply elem_of_list_fmap in A as ([? a] & E1 & A), B as ([? b] & E2 & B). cbn in E1, E2. subst.
    apply (N [k]); [discriminate|]. split; (eapply node_in; [exact H|]); eapply node_here; eassumption.
  - apply (IH k (LMap s) H s eq_refl). intros p _ [A B]. apply (N (k :: p)); [discriminate|].
    split; (eapply node_in; [exact H|]); assumption.
Qed.

Lemma text_info_entries c now msg info :
  text_info c now msg info = (info ++ context_entries c ++ [("Message", msg); ("@Timestamp", now)])%list.
Proof.
  unfold text_info, context_entries. destruct (c_channel c), (c_correlation c), (c_message c); reflexivity.
Qed.
Lemma context_entries_keys c e : e ∈ context_entries c -> e.1 ∈ ["Channel"; "CorrelationID"; "Content"].
Proof.
  unfold context_entries. destruct (c_channel c), (c_correlation c), (c_message c); cbn;
    rewrite ?elem_of_cons, ?elem_of_nil; intros H; intuition (subst; auto).
Qed.
Lemma context_entries_values c e : e ∈ context_entries c ->
  c_channel c = Some e.2 \/ c_correlation c = Some e.2 \/ c_message c = Some e.2.
Proof.
  unfold context_entries. destruct (c_channel c), (c_correlation c), (c_message c); cbn;
    rewrite ?elem_of_cons, ?elem_of_nil; intros H; intuition (subst; auto).
Qed.
Lemma own_keys_readable k v : k ∈ text_keys -> one_line v -> readable (k, v).
Proof.
  intros K V. split; [exact V|]. intros ks P%parts_split. cbn in P. subst.
  unfold text_keys in K. rewrite !elem_of_cons, elem_of_nil in K.
  repeat (destruct K as [->|K]; [vm_compute split; constructor; [|constructor];
    split; [split; [apply (bool_decide_unpack _); vm_compute; exact I|intros r; discriminate]|apply (bool_decide_unpack _); vm_compute; exact I]|]).
  destruct K.
Qed.

Definition not_header (e : string * lval) : bool :=
  negb (true && (String.eqb e.1 "@Timestamp" || String.eqb e.1 "Message"))%bool.
Lemma filter_elem e m : e ∈ List.filter not_header m <-> e ∈ m /\ e.1 <> "@Timestamp" /\ e.1 <> "Message".
Proof.
  rewrite !elem_of_list_In, filter_In. unfold not_header. cbn [andb].
  destruct (String.eqb_spec e.1 "@Timestamp"), (String.eqb_spec e.1 "Message"); cbn; intuition congruence.
Qed.
Lemma says_filter m ks v : says (List.filter not_header m) ks v <->
  says m ks v /\ head ks <> Some "@Timestamp" /\ head ks <> Some "Message".
Proof.
  split.
  - intros S. inversion S as [? k ? M|? k s ? ? M Q]; subst; apply filter_elem in M as (M & A & B); cbn in A, B.
    + split; [now apply says_text|]. cbn. split; congruence.
    + split; [now apply says_map with s|]. cbn. split; congruence.
  - intros (S & A & B). inversion S as [? k ? M|? k s ? ? M Q]; subst; cbn in A, B;
      [apply says_text|apply says_map with s; [|exact Q]]; apply filter_elem; cbn; split; auto; split; congruence.
Qed.

Lemma text_reads show order c now msg info : (forall m, same_map m (order m)) ->
  (forall e, e ∈ info -> readable e) ->
  (forall v, c_channel c = Some v \/ c_correlation c = Some v \/ c_message c = Some v -> one_line v) ->
  one_line now -> one_line msg -> ~ nested_header info.*1 ->
  exists rest, Forall one_line rest /\
    text_line show order c now msg info = text_of (("> " +:+ now +:+ ": " +:+ msg) :: rest) /\
    forall k ks v, parts_of k ks -> reads 1 rest ks v <->
      ~ clash "Message" k /\ ~ clash "@Timestamp" k /\
      exists pre post, (info ++ context_entries c)%list = (pre ++ (k, v) :: post)%list /\ forall e, e ∈ post -> ~ clash e.1 k.
Proof.
  intros O RI RC LN LM NH.
  assert (PL : plain (text_map c now msg info)).
  { apply structure_plain. intros e. rewrite text_info_entries, !elem_of_app. intros [H|[H|H]]; [now apply RI| |].
    - destruct e as [k v]. apply own_keys_readable.
      + apply context_entries_keys in H. cbn in H. unfold text_keys. rewrite !elem_of_cons, elem_of_nil in H. rewrite !elem_of_cons, elem_of_nil. tauto.
      + apply RC. now apply (context_entries_values c (k, v)).
    - rewrite !elem_of_cons, elem_of_nil in H. destruct H as [->|[->|H]]; [..|destruct H]; apply own_keys_readable; auto;
        unfold text_keys; rewrite !elem_of_cons, elem_of_nil; tauto. }
  assert (NI : no_header_inside (text_map c now msg info)).
  { apply node_no_header. intros p Np [A B]. apply NH. apply structure_node in A as (a & A & (q & EA)), B as (b & B & (r & EB)).
    assert (G : forall x e t, e ∈ text_info c now msg info -> split "." e.1 = ((p ++ [x]) ++ t)%list -> e ∈ info).
    { intros x e t H E. rewrite text_info_entries, !elem_of_app in H. destruct H as [H|H]; [exact H|].
      assert (K : e.1 ∈ text_keys).
      { unfold text_keys. destruct H as [H|H]; [apply context_entries_keys in H|].
        - rewrite !elem_of_cons, elem_of_nil in H. rewrite !elem_of_cons, elem_of_nil. tauto.
        - rewrite !elem_of_cons, elem_of_nil in H. rewrite !elem_of_cons, elem_of_nil. destruct H as [->|[->|H]]; cbn; tauto. }
      assert (L : List.length (split "." e.1) = 1%nat).
      { unfold text_keys in K. rewrite !elem_of_cons, elem_of_nil in K.
        repeat (destruct K as [->|K]; [reflexivity|]). destruct K. }
      rewrite E, !app_length in L. destruct p; [congruence|]. cbn in L. lia. }
    exists p, q, r, a.1, b.1. split; [exact Np|].
    split; [apply elem_of_list_fmap; exists a; split; [reflexivity|eapply G; eassumption]|].
    split; [apply elem_of_list_fmap; exists b; split; [reflexivity|eapply G; eassumption]|].
    split; apply parts_split; rewrite ?EA, ?EB, <- app_assoc; reflexivity. }
  set (m := text_map c now msg info) in *.
  pose proof (O m) as SM. set (m' := order m) in *.
  assert (PM : parts_of "Message" ["Message"]) by (apply parts_split; reflexivity).
  assert (PT : parts_of "@Timestamp" ["@Timestamp"]) by (apply parts_split; reflexivity).
  assert (NC : ~ clash "@Timestamp" "Message") by (apply clashb_false; vm_compute; reflexivity).
  assert (SMsg : says m ["Message"] msg).
  { apply (structure_says _ "Message" _ _ PM). rewrite text_info_entries. exists (info ++ context_entries c)%list, [("@Timestamp", now)].
    split; [now rewrite <- app_assoc|]. intros kv ->%elem_of_list_singleton. exact NC. }
  assert (STs : says m ["@Timestamp"] now).
  { apply (structure_says _ "@Timestamp" _ _ PT). rewrite text_info_entries. exists (info ++ context_entries c ++ [("Message", msg)])%list, [].
    split; [now rewrite <- !app_assoc|]. intros kv H%elem_of_nil. destruct H. }
  assert (FU : functional m) by apply structure_functional.
  assert (D' : NoDup m'.*1). { rewrite <- (same_keys _ _ SM). apply (functional_inv _ FU). }
  assert (GM : lget "Message" m' = Some (LText msg)) by (apply says_lget; [exact D'|]; now apply (same_says m)).
  assert (GT : lget "@Timestamp" m' = Some (LText now)) by (apply says_lget; [exact D'|]; now apply (same_says m)).
  assert (PL' := same_plain _ _ SM PL). assert (NI' := same_no_header _ _ SM NI).
  exists (mlines 1 (List.filter not_header m')). split.
  { apply mlines_one_line. eapply plain_sub; [exact PL'|]. intros e H%filter_elem. apply H. }
  split.
  { unfold text_line. fold m m'. unfold humanize, headed, header. rewrite GT, GM.
    rewrite entries_lines by exact NI'. cbn [margin shown text_of foldr]. unfold line_text. rewrite !sapp_assoc. reflexivity. }
  intros k ks v P. rewrite reads_iff.
  2:{ eapply plain_sub; [exact PL'|]. intros e H%filter_elem. apply H. }
  rewrite says_filter, <- (same_says m m' _ _ SM). unfold m, text_map. rewrite (structure_says _ k ks v P), text_info_entries.
  split.
  - intros ((pre & post & E & C) & A & B). rewrite app_assoc in E.
    destruct post as [|y post _] using rev_ind.
    { change [("Message", msg); ("@Timestamp", now)] with ([("Message", msg)] ++ [("@Timestamp", now)])%list in E.
      rewrite app_assoc in E. apply app_inj_tail in E as [_ [= <- _]]. apply parts_split in P as ->. now contradiction A. }
    change [("Message", msg); ("@Timestamp", now)] with ([("Message", msg)] ++ [("@Timestamp", now)])%list in E.
    rewrite app_assoc, app_comm_cons, app_assoc in E. apply app_inj_tail in E as [E <-].
    destruct post as [|z post _] using rev_ind.
    { apply app_inj_tail in E as [_ [= <- _]]. apply parts_split in P as ->. now contradiction B. }
    rewrite app_comm_cons, app_assoc in E. apply app_inj_tail in E as [E <-].
    split; [apply (C ("Message", msg)); rewrite !elem_of_app; left; right; left|].
    split; [apply (C ("@Timestamp", now)); rewrite !elem_of_app; right; left|].
    exists pre, post. split; [exact E|]. intros e H. apply C. rewrite !elem_of_app. auto.
  - intros (A & B & pre & post & E & C). split.
    + exists pre, (post ++ [("Message", msg); ("@Timestamp", now)])%list. split; [now rewrite app_assoc, E, <- app_assoc|].
      intros e. rewrite elem_of_app, !elem_of_cons, elem_of_nil. intros [H|[->|[->|H]]]; [now apply C|exact A|exact B|destruct H].
    + destruct ks as [|k0 ks]; [destruct P as [[] _]; reflexivity|]. cbn. split; intros [= ->].
      * apply B. exists ["@Timestamp"], ("@Timestamp" :: ks). split; [exact PT|]. split; [exact P|]. left. now exists ks.
      * apply A. exists ["Message"], ("Message" :: ks). split; [exact PM|]. split; [exact P|]. left. now exists ks.
Qed.

(** A text has one division into lines. *)
Lemma line_inj a b x y : one_line a -> one_line b -> line_text a +:+ x = line_text b +:+ y -> a = b /\ x = y.
Proof.
  unfold line_text, one_line. revert b. induction a as [|c a IH]; intros [|c' b] A B E.
  - injection E. auto.
  - change (String "010" x = String c' ((b +:+ String "010" "") +:+ y)) in E. injection E as <- _. destruct B. cbn. left.
  - change (String c ((a +:+ String "010" "") +:+ x) = String "010" y) in E. injection E as -> _. destruct A. cbn. left.
  - change (String c ((a +:+ String "010" "") +:+ x) = String c' ((b +:+ String "010" "") +:+ y)) in E. injection E as <- E.
    cbn in A, B. rewrite elem_of_cons in A, B. destruct (IH b) as [-> ->]; [tauto|tauto|exact E|auto].
Qed.
Lemma text_of_inj a b : Forall one_line a -> Forall one_line b -> text_of a = text_of b -> a = b.
Proof.
  assert (N : forall l r, "" <> line_text l +:+ r) by (intros [|? ?] r; discriminate).
  revert b. induction a as [|l a IH]; intros [|l' b] A B E; [reflexivity|now apply N in E|symmetry in E; now apply N in E|].
  apply Forall_cons in A as [A1 A2], B as [B1 B2].
  change (line_text l +:+ text_of a = line_text l' +:+ text_of b) in E. apply line_inj in E as [-> E]; [|exact A1|exact B1].
  f_equal. now apply IH.
Qed.
