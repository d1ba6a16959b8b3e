(** C37-C39: merging of constraints, JSON and validation tags. *)
From stdpp Require Import list strings.
From Coq Require Import NArith Ascii String ZArith.
From Verif.Model Require Import Validations.
From Verif.Spec Require Import ValidationsSpec.
From Verif.Proof Require Import ValidationsProof.
Local Open Scope string_scope.

(** ** C37 *)

(** Constraint by constraint: afterwards it has the referenced value if that is set, its own
    otherwise; so it is set when either is. *)
Theorem C37_merge_partial {F T} (is0 : F -> bool) k (v n : validations F T) :
  get is0 k (merge is0 v n) = match get is0 k n with Some x => Some x | None => get is0 k v end.
Proof. exact (merge_get is0 k v n). Qed.
Print Assumptions C37_merge_partial.

Theorem C37_idempotent {F T} (is0 : F -> bool) (v n : validations F T) :
  merge is0 v v = v /\ merge is0 (merge is0 v n) n = merge is0 v n.
Proof. split; [apply merge_self|]. rewrite merge_assoc. now rewrite merge_self. Qed.
Print Assumptions C37_idempotent.

Theorem C37_associative {F T} (is0 : F -> bool) (a b c : validations F T) :
  merge is0 (merge is0 a b) c = merge is0 a (merge is0 b c).
Proof. exact (merge_assoc is0 a b c). Qed.
Print Assumptions C37_associative.

(** Missing from the claim: the lists are constraints of several properties, and are replaced as a
    whole: a property required by the schema is no longer required once the reference requires
    another one. *)
Theorem C37_required_lost_refuted {F T} (is0 : F -> bool) (x : F) :
  exists (v n : validations F T) p,
    p ∈ vRequired v /\ p ∉ vRequired (merge is0 v n).
Proof.
  set (mk r := mkValidations F T r [] x x x x 0 0 "" 0 0 false 0 0 [] None [] [] [] false None).
  exists (mk ["a"]), (mk ["b"]), "a". cbn. split; [left|].
  apply (bool_decide_unpack _). vm_compute. exact I.
Qed.
Print Assumptions C37_required_lost_refuted.

(** Nor does the referenced value win when it is zero: a document declaring "minimum: 0" is
    merged into one declaring "minimum: 5", and 5 remains. *)
Theorem C37_zero_loses_refuted {T} :
  exists (d n : declared Z),
    dMinimum n = Some 0%Z /\
    vMinimum (merge (Z.eqb 0) (decode 0%Z d : validations Z T) (decode 0%Z n)) = 5%Z.
Proof.
  set (mk m := mkDeclared Z None None m None None None false None None false).
  exists (mk (Some 5%Z)), (mk (Some 0%Z)). split; reflexivity.
Qed.
Print Assumptions C37_zero_loses_refuted.

(** Exactly: the properties required by the schema stay required if and only if the reference requires none, or all of them. *)
Theorem C37_required_exact {F T} (is0 : F -> bool) (v n : validations F T) :
  (forall p, p ∈ vRequired v -> p ∈ vRequired (merge is0 v n)) <-> vRequired n = [] \/ (forall p, p ∈ vRequired v -> p ∈ vRequired n).
Proof.
  cbn. unfold over_list. destruct (vRequired n) as [|x r]; split.
  - auto.
  - intros _ p H. exact H.
  - intros H. right. exact H.
  - intros [[=]|H]. exact H.
Qed.
Print Assumptions C37_required_exact.

(** Exactly: a declared minimum or maximum is merged as asked, the one of the reference winning, if and only if the reference does not declare
    zero over another one. *)
Theorem C37_bound_exact {F T} (zero : F) (is0 : F -> bool) (d n : declared F) :
  (forall x, is0 x = true <-> x = zero) ->
  let wanted (a b : option F) := default zero (match b with Some x => Some x | None => a end) in
  (vMinimum (merge is0 (decode zero d : validations F T) (decode zero n)) = wanted (dMinimum d) (dMinimum n) <->
     ~ (dMinimum n = Some zero /\ exists x, dMinimum d = Some x /\ x <> zero)) /\
  (vMaximum (merge is0 (decode zero d : validations F T) (decode zero n)) = wanted (dMaximum d) (dMaximum n) <->
     ~ (dMaximum n = Some zero /\ exists x, dMaximum d = Some x /\ x <> zero)).
Proof.
  intros Hz wanted. assert (forall a b : option F, (if is0 (default zero b) then default zero a else default zero b) = wanted a b <->
    ~ (b = Some zero /\ exists x, a = Some x /\ x <> zero)) as H.
  { assert (is0 zero = true) as Z by (by apply Hz). intros a b. unfold wanted. destruct b as [y|]; cbn.
    - destruct (is0 y) eqn:E.
      + apply Hz in E as ->. destruct a as [x|]; cbn; [|split; [intros _ (_ & ? & [=] & _)|done]].
        split; [intros -> (_ & ? & [= <-] & N); by apply N|]. intros N.
        destruct (is0 x) eqn:Ex; [by apply Hz|]. destruct N. split; [done|]. exists x. split; [done|]. intros ->. congruence.
      + split; [|done]. intros _ ([= ->] & _). congruence.
    - rewrite Z. split; [intros _ ([=] & _)|]. intros _. by destruct a. }
  cbn [merge decode vMinimum vMaximum]. unfold over_float. split; [rewrite <- (H (dMinimum d) (dMinimum n)); destruct (is0 (default zero (dMinimum n)))|
    rewrite <- (H (dMaximum d) (dMaximum n)); destruct (is0 (default zero (dMaximum n)))]; reflexivity.
Qed.
Print Assumptions C37_bound_exact.
Example C37_bound_ex : (forall x, (0 =? x)%Z = true <-> x = 0%Z).
Proof. intros x. rewrite Z.eqb_eq. split; congruence. Qed.

Example C37_example :
  let mk r mx e q := mkValidations Z nat r [] mx 0%Z 0%Z 0%Z 0 3 "" 0 0 false 0 0 e None [] [] [] q None in
  merge (Z.eqb 0) (mk ["a"] 7%Z [JString "x"] false) (mk [] 9%Z [] true) =
  mk ["a"] 9%Z [JString "x"] true.
Proof. reflexivity. Qed.

(** ** C38 *)

(** For a property whose converted key is plain text, encoding/json sees omitempty exactly when
    x-omitempty says so, or by default when the property is optional. *)
Theorem C38_omitempty {F T} is0 (show : F -> string) of_uint convert (v : validations F T) field ptr ty :
  plain (convert field) ->
  json_omitempty (field_tag is0 show of_uint convert v field ptr ty) = true <->
  match vShouldOmitEmpty v with
  | Some b => b = true
  | None => vIsRequired v = false
  end.
Proof.
  intros H. destruct (json_fields is0 show of_uint convert v field ptr ty "" H) as [-> _].
  unfold should_add_omit_empty. destruct (vIsRequired v), (vShouldOmitEmpty v) as [[]|]; intuition congruence.
Qed.
Print Assumptions C38_omitempty.

(** And the key is the converted property key, if encoding/json takes it as a name and it is not
    the special name "-" alone. *)
Theorem C38_key_partial {F T} is0 (show : F -> string) of_uint convert (v : validations F T) field ptr ty go :
  plain (convert field) -> json_name_ok (convert field) = true ->
  (convert field = "-" -> json_omitempty (field_tag is0 show of_uint convert v field ptr ty) = true) ->
  json_key go (field_tag is0 show of_uint convert v field ptr ty) = Some (convert field).
Proof.
  intros H Hn Hd. destruct (json_fields is0 show of_uint convert v field ptr ty go H) as [E ->].
  rewrite E in Hd. rewrite Hn. destruct (String.eqb_spec (convert field) "-") as [D|_]; [|reflexivity].
  rewrite (Hd D). reflexivity.
Qed.
Print Assumptions C38_key_partial.

(** Exactly: for a field with a Go name of letters and digits ([json_name_ok]), plain keys are kept if and only if encoding/json takes them as a
    name and "-" is optional. *)
Theorem C38_key_exact {F T} is0 (show : F -> string) of_uint convert (v : validations F T) field ptr ty go :
  plain (convert field) -> json_name_ok go = true ->
  json_key go (field_tag is0 show of_uint convert v field ptr ty) = Some (convert field) <->
  json_name_ok (convert field) = true /\
  (convert field = "-" -> match vShouldOmitEmpty v with Some b => b = true | None => vIsRequired v = false end).
Proof.
  intros H Hg. rewrite <- (C38_omitempty is0 show of_uint convert v field ptr ty H).
  destruct (json_fields is0 show of_uint convert v field ptr ty go H) as [E ->]. rewrite E.
  assert (N : Some (if json_name_ok (convert field) then convert field else go) = Some (convert field) <-> json_name_ok (convert field) = true).
  { destruct (json_name_ok (convert field)) eqn:N; [tauto|]. split; [intros [= Q]; congruence|discriminate]. }
  destruct (String.eqb_spec (convert field) "-") as [D|D].
  - destruct (should_add_omit_empty v); cbn [andb negb]; [rewrite N; tauto|]. split; [discriminate|]. intros [_ Q]. discriminate (Q D).
  - cbn [andb]. rewrite N. tauto.
Qed.
Print Assumptions C38_key_exact.
Example C38_key_exact_ex :
  json_name_ok "Field" = true /\ plain "-" /\ json_key "Field" (field_tag (T := nat) (Z.eqb 0) (fun _ => "0") Z.of_N id
    (mkValidations Z nat [] [] 0%Z 0%Z 0%Z 0%Z 0 0 "" 0 0 false 0 0 [] None [] [] [] false None) "-" true "string") = Some "-".
Proof. vm_compute. repeat split. Qed.

Definition ex_v (required : bool) : validations Z nat :=
  mkValidations Z nat [] [] 0%Z 0%Z 0%Z 0%Z 0 0 "" 0 0 false 0 0 [] None [] [] [] required None.
Definition ex_show (x : Z) : string := if Z.eqb x 5 then "5" else "1.5".
Definition ex_tag := field_tag (T := nat) (Z.eqb 0) ex_show Z.of_N id.

(** Missing: with other keys the field gets another key or none: a required property "-" is never
    serialised, "a,b" and a key with a double quote are serialised as "a", "a'b" is serialised under
    the Go name of the field. *)
Theorem C38_key_refuted :
  json_key "Field" (ex_tag (ex_v true) "-" false "string") = None /\
  json_key "AB" (ex_tag (ex_v true) "a,b" false "string") = Some "a" /\
  json_key "AB" (ex_tag (ex_v true) "a'b" false "string") = Some "AB" /\
  json_key "A" (ex_tag (ex_v true) (String "a" (String dquote "b")) false "string") = Some "a".
Proof. vm_compute. repeat split. Qed.
Print Assumptions C38_key_refuted.

Example C38_example :
  plain "created_at" /\ json_name_ok "created_at" = true /\
  ex_tag (ex_v false) "created_at" true "string" =
    "json:" ++ quote ++ "created_at,omitempty" ++ quote /\
  json_key "CreatedAt" (ex_tag (ex_v false) "created_at" true "string") = Some "created_at" /\
  json_omitempty (ex_tag (ex_v false) "created_at" true "string") = true /\
  json_omitempty (ex_tag (ex_v true) "created_at" true "string") = false.
Proof. vm_compute. repeat split. Qed.

(** ** C39 *)

(** For expressible documents, when a required field is a pointer or an array: the validator reads
    exactly the directives of the declared constraints, after omitempty if the field is optional. *)
Theorem C39_directives_partial {F T} is0 (show : F -> string) of_uint convert (d : declared F) zero ptr ty field :
  is0 zero = true -> is0 (of_uint 0%N) = true -> (forall x, plain (show x)) -> plain (convert field) ->
  expressible is0 of_uint d ->
  (dRequired d = true -> ptr = true \/ ty = "array") ->
  exists rs,
    read_validate (field_tag is0 show of_uint convert (decode zero d : validations F T) field ptr ty) = Some rs /\
    Forall2 (meaning show) (wanted_all of_uint d) rs.
Proof. exact (validate_read is0 show of_uint convert d zero ptr ty field). Qed.
Print Assumptions C39_directives_partial.

(** Whatever the bounds, the enumeration and the kind of field: exactly the directives of what is left of the document are read ([said]: without
    zero bounds, empty enumerations and the requirement of fields that cannot be nil), after omitempty if the field is optional. *)
Theorem C39_says {F T} is0 (show : F -> string) of_uint convert (d : declared F) zero ptr ty field :
  is0 zero = true -> is0 (of_uint 0%N) = true -> (forall x, plain (show x)) -> plain (convert field) -> texts_ok d ->
  let ws := wanted of_uint (said is0 of_uint d (ptr || String.eqb ty "array")) in
  exists rs,
    read_validate (field_tag is0 show of_uint convert (decode zero d : validations F T) field ptr ty) = Some rs /\
    Forall2 (meaning show) (match ws with [] => [] | _ => if dRequired d then ws else DOmitEmpty :: ws end) rs.
Proof. intros Hz Hu Hs Hc Ht ws. apply read_of_reads; [exact Hc|]. now apply said_reads. Qed.
Print Assumptions C39_says.

(** So, for documents with plain texts, the validator reads what the document declares if and only if no bound is zero, the enumeration is not
    empty, and a required field is a pointer or an array. *)
Theorem C39_exact {F T} is0 (show : F -> string) of_uint convert (d : declared F) zero ptr ty field :
  is0 zero = true -> is0 (of_uint 0%N) = true -> (forall x, plain (show x)) -> plain (convert field) -> texts_ok d ->
  (exists rs,
     read_validate (field_tag is0 show of_uint convert (decode zero d : validations F T) field ptr ty) = Some rs /\
     Forall2 (meaning show) (wanted_all of_uint d) rs) <->
  expressible is0 of_uint d /\ (dRequired d = true -> ptr = true \/ ty = "array").
Proof. exact (validate_exact is0 show of_uint convert d zero ptr ty field). Qed.
Print Assumptions C39_exact.

(** A required string without a pointer, minimum 0 and maxLength 5: only the length is left. *)
Example C39_says_ex :
  let d := mkDeclared Z None (Some 5%N) (Some 0%Z) None None None false (Some []) None true in
  texts_ok d /\ wanted Z.of_N (said (Z.eqb 0) Z.of_N d (false || String.eqb "string" "array")) = [DMax 5%Z] /\
  read_validate (ex_tag (decode 0%Z d) "n" false "string") = Some [("max", Some "5")].
Proof. cbn zeta. split; [split; [constructor|exact I]|]. split; reflexivity. Qed.

(** Missing: zero bounds are dropped ("minimum: 0" allows negative values), *)
Theorem C39_zero_bound_refuted :
  let d := mkDeclared Z None None (Some 0%Z) None None None false None None false in
  wanted_all Z.of_N d <> [] /\
  read_validate (ex_tag (decode 0%Z d) "n" true "integer") = Some [].
Proof. split; [discriminate|reflexivity]. Qed.
Print Assumptions C39_zero_bound_refuted.

(** a required field that is neither a pointer nor an array is not marked required, *)
Theorem C39_required_refuted :
  let d := mkDeclared Z None None None None None None false None None true in
  wanted_all Z.of_N d = [DRequired] /\
  read_validate (ex_tag (decode 0%Z d) "n" false "string") = Some [].
Proof. split; reflexivity. Qed.
Print Assumptions C39_required_refuted.

(** and separators in texts make other directives: the constant "a,required" is read as the
    constant "a" and a required field. *)
Theorem C39_separator_refuted :
  let d := mkDeclared Z None None None None None None false None (Some (JString "a,required")) false in
  read_validate (ex_tag (decode 0%Z d) "n" false "string") =
    Some [("omitempty", None); ("eq", Some "a"); ("required", None)].
Proof. reflexivity. Qed.
Print Assumptions C39_separator_refuted.

Example C39_example :
  let d := mkDeclared Z (Some 5%N) None None (Some 7%Z) None None true
             (Some [JString "on hold"; JString "done"]) (Some (JString "x=y")) false in
  expressible (Z.eqb 0) Z.of_N d /\ (forall x, plain (ex_show x)) /\
  ex_tag (decode 0%Z d) "state" true "string" =
    "json:" ++ quote ++ "state,omitempty" ++ quote ++
    " validate:" ++ quote ++ "omitempty,min=5,lte=1.5,unique,oneof='on hold' 'done',eq=x=y" ++ quote /\
  wanted_all Z.of_N d =
    [DOmitEmpty; DMin 5%Z; DLte 7%Z; DUnique; DOneOf ["on hold"; "done"]; DEq "x=y"].
Proof.
  cbn zeta. split; [|split; [|split]].
  - unfold expressible. cbn. repeat split; try congruence; repeat constructor.
  - intros x. unfold ex_show. destruct (Z.eqb x 5); reflexivity.
  - vm_compute. reflexivity.
  - reflexivity.
Qed.
