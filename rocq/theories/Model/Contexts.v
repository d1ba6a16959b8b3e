(** The values the generated controllers put in contexts, and who gets to see them.

    Modelled code: pkg/extensions/context.go; the context handling of
    pkg/codegen/generators/v3/templates/controller.tmpl:80-92, 143-527 and of
    v2/templates/controller.tmpl:80-92, 138-436 (the same, names apart);
    pkg/extensions/middlewares/logging.go:10-27; the contexts of
    pkg/extensions/versioning/wrapper.go:78-113 and broker_subscription.go:76-124. *)
From stdpp Require Import gmap strings.
From Verif.Model Require Import Middleware BrokerMessage Logs.

(** context.go:7-28. [KOther]: keys of the users of the library. *)
Inductive key := KVersion | KProvider | KChannel | KDirection | KMessage | KCorrelation | KOther (name : string).
#[global] Instance key_eq_dec : EqDecision key.
Proof. solve_decision. Defined.

(** Values are [any]: strings, broker messages (stored by the version wrapper), others. *)
Inductive cval := VStr (s : string) | VMsg (m : bmsg) | VOther (n : nat).
#[global] Instance cval_eq_dec : EqDecision cval.
Proof. solve_decision. Defined.

(** context.Background, context.WithValue; contexts are chains. Cancelling ([WithCancel]) does not
    concern values and is left out. *)
Inductive ctx := Background | With (c : ctx) (k : key) (v : cval).
#[global] Instance ctx_eq_dec : EqDecision ctx.
Proof. solve_decision. Defined.

(** [ctx.Value(key)]: the outermost value of the key, nil if there is none. *)
Fixpoint value (c : ctx) (k : key) : option cval :=
  match c with
  | Background => None
  | With c' k' v => if decide (k' = k) then Some v else value c' k
  end.
(** How many values a context holds on to. *)
Fixpoint size (c : ctx) : nat := match c with Background => 0 | With c' _ _ => S (size c') end.

(** The assertion [value.(string)]. *)
Definition as_string (v : cval) : option string := match v with VStr s => Some s | _ => None end.

(** context.go:36-47 [IfContextSetWith]: the value [fn] is run with, if it is run. [cast]: the type
    assertion. *)
Definition if_set_with {T} (cast : cval -> option T) (c : ctx) (k : key) : option T :=
  match value c k with Some v => cast v | None => None end.
(** context.go:50-56 [IfContextNotSetWith]: whether [fn] is run. *)
Definition if_not_set (c : ctx) (k : key) : bool := match value c k with None => true | Some _ => false end.
(** context.go:60-66 [IfContextValueEquals] at type string: whether [fn] is run. *)
Definition if_equals (c : ctx) (k : key) (expected : string) : bool :=
  match if_set_with as_string c k with Some s => String.eqb s expected | None => false end.

(** The two controllers, and [snakeCase .Prefix]. *)
Inductive side := App | User.
Definition provider (s : side) : string := match s with App => "app" | User => "user" end.

(** controller.tmpl:88-92 [add{{.Prefix}}ContextValues]; [ver] is [{{.Version}}]. *)
Definition add_values (ver : string) (s : side) (c : ctx) (addr : string) : ctx :=
  With (With (With c KVersion (VStr ver)) KProvider (VStr (provider s))) KChannel (VStr addr).

(** What happens during an operation, with the context each party is given: a line given to the
    logger; calls of the broker; a middleware; the handler of a subscription; the error handler; the
    function given to a version 2 WaitFor. [D]: messages of the user (decoded). *)
Inductive obs {D : Type} :=
| OLog (text : string) (c : ctx)
| OSubscribe (c : ctx) (addr : string)
| OCancel (c : ctx) (addr : string)
| OPublish (c : ctx) (addr : string) (m : bmsg)
| OMiddleware (i : nat) (c : ctx) (m : bmsg)
| OHandler (c : ctx) (d : D)
| OErrorHandler (c : ctx) (addr : string)
| OCallback (c : ctx).
Arguments obs : clear implicits.

Definition ctx_of {D} (o : obs D) : ctx :=
  match o with
  | OLog _ c | OSubscribe c _ | OCancel c _ | OPublish c _ _ | OMiddleware _ c _ | OHandler c _
  | OErrorHandler c _ | OCallback c => c
  end.

Section Operations.
  Context {D E : Type}.
  Variable show : bmsg -> string.            (** BrokerMessage.String (broker.go:84-96) *)
  Variable decode : bmsg -> D + E.           (** brokerMessageToX *)
  Variable encode : D -> bmsg + E.           (** toBrokerMessage *)
  Variable id_of : D -> string.              (** CorrelationID() *)
  Variable set_id : D -> string -> D.        (** SetCorrelationID() *)
  Variable err_text : E -> string.           (** Error() *)
  Variable ver : string.
  Variable s : side.
  Variable mws : list (middleware ctx bmsg E).
  Notation log := (list (obs D)).

  Definition conv (on_op : ctx -> bmsg -> log) (ev : event ctx bmsg) : log :=
    match ev with EStart i c m => [OMiddleware i c m] | EOp c m => on_op c m end.

  (** controller.tmpl:143-192: the subscription, [taken]: the address is subscribed already;
      [refused]: the broker's error. *)
  Definition reception_ctx (c : ctx) (addr : string) : ctx :=
    With (add_values ver s c addr) KDirection (VStr "reception").
  Definition subscribe (c : ctx) (addr : string) (taken : bool) (taken_text : string) (refused : option E) : log :=
    let c1 := reception_ctx c addr in
    if taken then [OLog taken_text c1]
    else OSubscribe c1 addr ::
         match refused with Some e => [OLog (err_text e) c1] | None => [OLog "Subscribed to channel" c1] end.

  (** 219-239: the callback of a reception; [declared]: the message declares a correlation
      identifier; [fn]: the handler of the user. *)
  Definition with_id (declared : bool) (c : ctx) (d : D) : ctx :=
    if declared then if decide (id_of d = "") then c else With c KCorrelation (VStr (id_of d)) else c.
  Definition callback (declared : bool) (fn : ctx -> D -> result E) : operation ctx bmsg E unit :=
    fun c m x => match decode m with
                 | inr e => (m, x, ROk (Some e))
                 | inl d => (m, x, fn (with_id declared c d) d)
                 end.
  Definition handled (declared : bool) (c : ctx) (m : bmsg) : log :=
    match decode m with inl d => [OHandler (with_id declared c d) d] | inr _ => [] end.
  (** 194-249: one message received. *)
  Definition listen (addr : string) (declared : bool) (fn : ctx -> D -> result E) (raw : bmsg) : log :=
    let c0 := With (reception_ctx Background addr) KMessage (VStr (show raw)) in
    let '(st, r) := execute mws (Some (callback declared fn)) c0 raw tt in
    flat_map (conv (handled declared)) (trace st) ++
    match r with ROk (Some e) => [OErrorHandler c0 addr] | _ => [] end.

  (** 287-311: [subscribed]: there is a subscription of the address. *)
  Definition unsubscribe (c : ctx) (addr : string) (subscribed : bool) : log :=
    if subscribed then
      let c1 := add_values ver s c addr in
      [OCancel c1 addr; OLog "Unsubscribed from channel" c1]
    else [].

  (** 316-372: [reply_of]: the operation is a reply; [fresh]: the identifier made by uuid.New;
      [published]: the broker's answer. The second result is the message as sent, if it came so far. *)
  Definition publication_ctx (c : ctx) (addr : string) (declared : bool) (d : D) : ctx :=
    let c1 := With (add_values ver s c addr) KDirection (VStr "publication") in
    if declared then With c1 KCorrelation (VStr (id_of d)) else c1.
  Definition send (c : ctx) (addr : string) (declared reply_of : bool) (no_id : E) (fresh : string)
             (published : ctx -> bmsg -> result E) (d : D) : log * result E :=
    if declared && bool_decide (id_of d = "") && reply_of then ([OLog (err_text no_id) c], ROk (Some no_id))
    else
      let d' := if declared && bool_decide (id_of d = "") then set_id d fresh else d in
      match encode d' with
      | inr e => ([], ROk (Some e))
      | inl m =>
          let c1 := With (publication_ctx c addr declared d') KMessage (VStr (show m)) in
          let '(st, r) := execute mws (Some (fun c m (x : unit) => (m, x, published c m))) c1 m tt in
          (flat_map (conv (fun c m => [OPublish c addr m])) (trace st), r)
      end.

  (** 457-527: what the wait meets: a message, the closed channel, the end of the caller's context. *)
  Inductive input := IMessage (m : bmsg) | IClosed | IDone.
  (** [expected]: the identifier of the request, when its message declares one. The second result is
      the reply, an error, or neither (not the expected message); a panic of a middleware ends the
      call. *)
  Inductive waited := WReply (d : D) | WError (text : string) | WIgnored | WPanic.
  Definition wait_next (addr : string) (expected : option string) (i : input) : log * waited :=
    let c0 := With (add_values ver s Background addr) KDirection (VStr "wait-for") in
    let c1 := match expected with Some id => With c0 KCorrelation (VStr id) | None => c0 end in
    match i with
    | IClosed => ([OLog "Channel closed before getting message" c1], WError "subscription canceled")
    | IDone => ([OLog "Context done before getting message" c1], WError "context canceled")
    | IMessage raw =>
        let first := match expected with
                     | Some _ => match decode raw with inr e => [OLog (err_text e) c1] | inl _ => [] end
                     | None => []
                     end in
        let ours := match expected with
                    | Some id => String.eqb id (match decode raw with inl d => id_of d | inr _ => "" end)
                    | None => true
                    end in
        if ours then
          let c2 := With c1 KMessage (VStr (show raw)) in
          let '(st, r) := execute mws None c2 raw tt in
          (first ++ flat_map (conv (fun _ _ => [])) (trace st),
           match r with
           | RPanic => WPanic
           | ROk (Some e) => WError (err_text e)
           | ROk None => match decode (msg st) with inl d => WReply d | inr e => WError (err_text e) end
           end)
        else (first, WIgnored)
    end.

  (** 440-454: the loop, as far as the inputs go. *)
  Fixpoint wait_loop (c1 : ctx) (addr : string) (expected : option string) (ins : list input) : log :=
    match ins with
    | [] => []
    | i :: rest =>
        let '(l, w) := wait_next addr expected i in
        l ++ match w with
             | WReply _ | WPanic => []
             | WError t => OLog t c1 :: wait_loop c1 addr expected rest
             | WIgnored => wait_loop c1 addr expected rest
             end
    end.

  (** 375-455: a version 3 request on [addr], its answer being awaited on [raddr]. *)
  Definition request (c : ctx) (raddr addr : string) (refused : option E) (declared : bool) (no_id : E)
             (fresh fresh' : string) (published : ctx -> bmsg -> result E) (d : D) (ins : list input) : log :=
    let c1 := With (add_values ver s c raddr) KDirection (VStr "wait-for") in
    OSubscribe c1 raddr ::
    match refused with
    | Some e => [OLog (err_text e) c1]
    | None =>
        OLog "Subscribed to channel" c1 ::
        (let d' := if declared && bool_decide (id_of d = "") then set_id d fresh else d in
         let '(l, r) := send c1 addr declared false no_id fresh' published d' in
         l ++ match r with
              | ROk None => wait_loop c1 raddr (if declared then Some (id_of d') else None) ins
              | ROk (Some _) => [OLog "error happened when sending message" c1]
              | RPanic => []
              end) ++
        [OCancel c1 raddr; OLog "Unsubscribed from channel" c1]
    end.

  (** v2/templates/controller.tmpl:322-372: a version 2 WaitFor; [pub]: the answer of the function
      that publishes. *)
  Definition wait_for (c : ctx) (addr : string) (refused : option E) (pub : option E) (d : D) (ins : list input) : log :=
    let c1 := With (add_values ver s c addr) KDirection (VStr "wait-for") in
    OSubscribe c1 addr ::
    match refused with
    | Some e => [OLog (err_text e) c1]
    | None =>
        OLog "Subscribed to channel" c1 :: OCallback c1 ::
        match pub with Some _ => [] | None => wait_loop c1 addr (Some (id_of d)) ins end ++
        [OCancel c1 addr; OLog "Unsubscribed from channel" c1]
    end.
End Operations.

(** logging.go:11-26: the lines the logging middleware writes, given its context. *)
Definition logging_lines (c : ctx) : list string :=
  ((if if_equals c KDirection "reception" then ["Received a message"] else []) ++
   (if if_equals c KDirection "publication" then ["Published a message"] else []))%list.

(** ecs.go:21-44, text.go:70-80: what the loggers find in a context, strings. *)
Definition logged (c : ctx) : context :=
  mkContext (if_set_with as_string c KProvider) (if_set_with as_string c KChannel)
            (if_set_with as_string c KDirection) (if_set_with as_string c KMessage)
            (if_set_with as_string c KCorrelation).

(** wrapper.go:90-93: the context the version wrapper gives to the broker it wraps. *)
Definition wrapper_ctx (c : ctx) (addr : string) : ctx :=
  With (With c KDirection (VStr "reception")) KChannel (VStr addr).

(** wrapper.go:79-87: the version a publication is tagged with. *)
Definition tag_of (c : ctx) : option string := if_set_with as_string c KVersion.

(** broker_subscription.go:76-124: the loop of the version wrapper over received messages. [ctx] is
    assigned inside of the loop, hence kept from message to message; the lock taken at 101 is kept
    when the version is unknown (105-113), after which the next message that has a version blocks
    the loop. Result: the lines logged with their contexts, the context at the end, whether the loop
    is blocked. [versions]: the versions that are subscribed, [dflt]: the default version. *)
Fixpoint wrapper_loop (vkey : string) (dflt : option string) (versions : list string)
         (c : ctx) (locked : bool) (ms : list bmsg) : list (string * ctx * bmsg) * ctx * bool :=
  match ms with
  | [] => ([], c, false)
  | m :: rest =>
      let own := match header m vkey with Some v => if decide (v = "") then None else Some v | None => None end in
      match (match own with Some v => Some v | None => dflt end) with
      | None =>
          let c' := With c KMessage (VMsg m) in
          let '(l, e, b) := wrapper_loop vkey dflt versions c' locked rest in
          (("no version in the message and no default version", c', m) :: l, e, b)
      | Some v =>
          if locked then ([], c, true)
          else if decide (v ∈ versions) then wrapper_loop vkey dflt versions c false rest
          else
            let c' := With (With c KMessage (VMsg m)) KVersion (VStr v) in
            let '(l, e, b) := wrapper_loop vkey dflt versions c' true rest in
            (("version is not registered", c', m) :: l, e, b)
      end
  end.
