(** What the code generated for a document of version 2 declares, and what it uses.
    Modelled code: pkg/codegen/generators/v2/templates/controller.tmpl, subscriber.tmpl, types.tmpl, message.tmpl
    and helpers.go:76-100 and 127-142, as far as declarations, calls and named types go. Declarations and uses are those of Package.v. *)
From stdpp Require Import gmap list strings.
From Coq Require Import NArith Ascii String.
From Verif.Model Require Import Naming Names Operations Package.
Local Open Scope string_scope.
Local Open Scope list_scope.

(** An operation of a channel (v2/operation.go): its OperationID, the message that its Message leads to (Follow, message.go:411-416), whether
    Message.CorrelationIDLocation, not followed, is not empty (message.go:202-223), and the message that is generated from it: Message itself,
    not followed, when it has a payload. *)
Record operation2 := mkOperation2 { o2_id : string; o2_message : nat; o2_located : bool; o2_inline : option nat }.
(** A channel (v2/channel.go): its Name, its parameters, its operations. The templates also have its key in the document. *)
Record chan2 := mkChan2 { h2_name : string; h2_params : bool; h2_publish : option operation2; h2_subscribe : option operation2 }.
Definition has {A} (o : option A) : bool := match o with Some _ => true | None => false end.
(** What controller.go and subscriber.go look at (Operations.v). *)
Definition flags2 (c : chan2) : channel2 := mkChannel2 (has (h2_publish c)) (has (h2_subscribe c)).

(** helpers.go:76-100 [ChannelToMessage]. [None]: panic. *)
Inductive direction := ToPublish | ToSubscribe.
Definition channel_to_message (c : chan2) (d : direction) : option nat :=
  match h2_publish c, h2_subscribe c, d with
  | Some p, None, _ => Some (o2_message p)
  | None, Some s, _ => Some (o2_message s)
  | p, _, ToPublish => o2_message <$> p
  | _, s, ToSubscribe => o2_message <$> s
  end.

Section package2.
  Variable ul ud : N -> bool.
  Variable uu : N -> bytes.
  (** Only [message_name] and [correlated] are used: Name and CorrelationIDLocation <> "" of a message, followed. *)
  Variable info : details.
  Notation name_it := (name_it ul ud uu).
  Notation name_without_params := (name_without_params ul ud uu).

  (** helpers.go:127-142 [OperationName] *)
  Definition id_of (o : option operation2) : string := match o with Some p => o2_id p | None => "" end.
  Definition operation_name (c : chan2) : string :=
    name_it (if negb (String.eqb (id_of (h2_publish c)) "") then id_of (h2_publish c)
             else if negb (String.eqb (id_of (h2_subscribe c)) "") then id_of (h2_subscribe c)
             else h2_name c).

  (** [(channelToMessage $value d).Name]: not given to [namify] again, which message.tmpl does. *)
  Definition message_type (c : chan2) (d : direction) : option string := message_name info <$> channel_to_message c d.
  Definition message_correlated (c : chan2) (d : direction) : option bool := correlated info <$> channel_to_message c d.

  (** [namifyWithoutParam $key] in controller.tmpl: [$key] is the key of the channel. *)
  Definition params_arg2 (kc : string * chan2) : list ty :=
    if h2_params kc.2 then [TyName (name_without_params kc.1 +:+ "Parameters")] else [].
  Definition params_use2 (kc : string * chan2) : list use :=
    if h2_params kc.2 then [UseType (name_without_params kc.1 +:+ "Parameters")] else [].

  (** controller.go:31-45, subscriber.go:31-39: the channels of the document have different keys, the maps made there are the channels of the document that pass
      the test. MethodCount counts the same channels (specification.go:112-126). *)
  Definition subscribed (s : side) (cs : list (string * chan2)) : list (string * chan2) :=
    List.filter (fun kc => is_subscribe_channel s (flags2 kc.2)) cs.
  Definition published (s : side) (cs : list (string * chan2)) : list (string * chan2) :=
    List.filter (fun kc => is_publish_channel s (flags2 kc.2)) cs.
  Definition method_count2 (s : side) (cs : list (string * chan2)) : nat :=
    let '(p, sb) := publish_subscribe_count (map (fun kc => (kc.1, flags2 kc.2)) cs) in
    match s with Application => p | User => sb end.

  (** subscriber.tmpl *)
  Definition handler_decl2 (s : side) (c : chan2) : option code :=
    m ← message_type c ToSubscribe;
    Some ([DeclMethod (prefix s +:+ "Subscriber") (operation_name c) [TyCtx; TyName m] [TyError]], [UseType m]).
  Definition subscriber2 (s : side) (cs : list (string * chan2)) : option code :=
    hs ← mapM (fun kc => handler_decl2 s kc.2) (subscribed s cs);
    Some (when (0 <? method_count2 s cs)%nat (emit (([DeclType (prefix s +:+ "Subscriber")], []) :: hs))).

  (** controller.tmpl:1-102: the controller, its construction, its middlewares, its end. *)
  Definition controller_base2 (s : side) (cs : list (string * chan2)) : code :=
    let c := controller_name s in
    ([DeclType c;
      DeclFunc ("New" +:+ c) [TyOther "extensions.BrokerController"; TyOther "...ControllerOption"] [TyPointer c; TyError];
      DeclMethod c "wrapMiddlewares" [TyOther "[]extensions.Middleware"; TyOther "extensions.NextMiddleware"] [TyOther "func(context.Context, *extensions.BrokerMessage) error"];
      DeclMethod c "executeMiddlewares" [TyCtx; TyOther "*extensions.BrokerMessage"; TyOther "extensions.NextMiddleware"] [TyError];
      DeclFunc ("add" +:+ prefix s +:+ "ContextValues") [TyCtx; TyText] [TyCtx];
      DeclMethod c "Close" [TyCtx] []],
     [UseType "controller"; UseType "ControllerOption";
      UseMethod c "wrapMiddlewares" [TyOther "[]extensions.Middleware"; TyOther "extensions.NextMiddleware"] [TyOther "func(context.Context, *extensions.BrokerMessage) error"]]
       ++ only (0 <? method_count2 s cs)%nat [UseMethod c "UnsubscribeAll" [TyCtx] []]).

  (** controller.tmpl:104-131: the subscription to all channels without parameters. *)
  Definition subscribe_one2 (s : side) (c : chan2) : option (list use) :=
    if h2_params c then Some [] else
    m ← message_type c ToSubscribe;
    Some [UseMethod (controller_name s) ("Subscribe" +:+ operation_name c) [TyCtx; TyHandler m] [TyError];
          UseMethod (prefix s +:+ "Subscriber") (operation_name c) [TyCtx; TyName m] [TyError];
          UseMethod (controller_name s) ("Unsubscribe" +:+ operation_name c) [TyCtx] []].
  Definition subscribe_all2 (s : side) (cs : list (string * chan2)) : option code :=
    us ← mapM (fun kc => subscribe_one2 s kc.2) (subscribed s cs);
    let c := controller_name s in
    Some (when (0 <? method_count2 s cs)%nat
      ([DeclMethod c "SubscribeAll" [TyCtx; TyName (prefix s +:+ "Subscriber")] [TyError];
        DeclMethod c "UnsubscribeAll" [TyCtx] []],
       UseType (prefix s +:+ "Subscriber") :: List.concat us)).

  (** controller.tmpl:133-272: subscribing, listening, unsubscribing. *)
  Definition listening2 (s : side) (kc : string * chan2) : option code :=
    let c := controller_name s in let n := operation_name kc.2 in
    m ← message_type kc.2 ToSubscribe; cor ← message_correlated kc.2 ToSubscribe;
    Some ([DeclMethod c ("Subscribe" +:+ n) (TyCtx :: params_arg2 kc ++ [TyHandler m]) [TyError];
           DeclMethod c ("listenTo" +:+ n +:+ "NextMessage") [TyText; TySubscription; TyHandler m] [TyBool; TyError];
           DeclMethod c ("Unsubscribe" +:+ n) (TyCtx :: params_arg2 kc) []],
          [UseType m; UseMethod c ("listenTo" +:+ n +:+ "NextMessage") [TyText; TySubscription; TyHandler m] [TyBool; TyError];
           context_values s; middlewares_run s; UseFunc ("brokerMessageTo" +:+ m) [TyBrokerMessage] [TyName m; TyError]]
            ++ only cor [UseMethod m "CorrelationID" [] [TyText]] ++ params_use2 kc).

  (** controller.tmpl:274-314: publishing. *)
  Definition publishing2 (s : side) (kc : string * chan2) : option code :=
    let c := controller_name s in let n := operation_name kc.2 in
    m ← message_type kc.2 ToPublish; cor ← message_correlated kc.2 ToPublish;
    Some ([DeclMethod c ("Publish" +:+ n) (TyCtx :: params_arg2 kc ++ [TyName m]) [TyError]],
          [UseType m; context_values s; middlewares_run s; UseMethod m "toBrokerMessage" [] [TyBrokerMessage; TyError]]
            ++ only cor [UseMethod m "CorrelationID" [] [TyText]; UseMethod m "SetCorrelationID" [TyText] []] ++ params_use2 kc).

  (** controller.tmpl:316-439: waiting for an answer, on the side of the user only. *)
  Definition waiting2 (s : side) (kc : string * chan2) : option code :=
    match s, h2_subscribe kc.2 with
    | Application, _ => Some ([], [])
    | User, None => None
    | User, Some o =>
        let c := controller_name s in let n := operation_name kc.2 in
        if negb (o2_located o) then Some ([], []) else
        m ← message_type kc.2 ToSubscribe;
        Some ([DeclMethod c ("WaitFor" +:+ n) (TyCtx :: params_arg2 kc ++ [TyName "MessageWithCorrelationID"; TyOther "func(context.Context) error"]) [TyName m; TyError];
               DeclMethod c ("waitFor" +:+ n +:+ "NextMessage") [TyCtx; TyText; TySubscription; TyName "MessageWithCorrelationID"] [TyPointer m; TyError]],
              [UseType m; UseType "MessageWithCorrelationID"; context_values s; middlewares_run s;
               UseMethod c ("waitFor" +:+ n +:+ "NextMessage") [TyCtx; TyText; TySubscription; TyName "MessageWithCorrelationID"] [TyPointer m; TyError];
               UseMethod "MessageWithCorrelationID" "CorrelationID" [] [TyText];
               UseFunc ("brokerMessageTo" +:+ m) [TyBrokerMessage] [TyName m; TyError];
               UseMethod m "CorrelationID" [] [TyText]] ++ params_use2 kc)
    end.

  (** generator.go: the subscriber and the controller of a side. *)
  Definition side_code2 (s : side) (cs : list (string * chan2)) : option code :=
    sub ← subscriber2 s cs;
    all ← subscribe_all2 s cs;
    rcv ← mapM (listening2 s) (subscribed s cs);
    snd ← mapM (publishing2 s) (published s cs);
    wait ← mapM (waiting2 s) (subscribed s cs);
    Some (emit (sub :: controller_base2 s cs :: all :: rcv ++ snd ++ wait)).

  (** types.tmpl:59-77 and 87-100: parameters, messages of operations, paths. *)
  Definition channel_params2 (kc : string * chan2) : code :=
    when (h2_params kc.2) ([DeclType (name_without_params (h2_name kc.2) +:+ "Parameters")], []).
  Definition inline_of (o : option operation2) : list nat := match o with Some p => option_list (o2_inline p) | None => [] end.
  Definition inline_messages (cs : list (string * chan2)) : list nat :=
    List.concat (map (fun kc => inline_of (h2_subscribe kc.2) ++ inline_of (h2_publish kc.2)) cs).
  Definition path_name2 (kc : string * chan2) : string := name_without_params (h2_name kc.2) +:+ "Path".
  Definition channel_paths2 (cs : list (string * chan2)) : code :=
    match cs with
    | [] => ([], [])
    | _ => (map (fun kc => DeclValue (path_name2 kc)) cs ++ [DeclValue "ChannelsPaths"], map (fun kc => UseValue (path_name2 kc)) cs)
    end.

  (** types.tmpl, which begins like that of version 3 and has the same message.tmpl as far as declarations go. [messages]: the messages of the
      components, each with whether it has a payload: without one, message.tmpl:50 reads a field of a nil pointer, and generation stops with an error
      ([None]); [schemas]: the names of the types made for schemas. *)
  Definition component_message (mp : nat * bool) : option code := if mp.2 then Some (message_code ul ud uu info mp.1) else None.
  Definition types_code2 (cs : list (string * chan2)) (messages : list (nat * bool)) (schemas : list string) : option code :=
    ms ← mapM component_message messages;
    Some (emit (fixed_types :: map channel_params2 cs ++ map (message_code ul ud uu info) (inline_messages cs) ++ ms
            ++ [(map DeclType schemas, []); channel_paths2 cs])).

  (** generator.go:21-51 with all parts. *)
  Definition package2 (cs : list (string * chan2)) (messages : list (nat * bool)) (schemas : list string) : option code :=
    types ← types_code2 cs messages schemas;
    app ← side_code2 Application cs;
    user ← side_code2 User cs;
    Some (emit [types; app; user]).
End package2.
