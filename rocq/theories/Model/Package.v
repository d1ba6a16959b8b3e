(** What the code generated for a document declares, and what it uses.
    Modelled code: pkg/codegen/generators/v3/templates/controller.tmpl, subscriber.tmpl, types.tmpl, message.tmpl
    and helpers.go:70-96, as far as declarations, calls and named types go. *)
From stdpp Require Import gmap list strings.
From Coq Require Import NArith Ascii String.
From Verif.Model Require Import Naming Names Operations.
Local Open Scope string_scope.
Local Open Scope list_scope.

(** Types of arguments and results: contexts, texts, errors, subscriptions, named types of the package, pointers to them, functions receiving
    a message ([func(ctx context.Context, msg M) error]), functions filling a reply ([func(replyMsg *M)]), and other types, by their text. *)
Inductive ty :=
| TyCtx | TyText | TyError | TyBool | TySubscription | TyBrokerMessage
| TyName (n : string) | TyPointer (n : string) | TyHandler (msg : string) | TyFiller (msg : string) | TyOther (text : string).

(** Declarations: types, constants and variables, functions, and methods of a type. *)
Inductive decl :=
| DeclType (n : string)
| DeclValue (n : string)
| DeclFunc (n : string) (args results : list ty)
| DeclMethod (receiver n : string) (args results : list ty).

(** Uses: of a type by its name, of a constant, calls of a function and of a method, with the types of the arguments given and of the results expected. *)
Inductive use :=
| UseType (n : string)
| UseValue (n : string)
| UseFunc (n : string) (args results : list ty)
| UseMethod (receiver n : string) (args results : list ty).

Definition code := (list decl * list use)%type.
Definition emit (cs : list code) : code := (List.concat (map fst cs), List.concat (map snd cs)).
Definition only {A} (b : bool) (l : list A) : list A := if b then l else [].
Definition when (b : bool) (c : code) : code := if b then c else ([], []).

(** What the templates read beside Operations.v:
    [has_params]: the channel, followed, has parameters;  [no_address]: its address is "";
    [reply_address]: the reply has an address object;  [inline_address]: the reply's channel, not followed, has an address: it is not a
    reference (operation_reply.go:10 says it always is);
    [message_name], [correlated]: Name of a message, whether HaveCorrelationID (message.go:599-601). *)
Record details := mkDetails {
  has_params : channel -> bool;
  no_address : channel -> bool;
  reply_address : operation -> bool;
  inline_address : operation -> bool;
  message_name : nat -> string;
  correlated : nat -> bool;
}.

Section package.
  Variable ul ud : N -> bool.
  Variable uu : N -> bytes.
  Variable info : details.
  (** The order in which the messages of a channel are visited, for each place of the templates where a message is asked for. *)
  Variable order : nat -> channel -> list nat.

  (** templates: [namify], [namifyWithoutParam] (Naming.v). Simplification: a panic of the naming function gives the empty name. *)
  Definition name_it (s : string) : string :=
    match namify ul ud uu (list_ascii_of_string s) with Some r => string_of_list_ascii r | None => "" end.
  Definition name_without_params (s : string) : string :=
    match namify_without_params ul ud uu (list_ascii_of_string s) with Some r => string_of_list_ascii r | None => "" end.

  (** helpers.go:82-90 [OpToMsgTypeName] and 72-80 [ChannelToMessageTypeName]. [None]: there is no message, the helper panics.
      [$value.GetMessage.HaveCorrelationID] of the templates. *)
  Definition message_at (site : nat) (g : gop) : option nat := get_message g (order site (gop_channel g)).
  Definition type_of (m : nat) : string := name_it (message_name info m).
  Definition op_message (site : nat) (g : gop) : option string := type_of <$> message_at site g.
  Definition channel_message (site : nat) (ch : channel) : option string := type_of <$> channel_get_message (order site ch).
  Definition op_correlated (site : nat) (g : gop) : option bool := correlated info <$> message_at site g.

  Definition prefix (s : side) : string := match s with Application => "App" | User => "User" end.
  Definition controller_name (s : side) : string := prefix s +:+ "Controller".
  (** [{{ if eq $.Prefix "User" }}To{{else}}As{{end}}] *)
  Definition preposition (s : side) : string := match s with Application => "As" | User => "To" end.
  Definition context_values (s : side) : use := UseFunc ("add" +:+ prefix s +:+ "ContextValues") [TyCtx; TyText] [TyCtx].
  Definition middlewares_run (s : side) : use := UseMethod (controller_name s) "executeMiddlewares" [TyCtx; TyOther "*extensions.BrokerMessage"; TyOther "extensions.NextMiddleware"] [TyError].

  Definition params_name (ch : channel) : string := name_without_params (ch_name ch) +:+ "Parameters".
  Definition params_arg (ch : channel) : list ty := if has_params info ch then [TyName (params_name ch)] else [].
  Definition params_use (ch : channel) : list use := if has_params info ch then [UseType (params_name ch)] else [].

  (** subscriber.tmpl *)
  Definition handler_decl (s : side) (g : gop) : option code :=
    m ← op_message 0 g;
    Some ([DeclMethod (prefix s +:+ "Subscriber") (name_it (gop_name g) +:+ "Received") [TyCtx; TyName m] [TyError]], [UseType m]).
  Definition subscriber (s : side) (ao : action_operations) : option code :=
    hs ← mapM (fun kg => handler_decl s kg.2) (map_to_list (receive ao));
    Some (when (0 <? receive_count ao)%nat (emit (([DeclType (prefix s +:+ "Subscriber")], []) :: hs))).

  (** controller.tmpl:1-104: the controller, its construction, its middlewares, its end. *)
  Definition controller_base (s : side) (ao : action_operations) : code :=
    let c := controller_name s in
    ([DeclType c;
      DeclFunc ("New" +:+ c) [TyOther "extensions.BrokerController"; TyOther "...ControllerOption"] [TyPointer c; TyError];
      DeclMethod c "wrapMiddlewares" [TyOther "[]extensions.Middleware"; TyOther "extensions.NextMiddleware"] [TyOther "func(context.Context, *extensions.BrokerMessage) error"];
      DeclMethod c "executeMiddlewares" [TyCtx; TyOther "*extensions.BrokerMessage"; TyOther "extensions.NextMiddleware"] [TyError];
      DeclFunc ("add" +:+ prefix s +:+ "ContextValues") [TyCtx; TyText] [TyCtx];
      DeclMethod c "Close" [TyCtx] []],
     [UseType "controller"; UseType "ControllerOption";
      UseMethod c "wrapMiddlewares" [TyOther "[]extensions.Middleware"; TyOther "extensions.NextMiddleware"] [TyOther "func(context.Context, *extensions.BrokerMessage) error"]]
       ++ (if (0 <? receive_count ao)%nat then [UseMethod c "UnsubscribeFromAllChannels" [TyCtx] []] else [])).

  (** controller.tmpl:105-134: the subscription to all channels without parameters. [as.XReceived] is a function of the type of the interface's method. *)
  Definition subscribe_one (s : side) (g : gop) : option (list use) :=
    if has_params info (gop_channel g) then Some [] else
    m ← op_message 0 g;
    Some [UseMethod (controller_name s) ("SubscribeTo" +:+ name_it (gop_name g)) [TyCtx; TyHandler m] [TyError];
          UseMethod (prefix s +:+ "Subscriber") (name_it (gop_name g) +:+ "Received") [TyCtx; TyName m] [TyError];
          UseMethod (controller_name s) ("UnsubscribeFrom" +:+ name_it (gop_name g)) [TyCtx] []].
  Definition subscribe_all (s : side) (ao : action_operations) : option code :=
    us ← mapM (fun kg => subscribe_one s kg.2) (map_to_list (receive ao));
    let c := controller_name s in
    Some (when (0 <? receive_count ao)%nat
      ([DeclMethod c "SubscribeToAllChannels" [TyCtx; TyName (prefix s +:+ "Subscriber")] [TyError];
        DeclMethod c "UnsubscribeFromAllChannels" [TyCtx] []],
       UseType (prefix s +:+ "Subscriber") :: List.concat us)).

  (** controller.tmpl:136-190, 195-240 and 281-311: subscribing, listening, unsubscribing. *)
  Definition listening (s : side) (g : gop) : option code :=
    let c := controller_name s in let n := name_it (gop_name g) in let ch := gop_channel g in
    m1 ← op_message 1 g; m2 ← op_message 2 g; m3 ← op_message 3 g; cor ← op_correlated 4 g;
    Some ([DeclMethod c ("SubscribeTo" +:+ n) (TyCtx :: params_arg ch ++ [TyHandler m1]) [TyError];
           DeclMethod c ("listenTo" +:+ n +:+ "NextMessage") [TyText; TySubscription; TyHandler m2] [TyBool; TyError];
           DeclMethod c ("UnsubscribeFrom" +:+ n) (TyCtx :: params_arg ch) []],
          [UseType m1; UseType m2;
           UseMethod c ("listenTo" +:+ n +:+ "NextMessage") [TyText; TySubscription; TyHandler m1] [TyBool; TyError];
           context_values s; middlewares_run s;
           UseFunc ("brokerMessageTo" +:+ m3) [TyBrokerMessage] [TyName m2; TyError]]
            ++ only cor [UseMethod m3 "CorrelationID" [] [TyText]] ++ params_use ch).

  (** controller.tmpl:244-279: answering a received request. *)
  Definition answering (s : side) (o : operation) : option code :=
    match o_reply o with
    | None => Some ([], [])
    | Some r =>
        (* [$value.ReplyIs] is there (operation.go:170-183) *)
        match r_channel r with
        | None => None
        | Some ch =>
            let c := controller_name s in let n := name_it (gop_name (GOp o)) in
            m5 ← op_message 5 (GOp o); r6 ← op_message 6 (GReply o ch); r7 ← op_message 7 (GReply o ch); cor ← op_correlated 8 (GOp o);
            Some ([DeclMethod c ("ReplyTo" +:+ n) [TyCtx; TyName m5; TyFiller r6] [TyError]],
                  [UseType m5; UseType r6; UseFunc ("New" +:+ r7) [] [TyName r6]]
                    ++ only cor [UseMethod r7 "SetAsResponseFrom" [TyName "MessageWithCorrelationID"] [];
                                     (* the request is a MessageWithCorrelationID *)
                                     UseMethod m5 "CorrelationID" [] [TyText]; UseMethod m5 "SetCorrelationID" [TyText] []]
                    ++ [UseMethod c ("Send" +:+ preposition s +:+ "ReplyTo" +:+ n)
                          (TyCtx :: (if reply_address info o && negb (inline_address info o) then [TyText] else []) ++ [TyName r7]) [TyError]])
        end
    end.

  (** controller.tmpl:313-372: sending. *)
  Definition sending (s : side) (g : gop) : option code :=
    let c := controller_name s in let n := name_it (gop_name g) in let ch := gop_channel g in
    m ← op_message 9 g; c1 ← op_correlated 10 g; c2 ← op_correlated 11 g;
    Some ([DeclMethod c ("Send" +:+ preposition s +:+ n) (TyCtx :: params_arg ch ++ (if no_address info ch then [TyText] else []) ++ [TyName m]) [TyError]],
          [UseType m; context_values s; middlewares_run s; UseMethod m "toBrokerMessage" [] [TyBrokerMessage; TyError]]
            ++ only c1 (UseMethod m "CorrelationID" [] [TyText]
                           :: match g with GReply _ _ => [] | GOp _ => [UseMethod m "SetCorrelationID" [TyText] []] end)
            ++ only c2 [UseMethod m "CorrelationID" [] [TyText]] ++ params_use ch).

  (** controller.tmpl:376-527: requesting, and waiting for the answer. *)
  Definition requesting (s : side) (o : operation) : option code :=
    match o_reply o with
    | None => Some ([], [])
    | Some r =>
        match r_channel r with
        | None => None
        | Some rch =>
            let c := controller_name s in let n := name_it (gop_name (GOp o)) in let ch := o_channel o in let g := GOp o in
            m12 ← op_message 12 g; r13 ← channel_message 13 rch; c14 ← op_correlated 14 g; c15 ← op_correlated 15 g;
            c16 ← op_correlated 16 g; m17 ← op_message 17 g; r18 ← channel_message 18 rch; c19 ← op_correlated 19 g; c20 ← op_correlated 20 g;
            r21 ← channel_message 21 rch; c22 ← op_correlated 22 g; r23 ← channel_message 23 rch;
            Some ([DeclMethod c ("Request" +:+ preposition s +:+ n) (TyCtx :: params_arg ch ++ [TyName m12]) [TyName r13; TyError];
                   DeclMethod c ("waitFor" +:+ n +:+ "NextResponse") ([TyCtx; TyText; TySubscription] ++ only c16 [TyName m17]) [TyPointer r18; TyError]],
                  [UseType m12; UseType r13; context_values s; middlewares_run s;
                   UseMethod c ("Send" +:+ preposition s +:+ n) (TyCtx :: params_arg ch ++ [TyName m12]) [TyError];
                   UseMethod c ("waitFor" +:+ n +:+ "NextResponse") ([TyCtx; TyText; TySubscription] ++ only c15 [TyName m12]) [TyPointer r13; TyError]]
                    ++ params_use ch
                    ++ only c14 [UseMethod m12 "CorrelationID" [] [TyText]; UseMethod m12 "SetCorrelationID" [TyText] []]
                    ++ only c19 [UseMethod m17 "CorrelationID" [] [TyText]]
                    ++ only c20 [UseFunc ("brokerMessageTo" +:+ r21) [TyBrokerMessage] [TyName r23; TyError];
                                     UseMethod m17 "CorrelationID" [] [TyText]; UseMethod r21 "CorrelationID" [] [TyText]]
                    ++ [UseFunc ("brokerMessageTo" +:+ r23) [TyBrokerMessage] [TyName r18; TyError]])
        end
    end.

  (** controller.tmpl: the operations, in the order of their keys (which changes nothing here). *)
  Definition receiving (s : side) (g : gop) : option code :=
    match g with
    | GOp o => l ← listening s g; a ← answering s o; Some (emit [l; a])
    | GReply _ _ => listening s g
    end.
  Definition emitting (s : side) (g : gop) : option code :=
    match g with
    | GOp o => l ← sending s g; a ← requesting s o; Some (emit [l; a])
    | GReply _ _ => sending s g
    end.
  (** generator.go:73-98: the subscriber and the controller of a side. *)
  Definition side_code (s : side) (ops : list (string * operation)) : option code :=
    let ao := new_action_operations s ops in
    sub ← subscriber s ao;
    all ← subscribe_all s ao;
    rcv ← mapM (fun kg => receiving s kg.2) (map_to_list (receive ao));
    snd ← mapM (fun kg => emitting s kg.2) (map_to_list (send ao));
    Some (emit (sub :: controller_base s ao :: all :: rcv ++ snd)).

  (** types.tmpl:1-55: what is always there. *)
  Definition fixed_types : code :=
    ([DeclValue "AsyncAPIVersion"; DeclType "controller"; DeclType "ControllerOption";
      DeclFunc "WithLogger" [TyOther "extensions.Logger"] [TyName "ControllerOption"];
      DeclFunc "WithMiddlewares" [TyOther "...extensions.Middleware"] [TyName "ControllerOption"];
      DeclFunc "WithErrorHandler" [TyOther "extensions.ErrorHandler"] [TyName "ControllerOption"];
      DeclType "MessageWithCorrelationID";
      DeclMethod "MessageWithCorrelationID" "CorrelationID" [] [TyText]; DeclMethod "MessageWithCorrelationID" "SetCorrelationID" [TyText] [];
      DeclType "Error"; DeclMethod "Error" "Error" [] [TyText]],
     [UseType "controller"; UseType "ControllerOption"]).

  (** A channel as types.tmpl:57-70 and 87-100 read it: its own name, whether it has parameters of its own, and the name of the channel it leads to. *)
  Record named_channel := mkNamed { nc_name : string; nc_params : bool; nc_follow : string }.
  Definition path_name (nc : named_channel) : string := name_without_params (nc_follow nc) +:+ "Path".
  Definition channel_params (nc : named_channel) : code :=
    when (nc_params nc) ([DeclType (name_without_params (nc_name nc) +:+ "Parameters")], []).
  Definition channel_paths (cs : list named_channel) : code :=
    match cs with
    | [] => ([], [])
    | _ => ((map (fun nc => DeclValue (path_name nc)) cs ++ [DeclValue "ChannelsPaths"]), map (fun nc => UseValue (path_name nc)) cs)
    end.

  (** message.tmpl: a message that is not a reference, beside the types of its headers and payload. *)
  Definition message_code (m : nat) : code :=
    let n := type_of m in
    ([DeclType n; DeclFunc ("New" +:+ n) [] [TyName n]; DeclFunc ("brokerMessageTo" +:+ n) [TyBrokerMessage] [TyName n; TyError];
      DeclMethod n "toBrokerMessage" [] [TyBrokerMessage; TyError]]
       ++ (if correlated info m then
             [DeclMethod n "CorrelationID" [] [TyText]; DeclMethod n "SetCorrelationID" [TyText] [];
              DeclMethod n "SetAsResponseFrom" [TyName "MessageWithCorrelationID"] []] else []),
     if correlated info m then [UseType "MessageWithCorrelationID"; UseMethod "MessageWithCorrelationID" "CorrelationID" [] [TyText]] else []).

  (** types.tmpl: [messages] are the messages written in the channels and the components, not as references; [schemas] the names of
      the types made for schemas (Types.v). *)
  Definition types_code (cs : list named_channel) (messages : list nat) (schemas : list string) : code :=
    emit (fixed_types :: map channel_params cs ++ map message_code messages ++ [(map DeclType schemas, []); channel_paths cs]).

  (** generator.go:21-51 with all parts. *)
  Definition package (ops : list (string * operation)) (cs : list named_channel) (messages : list nat) (schemas : list string) : option code :=
    app ← side_code Application ops;
    user ← side_code User ops;
    Some (emit [app; user; types_code cs messages schemas]).
End package.
