(** Broker messages as they are shown and as they are received.

    Modelled code: pkg/extensions/broker.go:72-96 [BrokerMessage], [IsUninitialized], [String] and the
    condition with which generated code stops receiving (pkg/codegen/generators/v3/templates/controller.tmpl:207-213,
    v2/templates/controller.tmpl:201-207). Go strings are code points and bytes that are not part of a valid UTF-8 sequence
    (Additional.v); a map is the list of its entries in the order in which it is gone through. *)
From stdpp Require Import list strings.
From Coq Require Import NArith.
From Verif.Model Require Import Additional BrokerMessage.
Local Open Scope N_scope.
Local Open Scope list_scope.

Section show.
  (** strconv.IsPrint beyond ASCII. *)
  Variable printable : N -> bool.

  (** broker.go:85-89: str = fmt.Sprintf("%s,%q:%q", str, k, string(v)) *)
  Definition show_header (str : text) (kv : gostring * gostring) : text :=
    str ++ [44] ++ quote printable kv.1 ++ [58] ++ quote printable kv.2.
  Definition show_headers (hs : list (gostring * gostring)) : text := fold_left show_header hs [].
  (** broker.go:84-96 [String]; [hs] is empty for a nil map, [payload] for a nil slice; 91: len(str) == 0; 94: str[1:]. *)
  Definition show (hs : list (gostring * gostring)) (payload : gostring) : gostring :=
    match show_headers hs with
    | [] => map Rune (txt "{""payload"":") ++ payload ++ map Rune (txt "}")
    | _ :: str => map Rune (txt "{""headers"":{" ++ str ++ txt "},""payload"":") ++ payload ++ map Rune (txt "}")
    end.
End show.

(** A Go channel of messages: what is in its buffer, and whether it is closed. *)
Record chan := mkChan { buffer : list bmsg; closed : bool }.
(** msg, open := <-channel; [None]: it waits. From a closed channel with nothing in it comes the zero value. *)
Definition receive (c : chan) : option (bmsg * bool * chan) :=
  match buffer c with
  | m :: rest => Some (m, true, mkChan rest (closed c))
  | [] => if closed c then Some (mkBmsg None None, false, c) else None
  end.
(** v3 controller.tmpl:211: if !open && acknowledgeableBrokerMessage.IsUninitialized() *)
Definition stops (m : bmsg) (open : bool) : bool := negb open && is_uninitialized m.
(** 182-191, 195-213: the messages that are given to the middlewares by at most [n] turns of the loop, and whether it has stopped. *)
Fixpoint turns (n : nat) (c : chan) : list bmsg * bool :=
  match n with
  | O => ([], false)
  | S n' =>
      match receive c with
      | None => ([], false)
      | Some (m, open, c') => if stops m open then ([], true) else let '(ms, s) := turns n' c' in (m :: ms, s)
      end
  end.
