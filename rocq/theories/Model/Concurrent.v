(** Calls made at once on one generated controller.

    Modelled code: pkg/codegen/generators/v3/templates/controller.tmpl:143-193 (SubscribeTo…) and
    286-311 (UnsubscribeFrom…), v2/templates/controller.tmpl:137-187, 248-271 (the same functions),
    cut at every access to the map c.subscriptions and at every call of the broker; these are the
    points between which the goroutines of the callers may alternate. No lock is taken.
    Simplified, in favour of the code: an access to the Go map is one indivisible step (in Go two
    unsynchronised accesses of which one writes are a data race, for which the program may be stopped;
    see [map_access]); Cancel returns. The bulk operations and Close are sequences of such calls. *)
From stdpp Require Import gmap strings.
From Verif.Model Require Import Controller.

(** The next step of a call. *)
Inductive point :=
| SCheck            (* v3 158: _, exists := c.subscriptions[addr] *)
| SAsk              (* v3 166: c.broker.Subscribe *)
| SStore (i : nat)  (* v3 190: c.subscriptions[addr] = sub *)
| UCheck            (* v3 296: sub, exists := c.subscriptions[addr] *)
| UCancel (i : nat) (* v3 305: sub.Cancel *)
| UDelete.          (* v3 308: delete(c.subscriptions, addr) *)

Record kst := mkK {
  kmap : gmap string nat;              (* c.subscriptions *)
  knext : nat;                         (* next subscription number given by the broker *)
  klog : list cev;                     (* calls received by the broker *)
  kcalls : gmap nat (string * point);  (* the calls under way, by goroutine, with their address *)
  kanswers : list (string * cres)      (* answers of the subscribe calls, as they are decided *)
}.
Definition kinit : kst := mkK ∅ 0 [] ∅ [].

Inductive call := Subscribe (addr : string) | Unsubscribe (addr : string).
Definition call_addr (c : call) : string := match c with Subscribe a | Unsubscribe a => a end.

(** A goroutine that is idle begins a call, or one that is in a call makes its next step; [bok]: does
    the broker accept, if it is asked. *)
Inductive act := Begin (t : nat) (c : call) | Next (t : nat) (bok : bool).

Definition at_point (s : kst) (t : nat) (a : string) (p : point) : gmap nat (string * point) :=
  <[t := (a, p)]> (kcalls s).
Definition ended (s : kst) (t : nat) : gmap nat (string * point) := delete t (kcalls s).

Definition kstep (s : kst) (x : act) : option kst :=
  match x with
  | Begin t c =>
      match kcalls s !! t with
      | Some _ => None
      | None =>
          Some (mkK (kmap s) (knext s) (klog s)
                 (at_point s t (call_addr c) (match c with Subscribe _ => SCheck | Unsubscribe _ => UCheck end))
                 (kanswers s))
      end
  | Next t bok =>
      match kcalls s !! t with
      | None => None
      | Some (a, SCheck) =>
          match kmap s !! a with
          | Some _ => Some (mkK (kmap s) (knext s) (klog s) (ended s t) (kanswers s ++ [(a, CrAlready)]))
          | None => Some (mkK (kmap s) (knext s) (klog s) (at_point s t a SAsk) (kanswers s))
          end
      | Some (a, SAsk) =>
          if bok
          then Some (mkK (kmap s) (S (knext s)) (klog s ++ [CSub a (knext s)])
                       (at_point s t a (SStore (knext s))) (kanswers s ++ [(a, CrOk)]))
          else Some (mkK (kmap s) (knext s) (klog s ++ [CRefused a]) (ended s t) (kanswers s ++ [(a, CrBroker)]))
      | Some (a, SStore i) =>
          Some (mkK (<[a := i]> (kmap s)) (knext s) (klog s) (ended s t) (kanswers s))
      | Some (a, UCheck) =>
          match kmap s !! a with
          | None => Some (mkK (kmap s) (knext s) (klog s) (ended s t) (kanswers s))
          | Some i => Some (mkK (kmap s) (knext s) (klog s) (at_point s t a (UCancel i)) (kanswers s))
          end
      | Some (a, UCancel i) =>
          Some (mkK (kmap s) (knext s) (klog s ++ [CCancel i]) (at_point s t a UDelete) (kanswers s))
      | Some (a, UDelete) =>
          Some (mkK (delete a (kmap s)) (knext s) (klog s) (ended s t) (kanswers s))
      end
  end.

Fixpoint kruns (s : kst) (xs : list act) : option kst :=
  match xs with
  | [] => Some s
  | x :: r => match kstep s x with Some s' => kruns s' r | None => None end
  end.

(** Does the next step read the map, or write it. *)
Inductive access := Reads | Writes | NoAccess.
Definition map_access (p : point) : access :=
  match p with
  | SCheck | UCheck => Reads
  | SStore _ | UDelete => Writes
  | SAsk | UCancel _ => NoAccess
  end.
