(** Channel addresses.
    Modelled code: pkg/codegen/generators/v3/templates/helpers.go:108-128 (GenerateChannelAddr)
    and pkg/codegen/generators/v2/templates/helpers.go:108-125 (GenerateChannelPath), and the
    evaluation of the expression they generate. *)
From stdpp Require Import list strings.
From Coq Require Import NArith Ascii String.
From Verif.Model Require Import Naming.

(** The generated Go expression: a string literal or a call of fmt.Sprintf on a literal and
    fields of [params]. ([%q] writes a literal denoting exactly the given string; a trailing
    comma, left when there is no field, is legal Go.) *)
Inductive expr :=
| ELit (s : bytes)
| ESprintf (format : bytes) (fields : list bytes).

(** The match of [{[^{}]*}] at a "{" whose rest is [s]: the text up to the next brace if that is
    "}", and what follows. *)
Fixpoint param_at (s : bytes) : option (bytes * bytes) :=
  match s with
  | [] => None
  | c :: r =>
      if Ascii.eqb c "}"%char then Some ([], r)
      else if Ascii.eqb c "{"%char then None
      else match param_at r with
           | Some (p, r') => Some (c :: p, r')
           | None => None
           end
  end.

(** ReplaceAllString(address, "%s") and FindAllString in one pass: format and matches (with
    their braces). [v] is the verb: "s" (v3) or "v" (v2). *)
Fixpoint scan (fuel : nat) (v : ascii) (s : bytes) : bytes * list bytes :=
  match fuel, s with
  | S fuel', c :: r =>
      if Ascii.eqb c "{"%char then
        match param_at r with
        | Some (p, r') =>
            let (f, ms) := scan fuel' v r' in
            ("%"%char :: v :: f, ("{"%char :: p ++ ["}"%char]) :: ms)
        | None => let (f, ms) := scan fuel' v r in (c :: f, ms)
        end
      else let (f, ms) := scan fuel' v r in (c :: f, ms)
  | _, _ => ([], [])
  end.

Section address.
  Variable uni_letter uni_digit : N -> bool.
  Variable uni_upper : N -> bytes.

  Definition namify' (s : bytes) : option bytes := namify uni_letter uni_digit uni_upper s.

  (** v3 108-128, v2 108-125; [None]: the naming function panicked. [parameters]: whether the
      channel has a parameters object. *)
  Definition generate_address (v : ascii) (parameters : bool) (address : bytes) : option expr :=
    if negb parameters then Some (ELit address)
    else
      let (f, ms) := scan (List.length address) v address in
      match mapM namify' ms with
      | Some fields => Some (ESprintf f fields)
      | None => None
      end.
End address.

(** fmt.Sprintf on string arguments, for the verbs the generator writes and "%%". [None]: any
    other use of "%", a missing or an extra argument; Go then writes text of the form
    "%!verb(...)", which is not modelled. *)
Fixpoint sprintf (f : bytes) (args : list bytes) : option bytes :=
  match f with
  | [] => match args with [] => Some [] | _ => None end
  | c :: f' =>
      if Ascii.eqb c "%"%char then
        match f' with
        | [] => None
        | v :: f'' =>
            if Ascii.eqb v "%"%char then (fun r => "%"%char :: r) <$> sprintf f'' args
            else if Ascii.eqb v "s"%char || Ascii.eqb v "v"%char then
              match args with
              | a :: args' => (fun r => a ++ r) <$> sprintf f'' args'
              | [] => None
              end
            else None
        end
      else (fun r => c :: r) <$> sprintf f' args
  end.

(** The value of the generated expression, [params] giving the value of every field. *)
Definition eval (params : bytes -> bytes) (e : expr) : option bytes :=
  match e with
  | ELit s => Some s
  | ESprintf f fields => sprintf f (params <$> fields)
  end.
