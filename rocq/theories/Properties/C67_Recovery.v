(** C67: the middlewares that come with the library. *)
From Coq Require Import List.
From Verif.Model Require Import Middleware.
From Verif.Spec Require Import MiddlewareSpec.
From Verif.Proof Require Import RecoveryProof.
Import ListNotations.

(** Behind [Recovery] the rest of the chain and the operation run exactly as without it, and their
    error is given back; a panic becomes a success. *)
Theorem C67_recovery {C M E X} (mws : list (middleware C M E)) (cb : option (operation C M E X)) c m x :
  let s := fst (execute mws cb c m x) in let s' := fst (execute (recovery :: mws) cb c m x) in
  msg s' = msg s /\ ext s' = ext s /\ trace s' = EStart 0 c m :: map shift (trace s) /\
  snd (execute (recovery :: mws) cb c m x) = recovered (snd (execute mws cb c m x)).
Proof. exact (execute_recovery mws cb c m x). Qed.
Definition changing : middleware nat nat nat := fun c => MSet 7 (MNext (c + 1) (fun r => match r with ROk e => MRet e | RPanic => MPanic end)).
Example C67_recovery_ex :
  execute [recovery; changing] (Some (fun c m x => (m + c, x + 1, RPanic))) 0 5 1 =
    (mkMst 8 [true; true; true] 2 [EStart 0 0 5; EStart 1 0 5; EOp 1 7], ROk None) /\
  snd (execute [recovery; changing] (Some (fun c m x => (m + c, x + 1, ROk (Some 9)))) 0 5 1) = ROk (Some 9).
Proof. split; reflexivity. Qed.

(** [Recovery] in front: the chain never panics. *)
Theorem C67_no_panic {C M E X} (mws : list (middleware C M E)) (cb : option (operation C M E X)) c m x :
  snd (execute (recovery :: mws) cb c m x) <> RPanic.
Proof.
  destruct (execute_recovery mws cb c m x) as (_ & _ & _ & R). rewrite R. destruct (snd (execute mws cb c m x)); discriminate.
Qed.
Example C67_no_panic_ex : snd (execute (C := nat) (M := nat) (E := nat) [fun _ => MPanic] (Some (fun _ m x => (m, x + 1, ROk None))) 0 5 1) = RPanic.
Proof. reflexivity. Qed.

(** [Logging] and [Intercepter] in front change nothing. *)
Theorem C67_logging {C M E X} (mws : list (middleware C M E)) (cb : option (operation C M E X)) c m x :
  let s := fst (execute mws cb c m x) in let s' := fst (execute (logging :: mws) cb c m x) in
  msg s' = msg s /\ ext s' = ext s /\ trace s' = EStart 0 c m :: map shift (trace s) /\
  snd (execute (logging :: mws) cb c m x) = snd (execute mws cb c m x).
Proof. exact (execute_logging mws cb c m x). Qed.
Example C67_logging_ex :
  execute [logging; changing] (Some (fun c m x => (m + c, x + 1, ROk (Some 9)))) 0 5 1 =
    (mkMst 8 [true; true; true] 2 [EStart 0 0 5; EStart 1 0 5; EOp 1 7], ROk (Some 9)).
Proof. reflexivity. Qed.

Print Assumptions C67_recovery.
Print Assumptions C67_no_panic.
Print Assumptions C67_logging.
