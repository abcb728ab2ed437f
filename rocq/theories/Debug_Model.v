(** Model of the choice of the debugger: PipelineManager._run_depending_on_settings and _run_with_auto_pdb, pyfileconf/main.py:199-222,
    and pyfileconf/debug.py:4-26. The setting auto_pdb may be a boolean, a function to call, or anything else.

    Simplification: a debugging function is called without arguments; what it does is a program over the runner's state, and its result
    is dropped. The truth value of the setting does not raise. *)
From Verif Require Export Runner_Model.
Local Open Scope monad_scope.

(** the setting; objects that are no booleans have a truth value of their own *)
Inductive pdb_arg : Type := PBool (b : bool) | PFun (truthy : bool) (f : M rs unit) | POther (truthy : bool).
Definition pdb_truth (p : pdb_arg) : bool := match p with PBool b => b | PFun t _ => t | POther t => t end.

Section Debug.
Variable its : items.
Variable u : user.
(** pdb.post_mortem *)
Variable pdb : M rs unit.

(** post_mortem, debug.py:14-26; [None]: no function given *)
Definition post_mortem (debug_fn : option pdb_arg) : M rs unit :=
  match debug_fn with
  | None => pdb
  | Some (PFun _ f) => f
  | Some _ => raise TypeError
  end.
(** pdb_post_mortem_or_passed_debug_fn, debug.py:4-11 *)
Definition post_mortem_or_passed (p : pdb_arg) : M rs unit :=
  match p with
  | PBool b => if b then post_mortem None else ret tt
  | _ => post_mortem (Some p)
  end.
(** _run_with_auto_pdb, main.py:208-222 *)
Definition run_with_auto_pdb (p : pdb_arg) (a : run_arg) : M rs result :=
  r <- try_run (runner_run its u a) ;;
  match r with
  | inl x => ret x
  | inr _ => _ <- post_mortem_or_passed p ;; ret (RVal VNone)
  end.
(** run, main.py:125-160, with _run_depending_on_settings, main.py:199-206 *)
Definition run_depending (p : pdb_arg) (force : bool) (a : run_arg) : M rs result :=
  let a := combine a (u_pre_run u) in
  if pdb_truth p then run_with_auto_pdb p a
  else if force then (x <- run_with_force_continue its u a ;; ret (fst x))
  else runner_run its u a.
End Debug.
