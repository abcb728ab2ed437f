(** Model of what hooks are told while a change spreads to dependent configs: Deps_Model with the calls of
    pyfileconf_pre_config_changed and pyfileconf_post_config_changed (config/models/manager.py:47-93, 314-343, runner.py:378-401). The default
    hook (plugin/default_hooks.py:67-89), which refreshes the dependents, is called after the user's hooks and before those of installed
    packages (C84).

    Simplifications: as in Deps_Model; hooks look at what they are given, write it down and may raise, nothing else. *)
From Verif Require Export Deps_Model.
Local Open Scope string_scope.
Local Open Scope list_scope.
Local Open Scope monad_scope.

(** the hooks before a change; those of the user and those of installed packages after it *)
Inductive when : Type := Before | Users | Installed.
(** what they are told: the item, the values of its config at the time, the updates *)
Record ev (V : Type) : Type := Ev { e_when : when; e_item : string; e_vals : option (dict V); e_updates : dict V }.
Arguments Ev {V}. Arguments e_when {V}. Arguments e_item {V}. Arguments e_vals {V}. Arguments e_updates {V}.

Section Spread.
Context {V : Type} (u : user V).
(** whether the hooks raise, given what was told before *)
Variable objects : list (ev V) -> ev V -> option exn.
Definition ht : Type := st V * list (ev V).

Definition on_st {A} (m : M (st V) A) : M ht A := fun h => let '(s, r) := m (fst h) in ((s, snd h), r).
(** the call of a hook; hooks are given the config itself, so they see its values at the time *)
Definition tell (w : when) (i : string) (updates : dict V) : M ht unit := fun h =>
  let e := Ev w i (option_map vals (dget i (cfgs (fst h)))) updates in
  ((fst h, snd h ++ [e]), match objects (snd h) e with Some x => Raise x | None => Ok tt end).

(** refresh_dependent_configs, manager.py:79-93, called by the default hook *)
Definition refresh_dependents_h (refresh : string -> M ht unit) (n : nat) (j : string) : M ht unit :=
  deps <- gets (fun h => dependents j (fst h)) ;; dep_loop (fun h => dependents j (fst h)) (fun h => u_order u (fst h)) refresh n deps [].
(** track_post_update, manager.py:318-325 *)
Definition tell_after (refresh : string -> M ht unit) (n : nat) (i : string) (updates : dict V) : M ht unit :=
  tell Users i updates ;;; refresh_dependents_h refresh n i ;;; tell Installed i updates.

(** Runner.refresh, runner.py:395-401, with ConfigManager.refresh, manager.py:68-77 and 339-343 *)
Fixpoint refresh_h (n : nat) (i : string) : M ht unit :=
  match n with
  | 0 => raise RecursionError
  | S n =>
      on_st (own_config u (load u n) i) ;;;
      d <- on_st (exec (load u n) i (u_file u i)) ;;
      c <- on_st (own_config u (load u n) i) ;;
      if would_update u (vals c) (dupdate d (applied c)) then
        tell Before i (dupdate d (applied c)) ;;;
        d <- on_st (exec (load u n) i (u_file u i)) ;;
        c <- on_st (own_config u (load u n) i) ;;
        let updates := dupdate d (applied c) in
        on_st (set_cfg i (cfg_update c updates false)) ;;;
        o <- gets (fun h => dget i (objs (fst h))) ;;
        match o with
        | None => ret tt
        | Some o =>
            c <- on_st (config_get u (load u n) i) ;;
            on_st (apply_to_loaded u i o (vals c)) ;;;
            tell_after (refresh_h n) n i updates
        end
      else ret tt
  end.

(** Runner.update, runner.py:378-383, with ConfigManager.update, manager.py:47-66 *)
Definition update_h (n : nat) (i : string) (d : list (string * V)) (persist : bool) : M ht unit :=
  c <- on_st (own_config u (load u n) i) ;;
  if would_update u (vals c) (dict_of d) then
    tell Before i (dict_of d) ;;;
    let c' := cfg_update c (dict_of d) persist in
    on_st (set_cfg i c') ;;;
    o <- gets (fun h => dget i (objs (fst h))) ;;
    match o with
    | None => ret tt
    | Some o => on_st (apply_to_loaded u i o (vals c')) ;;; tell_after (refresh_h n) n i (dict_of d)
    end
  else ret tt.

Definition op_run_h (n : nat) (o : op V) : M ht unit :=
  match o with
  | Load i => on_st (load u n i)
  | Update i d persist => update_h n i d persist
  | Refresh i => refresh_h n i
  end.
End Spread.
