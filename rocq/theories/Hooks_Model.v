(** Model of hooks that do something and may raise: where they are called in runs (main.py:125-160, 199-263; runner.py:89-125),
    updates (main.py:319-345), batch updates (batch.py:33-58), iterations (iterate.py:58-66, 122-136) and changes of one config
    (config/models/manager.py:47-77, 314-343; runner.py:378-401). Plugins_Model has what becomes of the results of hooks that do not raise
    and the order in which plugins are called; here the hooks are given in that order.

    Trusted: pluggy calls the implementations of a hook one after the other, drops results that are None, and leaves at the first
    exception (_multicall without wrappers). Simplifications: the state [W] and all that is done to it between the hooks are
    parameters; paths contributed to a run are strings and updates contributed to a batch are lists (other ones: Plugins_Model). *)
From Verif Require Export Runner_Model.
From Verif Require Deps_Model.
Local Open Scope string_scope.
Local Open Scope list_scope.
Local Open Scope monad_scope.

Section Hooks.
Variable W : Type.

(** plm.hook.some_hook(...) *)
Fixpoint call_hooks {A} (hs : list (M W (option A))) : M W (list A) :=
  match hs with
  | [] => ret []
  | h :: rest => x <- h ;; l <- call_hooks rest ;; ret match x with Some a => a :: l | None => l end
  end.

(** _try_except_run_func_except_user_interrupts, main.py:636-673 (as [try_run], for any state) *)
Definition try_except {A} (m : M W A) : M W (A + exn) :=
  fun s => match m s with
           | (s', Ok a) => (s', Ok (inl a))
           | (s', Raise e) => if user_interrupt e then (s', Raise SystemExit) else (s', Ok (inr e))
           end.

(* ------------------------------------------------------------------ *)
(** * Runs *)

Section Runs.
(** Runner._run, runner.py:127-149 *)
Variable one : string -> M W result.
(** pdb_post_mortem_or_passed_debug_fn, debug.py:4-26 *)
Variable debug : M W unit.
Variable pre_run : list (run_arg -> M W (option string)).
Variable post_run : list (result -> M W (option result)).

(** Runner.run, runner.py:89-125 *)
Definition hooked_runner_run (a : run_arg) : M W result :=
  match a with
  | AStr p => r <- one p ;;
              extra <- call_hooks (map (fun h => h r) post_run) ;;
              ret match extra with [] => r | _ => RList (r :: extra) end
  | AList l => rs <- mapM one l ;;
               extra <- call_hooks (map (fun h => h (RList rs)) post_run) ;;
               ret (RList (rs ++ extra))
  end.

(** the loop of _run_with_force_continue, main.py:234-253: results, and the exceptions reported *)
Fixpoint hooked_force_loop (paths : list string) : M W (list result * list (string * exn)) :=
  match paths with
  | [] => ret ([], [])
  | p :: rest =>
      r <- try_except (hooked_runner_run (AStr p)) ;;
      re <- hooked_force_loop rest ;;
      ret match r with
          | inl x => (x :: fst re, snd re)
          | inr e => (fst re, (p, e) :: snd re)
          end
  end.
(** _run_with_force_continue, main.py:224-263; one path gives at most one result *)
Definition hooked_force (a : run_arg) : M W (result * list (string * exn)) :=
  re <- hooked_force_loop match a with AStr p => [p] | AList l => l end ;;
  ret (match a, fst re with AStr _, [r] => r | _, l => RList l end, snd re).
(** _run_with_auto_pdb, main.py:208-222 *)
Definition hooked_auto_pdb (a : run_arg) : M W result :=
  r <- try_except (hooked_runner_run a) ;;
  match r with inl x => ret x | inr _ => debug ;;; ret (RVal VNone) end.

(** PipelineManager.run, main.py:125-160: the hooks before the run are called before the settings are looked at *)
Definition hooked_run (set : setting) (a : run_arg) : M W result :=
  extra <- call_hooks (map (fun h => h a) pre_run) ;;
  let a := combine a extra in
  match set with
  | Plain => hooked_runner_run a
  | ForceContinue => x <- hooked_force a ;; ret (fst x)
  | AutoPdb => hooked_auto_pdb a
  end.
End Runs.

(* ------------------------------------------------------------------ *)
(** * Updates *)

Definition updates : Type := option (dict pyval) * dict pyval.

Section Updates.
(** PipelineManager._update, main.py:363-392 *)
Variable do_update : updates -> M W unit.
Variable pre_update : list (updates -> M W (option (dict pyval))).
Variable post_update : list (updates -> M W (option unit)).

(** main.py:335-339: the caller's dictionary is changed in place, the keyword arguments are the function's own *)
Definition with_news (news : list (dict pyval)) (x : updates) : updates :=
  let new := dict_of (concat news) in
  match new with [] => x | _ => (option_map (fun d => dupdate d new) (fst x), dupdate (snd x) new) end.

(** PipelineManager.update, main.py:319-345. Also gives what the caller's dictionary is afterwards. *)
Definition hooked_update (x : updates) (s : W) : W * option (dict pyval) * res unit :=
  match call_hooks (map (fun h => h x) pre_update) s with
  | (s1, Raise e) => (s1, fst x, Raise e)
  | (s1, Ok news) =>
      let x1 := with_news news x in
      let '(s2, r) := (do_update x1 ;;; call_hooks (map (fun h => h x1) post_update) ;;; ret tt) s1 in
      (s2, fst x1, r)
  end.
End Updates.

Section Batches.
Variable upd : Type.
(** the body of the loop, batch.py:46-54: it calls _update, which calls no hooks of updates *)
Variable step : upd -> M W unit.
Variable pre_batch : list (list upd -> M W (option (list upd))).
Variable post_batch : list (list upd -> M W (option unit)).

(** BatchUpdater.update, batch.py:33-58. The hooks after the batch are given the caller's updates. *)
Definition hooked_batch (us : list upd) : M W unit :=
  lol <- call_hooks (map (fun h => h us) pre_batch) ;;
  iterM step (concat lol) ;;;
  call_hooks (map (fun h => h us) post_batch) ;;;
  ret tt.
End Batches.

(* ------------------------------------------------------------------ *)
(** * Iterations *)

Section Iterations.
Variables conf case defaults : Type.
(** hooks of iterations. A hook that modifies the cases in place gives the changed list. *)
Variable get_cases : list (list conf -> M W (option (list case))).
Variable modify_cases : list (list case -> M W (list case)).
Variable update_for_case : list (case -> M W (option unit)).
(** IterativeRunner.get_defaults, iterate.py:68-87; _fill_case_with_defaults, 89-96; should_run; _run, 138-155 *)
Variable get_defaults : list case -> M W defaults.
Variable fill : defaults -> case -> res case.
Variable should_run : case -> M W bool.
Variable run_all : M W result.
(** self.last_case = ..., iterate.py:135 *)
Variable set_last : case -> M W unit.

Fixpoint modify_all (hs : list (list case -> M W (list case))) (cs : list case) : M W (list case) :=
  match hs with [] => ret cs | h :: rest => cs <- h cs ;; modify_all rest cs end.
(** IterativeRunner.__init__ with get_cases, iterate.py:53-66 *)
Definition hooked_init (confs : list conf) : M W (list case * defaults) :=
  lol <- call_hooks (map (fun h => h confs) get_cases) ;;
  cs <- modify_all modify_cases (concat lol) ;;
  d <- get_defaults cs ;;
  ret (cs, d).
(** IterativeRunner._run_case, iterate.py:131-136 *)
Definition hooked_run_case (d : defaults) (c : case) : M W result :=
  filled <- lift (fill d c) ;;
  call_hooks (map (fun h => h filled) update_for_case) ;;;
  r <- run_all ;;
  set_last filled ;;;
  ret r.
(** IterativeRunner.run, iterate.py:103-120 *)
Fixpoint hooked_run_cases (d : defaults) (cs : list case) : M W (list (case * result)) :=
  match cs with
  | [] => ret []
  | c :: rest =>
      b <- should_run c ;;
      if b then r <- hooked_run_case d c ;; more <- hooked_run_cases d rest ;; ret ((c, r) :: more)
      else hooked_run_cases d rest
  end.
End Iterations.

(* ------------------------------------------------------------------ *)
(** * Changes of one config *)

Section Changes.
(** whether the config would change (would_update, change_from_refresh); the change itself; whether the object is loaded; applying
    the config to it *)
Variable would : M W bool.
Variable change : M W unit.
Variable is_loaded : M W bool.
Variable apply : M W unit.
Variable pre_changed post_changed : list (M W (option unit)).
(** Runner.update and Runner.refresh, runner.py:378-383, 395-401, with ConfigManager.update and refresh, manager.py:47-77, 314-343.
    [path_given]: a section path is given (without one the local config is updated) *)
Definition hooked_change (path_given : bool) : M W unit :=
  b <- would ;;
  (if b then (if path_given then call_hooks pre_changed ;;; ret tt else ret tt) ;;; change else ret tt) ;;;
  if b then l <- is_loaded ;; if l then apply ;;; call_hooks post_changed ;;; ret tt else ret tt
  else ret tt.
End Changes.
End Hooks.

Arguments call_hooks {W A}. Arguments try_except {W A}. Arguments hooked_runner_run {W}. Arguments hooked_force_loop {W}.
Arguments hooked_force {W}. Arguments hooked_auto_pdb {W}. Arguments hooked_run {W}. Arguments hooked_update {W}.
Arguments hooked_batch {W upd}. Arguments modify_all {W case}. Arguments hooked_init {W conf case defaults}.
Arguments hooked_run_case {W case defaults}. Arguments hooked_run_cases {W case defaults}. Arguments hooked_change {W}.

(* ------------------------------------------------------------------ *)
(** * The parts of a change, in the model of configs that depend on each other (Deps_Model) *)

Section D.
Import Deps_Model.
Context {V : Type}.
Variable u : user V.

(** would_update, basemodels/config.py:136-157; update, 65-74; runner.py:381; apply.py:7-36 *)
Definition dep_would n i d : M (st V) bool := c <- own_config u (load u n) i ;; ret (would_update u (vals c) (dict_of d)).
Definition dep_change n i d persist : M (st V) unit := c <- own_config u (load u n) i ;; set_cfg i (cfg_update c (dict_of d) persist).
Definition dep_loaded i : M (st V) bool := gets (fun s => match dget i (objs s) with Some _ => true | None => false end).
Definition dep_apply n i : M (st V) unit :=
  o <- gets (fun s => dget i (objs s)) ;;
  match o with Some o => c <- own_config u (load u n) i ;; apply_to_loaded u i o (vals c) | None => ret tt end.
(** pyfileconf_post_config_changed, default_hooks.py:67-89 *)
Definition dep_default n i : M (st V) (option unit) := refresh_dependents u (refresh u n) n i ;;; ret None.
(** Runner.update with all hooks after the change, in the order in which they are called (C84): the user's, the default one, those of
    installed packages *)
Definition dep_update (users installed : list (M (st V) (option unit))) n i d persist : M (st V) unit :=
  hooked_change (dep_would n i d) (dep_change n i d persist) (dep_loaded i) (dep_apply n i) [] (users ++ dep_default n i :: installed) true.
End D.
