(** Model of a reset and of how it spreads to the configs that refer to the item: Runner.reset (runner/models/runner.py:385-393) with
    ConfigManager.reset and set (config/models/manager.py:95-105, 160-198) and _get_default_func_or_section_config (manager.py:264-288), on
    top of Deps_Model; and the same with the calls of hooks, on top of Spread_Model.

    Simplifications: as in Deps_Model and Spread_Model; the path is that of an item with a config file, and allow_create is not given; no
    name in the file is one of the parameters of track_post_update, which gets the default as keyword arguments (manager.py:318-319; see
    Runner_Model). *)
From Verif Require Export Spread_Model.
Local Open Scope string_scope.
Local Open Scope list_scope.
Local Open Scope monad_scope.

Section Undo.
Context {V : Type} (u : user V).

(** The file is executed for the default before the config is looked at, which may have to be loaded itself. The default replaces the
    config, with no updates remembered, if that changes a value. The object gets the values of the default alone, without those of
    sections. *)
Definition reset (n : nat) (i : string) : M (st V) unit :=
  d <- exec (load u n) i (u_file u i) ;;
  c <- own_config u (load u n) i ;;
  if would_update u (vals c) d then
    set_cfg i (Conf d []) ;;;
    o <- gets (fun s => dget i (objs s)) ;;
    match o with
    | None => ret tt
    | Some o => apply_to_loaded u i o d ;;; refresh_dependents u (refresh u n) n i
    end
  else ret tt.

Inductive step : Type := Op (o : op V) | Reset (i : string).
Definition step_run (n : nat) (t : step) : M (st V) unit := match t with Op o => op_run u n o | Reset i => reset n i end.
Definition steps_run (n : nat) (l : list step) : M (st V) unit := iterM (step_run n) l.

(** with the hooks: those before the change are given the config and the values of the default (manager.py:196, 314-317), those after it
    the default (runner.py:393) *)
Variable objects : list (ev V) -> ev V -> option exn.
Definition reset_h (n : nat) (i : string) : M (ht (V := V)) unit :=
  d <- on_st (exec (load u n) i (u_file u i)) ;;
  c <- on_st (own_config u (load u n) i) ;;
  if would_update u (vals c) d then
    tell objects Before i d ;;;
    on_st (set_cfg i (Conf d [])) ;;;
    o <- gets (fun h => dget i (objs (fst h))) ;;
    match o with
    | None => ret tt
    | Some o => on_st (apply_to_loaded u i o d) ;;; tell_after u objects (refresh_h u objects n) n i d
    end
  else ret tt.
End Undo.
Arguments step V : clear implicits.
