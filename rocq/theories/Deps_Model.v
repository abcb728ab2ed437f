(** Model of how a change of one config reaches the configs that refer to it: ConfigManager.refresh_dependent_configs and
    refresh (config/models/manager.py:47-93), the default hook that starts it (plugin/default_hooks.py:67-89),
    Runner.update/refresh and the loading of objects (runner/models/runner.py:299-327, 378-401), ConfigBase.refresh etc.
    (basemodels/config.py:65-74, 117-174) and the lookup of attributes of other items in config files
    (selector/models/itemview.py:32-72, selector.py:144-155).

    Simplifications: items are named by their full path (C01-C03), whatever manager they are in; the configs of the enclosing
    sections and the local config are constant, only their combined values [inherited i] for an item matter (C16); no item is
    running (then further dependencies would be recorded, C36); config files contain no run of an item and no update.
    Everything a user writes is a parameter: files, constructors, equality of values, the iteration order of sets. *)
From Verif Require Export Py_Dict Py_Exn.
Local Open Scope string_scope.
Local Open Scope list_scope.
Local Open Scope monad_scope.

Definition mem (x : string) (l : list string) : bool := existsb (String.eqb x) l.

(** The loop of refresh_dependent_configs, manager.py:84-93: [update_deps] is being refreshed, [done] was before. [deps_of]:
    the forced dependents of the item at the time, [order]: the iteration order of a set, [refresh]: refreshing one of them,
    which may do anything. *)
Section Loop.
Context {T : Type} (deps_of : T -> list string) (order : T -> list string -> list string) (refresh : string -> M T unit).

Definition same_set (a b : list string) : bool := forallb (fun x => mem x b) a && forallb (fun x => mem x a) b.
Definition minus (a b : list string) : list string := filter (fun x => negb (mem x b)) a.

Fixpoint dep_loop (n : nat) (update_deps done : list string) : M T unit :=
  match update_deps with
  | [] => ret tt
  | _ =>
      match n with
      | 0 => raise RecursionError                        (* stands for: does not end *)
      | S n =>
          todo <- gets (fun s => order s update_deps) ;;
          iterM refresh todo ;;;
          all <- gets deps_of ;;
          let done' := done ++ update_deps in
          let new := minus all done' in
          if same_set update_deps new then raise (LibExn "CannotResolveConfigDependenciesException")
          else dep_loop n new done'
      end
  end.
End Loop.

(** What a config file does when executed, as far as other items are concerned: it reads attributes of other items, and what
    it does next may depend on the values. *)
Inductive prog (V : Type) : Type :=
| Ret (d : list (string * V))                           (* the assignments of the file *)
| Fail (e : exn)
| Read (j k : string) (cont : V -> prog V).
Arguments Ret {V} d. Arguments Fail {V} e. Arguments Read {V} j k cont.

(** an ActiveFunctionConfig: its values and [_applied_updates] *)
Record conf (V : Type) : Type := Conf { vals : dict V; applied : dict V }.
Arguments Conf {V} vals applied. Arguments vals {V}. Arguments applied {V}.

(** [cfgs]: configs loaded so far; [objs]: attributes of the loaded objects; [forced]: context.force_update_dependencies *)
Record st (V : Type) : Type := St { cfgs : dict (conf V); objs : dict (dict V); forced : dict (list string) }.
Arguments St {V} cfgs objs forced. Arguments cfgs {V}. Arguments objs {V}. Arguments forced {V}.

Record user (V : Type) : Type := User {
  u_eq : V -> V -> bool;                                (* _values_are_equal, basemodels/config.py:177-191 *)
  u_file : string -> prog V;
  u_inherited : string -> list (string * V);
  u_init : string -> dict V -> res (dict V);            (* construction of the object from its config *)
  u_apply : string -> dict V -> dict V -> res (dict V); (* applying a changed config to the object, apply.py:7-36 *)
  u_order : st V -> list string -> list string          (* iteration order of a set *)
}.
Arguments u_eq {V}. Arguments u_file {V}. Arguments u_inherited {V}. Arguments u_init {V}. Arguments u_apply {V}. Arguments u_order {V}.

Section Deps.
Context {V : Type} (u : user V).

Definition dependents (j : string) (s : st V) : list string := match dget j (forced s) with Some l => l | None => [] end.
Definition set_add (x : string) (l : list string) : list string := if mem x l then l else l ++ [x].

(** add_config_dependency(i, j, force_update=True), pmcontext/main.py:52-63 *)
Definition add_dependency (i j : string) (s : st V) : st V :=
  if String.eqb i j then s else St (cfgs s) (objs s) (dset j (set_add i (dependents j s)) (forced s)).
Definition set_cfg (i : string) (c : conf V) : M (st V) unit := modify (fun s => St (dset i c (cfgs s)) (objs s) (forced s)).
Definition set_obj (i : string) (o : dict V) : M (st V) unit := modify (fun s => St (cfgs s) (dset i o (objs s)) (forced s)).

(** the lookup of the item in ItemView.__getattr__, itemview.py:42-59: a RecursionError is taken for a typo
    (selector/logic/exc/typo.py:24-26). (All managers are loaded, so that the other handler is not reached.) *)
Definition item_not_found : exn := LibExn "ItemNotFoundException".
Definition by_view (ld : string -> M (st V) unit) (j : string) : M (st V) unit :=
  fun s => match ld j s with (s1, Raise RecursionError) => (s1, Raise item_not_found) | r => r end.
(** Executing the file of [i], with [ld] to load other items: the dependency is recorded, the item loaded if it is not,
    then the attribute read. *)
Fixpoint exec (ld : string -> M (st V) unit) (i : string) (p : prog V) : M (st V) (dict V) :=
  match p with
  | Ret d => ret (dict_of d)
  | Fail e => raise e
  | Read j k cont =>
      modify (add_dependency i j) ;;;
      by_view ld j ;;;
      o <- gets (fun s => dget j (objs s)) ;;
      match o with
      | Some o => match dget k o with Some v => exec ld i (cont v) | None => raise AttributeError end
      | None => raise AttributeError                    (* not possible *)
      end
  end.

(** _get_func_or_section_configs, manager.py:200-230: the config, loaded from its file if it was not yet *)
Definition own_config (ld : string -> M (st V) unit) (i : string) : M (st V) (conf V) :=
  c <- gets (fun s => dget i (cfgs s)) ;;
  match c with
  | Some c => ret c
  | None => d <- exec ld i (u_file u i) ;; set_cfg i (Conf d []) ;;; ret (Conf d [])
  end.

(** ConfigBase.update, basemodels/config.py:65-74 *)
Definition cfg_update (c : conf V) (d : dict V) (persist : bool) : conf V :=
  Conf (dupdate (vals c) d) (if persist then dupdate (applied c) d else applied c).

(** ConfigManager.get, manager.py:114-158: the values of the sections are applied as updates, unless the config is empty *)
Definition config_get (ld : string -> M (st V) unit) (i : string) : M (st V) (conf V) :=
  c <- own_config ld i ;;
  let c' := match vals c with [] => c | _ => cfg_update c (dict_of (u_inherited u i)) true end in
  set_cfg i c' ;;; ret c'.

(** Loading the object of an item, runner.py:299-327. Python gives up at some depth of nested loads. *)
Fixpoint load (n : nat) (i : string) : M (st V) unit :=
  match n with
  | 0 => raise RecursionError
  | S n =>
      o <- gets (fun s => dget i (objs s)) ;;
      match o with
      | Some _ => ret tt
      | None => c <- config_get (load n) i ;; o <- lift (u_init u i (vals c)) ;; set_obj i o
      end
  end.

(** ConfigBase.would_update, basemodels/config.py:136-157 *)
Definition would_update (c all : dict V) : bool :=
  existsb (fun kv => match dget (fst kv) c with Some w => negb (u_eq u w (snd kv)) | None => false end) all.

(** refresh_dependent_configs, manager.py:79-93 *)
Definition refresh_dependents (refresh : string -> M (st V) unit) (n : nat) (j : string) : M (st V) unit :=
  deps <- gets (dependents j) ;; dep_loop (dependents j) (u_order u) refresh n deps [].

(** apply_config on the loaded object, apply.py:7-36 *)
Definition apply_to_loaded (i : string) (o c : dict V) : M (st V) unit := o' <- lift (u_apply u i o c) ;; set_obj i o'.

(** Runner.refresh, runner.py:395-401, with ConfigManager.refresh, manager.py:68-77 and 339-343: the file is executed to see
    whether anything would change and once more to get the new values. *)
Fixpoint refresh (n : nat) (i : string) : M (st V) unit :=
  match n with
  | 0 => raise RecursionError
  | S n =>
      own_config (load n) i ;;;
      d <- exec (load n) i (u_file u i) ;;
      c <- own_config (load n) i ;;
      if would_update (vals c) (dupdate d (applied c)) then
        d <- exec (load n) i (u_file u i) ;;
        c <- own_config (load n) i ;;
        set_cfg i (cfg_update c (dupdate d (applied c)) false) ;;;
        o <- gets (fun s => dget i (objs s)) ;;
        match o with
        | None => ret tt
        | Some o =>
            c <- config_get (load n) i ;;
            apply_to_loaded i o (vals c) ;;;
            refresh_dependents (refresh n) n i
        end
      else ret tt
  end.

(** Runner.update, runner.py:378-383, with ConfigManager.update, manager.py:47-66 *)
Definition update (n : nat) (i : string) (d : list (string * V)) (persist : bool) : M (st V) unit :=
  c <- own_config (load n) i ;;
  if would_update (vals c) (dict_of d) then
    let c' := cfg_update c (dict_of d) persist in
    set_cfg i c' ;;;
    o <- gets (fun s => dget i (objs s)) ;;
    match o with
    | None => ret tt
    | Some o => apply_to_loaded i o (vals c') ;;; refresh_dependents (refresh n) n i
    end
  else ret tt.

(** What a user does. *)
Inductive op : Type := Load (i : string) | Update (i : string) (d : list (string * V)) (persist : bool) | Refresh (i : string).
Definition op_run (n : nat) (o : op) : M (st V) unit :=
  match o with
  | Load i => load n i
  | Update i d persist => update n i d persist
  | Refresh i => refresh n i
  end.
End Deps.
Arguments op V : clear implicits.
