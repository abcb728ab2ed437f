(** Loading and reloading a manager: which modules stay in sys.modules.
    main.py:284-317, 570-571 and imports/models/tracker.py.

    Simplifications: what happens during a load is a list of actions; imports made by an import are listed before or after it.
    A module object is a number, different for every execution of a module. Where a manager is interrupted before its first load is
    complete, the interrupt is taken to happen before [self.runner] is set. *)
From Verif Require Export Py_Exn Py_Dict.
Local Open Scope string_scope.
Local Open Scope list_scope.
Local Open Scope monad_scope.

Record st : Type := St {
  mods : dict nat;                  (* sys.modules *)
  fresh : nat;                      (* the next module object *)
  loaded : dict (list string);      (* self._loaded_modules by manager; no entry before the first load *)
  trackers : dict (list string) }.  (* self._import_tracker.original_modules by manager *)

Definition with_mods (f : dict nat -> dict nat) (s : st) : st := St (f (mods s)) (fresh s) (loaded s) (trackers s).
Definition set_loaded (i : string) (l : list string) : M st unit := modify (fun s => St (mods s) (fresh s) (dset i l (loaded s)) (trackers s)).

(** [import m]: a module in sys.modules is not executed again *)
Definition import (m : string) : M st unit := fun s =>
  if dmem m (mods s) then (s, Ok tt) else (St (dset m (fresh s) (mods s)) (S (fresh s)) (loaded s) (trackers s), Ok tt).

(** [sys.modules.pop(m)] *)
Definition pop (m : string) : M st unit := fun s => if dmem m (mods s) then (with_mods (ddel m) s, Ok tt) else (s, Raise KeyError).

Definition mem_s (l : list string) (m : string) : bool := existsb (String.eqb m) l.

(** ImportTracker.__init__ (tracker.py:5-6), main.py:305 *)
Definition start_tracker (i : string) : M st unit := modify (fun s => St (mods s) (fresh s) (loaded s) (dset i (dkeys (mods s)) (trackers s))).
(** ImportTracker.imported_modules (tracker.py:8-11). Without a tracker (never the case below) AttributeError. *)
Definition imported_modules (i : string) : M st (list string) := fun s =>
  match dget i (trackers s) with Some l => (s, Ok (filter (fun m => negb (mem_s l m)) (dkeys (mods s)))) | None => (s, Raise AttributeError) end.

(** _wipe_loaded_modules (main.py:570-571). Before the first load self._loaded_modules goes through __getattr__ (main.py:85-93). *)
Definition wipe (i : string) : M st unit := fun s =>
  match dget i (loaded s) with Some l => iterM pop l s | None => (s, Raise (LibExn "PipelineManagerNotLoadedException")) end.

(** caught by [except Exception] *)
Definition is_exception (e : exn) : bool := match e with KeyboardInterrupt | SystemExit => false | _ => true end.

(** load (main.py:300-317); [body] is _load_pipeline_config_and_runner *)
Definition load (i : string) (body : M st unit) : M st unit :=
  start_tracker i ;;;
  fun s => match body s with
           | (s1, Ok _) => (l <- imported_modules i ;; set_loaded i l) s1
           | (s1, Raise e) => if is_exception e then (l <- imported_modules i ;; set_loaded i l ;;; wipe i ;;; set_loaded i [] ;;; raise e) s1 else (s1, Raise e)
           end.

(** reload (main.py:284-298) *)
Definition reload (i : string) (body : M st unit) : M st unit := wipe i ;;; load i body.

(** What user code can do while it is loaded or between loads. *)
Inductive act : Type :=
| Import (m : string)
| Drop (m : string)                         (* sys.modules.pop(m) *)
| Throw (e : exn)
| Try (body : list act)                     (* try: ... except Exception: pass *)
| Load (i : string) (body : list act)
| Reload (i : string) (body : list act).

Definition catch (m : M st unit) : M st unit := fun s =>
  match m s with (s1, Raise e) => if is_exception e then (s1, Ok tt) else (s1, Raise e) | r => r end.

Fixpoint run_act (a : act) : M st unit :=
  let runs := fix runs (l : list act) : M st unit := match l with [] => ret tt | a :: l => run_act a ;;; runs l end in
  match a with
  | Import m => import m
  | Drop m => pop m
  | Throw e => raise e
  | Try b => catch (runs b)
  | Load i b => load i (runs b)
  | Reload i b => reload i (runs b)
  end.
Definition runs : list act -> M st unit := iterM run_act.

(** Acts of the user one after the other, each in its own try statement. *)
Definition history (l : list act) (s : st) : st := fold_left (fun s a => fst (run_act a s)) l s.

Definition start : st := St [] 0 [] [].
