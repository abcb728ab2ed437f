(** Model of updates that may concern several managers: PipelineManager.update and _update (pyfileconf/main.py:319-345 and
    363-394), BatchUpdater (pyfileconf/batch.py), PipelineManager.update_batch (main.py:347-361) and
    get_manager_by_section_path_str (main.py:478-495).

    Not modelled here: recording dependencies on item views (main.py:379-391; Deps_Model), logging. *)
From Verif Require Export Runner_Model.
Local Open Scope list_scope.
Local Open Scope monad_scope.

(** A loaded manager: its config folder's name, its items, its run settings, and the state of its runner. *)
Record pmst : Type := PMS { pm_base : string; pm_items : items; pm_setting : setting; pm_rs : rs }.

(** context.active_managers, by name *)
Definition world : Type := dict pmst.

(** the other entries of an update dict, i.e. without section_path_str: the dict passed as [d_], if any, and everything else
    (also [pyfileconf_persist], and a [d_] that is no dict). *)
Record body : Type := Body { b_d : option (dict pyval); b_vals : dict pyval }.

(** truth value of a value. Simplification: arrays and frames (which have none) count as true. *)
Definition truthy (v : pyval) : bool :=
  match v with
  | VNone => false
  | VBool b => b
  | VInt z => negb (Z.eqb z 0)
  | VStr s => negb (String.eqb s "")
  | VList [] => false
  | _ => true
  end.

(** the dict passed as [d_]; [all_updates.update(d_)] raises for what is no dict (main.py:376). Simplification: iterables of
    pairs, which would be accepted, count as no dict. *)
Definition given_dict (b : body) : res (option (dict pyval)) :=
  match b_d b with
  | Some d => Ok (Some d)
  | None => match dget "d_" (b_vals b) with
            | None | Some VNone => Ok None
            | Some _ => Raise TypeError
            end
  end.

Definition given_persist (b : body) : bool :=
  match dget "pyfileconf_persist" (b_vals b) with Some v => truthy v | None => true end.

Definition given_kwargs (b : body) : dict pyval :=
  dfilter (fun k => negb (mem k ["d_"; "pyfileconf_persist"; "section_path_str"])%string) (b_vals b).

(** PipelineManager._update called as [pm._update( **update)], main.py:363-394 *)
Definition update_call (u : user) (rel : string) (b : body) : M rs unit :=
  if dmem "self" (b_vals b) then raise TypeError
  else d <- lift (given_dict b) ;; runner_update u d (Some rel) (given_persist b) (given_kwargs b).

(** PipelineManager.update, main.py:319-345. [contributed] are the dicts the pyfileconf_pre_update plugins return, in hook
    order. The caller's [d_] is changed in place: the second component of the outcome is its new value. *)
Definition reserved_kwargs : list string := ["self"; "d_"; "section_path_str"; "pyfileconf_persist"]%string.

Definition pm_update (u : user) (contributed : list (dict pyval)) (d : option (dict pyval)) (path : option string)
  (persist : bool) (kwargs : dict pyval) (s : rs) : rs * (option (dict pyval)) * res unit :=
  let new := dict_of (concat contributed) in
  let d' := match d with Some d => Some (dupdate d new) | None => None end in
  let kwargs' := dupdate kwargs new in
  let '(s', r) := if existsb (fun k => dmem k kwargs') reserved_kwargs then (s, Raise TypeError)
                  else runner_update u d' path persist kwargs' s in
  (s', d', r).

(* ------------------------------------------------------------------ *)
(** * Several managers *)

Section World.
(** User code of the manager of a name; it may depend on the state of all managers. *)
Variable U : world -> string -> user.

(** an operation on the manager of the given name *)
Definition on_manager {A} (name : string) (f : pmst -> user -> M rs A) : M world A :=
  fun w => match dget name w with
           | None => (w, Raise (LibExn "NoPipelineManagerForSectionPathException"))
           | Some p => let '(s, r) := f p (U w name) (pm_rs p) in
                       (dset name (PMS (pm_base p) (pm_items p) (pm_setting p) s) w, r)
           end.

(** the manager's name and the path inside the manager, e.g. batch.py:53-54 *)
Definition manager_of (sp : section_path) : string := hd "" (sections sp).
Definition relative (sp : section_path) : string := path_str (mk_sp (join sdot (tl (sections sp)))).

(** one step of BatchUpdater.update, batch.py:46-56 *)
Definition batch_step (base : option string) (strip : bool) (q : sp_like * body) : M world unit :=
  sp <- lift (from_ambiguous (fst q) strip base) ;;
  on_manager (manager_of sp) (fun _ u => update_call u (relative sp) (snd q)).

(** BatchUpdater.update, batch.py:33-58. [contributed] are the lists the pyfileconf_pre_update_batch plugins return; the
    default plugin, which returns the updates themselves, is registered before those of the user and so called after them. (What
    plugins of installed packages return comes after the updates: Plugins_Model.v.) *)
Definition batch_update (contributed : list (list (sp_like * body))) (base : option string) (strip : bool)
  (updates : list (sp_like * body)) : M world unit :=
  iterM (batch_step base strip) (concat contributed ++ updates).

(** PipelineManager.update_batch, main.py:347-361 *)
Definition update_batch contributed (name : string) (updates : list (sp_like * body)) : M world unit :=
  batch_update contributed (Some name) true updates.

(** BatchUpdater.reset, batch.py:60-71. PipelineManager.reset, main.py:270-282, passes on to the runner. *)
Definition batch_reset (base : option string) (strip : bool) (paths : list sp_like) : M world unit :=
  iterM (fun q => sp <- lift (from_ambiguous q strip base) ;;
                  on_manager (manager_of sp) (fun p u => runner_reset (pm_base p) u (Some (relative sp)) false)) paths.

End World.
