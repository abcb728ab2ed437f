(** Model of configs that depend on other items (context.force_update_dependencies) where the dependent one is the config of a
    section: PyfileconfFrame.from_file_path (pyfileconf/pmcontext/stack.py:29-39) names it after its file, section.py, and
    _refresh_configs (config/models/manager.py:369-375) looks it up by this name. Also: paths that lead to attributes of the
    config manager and of sections which hold configs themselves (manager.py:23-27, section.py:18-21), which
    ConfigTree_Model leaves out.

    Simplifications: what executing the config files yields is a parameter that may depend on the state of all managers; the
    dependencies recorded before are given and executing a file again records nothing new (Deps_Model has this, for items);
    paths that go on below [section] (e.g. "section.sec.item", a second way to get everything) are left out. *)
From Verif Require Export Batch_Model Registry_Model.
Local Open Scope string_scope.
Local Open Scope list_scope.
Local Open Scope monad_scope.

(* ------------------------------------------------------------------ *)
(** * Attributes that hold configs *)

(** ConfigManager.section is the project's section (manager.py:24), .local_config the local config (27), and .config of a
    section its own config (section.py:20), if it has one; [getattr(config_manager, 'config')] goes to the project's section
    (manager.py:29-30). [None]: the path does not lead to such an attribute. *)
Definition config_field (st : cms) (parts : list string) : option (option cref) :=
  if String.eqb (last parts "") "config"
  then match lookup_at st (removelast parts) with
       | Ok (LSec s) => match s_cfg s with Some _ => Some (Some (CSec (removelast parts))) | None => None end
       | _ => None
       end
  else None.
Definition field_ref (st : cms) (parts : list string) : option (option cref) :=
  match parts with
  | [x] => if String.eqb x "section" then Some (project_ref st)
           else if String.eqb x "local_config" then Some (Some CLocal)
           else config_field st parts
  | _ => config_field st parts
  end.
(** _get_func_or_section_configs, manager.py:200-230. What is found is stored under the same attribute again, which changes
    nothing. *)
Definition stored_config_at (path : string) : M cms (option cref) :=
  fun st => match field_ref st (path_parts path) with
            | Some r => (st, Ok r)
            | None => stored_config (Some path) st
            end.

(** the rest of ConfigManager.refresh, manager.py:70-77 *)
Definition refresh_found (path : string) (r : option cref) : M cms (cref * bool * dict pyval) :=
  match r with
  | None => raise not_loaded
  | Some r =>
      c <- deref r ;;
      content <- reread c ;;
      changes <- lift (change_from_refresh c content) ;;
      match changes with
      | [] => ret (r, false, [])
      | _ :: _ =>
          emit (EvPre path changes) ;;;
          cu <- lift (cfg_refresh c content) ;;
          write_cref r (fst cu) ;;; ret (r, true, snd cu)
      end
  end.
Definition cm_refresh_at (path : string) : M cms (cref * bool * dict pyval) := r <- stored_config_at path ;; refresh_found path r.

(** the rest of ConfigManager.update, manager.py:58-66 *)
Definition update_found (d : option (dict pyval)) (path : string) (persist : bool) (kwargs : dict pyval) (r : option cref) : M cms (cref * bool) :=
  match r with
  | None => raise not_loaded
  | Some r =>
      c <- deref r ;;
      if dmem "config_" kwargs then raise TypeError
      else
        let all_updates := dupdate (opt_dict d) kwargs in
        w <- lift (would_update c (Some all_updates) []) ;;
        if w then
          emit (EvPre path all_updates) ;;;
          if dmem "E" kwargs then raise TypeError
          else write_cref r (cfg_update c d persist kwargs) ;;; ret (r, true)
        else ret (r, false)
  end.
Definition cm_update_at (d : option (dict pyval)) (path : string) (persist : bool) (kwargs : dict pyval) : M cms (cref * bool) :=
  r <- stored_config_at path ;; update_found d path persist kwargs r.

(** Runner.refresh, runner.py:395-401. [section] and [local_config] are no items, so that nothing is loaded under these names. *)
Definition runner_refresh_at (u : user) (path : string) : M rs unit :=
  rbu <- on_cms (cm_refresh_at path) ;;
  let '(_, updated, updates) := rbu in
  o <- loaded_at (Some path) ;;
  match o with
  | Some o => if updated then
                c <- get_config path ;;
                apply_config u path o (c_vals c) ;;;
                on_cms (emit (EvPost path updates))
              else ret tt
  | None => ret tt
  end.

(* ------------------------------------------------------------------ *)
(** * Dependents in several managers *)

Definition with_disk (d : dir) (s : rs) : rs :=
  RS (CMS (cs_root (r_cms s)) (cs_local (r_cms s)) d (cs_trace (r_cms s))) (r_loaded s) (r_next s) (r_calls s).
Definition set_rs (name : string) (p : pmst) (s : rs) (w : world) : world := dset name (PMS (pm_base p) (pm_items p) (pm_setting p) s) w.
(** whether the hooks pyfileconf_post_config_changed were called meanwhile *)
Definition posted (before after : rs) : bool :=
  existsb (fun e => match e with EvPost _ _ => true | EvPre _ _ => false end) (skipn (length (cs_trace (r_cms before))) (cs_trace (r_cms after))).

Section World.
Variable U : world -> string -> user.
Variable files : world -> string -> dir.           (* what executing the config files of a manager yields now *)
Variable forced : dict (list string).              (* context.force_update_dependencies: dependents as path strings *)
Variable order : list string -> list string.       (* the iteration order of sets *)

(** an operation on a manager; the answer says whether the hooks were called *)
Definition on_mgr (name : string) (f : pmst -> user -> M rs unit) : M world bool :=
  fun w => match dget name w with
           | None => (w, Raise (LibExn "NoPipelineManagerForSectionPathException"))
           | Some p => let s := with_disk (files w name) (pm_rs p) in
                       let '(s', r) := f p (U w name) s in
                       (set_rs name p s' w, match r with Ok _ => Ok (posted s s') | Raise e => Raise e end)
           end.

Definition dependents (full : string) : list string := match dget full forced with Some l => order l | None => [] end.

(** _refresh_configs for one path, manager.py:372-375, with the default hook (plugin/default_hooks.py:67-88) if it changes
    anything that is loaded *)
Fixpoint refresh_path (n : nat) (full : string) : M world unit :=
  match n with
  | 0 => raise RecursionError
  | S n =>
      b <- on_mgr (manager_of (mk_sp full)) (fun p u => runner_refresh_at u (relative (mk_sp full))) ;;
      if b then iterM (refresh_path n) (dependents full) else ret tt
  end.

(** PipelineManager.update of one item, main.py:363-394, with the default hook; refresh_dependent_configs, manager.py:79-93.
    Nothing new is recorded meanwhile, so that its loop ends after one round (C39). *)
Definition update_item (n : nat) (name path : string) (d : option (dict pyval)) (persist : bool) (kwargs : dict pyval) : M world unit :=
  b <- on_mgr name (fun _ u => runner_update u d (Some path) persist kwargs) ;;
  if b then iterM (refresh_path n) (dependents (path_str (sp_join (mk_sp name) (mk_sp path)))) else ret tt.
End World.
