(** Model of the registry of active managers: pyfileconf/main.py:59-82 (registration at the end of
    __init__), 459-496 (lookups), 592-597 (option validation), 615-623 (__del__),
    and pyfileconf/pmcontext/main.py:38-42 (context.reset). *)
From Verif Require Export SectionPath_Model Py_Dict.

(** A PipelineManager object; [m_id] is its identity (what Python's [is] compares). *)
Record manager : Type := Mgr { m_id : nat; m_name : string; m_folder : string;
                               m_default_config_folder : string }.

(** context.active_managers: Dict[str, PipelineManager] *)
Definition registry : Type := dict manager.

(** main.py:81 [context.active_managers[self.name] = self]. A repeated name only warns
    (595-597); an option conflict (593-594) raises before this line, so nothing is registered. *)
Definition register (auto_pdb force_continue : bool) (m : manager) (r : registry) : registry * res unit :=
  if auto_pdb && force_continue then (r, Raise ValueError)
  else (dset (m_name m) m r, Ok tt).

(** PipelineManager.__del__, main.py:615-623 *)
Definition finalise (m : manager) (r : registry) : registry :=
  match dget (m_name m) r with
  | None => r
  | Some cur => if Nat.eqb (m_id cur) (m_id m) then ddel (m_name m) r else r
  end.

(** A history of registry operations: construction (with the two exclusive options), finalisation
    by the garbage collector at an arbitrary later time, and context.reset() *)
Inductive reg_op : Type :=
| OpNew (auto_pdb force_continue : bool) (m : manager)
| OpDel (m : manager)
| OpReset.

Definition reg_step (r : registry) (o : reg_op) : registry :=
  match o with
  | OpNew a f m => fst (register a f m r)
  | OpDel m => finalise m r
  | OpReset => []
  end.

Definition reg_run (ops : list reg_op) : registry := fold_left reg_step ops [].

(** PipelineManager.get_manager_by_section_path_str, main.py:478-495 *)
Definition get_manager_by_section_path_str (r : registry) (s : string) : res manager :=
  match sections (mk_sp s) with
  | [] => Raise IndexError
  | name :: _ => match dget name r with
                 | Some m => Ok m
                 | None => Raise (LibExn "NoPipelineManagerForSectionPathException")
                 end
  end.

(** PipelineManager.get_manager_by_filepath, main.py:459-476 *)
Definition get_manager_by_filepath (cwd : string) (r : registry) (filepath : string) : res manager :=
  let abs_filepath := abspath cwd filepath in
  match find (fun m => startswith abs_filepath (abspath cwd (m_folder m) ++ sslash)) (dvals r) with
  | Some m => Ok m
  | None => Raise (LibExn "NoPipelineManagerForFilepathException")
  end.

(** PyfileconfFrame.from_file_path, pyfileconf/pmcontext/stack.py:29-39; default_config_path is
    main.py:72 *)
Definition default_config_path (m : manager) : string :=
  path_join (m_folder m) (m_default_config_folder m).

Definition frame_section_path_of_file (cwd : string) (r : registry) (filepath : string) : res section_path :=
  match get_manager_by_filepath cwd r filepath with
  | Raise e => Raise e
  | Ok m => match from_filepath cwd (default_config_path m) filepath with
            | Raise e => Raise e
            | Ok sp => Ok (sp_join (mk_sp (m_name m)) sp)
            end
  end.
