(** Model of the config tree and the ConfigManager: pyfileconf/config/models/manager.py,
    pyfileconf/config/models/section.py, pyfileconf/logic/get.py, pyfileconf/logic/set.py.

    Objects are modelled by value, not by address. The aliases the code creates between config
    objects are represented exactly: the attribute that ConfigManager sets when an item named like its
    section is looked up refers to the section's own config ([NSelf]); the only other alias, between
    an entry of a section's item list and the attribute of the same name, is never observable because
    the attribute hides the entry from then on. *)
From Verif Require Export Config_Model SectionPath_Model.

(* ------------------------------------------------------------------ *)
(** * Files on disk *)

(** The config folder: files with what executing them yields (a dict of the assigned names, or an
    exception), and sub-folders. Config files here do not depend on other items; files that do are the
    subject of Deps_Model. *)
Inductive dir : Type :=
| Dir (files : list (string * res (dict pyval))) (subs : list (string * dir)).

Definition dir_files (d : dir) := match d with Dir f _ => f end.
Definition dir_subs (d : dir) := match d with Dir _ s => s end.

Fixpoint find_dir (d : dir) (folders : list string) : option dir :=
  match folders with
  | [] => Some d
  | x :: rest => match dget x (dir_subs d) with Some d' => find_dir d' rest | None => None end
  end.

(** executing a config file *)
Definition read_file (d : dir) (ref : fileref) : res (dict pyval) :=
  match find_dir d (fst ref) with
  | None => Raise OSError
  | Some d' => match dget (snd ref) (dir_files d') with
               | Some r => r
               | None => Raise OSError
               end
  end.

(** the file of the item at a section path: [section_path.to_filepath(basepath) + '.py'],
    manager.py:271-272 and 284. Simplification: parts are taken as folder/file names directly, i.e.
    parts with slashes or empty parts are outside the model (they are covered by C03). *)
Definition item_file (parts : list string) : fileref := (removelast parts, (last parts "" ++ ".py")%string).

(* ------------------------------------------------------------------ *)
(** * Config sections *)

(** What a ConfigSection's item list and instance attributes can hold. *)
Inductive node : Type :=
| NConf (c : config)                         (* a loaded ActiveFunctionConfig *)
| NFile (ref : fileref) (name : string)      (* an ActiveFunctionConfigFile, not loaded yet *)
| NSelf                                      (* the very config object of the section holding it *)
| NSec (s : sec)
with sec : Type :=
| Sec (name : string) (cfg : option config) (attrs : list (string * node)) (items : list node).

Definition s_name (s : sec) := match s with Sec n _ _ _ => n end.
Definition s_cfg (s : sec) := match s with Sec _ c _ _ => c end.
Definition s_attrs (s : sec) : dict node := match s with Sec _ _ a _ => a end.
Definition s_items (s : sec) := match s with Sec _ _ _ i => i end.

(** [config.name] for the entries of a section, section.py:52-59 *)
Definition node_name (n : node) : option string :=
  match n with
  | NConf c => c_name c
  | NFile _ name => Some name
  | NSelf => None
  | NSec s => Some (s_name s)
  end.

Definition has_name (x : string) (n : node) : bool :=
  match node_name n with Some y => String.eqb x y | None => false end.

(** [config_map[x]], section.py:51-62: later entries of the same name replace earlier ones *)
Fixpoint last_named (x : string) (items : list node) : option node :=
  match items with
  | [] => None
  | n :: rest => match last_named x rest with
                 | Some m => Some m
                 | None => if has_name x n then Some n else None
                 end
  end.

(** Names that Python resolves to attributes of the classes themselves, so that [__getattr__] is not
    consulted: fields, properties and methods of ConfigSection/Container (section.py, container.py)
    and, for the top level, of ConfigManager (manager.py). Simplification: dunder names and names of
    the mixin are left out; that the attributes section, local_config and config hold a section or a config
    is left out here, see SectionDeps_Model.v. *)
Definition sec_reserved : list string :=
  ["config"; "items"; "name"; "_items"; "_config_map"; "append"; "extend"; "config_map"; "_set_config_map";
   "update"; "from_files"; "insert"; "copy"; "add_if_missing"; "append_if_missing"; "insert_if_missing";
   "repr_cols"]%string.
Definition mgr_reserved : list string :=
  ["section"; "basepath"; "pipeline_manager_name"; "local_config"; "load"; "update"; "refresh";
   "refresh_dependent_configs"; "reset"; "pop"; "get"; "set"; "_get_func_or_section_configs";
   "_set_func_or_section_config"; "_set_func_or_config_with_create"; "_set_func_or_config_no_create";
   "_get_default_func_or_section_config"; "_is_function_or_pipeline_path";
   "_get_project_config_or_local_config_by_section_path"; "_track_pre_update"; "track_post_update";
   "_determine_and_track_if_config_would_be_updated"; "_determine_and_track_if_config_would_be_refreshed";
   "pipeline_manager"; "repr_cols"]%string ++ sec_reserved.
(** attributes of a config object (basemodels/config.py plus dict) and of a config file object
    (basemodels/file.py) *)
Definition conf_reserved : list string :=
  ["name"; "annotations"; "imports"; "begin_assignments"; "klass"; "always_import_strs"; "always_assign_strs";
   "_file"; "_applied_updates"; "config_file_class"; "update"; "to_file"; "from_file"; "copy"; "refresh";
   "would_update"; "change_from_refresh"; "as_imports_and_assignments"; "_get_new_config_from_file";
   "for_function"; "clear"; "fromkeys"; "get"; "items"; "keys"; "pop"; "popitem"; "setdefault"; "values"]%string.
Definition file_reserved : list string :=
  ["interface"; "filepath"; "name"; "klass"; "always_import_strs"; "always_assign_strs"; "load"; "save";
   "_add_always_imports_and_assigns_to_config"; "always_imports"; "always_assigns";
   "always_assign_with_names_dict"; "interface_class"]%string.

Definition mem (x : string) (l : list string) : bool := existsb (String.eqb x) l.

(** the object found by an attribute lookup *)
Inductive lookup : Type :=
| LConf (c : config)
| LSelf (c : config)                         (* the config of the section looked in *)
| LFile (ref : fileref) (name : string)
| LSec (s : sec)
| LOther.                                    (* a method, property, None, ... *)

(** the object an entry or attribute of a section with own config [own] stands for *)
Definition node_lookup (own : option config) (n : node) : lookup :=
  match n with
  | NConf c => LConf c
  | NFile r x => LFile r x
  | NSec s => LSec s
  | NSelf => match own with Some c => LSelf c | None => LOther end
  end.

(** [self.config is not None and item == self.config.name], section.py:26-27 *)
Definition own_config_named (s : sec) (x : string) : option config :=
  match s_cfg s with
  | Some c => if match c_name c with Some n => String.eqb x n | None => false end then Some c else None
  | None => None
  end.

(** [getattr(section, x)]: class attributes, then instance attributes, then
    ConfigSection.__getattr__ (section.py:23-29). At the top level the object is the ConfigManager, whose
    own instance attributes are the [s_attrs] of the root here and whose __getattr__ forwards to the
    root section (manager.py:29-30); the root section's own instance attributes are never set. *)
Definition sec_getattr (reserved : list string) (s : sec) (x : string) : res lookup :=
  if mem x reserved then Ok LOther
  else match dget x (s_attrs s) with
       | Some n => Ok (node_lookup (s_cfg s) n)
       | None => match own_config_named s x with
                 | Some c => Ok (LSelf c)
                 | None => match last_named x (s_items s) with
                           | Some n => Ok (node_lookup (s_cfg s) n)
                           | None => Raise KeyError
                           end
                 end
       end.

(** [getattr] on the objects below sections: a config answers None for its own keys
    (basemodels/config.py:55-59). Simplification: attributes of such attributes do not exist. *)
Fixpoint leaf_getattrs (l : lookup) (parts : list string) : res lookup :=
  match parts with
  | [] => Ok l
  | y :: rest =>
      match l with
      | LConf c | LSelf c => if mem y conf_reserved || dmem y (c_vals c) then leaf_getattrs LOther rest
                             else Raise AttributeError
      | LFile _ _ => if mem y file_reserved then leaf_getattrs LOther rest else Raise AttributeError
      | LSec _ | LOther => Raise AttributeError
      end
  end.

(** _get_from_nested_obj_by_section_path, logic/get.py:8-39 (without prevent_property_access) *)
Fixpoint get_nested (reserved : list string) (s : sec) (parts : list string) : res lookup :=
  match parts with
  | [] => Ok (LSec s)
  | x :: rest => match sec_getattr reserved s x with
                 | Raise e => Raise e
                 | Ok (LSec s') => get_nested sec_reserved s' rest
                 | Ok l => leaf_getattrs l rest
                 end
  end.

Definition set_attr (s : sec) (x : string) (v : node) : sec :=
  Sec (s_name s) (s_cfg s) (dset x v (s_attrs s)) (s_items s).

(** in-place change of the entry [last_named] finds *)
Fixpoint replace_last_named (x : string) (v : node) (items : list node) : list node :=
  match items with
  | [] => []
  | n :: rest => match last_named x rest with
                 | Some _ => n :: replace_last_named x v rest
                 | None => if has_name x n then v :: rest else n :: rest
                 end
  end.

(** the parent after the child section found under [x] has been changed to [s'] *)
Definition replace_child (s : sec) (x : string) (s' : sec) : sec :=
  if dmem x (s_attrs s) then set_attr s x (NSec s')
  else Sec (s_name s) (s_cfg s) (s_attrs s) (replace_last_named x (NSec s') (s_items s)).

(** _set_in_nested_obj_by_section_path, logic/set.py:5-11. The callers have always resolved the same
    path before, so the parent is a section. *)
Fixpoint set_nested (reserved : list string) (s : sec) (parts : list string) (v : node) : res sec :=
  match parts with
  | [] => Raise IndexError
  | x :: rest =>
      match rest with
      | [] => Ok (set_attr s x v)
      | _ :: _ => match sec_getattr reserved s x with
                  | Raise e => Raise e
                  | Ok (LSec s') => match set_nested sec_reserved s' rest v with
                                    | Ok s'' => Ok (replace_child s x s'')
                                    | Raise e => Raise e
                                    end
                  | Ok _ => Raise AttributeError
                  end
      end
  end.

(** ConfigSection.append, section.py:43-45 *)
Definition sec_append (s : sec) (v : node) : sec :=
  Sec (s_name s) (s_cfg s) (s_attrs s) (s_items s ++ [v]).

(** ConfigManager._set_func_or_config_with_create, manager.py:246-259 *)
Fixpoint append_nested (reserved : list string) (s : sec) (parts : list string) (v : node) : res sec :=
  match parts with
  | [] => Raise IndexError
  | x :: rest =>
      match rest with
      | [] => Ok (sec_append s v)
      | _ :: _ => match sec_getattr reserved s x with
                  | Raise KeyError =>
                      match append_nested sec_reserved (Sec x None [] []) rest v with
                      | Ok s'' => Ok (sec_append s (NSec s''))
                      | Raise e => Raise e
                      end
                  | Raise e => Raise e
                  | Ok (LSec s') => match append_nested sec_reserved s' rest v with
                                    | Ok s'' => Ok (replace_child s x s'')
                                    | Raise e => Raise e
                                    end
                  | Ok _ => Raise AttributeError
                  end
      end
  end.

(** in-place change of a section's own config (what [section.config.update(...)] does to the tree) *)
Fixpoint map_sec (reserved : list string) (f : sec -> sec) (s : sec) (parts : list string) : sec :=
  match parts with
  | [] => f s
  | x :: rest => match sec_getattr reserved s x with
                 | Ok (LSec s') => replace_child s x (map_sec sec_reserved f s' rest)
                 | _ => s
                 end
  end.

Definition set_cfg (c : config) (s : sec) : sec := Sec (s_name s) (Some c) (s_attrs s) (s_items s).

(* ------------------------------------------------------------------ *)
(** * Building the tree from files *)

Definition hidden (folder : string) : bool := startswith folder "_" || startswith folder ".".

(** ConfigSection.from_files, section.py:71-109, for an existing folder [d] whose path below the base
    is [rel] and whose base name is [name] *)
Fixpoint from_files (name : string) (rel : list string) (d : dir) : res sec :=
  match d with
  | Dir files subs =>
      let py_files := filter (fun f => endswith f ".py") (map fst files) in
      let section_config :=
        if mem "section.py" py_files
        then match read_file (Dir files subs) ([], "section.py"%string) with
             | Ok content => Ok (Some (loaded_config name (rel, "section.py"%string) content))
             | Raise ValueError => Ok None     (* the [except ValueError] also covers executing the file *)
             | Raise e => Raise e
             end
        else Ok None in
      let configs := map (fun f => NFile (rel, f) (strip_py f))
                         (filter (fun f => negb (String.eqb f "section.py")) py_files) in
      match section_config with
      | Raise e => Raise e
      | Ok cfg =>
          match (fix go (l : list (string * dir)) : res (list node) :=
                   match l with
                   | [] => Ok []
                   | (n, d') :: rest =>
                       if hidden n then go rest
                       else match from_files n (rel ++ [n]) d' with
                            | Raise e => Raise e
                            | Ok s => match go rest with
                                      | Raise e => Raise e
                                      | Ok l' => Ok (NSec s :: l')
                                      end
                            end
                   end) subs with
          | Raise e => Raise e
          | Ok secs => Ok (Sec name cfg [] (configs ++ secs))
          end
      end
  end.

(** [ConfigSection.from_files(filepath)]; a missing folder gives an empty section (section.py:78-79) *)
Definition from_files_at (base_name : string) (disk : dir) (parts : list string) : res sec :=
  let name := last parts base_name in
  match find_dir disk parts with
  | None => Ok (Sec name None [] [])
  | Some d => from_files name parts d
  end.

(* ------------------------------------------------------------------ *)
(** * ConfigManager *)

Inductive event : Type :=
| EvPre (path : string) (updates : dict pyval)      (* pyfileconf_pre_config_changed *)
| EvPost (path : string) (updates : dict pyval).    (* pyfileconf_post_config_changed *)

(** State: the tree, the local config, the files, and the hook calls so far (newest last). Hooks only
    observe here. Not modelled: a manager before [load()] ([section is None]). *)
Record cms : Type := CMS {
  cs_root : sec;
  cs_local : config;
  cs_disk : dir;
  cs_trace : list event }.

Definition with_root (st : cms) (r : sec) : cms := CMS r (cs_local st) (cs_disk st) (cs_trace st).
Definition with_local (st : cms) (c : config) : cms := CMS (cs_root st) c (cs_disk st) (cs_trace st).
Definition emit (e : event) : M cms unit :=
  modify (fun st => CMS (cs_root st) (cs_local st) (cs_disk st) (cs_trace st ++ [e])).

(** ConfigManager.load, manager.py:44-45 (with the manager created just before, main.py:560-561) *)
Definition cm_load (base_name : string) (disk : dir) : res cms :=
  match from_files_at base_name disk [] with
  | Ok s => Ok (CMS s empty_config disk [])
  | Raise e => Raise e
  end.

(** a reference to a config object: the local config, the one of the item at a path, or the own config
    of the section at a path *)
Inductive cref : Type := CLocal | CItem (parts : list string) | CSec (parts : list string).

Definition lookup_at (st : cms) (parts : list string) : res lookup := get_nested mgr_reserved (cs_root st) parts.

Definition read_cref (st : cms) (r : cref) : option config :=
  match r with
  | CLocal => Some (cs_local st)
  | CItem p => match lookup_at st p with Ok (LConf c) => Some c | _ => None end
  | CSec p => match lookup_at st p with Ok (LSec s) => s_cfg s | _ => None end
  end.

Definition set_item (parts : list string) (v : node) : M cms unit :=
  fun st => match set_nested mgr_reserved (cs_root st) parts v with
            | Ok r => (with_root st r, Ok tt)
            | Raise e => (st, Raise e)
            end.

(** in-place mutation of a referenced config object *)
Definition write_cref (r : cref) (c : config) : M cms unit :=
  match r with
  | CLocal => modify (fun st => with_local st c)
  | CItem p => set_item p (NConf c)
  | CSec p => modify (fun st => with_root st (map_sec mgr_reserved (set_cfg c) (cs_root st) p))
  end.

Local Open Scope monad_scope.

(** ConfigManager._get_func_or_section_configs, manager.py:200-230 *)
Definition get_func_or_section_configs (parts : list string) : M cms (option cref) :=
  fun st =>
    match lookup_at st parts with
    | Raise e => (st, Raise e)
    | Ok LOther => (st, Raise ValueError)
    | Ok (LSec s) => (st, Ok (match s_cfg s with Some _ => Some (CSec parts) | None => None end))
    | Ok (LConf c) => (set_item parts (NConf c) ;;; ret (Some (CItem parts))) st
    | Ok (LSelf c) => (set_item parts NSelf ;;; ret (Some (CSec (removelast parts)))) st
    | Ok (LFile ref name) =>
        (content <- lift (read_file (cs_disk st) ref) ;;
         set_item parts (NConf (loaded_config name ref content)) ;;;
         ret (Some (CItem parts))) st
    end.

Definition path_parts (path : string) : list string := sections (mk_sp path).

(** _get_project_config_or_local_config_by_section_path, manager.py:303-311 *)
Definition stored_config (path : option string) : M cms (option cref) :=
  match path with
  | Some p => get_func_or_section_configs (path_parts p)
  | None => ret (Some CLocal)
  end.

Definition not_loaded : exn := LibExn "ConfigManagerNotLoadedException".

(** dereference; the [None] case does not occur *)
Definition deref (r : cref) : M cms config :=
  fun st => match read_cref st r with Some c => (st, Ok c) | None => (st, Raise AttributeError) end.

(** ConfigManager.update, manager.py:47-66 with 327-343 and 314-317. The result says which config
    object was addressed and whether it was updated. *)
Definition cm_update (d : option (dict pyval)) (path : option string) (persist : bool) (kwargs : dict pyval)
  : M cms (cref * bool) :=
  r <- stored_config path ;;
  match r with
  | None => raise not_loaded
  | Some r =>
      c <- deref r ;;
      if dmem "config_" kwargs then raise TypeError
      else
        let all_updates := dupdate (opt_dict d) kwargs in
        w <- lift (would_update c (Some all_updates) []) ;;
        if w then
          match path with Some p => emit (EvPre p all_updates) | None => ret tt end ;;;
          if dmem "E" kwargs then raise TypeError
          else write_cref r (cfg_update c d persist kwargs) ;;; ret (r, true)
        else ret (r, false)
  end.

(** reading the file of a config object again; a config without file has [_file] None *)
Definition reread (c : config) : M cms (dict pyval) :=
  fun st => match c_file c with
            | None => (st, Raise AttributeError)
            | Some ref => (st, read_file (cs_disk st) ref)
            end.

(** ConfigManager.refresh, manager.py:68-77 with 345-349 *)
Definition cm_refresh (path : string) : M cms (cref * bool * dict pyval) :=
  r <- stored_config (Some path) ;;
  match r with
  | None => raise not_loaded
  | Some r =>
      c <- deref r ;;
      content <- reread c ;;
      changes <- lift (change_from_refresh c content) ;;
      match changes with
      | [] => ret (r, false, [])
      | _ :: _ =>
          emit (EvPre path changes) ;;;
          cu <- lift (cfg_refresh c content) ;;
          write_cref r (fst cu) ;;; ret (r, true, snd cu)
      end
  end.

(** what [_get_default_func_or_section_config] returns *)
Inductive default_value : Type := DConf (c : config) | DSec (s : sec).

(** ConfigManager._get_default_func_or_section_config, manager.py:264-288, for a given path *)
Definition default_for (base_name : string) (st : cms) (parts : list string) (create : bool) : res default_value :=
  let from_file := match read_file (cs_disk st) (item_file parts) with
                   | Ok content => Ok (DConf (loaded_config (last parts "") (item_file parts) content))
                   | Raise e => Raise e
                   end in
  match lookup_at st parts with
  | Raise KeyError => if create then from_file else Raise KeyError
  | Raise e => Raise e
  | Ok (LSec _) => match from_files_at base_name (cs_disk st) parts with
                   | Ok s => Ok (DSec s) | Raise e => Raise e end
  | Ok (LConf _) | Ok (LSelf _) | Ok (LFile _ _) => from_file
  | Ok LOther => Raise ValueError
  end.

Definition default_node (v : default_value) : node :=
  match v with DConf c => NConf c | DSec s => NSec s end.

(** ConfigManager._set_func_or_section_config, manager.py:232-244 *)
Definition set_func_or_section_config (parts : list string) (v : default_value) (allow_create : bool) : M cms unit :=
  if allow_create then
    fun st => match append_nested mgr_reserved (cs_root st) parts (default_node v) with
              | Ok r => (with_root st r, Ok tt)
              | Raise e => (st, Raise e)
              end
  else set_item parts (default_node v).

(** the updates [_determine_and_track_if_config_would_be_updated(config, path, **value)] sees,
    manager.py:195 and 327-336: the config's values are passed as keyword arguments *)
Definition value_as_kwargs (vals : dict pyval) : res (dict pyval) :=
  if dmem "self" vals || dmem "config_" vals || dmem "section_path_str" vals then Raise TypeError
  else match dget "d_" vals with
       | None => Ok vals
       | Some VNone => Ok (ddel "d_" vals)
       | Some _ => Raise TypeError
       end.

(** ConfigManager.set with a path, manager.py:160-198 *)
Definition cm_set (path : string) (v : default_value) (allow_create : bool) : M cms bool :=
  fun st =>
    let parts := path_parts path in
    let '(st1, r) := get_func_or_section_configs parts st in
    match r with
    | Raise KeyError | Ok None =>
        (set_func_or_section_config parts v allow_create ;;; ret true) st1
    | Raise e => (st1, Raise e)
    | Ok (Some r) =>
        match v with
        | DSec _ => (st1, Raise TypeError)      (* a ConfigSection cannot be unpacked with ** *)
        | DConf value =>
            (c <- deref r ;;
             all_updates <- lift (value_as_kwargs (c_vals value)) ;;
             w <- lift (would_update c (Some all_updates) []) ;;
             if w then
               emit (EvPre path all_updates) ;;;
               set_func_or_section_config parts v allow_create ;;; ret true
             else ret false) st1
        end
    end.

(** ConfigManager.reset, manager.py:95-106. Without a path it replaces the local config
    (manager.py:174-178). Returns the default and whether it was installed. *)
Definition cm_reset (base_name : string) (path : option string) (allow_create : bool) : M cms (default_value * bool) :=
  match path with
  | None => modify (fun st => with_local st empty_config) ;;; ret (DConf empty_config, true)
  | Some p =>
      v <- (fun st => (st, default_for base_name st (path_parts p) allow_create)) ;;
      b <- cm_set p v allow_create ;;
      ret (v, b)
  end.

(** [config.update(other)] for two config objects, either of which may be the same object *)
Definition update_from (target : cref) (source : option cref) : M cms unit :=
  fun st =>
    match read_cref st target with
    | None => (st, Raise AttributeError)
    | Some c =>
        let e := match source with
                 | None => None                                    (* a section without config *)
                 | Some r => match read_cref st r with Some c' => Some (c_vals c') | None => None end
                 end in
        write_cref target (cfg_update c e true []) st
    end.

(** the proper non-empty prefixes of a path, shortest first *)
Fixpoint prefixes (parts : list string) : list (list string) :=
  match parts with
  | [] | [_] => []
  | x :: rest => [x] :: map (cons x) (prefixes rest)
  end.

Definition project_ref (st : cms) : option cref :=
  match s_cfg (cs_root st) with Some _ => Some (CSec []) | None => None end.

(** ConfigManager.get, manager.py:114-158 *)
Definition cm_get (path : string) : M cms (option cref) :=
  let parts := path_parts path in
  config <- get_func_or_section_configs parts ;;
  project <- gets project_ref ;;
  section_configs <- mapM get_func_or_section_configs (prefixes parts) ;;
  own <- (fun st => match lookup_at st parts with           (* _is_function_or_pipeline_path, 290-301 *)
                    | Raise e => (st, Raise e)
                    | Ok LOther => (st, Raise ValueError)
                    | Ok (LSec _) => (r <- get_func_or_section_configs parts ;; ret [r]) st
                    | Ok _ => (st, Ok [])
                    end) ;;
  let chain := project :: section_configs ++ own in
  match config with
  | None => ret None
  | Some r =>
      c <- deref r ;;
      match c_vals c with
      | [] => ret (Some r)                                    (* an empty config is falsy *)
      | _ :: _ => iterM (update_from r) chain ;;; update_from r (Some CLocal) ;;; ret (Some r)
      end
  end.

(** ConfigManager.pop, manager.py:108-112 *)
Definition cm_pop (key : string) (path : option string) : M cms pyval :=
  r <- stored_config path ;;
  match r with
  | None => raise not_loaded
  | Some r =>
      c <- deref r ;;
      match dget key (c_vals c) with
      | None => raise KeyError
      | Some v => write_cref r (Cfg (c_name c) (ddel key (c_vals c)) (c_applied c) (c_file c)) ;;; ret v
      end
  end.
