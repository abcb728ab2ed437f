(** Specification vocabulary for C10-C17: what a user can see of the config tree. *)
From Verif Require Import ConfigTree_Model.
Local Open Scope list_scope.

(** What the configuration at a path is: a loaded config, a file not loaded yet, or a section together
    with its own config. [SSelf]: the path leads to the own config of the section containing it. *)
Inductive seen : Type :=
| SConf (c : config)
| SFile (ref : fileref) (name : string)
| SSec (name : string) (own : option config)
| SSelf (c : config).

Definition see (st : cms) (p : list string) : option seen :=
  match lookup_at st p with
  | Ok (LConf c) => Some (SConf c)
  | Ok (LFile r n) => Some (SFile r n)
  | Ok (LSec s) => Some (SSec (s_name s) (s_cfg s))
  | Ok (LSelf c) => Some (SSelf c)
  | _ => None
  end.

(** which config object a path addresses *)
Definition target (st : cms) (p : list string) : option cref :=
  match see st p with
  | Some (SConf _) | Some (SFile _ _) => Some (CItem p)
  | Some (SSec _ _) => Some (CSec p)
  | Some (SSelf _) => Some (CSec (removelast p))
  | None => None
  end.

(** the item's own values: those of the loaded config, or those the file gives *)
Definition own_values (st : cms) (p : list string) : option (dict pyval) :=
  match see st p with
  | Some (SConf c) => Some (c_vals c)
  | Some (SFile ref _) => match read_file (cs_disk st) ref with Ok d => Some d | Raise _ => None end
  | _ => None
  end.

(** the values a section sets (nothing if it has no section config) *)
Definition section_values (st : cms) (p : list string) : dict pyval :=
  match see st p with
  | Some (SSec _ (Some c)) => c_vals c
  | _ => []
  end.

(** first dict in the list that has the key *)
Fixpoint first_of (k : string) (layers : list (dict pyval)) : option pyval :=
  match layers with
  | [] => None
  | d :: rest => match dget k d with Some v => Some v | None => first_of k rest end
  end.

(** everything that overrides an item at path [p], strongest first: local config, innermost section,
    ..., outermost section, project *)
Definition overriding_layers (st : cms) (p : list string) : list (dict pyval) :=
  c_vals (cs_local st) :: map (section_values st) (rev (prefixes p)) ++ [section_values st []].

(** the documented precedence *)
Definition effective (st : cms) (p : list string) (own : dict pyval) (k : string) : option pyval :=
  match own with
  | [] => None
  | _ :: _ => first_of k (overriding_layers st p ++ [own])
  end.

(** the config object a reference stands for, reading its file if it is not loaded yet *)
Definition current (st : cms) (r : cref) : option config :=
  match r with
  | CLocal => Some (cs_local st)
  | CItem p => match see st p with
               | Some (SConf c) => Some c
               | Some (SFile ref n) => match read_file (cs_disk st) ref with
                                       | Ok d => Some (loaded_config n ref d) | Raise _ => None end
               | _ => None
               end
  | CSec p => match see st p with Some (SSec _ own) => own | _ => None end
  end.

(** every dict in the state has distinct keys, as every Python dict has: in every config object that
    can be addressed, and in every file *)
Definition cfg_wf (c : config) : Prop := dwf (c_vals c) /\ dwf (c_applied c).
Definition disk_wf (d : dir) : Prop := forall ref content, read_file d ref = Ok content -> dwf content.
Definition cms_wf (st : cms) : Prop :=
  disk_wf (cs_disk st) /\ (forall r c, current st r = Some c -> cfg_wf c).

(** Names in one folder are distinct, as on a real file system. *)
Inductive dir_ok : dir -> Prop :=
| DOk files subs : dwf files -> dwf subs -> (forall n d, In (n, d) subs -> dir_ok d) -> dir_ok (Dir files subs).

(** What the files say should be found at a path (C17, C53): a section's own config comes from
    section.py and answers to the section's name; a folder not starting with [_] or [.] is a section and
    hides a file of the same name; any other .py file is an item. *)
Definition folder_config (name : string) (rel : list string) (d : dir) : option config :=
  match dget "section.py" (dir_files d) with
  | Some (Ok content) => Some (loaded_config name (rel, "section.py"%string) content)
  | _ => None
  end.

Fixpoint disk_seen (reserved : list string) (name : string) (rel : list string) (d : dir) (p : list string) : option seen :=
  match p with
  | [] => Some (SSec name (folder_config name rel d))
  | x :: rest =>
      if mem x reserved then None
      else
        let below := match (if hidden x then None else dget x (dir_subs d)) with
                     | Some d' => disk_seen sec_reserved x (rel ++ [x]) d' rest
                     | None => if String.eqb x "section" then None
                               else if dmem (x ++ ".py")%string (dir_files d)
                                    then match rest with [] => Some (SFile (rel, (x ++ ".py")%string) x) | _ => None end
                                    else None
                     end in
        match folder_config name rel d with
        | Some c => if String.eqb x name then match rest with [] => Some (SSelf c) | _ => None end else below
        | None => below
        end
  end.

(** public operations on the config manager *)
Inductive cop : Type :=
| OpUpdate (d : option (dict pyval)) (path : option string) (persist : bool) (kwargs : dict pyval)
| OpRefresh (path : string)
| OpReset (path : option string) (allow_create : bool)
| OpGet (path : string)
| OpPop (key : string) (path : option string).

Definition cop_run (base : string) (st : cms) (op : cop) : cms :=
  match op with
  | OpUpdate d path persist kw => fst (cm_update d path persist kw st)
  | OpRefresh path => fst (cm_refresh path st)
  | OpReset path ac => fst (cm_reset base path ac st)
  | OpGet path => fst (cm_get path st)
  | OpPop key path => fst (cm_pop key path st)
  end.
