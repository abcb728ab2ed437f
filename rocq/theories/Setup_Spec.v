(** What is said about making and loading a manager. *)
From Verif Require Export Setup_Model PipeDict_Spec Project_Spec ConfigTree_Spec Runner_Spec.
Local Open Scope string_scope.
Local Open Scope list_scope.

(** the text of a name *)
Definition shown_as (v : cval) : string :=
  match v with CNone => "None" | CStr s => s | CClass k => ("<class '" ++ f_id k ++ "'>")%string | COther t => t end.

Section Setup.
Variable parse : bool -> string -> res (dict pd).
Variable view : string -> pd -> res (string * thing).
Variable inst : ccfg -> pd -> res (string * thing).

(** the description of a class dict is usable: it has a name and a class and no unknown keys, the dict file is there and can be
    read, and its items can be made *)
Definition good_class (f : fs) (folder : path) (own : ccfg) (r : registrar) : Prop :=
  exists n k text d, dget "name" own = Some (CStr n) /\ dget "class" own = Some k /\ k <> CNone /\ incl (dkeys own) ccfg_keys /\
    f (dict_file folder n) = Some (File text) /\ parse false text = Ok d /\
    from_dict (inst (dupdate default_ccfg own)) n d = Ok (reg_coll r) /\ reg_name r = n.

(** the sections at the top of a pipeline dict *)
Definition top_sections (d : dict pd) : list string := map fst (filter (fun kv => is_section (snd kv)) d).

(** a pipeline dict: a file that can be read, or none at all *)
Definition has_dict (f : fs) (folder : path) (d : dict pd) : Prop :=
  (f (pipeline_file folder) = None /\ d = []) \/ exists text, f (pipeline_file folder) = Some (File text) /\ parse true text = Ok d.

(** all of a project's dict files can be read, and the names of the class dicts are free *)
Definition acceptable (f : fs) (folder : path) (name : string) (cs : list ccfg) (i : items) : Prop :=
  exists d, has_dict f folder d /\ Forall2 (good_class f folder) cs (i_specific i) /\
    from_dict (view (file_text f (pipeline_file folder))) name d = Ok (i_general i) /\
    NoDup (map reg_name (i_specific i)) /\
    forall r, In r (i_specific i) -> ~ In (reg_name r) (top_sections d) /\ ~ In (reg_name r) ["scaffold_config"; "get"; "basepath"; "name"].
End Setup.

(* ------------------------------------------------------------------ *)
(** * From the files to a function call *)

Section Files.
(** what executing a config file yields *)
Variable exec : path -> string -> res (dict pyval).

(** [d] is the folder [base] of the file system [f] *)
Definition mirrors (f : fs) (base : path) (d : ConfigTree_Model.dir) : Prop :=
  dir_ok d /\
  (forall folders, (exists d', find_dir d folders = Some d') <-> f (base ++ folders) = Some Dir) /\
  (forall folders d' x r, find_dir d folders = Some d' ->
     dget x (dir_files d') = Some r <-> exists s, f (base ++ folders ++ [x]) = Some (File s) /\ r = exec (folders ++ [x]) s).

(** the values a file gives; none if it is not there or cannot be executed *)
Definition values_of (f : fs) (base rel : path) : dict pyval :=
  match f (base ++ rel) with Some (File s) => match exec rel s with Ok d => d | Raise _ => [] end | _ => [] end.

(** the section files on the way to an item, from the inside out *)
Fixpoint section_files (folders : list string) : list path :=
  match folders with [] => [["section.py"]] | x :: rest => map (cons x) (section_files rest) ++ [["section.py"]] end.

(** what the files say about the argument [k] of the item [n] in [folders]: the section files come first, and an item whose own
    file sets nothing gets nothing from them either *)
Definition setting (f : fs) (base : path) (folders : list string) (n k : string) : option pyval :=
  match values_of f base (folders ++ [(n ++ ".py")%string]) with
  | [] => None
  | own => first_of k (map (values_of f base) (section_files folders) ++ [own])
  end.
End Files.

(** Paths of items without the names that mean something else: attributes of the objects in between, the names of the folders
    themselves, hidden folders, names with dots. *)
Fixpoint own_folder (outer : string) (p : list string) : Prop :=
  match p with [] => True | x :: rest => x <> outer /\ own_folder x rest end.
Definition plain_path (config_folder : string) (p : list string) : Prop :=
  usable_path p /\ own_folder config_folder p /\
  Forall (fun x => mem x mgr_reserved = false /\ has_char dot x = false /\ x <> "") p /\
  Forall (fun x => hidden x = false) (removelast p) /\ last p "" <> "section".
