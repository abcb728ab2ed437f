(** Model of making and loading a manager: main.py:60-82 (__init__), 301-317 and 545-568 (load), 592-632 (_validate_options,
    _registrar_dict), 734-844 (_validate_registrars, create_registrars, _create_registrars_or_collections_from_dict).
    The parts it is made of are modelled elsewhere: the registry of managers (Registry_Model), project folders and config files
    (Project_Model), trees of items (PipeDict_Model), the config tree and the runner (Runner_Model). *)
From Verif Require Export Registry_Model PipeDict_Model Runner_Model Project_Model.
Local Open Scope string_scope.
Local Open Scope list_scope.

(* ------------------------------------------------------------------ *)
(** * Class dicts *)

(** The values in the dict that describes a class dict (interfaces.py, SpecificClassConfigDict). Of other values only the text
    that [str] gives is kept. *)
Inductive cval : Type := CNone | CStr (s : string) | CClass (k : callable) | COther (text : string).
Definition ccfg : Type := dict cval.
(** [str] of such a value, as in f'\{name\}_dict.py' *)
Definition shown (v : cval) : string :=
  match v with CNone => "None" | CStr s => s | CClass k => "<class '" ++ f_id k ++ "'>" | COther t => t end.

(** the defaults, main.py:810-815 *)
Definition default_ccfg : ccfg := [("always_assign_strs", CNone); ("always_import_strs", CNone)].
(** main.py:817-819: there and not None *)
Definition given (key : string) (c : ccfg) : bool := match dget key c with None | Some CNone => false | Some _ => true end.
(** the keys that can be passed to Registrar.from_dict, registrar.py:44-48; [class] becomes [klass]. The parameters dict_,
    basepath and imports are passed already, so that these keys raise like unknown ones. *)
Definition ccfg_keys : list string :=
  ["name"; "class"; "klass"; "always_import_strs"; "always_assign_strs"; "key_attr"; "execute_attr"].

Section Setup.
(** What a dict file holds: the text of the file is parsed and the value assigned to pipeline_dict or class_dict is converted
    (PipeDict_Model: [read]); raises SyntaxError and ValueError for instance. The first argument is true for pipeline_dict. *)
Variable parse : bool -> string -> res (dict pd).
(** What an element of a list in the pipeline dict stands for, given the text of its file (its imports). *)
Variable view : string -> pd -> res (string * thing).
(** What becomes of an element of a class dict: convert_to_empty_obj_if_necessary, data/logic/convert.py. *)
Variable inst : ccfg -> pd -> res (string * thing).
(** What is written for an item, see Project_Model. *)
Variable cfg : bool -> string -> thing -> option string -> res string.
(** The config folder as the config manager sees it: files with what executing them yields. *)
Variable config_dir : fs -> ConfigTree_Model.dir.

(** PipelineDictFile.load and SpecificClassDictFile.load: io/file/load/lazy/pipeline.py, pipelineast.py, datadict.py, dataast.py.
    A missing pipeline dict is an empty one; for a class dict the None in place of the syntax tree raises. *)
Definition load_dict (general : bool) (f : fs) (p : path) : res (dict pd) :=
  match f p with
  | None => if general then Ok [] else Raise AttributeError
  | Some Dir => Raise OSError
  | Some (File s) => parse general s
  end.

(** the body of the loop main.py:807-836. A name that is no string raises in [name + '_dict']. *)
Definition make_registrar (f : fs) (folder : path) (own : ccfg) : res registrar :=
  let c := dupdate default_ccfg own in
  if negb (given "name" c && given "class" c) then Raise ValueError
  else match dget "name" c with
       | Some (CStr n) =>
           match load_dict false f (dict_file folder n) with
           | Raise e => Raise e
           | Ok d => if forallb (fun k => mem k ccfg_keys) (dkeys c)
                     then match from_dict (inst c) n d with Ok t => Ok (Reg n t) | Raise e => Raise e end
                     else Raise TypeError
           end
       | _ => Raise TypeError
       end.

Fixpoint make_registrars (f : fs) (folder : path) (cs : list ccfg) : res (list registrar) :=
  match cs with
  | [] => Ok []
  | c :: cs' => match make_registrar f folder c with
                | Raise e => Raise e
                | Ok r => match make_registrars f folder cs' with Ok rs => Ok (r :: rs) | Raise e => Raise e end
                end
  end.

(** _create_registrars_or_collections_from_dict, main.py:786-844 *)
Definition pipeline_file (folder : path) : path := folder ++ ["pipeline_dict.py"].
Definition file_text (f : fs) (p : path) : string := match f p with Some (File s) => s | _ => "" end.
Definition read_items (f : fs) (folder : path) (name : string) (cs : list ccfg) : res items :=
  match load_dict true f (pipeline_file folder) with
  | Raise e => Raise e
  | Ok d => match make_registrars f folder cs with
            | Raise e => Raise e
            | Ok rs => match from_dict (view (file_text f (pipeline_file folder))) name d with
                       | Ok g => Ok (Items rs g)
                       | Raise e => Raise e
                       end
            end
  end.

(** [dir(general_registrar)], registrar.py:32-42 with collection.py:74-75; the order does not matter here *)
Definition reg_dir (g : coll) : list string := ["scaffold_config"; "get"; "basepath"; "name"] ++ map entry_name (coll_entries g).
Fixpoint repeats (l : list string) : bool := match l with [] => false | x :: l' => mem x l' || repeats l' end.
(** _validate_registrars, main.py:734-744 *)
Definition validate (i : items) : res unit :=
  if existsb (fun r => mem (reg_name r) (reg_dir (i_general i))) (i_specific i) then Raise ValueError
  else if repeats (map reg_name (i_specific i)) then Raise ValueError
  else Ok tt.

(** create_registrars, main.py:747-766. Reading the dict files changes no files. *)
Definition checked (f : fs) (folder : path) (name : string) (cs : list ccfg) : res items :=
  match read_items f folder name cs with
  | Raise e => Raise e
  | Ok i => match validate i with Ok _ => Ok i | Raise e => Raise e end
  end.
Definition create_registrars (folder defaults : path) (name : string) (cs : list ccfg) : P items :=
  pbind pfs (fun f => match checked f folder name cs with
                      | Raise e => praise e
                      | Ok i => pbind (scaffold_all cfg defaults i) (fun _ => pret i)
                      end).

(* ------------------------------------------------------------------ *)
(** * The manager *)

(** A manager and what its constructor was given. *)
Record setup : Type := SetUp {
  su_folder : path;
  su_config_folder : string;
  su_name : string;
  su_logs : option path;                     (* options.log_folder *)
  su_classes : list ccfg }.
Definition defaults_of (s : setup) : path := su_folder s ++ [su_config_folder s].

(** The attributes that loading sets: _registrars with _general_registrar, and the runner, which has its own references to the
    registrars and to the config manager. [self.config] is only handed to the runner. *)
Record pm : Type := PM { p_items : option items; p_runner : option (items * rs) }.
Definition new_pm : pm := PM None None.

(** [\[sc_dict\['name'\] for ...\]], main.py:71 *)
Fixpoint class_names (cs : list ccfg) : res (list cval) :=
  match cs with
  | [] => Ok []
  | c :: cs' => match dget "name" c with
                | None => Raise KeyError
                | Some v => match class_names cs' with Ok l => Ok (v :: l) | Raise e => Raise e end
                end
  end.

(** PipelineManager.__init__, main.py:60-82: the registry, the states of the disk and the result *)
Definition construct (auto_pdb force_continue : bool) (m : manager) (s : setup) (r : registry) (f : fs) : registry * list fs * res pm :=
  match class_names (su_classes s) with
  | Raise e => (r, [], Raise e)
  | Ok names =>
      match register auto_pdb force_continue m r with
      | (r', Raise e) => (r', [], Raise e)
      | (r', Ok _) => match create_if_needed (su_folder s) (su_config_folder s) (su_logs s) (map shown names) f with
                      | (l, Ok _) => (r', l, Ok new_pm)
                      | (l, Raise e) => (r', l, Raise e)
                      end
      end
  end.

(** _load_pipeline_config_and_runner, main.py:545-568. [next] numbers the objects the runner makes. *)
Definition pm_load (s : setup) (next : nat) (f : fs) (p : pm) : list fs * pm * res unit :=
  match create_registrars (su_folder s) (defaults_of s) (su_name s) (su_classes s) f with
  | (l, Raise e) => (l, p, Raise e)
  | (l, Ok i) => match runner_load (su_config_folder s) (config_dir (final f l)) next with
                 | Raise e => (l, PM (Some i) (p_runner p), Raise e)
                 | Ok r => (l, PM (Some i) (Some (i, r)), Ok tt)
                 end
  end.

(** _registrar_dict, main.py:625-632 *)
Definition registrar_dict (p : pm) : res (dict coll) :=
  match p_items p with
  | None => Raise ValueError
  | Some i => Ok (fold_left (fun d r => dset (reg_name r) (reg_coll r) d) (i_specific i) [("general", i_general i)])
  end.
End Setup.
