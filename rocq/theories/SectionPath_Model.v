(** Model of pyfileconf/sectionpath/sectionpath.py. *)
From Verif Require Export PosixPath_Model.

Definition dot : ascii := "."%char.
Definition sdot : string := ".".

(** class SectionPath, sectionpath.py:13-18 (the two attributes set by __init__) *)
Record section_path : Type := SP { path_str : string; sections : list string }.

(** _section_path_str_to_section_strs, sectionpath.py:119-120 *)
Definition section_path_str_to_section_strs (s : string) : list string := split dot s.

(** _section_strs_to_section_path_str, sectionpath.py:122-123 *)
Definition section_strs_to_section_path_str (l : list string) : string := join sdot l.

(** SectionPath.__init__, sectionpath.py:16-18 *)
Definition mk_sp (s : string) : section_path :=
  {| path_str := s; sections := section_path_str_to_section_strs s |}.

(** SectionPath.from_section_str_list, sectionpath.py:36-39 *)
Definition from_section_str_list (l : list string) : section_path :=
  mk_sp (section_strs_to_section_path_str l).

(** SectionPath.join, sectionpath.py:89-95 (both arguments already SectionPaths; a plain str
    argument is first wrapped by [mk_sp], 139-145) *)
Definition sp_join (a b : section_path) : section_path :=
  from_section_str_list (sections a ++ sections b).

(** _section_path_to_relative_filepath, sectionpath.py:130-131, and to_filepath, 97-99 *)
Definition to_filepath (sp : section_path) (basepath : string) : string :=
  path_join basepath (join sslash (sections sp)).

(** _strip_py, sectionpath.py:133-137 *)
Definition strip_py (s : string) : string :=
  if endswith s ".py" then drop_last 3 s else s.

(** [sections[-1] = f(sections[-1])] *)
Fixpoint map_last (f : string -> string) (l : list string) : list string :=
  match l with
  | [] => []
  | x :: r => match r with [] => [f x] | _ :: _ => x :: map_last f r end
  end.

(** _relative_filepath_to_section_path, sectionpath.py:125-128 *)
Definition relative_filepath_to_section_path (p : string) : string :=
  section_strs_to_section_path_str (map_last strip_py (split slash p)).

(** SectionPath.from_filepath, sectionpath.py:30-34 *)
Definition from_filepath (cwd basepath filepath : string) : res section_path :=
  match relpath cwd filepath basepath with
  | Ok r => Ok (mk_sp (relative_filepath_to_section_path r))
  | Raise e => Raise e
  end.

(** [l[-n:]] for n >= 1 *)
Definition last_n (n : nat) (l : list string) : list string := skipn (length l - n) l.

(** the loop of SectionPath.endswith, sectionpath.py:104-107;
    [sp[i]] never goes out of range because len(match_parts) <= len(sp) *)
Fixpoint match_loop (match_parts sp : list string) : bool :=
  match match_parts, sp with
  | [], _ => true
  | _ :: _, [] => false
  | p :: ms, q :: qs => if negb (String.eqb p q) then false else match_loop ms qs
  end.

(** SectionPath.endswith, sectionpath.py:101-107 *)
Definition sp_endswith (self sp : section_path) : bool :=
  match_loop (last_n (length (sections sp)) (sections self)) (sections sp).

(** SectionPath.__eq__, sectionpath.py:109-113 (other operand a SectionPath) *)
Definition sp_eqb (a b : section_path) : bool := String.eqb (path_str a) (path_str b).

(** SectionPath.__hash__, sectionpath.py:115-116, for an arbitrary string hash *)
Definition sp_hash {H : Type} (hash : string -> H) (a : section_path) : H := hash (path_str a).

(** Arguments accepted by from_ambiguous, sectionpath.py:41-57: an item view (known only by
    its section_path_str), a SectionPath or a str. Other types raise ValueError. *)
Inductive sp_like : Type :=
| LView (section_path_str : string)
| LSp (sp : section_path)
| LStr (s : string)
| LOther.

(** SectionPath.from_ambiguous, sectionpath.py:41-65. Simplification: an item view is assumed
    not to wrap a str or SectionPath object (its [isinstance] answers follow the wrapped item). *)
Definition from_ambiguous (item : sp_like) (strip_manager_from_iv : bool)
           (base_section_path_str : option string) : res section_path :=
  let result :=
    match item with
    | LView s => let sp := mk_sp s in
                 if strip_manager_from_iv then Ok (from_section_str_list (tl (sections sp)))
                 else Ok sp
    | LSp sp => Ok sp
    | LStr s => Ok (mk_sp s)
    | LOther => Raise ValueError
    end in
  match result with
  | Raise e => Raise e
  | Ok r => match base_section_path_str with
            | Some b => Ok (sp_join (mk_sp b) r)
            | None => Ok r
            end
  end.

(** SectionPath.list_from_ambiguous, sectionpath.py:67-87 (argument already a list) *)
Fixpoint list_from_ambiguous (items : list sp_like) (base : option string) (strip : bool)
  : res (list section_path) :=
  match items with
  | [] => Ok []
  | i :: r => match from_ambiguous i strip base with
              | Raise e => Raise e
              | Ok sp => match list_from_ambiguous r base strip with
                         | Raise e => Raise e
                         | Ok sps => Ok (sp :: sps)
                         end
              end
  end.

(** _should_skip_module, pyfileconf/imports/logic/load/name.py:120-129, for a given list of
    module names to skip (imports/logic/load/skipmodules.py) *)
Definition should_skip_module (skip_modules : list string) (name : string) : bool :=
  existsb (fun skip => sp_endswith (mk_sp name) (mk_sp skip)) skip_modules.

(** get_module_and_name_imported_from, name.py:15-29: first module in the search list that is not
    skipped and contains the object; [has] says whether a module contains it. *)
Fixpoint get_module_imported_from (skip_modules : list string) (has : string -> bool)
         (search : list string) : res string :=
  match search with
  | [] => Raise (LibExn "CouldNotDetermineModuleForObjectException")
  | m :: r => if should_skip_module skip_modules m then get_module_imported_from skip_modules has r
              else if has m then Ok m else get_module_imported_from skip_modules has r
  end.
