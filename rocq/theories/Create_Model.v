(** Model of PipelineManager.create as a whole: main.py:408-456 with 498-542. The parts are modelled elsewhere: the change of a
    nested dict and of a tree (PipeDict_Model), the config files of a section (Project_Model), resetting with allow_create
    (ConfigTree_Model, Runner_Model), and the state of a manager (Setup_Model). *)
From Verif Require Export Setup_Model.
Local Open Scope string_scope.
Local Open Scope list_scope.

Section Create.
(** as in Setup_Model *)
Variable parse : bool -> string -> res (dict pd).
Variable inst : ccfg -> pd -> res (string * thing).
Variable cfg : bool -> string -> thing -> option string -> res string.
Variable config_dir : fs -> ConfigTree_Model.dir.
(** The text that is written for a dict, given the text of the file before and the name of the object that must be imported:
    main.py:511-520 and 533-542 with the formatting by black, which may raise (PipeDict_Model: print_dict, repr_dict; for the
    imports see Imports_Model). The first argument is true for pipeline_dict. *)
Variable save : bool -> option string -> string -> dict pd -> res string.
(** the user's code, called when a loaded object is given its new config *)
Variable u : user.

(** add_item_into_nested_dict_at_section_path as it is called in main.py:505-512 and 531 *)
Definition new_entry (general : bool) (name : string) : pd := if general then PName name else PStr name.

(** _create_specific_class_dict_entry and _create_pipeline_dict_entry, main.py:498-542 *)
Definition add_to_dict (general : bool) (p : path) (sub : list string) (name : string) : P unit :=
  pbind pfs (fun f =>
    match load_dict parse general f p with
    | Raise e => praise e
    | Ok d => match add_at d sub (new_entry general name) with
              | (_, Raise e) => praise e
              | (d', Ok _) => match save general (match f p with Some (File s) => Some s | _ => None end) name d' with
                              | Raise e => praise e
                              | Ok s => write p s
                              end
              end
    end).

(** [section_path\[0\] in self.specific_class_names], main.py:419 *)
Definition has_class_name (x : string) (c : ccfg) : bool := match dget "name" c with Some (CStr n) => String.eqb x n | _ => false end.
Definition class_of (s : setup) (x : string) : option ccfg := find (has_class_name x) (su_classes s).

(** the manager's trees after a change of one of them *)
Definition set_general (c : coll) (i : items) : items := Items (i_specific i) c.
Definition set_specific (x : string) (c : coll) (i : items) : items :=
  Items (map (fun r => if String.eqb (reg_name r) x then Reg x c else r) (i_specific i)) (i_general i).

Definition with_disk (d : ConfigTree_Model.dir) (r : rs) : rs :=
  RS (CMS (cs_root (r_cms r)) (cs_local (r_cms r)) d (cs_trace (r_cms r))) (r_loaded r) (r_next r) (r_calls r).

(** main.py:453-455 for a registrar with the tree [c] and the folder [base]: Registrar.set, Registrar.scaffold_config_for
    (registrar.py:64-68, 76-97) and reset with allow_create. [change] puts the new tree into its place. [shared]: the runner has
    the same registrar objects as the manager; this is so after a load unless the last one failed while the config files
    were loaded (C71). [l] are the states of the disk so far. Simplification: a failing Registrar.set changes nothing; for paths with names that
    registrars or collections define themselves it may leave new sections behind. *)
Definition install (shared general : bool) (s : setup) (base : path) (c : coll) (change : coll -> items -> items) (sub : list string)
  (n : string) (t : thing) (full : string) (f : fs) (l : list fs) (p : pm) : list fs * pm * res unit :=
  match reg_set c sub (EItem n t) with
  | Raise e => (l, p, Raise e)
  | Ok c' =>
      let i' := match p_items p with Some i => Some (change c' i) | None => None end in
      let p1 := PM i' (match p_runner p with Some (ri, r) => Some (if shared then change c' ri else ri, r) | None => None end) in
      match reg_get c' sub with
      | Raise e => (l, p1, Raise e)
      | Ok (FColl cc) =>
          match output_files cfg general (base ++ sub) cc (final f l) with
          | (l2, Raise e) => (l ++ l2, p1, Raise e)
          | (l2, Ok _) =>
              match p_runner p1 with
              | None => (l ++ l2, p1, Raise (LibExn "PipelineManagerNotLoadedException"))
              | Some (ri, r) =>
                  let '(r', o) := runner_reset (su_config_folder s) u (Some full) true (with_disk (config_dir (final f (l ++ l2))) r) in
                  (l ++ l2, PM i' (Some (ri, r')), o)
              end
          end
      | Ok _ => (l, p1, Raise AttributeError)     (* has no _output_config_files *)
      end
  end.

(** PipelineManager.create, main.py:408-456. [path]: the parts of section_path_str. [func]: __name__ of the function or class, and
    what importing it gives; finding its module (main.py:526) raises before anything is written, see C68. *)
Definition pm_create (shared : bool) (s : setup) (path : list string) (func : option (string * thing)) (f : fs) (p : pm)
  : list fs * pm * res unit :=
  let x := hd "" path in
  match class_of s x, func with
  | Some own, Some _ => ([], p, Raise ValueError)
  | Some own, None =>
      if Nat.ltb (List.length path) 3 then ([], p, Raise ValueError)
      else
        let sub := removelast (tl path) in
        let item := last path "" in
        match add_to_dict false (dict_file (su_folder s) x) sub item f with
        | (l, Raise e) => (l, p, Raise e)
        | (l, Ok _) =>
            match registrar_dict p with
            | Raise e => (l, p, Raise e)
            | Ok rd =>
                match dget x rd with
                | None => (l, p, Raise KeyError)
                | Some c => match inst (dupdate default_ccfg own) (PStr item) with
                            | Raise e => (l, p, Raise e)
                            | Ok (n, t) => install shared false s (defaults_of s ++ [x]) c (set_specific x) sub n t (join sdot path) f l p
                            end
                end
            end
        end
  | None, None => ([], p, Raise ValueError)
  | None, Some (n, t) =>
      match add_to_dict true (pipeline_file (su_folder s)) path n f with
      | (l, Raise e) => (l, p, Raise e)
      | (l, Ok _) =>
          match p_items p with
          | None => (l, p, Raise ValueError)
          | Some i => install shared true s (defaults_of s) (i_general i) set_general path n t (join sdot (path ++ [n])) f l p
          end
      end
  end.
End Create.
