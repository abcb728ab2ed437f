(** Statements about config files that are gone, and about names whose value None is passed over (C53, C64). *)
From Verif Require Export Runner_Model Clash_Spec ConfigTree_Spec Runner_Spec.
Local Open Scope string_scope.
Local Open Scope list_scope.

(** the folder or the file does not exist *)
Definition gone (disk : dir) (ref : fileref) : Prop :=
  find_dir disk (fst ref) = None \/ exists d, find_dir disk (fst ref) = Some d /\ dget (snd ref) (dir_files d) = None.

(** examples: a loaded item whose file is removed; a file that assigns None to d and d_ *)
Definition rf_gone (s : rs) : rs :=
  RS (CMS (cs_root (r_cms s)) (cs_local (r_cms s)) (Dir [] []) (cs_trace (r_cms s))) (r_loaded s) (r_next s) (r_calls s).
Definition rf_disk : dir := Dir [("f.py", Ok [("d", VNone); ("d_", VNone); ("a", VInt 3)])] [].
Definition rf_items : items := Items [] (Coll "base" [EItem "f" (TFunc (Fn "f" ["d"; "d_"; "a"]))]).
Definition rf_rs : rs := match runner_load "base" rf_disk 0 with Ok s => s | Raise _ => RS (CMS (Sec "" None [] []) empty_config (Dir [] []) []) [] 0 [] end.
Definition rf_got : rs := fst (runner_update cl_user (Some [("a", VInt 4)]) (Some "f") true [] (fst (runner_get rf_items cl_user "f" rf_rs))).

(** a section without section.py, one with it, and a state in which an object is kept under the path of the first *)
Definition rf_sections : dir := Dir [] [("sec", Dir [("f.py", Ok [("a", VInt 1)])] []); ("own", Dir [("section.py", Ok [("a", VInt 1)])] [])].
Definition rf_loaded (names : list string) : option rs :=
  match cm_load "base" rf_sections with
  | Ok st => Some (RS st (map (fun x => (x, LInst 0 (Fn "k" []) [])) names) 1 [])
  | Raise _ => None
  end.
