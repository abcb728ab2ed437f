(** Examples of creating entries. *)
From Verif Require Export Create_Spec SetupEx_Spec.
Local Open Scope string_scope.
Local Open Scope list_scope.

(** dict files as they are written (without imports) *)
Definition cr_save (general : bool) (_ : option string) (_ : string) (d : dict pd) : res string :=
  if general then print_dict "pipeline_dict" d else Ok (repr_dict "class_dict" d).
Definition cr_names : list string := ["section.py"; "run"; "new"; "deep"; "a.py"; "b.py"; "k"; "s"; "k.py"; "m.py"].
Definition cr_config (f : fs) : ConfigTree_Model.dir := scan ex_exec cr_names f ["proj"; "defaults"] 4 [].
Definition cr_load (cs : list ccfg) (f : fs) (p : pm) : list fs * pm * res unit :=
  pm_load ex_parse ex_view ex_inst ex_cfg cr_config (ex_setup cs) 0 f p.
Definition cr_create (shared : bool) (cs : list ccfg) (path : list string) (func : option string) (f : fs) (p : pm) : list fs * pm * res unit :=
  pm_create ex_parse ex_inst ex_cfg cr_config cr_save ex_user shared (ex_setup cs) path
    (match func with Some n => Some (n, TFunc (Fn n ["x"; "y"])) | None => None end) f p.
(** the manager after the call *)
Definition after (r : list fs * pm * res unit) : pm := snd (fst r).
(** the files after the call *)
Definition left_in (f : fs) (r : list fs * pm * res unit) : fs := final f (fst (fst r)).
(** the manager of the example project, loaded *)
Definition cr_pm : pm := after (cr_load [] ex_disk new_pm).
(** running an item of a manager: the calls that were made and the outcome *)
Definition cr_run (p : pm) (path : string) : option (list (string * lobj) * res result) :=
  match p_runner p with
  | Some (i, r) => let '(r', o) := run_one i ex_user path r in Some (r_calls r', o)
  | None => None
  end.
(** updating a section *)
Definition cr_update (p : pm) (path : string) : option (res unit) :=
  match p_runner p with
  | Some (_, r) => Some (snd (runner_update ex_user None (Some path) true [("x", VInt 5)] r))
  | None => None
  end.
(** its runner, a new function, and the items with the new function *)
Definition cr_r : rs := match p_runner cr_pm with Some (_, r) => r | None => RS (CMS (Sec "" None [] []) empty_config (ConfigTree_Model.Dir [] []) []) [] 0 [] end.
Definition cr_b : string * thing := ("b", TFunc (Fn "b" ["x"; "y"])).
Definition cr_new : items := Items [] (Coll "proj" [EColl (Coll "run" [EItem "a" (TFunc (Fn "a" ["x"; "y"])); EItem "b" (TFunc (Fn "b" ["x"; "y"]))])]).
