(** A project with a new function. *)
From Verif Require Export SetupEx_Spec.
From Verif Require Import ExecEx_Spec.
Local Open Scope string_scope.
Local Open Scope list_scope.

(** [def a(x=1, y=x0)] in a module with [from lib import x0] *)
Definition xy_item : item := function_item [ObjImp ["x0"] "lib" []] [("x", Value None ["1"]); ("y", Value None ["x0"])].
Definition fresh_cfg (_ : bool) (_ : string) (_ : thing) (old : option string) : res string := scaffold ex_astor xy_item old.
Definition fresh_exec : path -> string -> res (dict pyval) := exec_text mini mini_names (fun _ _ => Raise SyntaxError).
Definition fresh_table : list (path * node) :=
  [ ([], Dir); (["proj"], Dir); (["proj"; "pipeline_dict.py"], File "pipeline_dict = {'run': [a]}");
    (["proj"; "defaults"], Dir); (["proj"; "defaults"; "run"], Dir); (["proj"; "defaults"; "run"; "section.py"], File "z = 1") ].
Definition fresh_disk : fs := fs_of fresh_table.
Definition fresh_config (f : fs) : ConfigTree_Model.dir := scan fresh_exec ex_names f ["proj"; "defaults"] 2 [].
Definition fresh_load (p : pm) : list fs * pm * res unit := pm_load ex_parse ex_view ex_inst fresh_cfg fresh_config (ex_setup []) 0 fresh_disk p.
