(** A project whose pipeline dict imports a function through a package. *)
From Verif Require Export Whole_Spec SetupEx_Spec.
From Verif Require Import ExecEx_Spec.
Local Open Scope string_scope.
Local Open Scope list_scope.

(** pkg/__init__.py: [from pkg.inner import a]; pkg/inner.py: [from lib import x0] and [def a(x=1, y=...)] *)
Definition w_def (y : expr) : arguments := Args [] [a_ "x"; a_ "y"] [Other "1" []; y] false [] false.
Definition w_inner (y : expr) : source := Source [SDef "a" (w_def y)] [ObjImp ["x0"] "lib" []] [].
Definition w_files (y : expr) (m : string) : res source :=
  if String.eqb m "pkg" then Ok (Source [] [ObjImp ["a"] "pkg.inner" []] [])
  else if String.eqb m "pkg.inner" then Ok (w_inner y)
  else Raise (LibExn "ImportError").
Definition w_import (m : string) : res ItemLoad_Spec.thing := if smem m ["pkg"; "pkg.inner"] then Ok (AModule m) else Raise (LibExn "ModuleNotFoundError").
Definition w_getattr (o : ItemLoad_Spec.thing) (a : string) : res ItemLoad_Spec.thing :=
  match o with AModule m => if smem m ["pkg"; "pkg.inner"] then if String.eqb a "a" then Ok (AFunction "a") else Raise AttributeError else Raise AttributeError | _ => Raise AttributeError end.
Definition w_made (_ _ : string) : ItemLoad_Spec.thing := AFunction "a".
Definition w_fn : callable := Fn "a" ["x"; "y"].
Definition w_kind (o : ItemLoad_Spec.thing) : thing := match o with AFunction _ => TFunc w_fn | _ => TOther end.
Definition w_prints (e : expr) : list string := match e with Other s [] => [s] | Name n => [n] | _ => [] end.
Definition w_shows (_ : expr) : string := "".
Definition w_meaning (ns : dict mval) (e : expr) : res mval := mini_eval ns (map TWord (w_prints e)).

(** the dict file: imports above, the dict below *)
Definition w_dict : string := ex_lines ["from pkg import a"; "pipeline_dict = {'run': [a]}"].
Definition w_parse (general : bool) (text : string) : res (dict pd) := ex_parse general (ex_lines (body text)).
Definition w_imports (text : string) : list imp := match parse_lines (header text) with Ok st => match imports_of st with Ok l => l | Raise _ => [] end | Raise _ => [] end.
Definition w_expr (p : pd) : expr := match p with PName n => Name n | _ => Other "" [] end.
Definition w_view (text : string) (p : pd) : res (string * thing) := item_view w_import w_getattr w_kind (w_imports text) (w_expr p).
Definition w_cfg (y : expr) (_ : bool) (n : string) (_ : thing) (old : option string) : res string :=
  Whole_Model.item_config ex_set ex_builtin w_prints w_shows ex_astor 5 (w_files y) (w_imports w_dict) (Name n) old.

Definition w_exec : path -> string -> res (dict pyval) := exec_text mini mini_names (fun _ _ => Raise SyntaxError).
Definition w_table : list (path * node) :=
  [ ([], Dir); (["proj"], Dir); (["proj"; "pipeline_dict.py"], File w_dict);
    (["proj"; "defaults"], Dir); (["proj"; "defaults"; "run"], Dir); (["proj"; "defaults"; "run"; "section.py"], File "z = 1") ].
Definition w_disk : fs := fs_of w_table.
Definition w_config (f : fs) : ConfigTree_Model.dir := scan w_exec ex_names f ["proj"; "defaults"] 2 [].
Definition w_load (y : expr) (p : pm) : list fs * pm * res unit := pm_load w_parse w_view ex_inst (w_cfg y) w_config (ex_setup []) 0 w_disk p.

(** pkg/inner.py: [from lib import x] and [def a(x=1, y=x)] *)
Definition w_shadow (m : string) : res source :=
  if String.eqb m "pkg.inner" then Ok (Source [SDef "a" (w_def (Name "x"))] [ObjImp ["x"] "lib" []] []) else w_files (Name "x") m.
(** an older config file *)
Definition w_old : string := ex_lines ["from lib import x1"; ""; "x = 7"; "old = x1"; ""].
