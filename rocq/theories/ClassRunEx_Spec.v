(** A project with a class dict. *)
From Verif Require Export SetupEx_Spec ClassRun_Spec.
From Verif Require Import ExecEx_Spec.
Local Open Scope string_scope.
Local Open Scope list_scope.

(** a small Python with string literals *)
Definition lit_eval (ns : dict mval) (e : list tok) : res mval :=
  match e with
  | [TLit s] => Ok (MVal (VStr (match s with String _ r => substring 0 (String.length r - 1) r | _ => s end)))
  | _ => mini_eval ns e
  end.
Definition mini_lit : python := {|
  py_eval := lit_eval; py_import := py_import mini; py_from := py_from mini; py_star := py_star mini; py_iter := py_iter mini;
  py_store := py_store mini; py_truth := py_truth mini; py_aug := py_aug mini; py_def := py_def mini; py_class := py_class mini |}.

(** [class K: def __init__(self, name, x=1)] *)
Definition k_class : callable := Fn "K" ["name"; "x"].
Definition k_item : item := class_item [] [("name", Value None ["None"]); ("x", Value None ["1"])] None None.
Definition k_inst (_ : ccfg) (v : pd) : res (string * thing) :=
  match v with PStr n => Ok (n, TInst k_class) | _ => Raise AttributeError end.
Definition k_name (n : string) : value := Value None [("'" ++ n ++ "'")%string].
Definition k_cfg (general : bool) (n : string) (_ : thing) (old : option string) : res string :=
  if general then Ok "" else scaffold_class k_item "name" (k_name n) old.
Definition k_exec : path -> string -> res (dict pyval) := exec_text mini_lit mini_names (fun _ _ => Raise SyntaxError).
Definition k_classes : list ccfg := [[("name", CStr "ks"); ("class", CClass k_class)]].
Definition k_setup : setup := SetUp ["proj"] "defaults" "proj" None k_classes.
(** two items in one section, whose section file may say something *)
Definition k_table (section_text : string) : list (path * node) :=
  [ ([], Dir); (["proj"], Dir); (["proj"; "ks_dict.py"], File "class_dict = {'s': ['a', 'b']}");
    (["proj"; "defaults"], Dir); (["proj"; "defaults"; "ks"], Dir); (["proj"; "defaults"; "ks"; "s"], Dir);
    (["proj"; "defaults"; "ks"; "s"; "section.py"], File section_text) ].
Definition k_disk (section_text : string) : fs := fs_of (k_table section_text).
Definition k_names : list string := ["section.py"; "ks"; "s"; "a.py"; "b.py"].
Definition k_config (f : fs) : ConfigTree_Model.dir := scan k_exec k_names f ["proj"; "defaults"] 3 [].
Definition k_load (section_text : string) (p : pm) : list fs * pm * res unit :=
  pm_load ex_parse ex_view k_inst k_cfg k_config k_setup 0 (k_disk section_text) p.
Definition k_items : items :=
  Items [Reg "ks" (Coll "ks" [EColl (Coll "s" [EItem "a" (TInst k_class); EItem "b" (TInst k_class)])])] (Coll "proj" []).

(** what the items are initialised with when they are run *)
Definition k_called (t path : string) : option (res result * list (string * lobj)) :=
  match p_runner (snd (fst (k_load t new_pm))) with
  | Some (i, r) => let '(r', o) := run_one i ex_user path r in Some (o, r_calls r')
  | None => None
  end.
