(** A small Python, and config files for examples. *)
From Verif Require Export Exec_Spec.
From Coq Require Import ZArith.
Local Open Scope string_scope.
Local Open Scope list_scope.

(** Expressions: numbers, None, True, names, [m.a] for modules, [Selector()] and [1, 2]. An object imported from a module is the string of its
    full name, unless it is called path, which is a module. *)
Definition look (ns : dict mval) (x : string) : res mval :=
  match dget x ns with
  | Some w => Ok w
  | None => if String.eqb x "int" then Ok (MVal (VFunc "int")) else Raise name_error
  end.
Definition mini_eval (ns : dict mval) (e : list tok) : res mval :=
  match e with
  | [TWord x] =>
      if String.eqb x "None" then Ok (MVal VNone) else if String.eqb x "True" then Ok (MVal (VBool true))
      else if String.eqb x "1" then Ok (MVal (VInt 1)) else if String.eqb x "2" then Ok (MVal (VInt 2)) else look ns x
  | [TWord x; TOp "."%char; TWord a] =>
      match look ns x with
      | Ok (MModule m) => Ok (MVal (VStr (m ++ "." ++ a)))
      | Ok (MVal _) => Raise AttributeError
      | Raise e => Raise e
      end
  | [TWord x; TOp "("%char; TOp ")"%char] => match look ns x with Ok _ => Ok (MVal (VObj 0)) | Raise e => Raise e end
  | [TWord "1"; TOp ","%char; TWord "2"] => Ok (MVal (VList [VInt 1; VInt 2]))
  | _ => Raise SyntaxError
  end.
Definition full_name (m : option string) (a : string) : string := match m with Some m => (m ++ "." ++ a)%string | None => a end.
Definition mini : python := {|
  py_eval := mini_eval;
  py_import := fun m => if String.eqb m "missing" then Some (LibExn "ModuleNotFoundError") else None;
  py_from := fun dots m a => if String.eqb a "path" then Ok (MModule (full_name m a)) else Ok (MVal (VStr (full_name m a)));
  py_star := fun _ _ => Ok [("star", MVal (VInt 7))];
  py_iter := fun w => match w with MVal (VList l) => Ok (map MVal l) | _ => Raise TypeError end;
  py_store := fun _ _ _ => None;
  py_truth := fun w => Ok (match w with MVal VNone => false | _ => true end);
  py_aug := fun _ w _ => match w with MVal (VInt z) => Ok (MVal (VInt (z + 1))) | _ => Raise TypeError end;
  py_def := fun _ f _ => Ok (MVal (VFunc f));
  py_class := fun _ c _ => Ok (MVal (VFunc c)) |}.
Definition mini_uses (e : list tok) : list string := flat_map (fun t => match t with TWord x => [x] | _ => [] end) e.
Definition mini_names : dict mval := [("__name__", MVal (VStr "mod"))].

Definition one : list tok := [TWord "1"].
Definition two : list tok := [TWord "2"].
Definition name (x : string) : list tok := [TWord x].

(** a plain file, as a program *)
Definition ex_program : list pstmt :=
  [PImport [("os", None)]; PFrom 0 (Some "os") [("path", None); ("sep", Some "sep2")]; PAssign [GName "a"] one; PAnn (GName "b") (name "int") (Some (name "a"));
   PAssign [GName "a"] two; PAssign [GName "__c"] one].

(** the function [f(np=None, k=numpy.pi)] of a module with [import numpy as np], as it gets written *)
Definition shadow_item : item := function_item [ModImp ["numpy"] [("numpy", "np")]] [("np", Value None ["None"]); ("k", Value None ["np.pi"])].
(** the function [f(k: DataFrame, n=1)] *)
Definition frame_item : item :=
  function_item [ObjImp ["DataFrame"] "pandas" []] [("k", Value (Some "DataFrame") ["None"]); ("n", Value None ["1"])].
Definition ex_astor (_ : string) (_ : option (list tok)) : value := Value None ["OLD"].
Definition ex_lines (l : list string) : string := join nl l.

(** a file of the user *)
Definition ex_file : string := ex_lines ["import os"; ""; "k = os.sep"; "m = k"].
(** the same after scaffolding *)
Definition ex_new_file : string :=
  ex_lines ["from pyfileconf import Selector"; "import os"; "from pandas import DataFrame"; ""; "s = Selector()"; "k = os.sep"; "m = k"; "n = 1"; ""].
Definition ex_file_program : list pstmt :=
  [PImport [("os", None)]; PAssign [GName "k"] [TWord "os"; TOp "."; TWord "sep"]; PAssign [GName "m"] (name "k")].
Definition ex_new_program : list pstmt :=
  [PFrom 0 (Some "pyfileconf") [("Selector", None)]; PImport [("os", None)]; PFrom 0 (Some "pandas") [("DataFrame", None)]; PAssign [GName "s"] [TWord "Selector"; TOp "("; TOp ")"]]
  ++ tl ex_file_program ++ [PAssign [GName "n"] one].
