(** Example states for C64. *)
From Verif Require Import Runner_Model.
Local Open Scope string_scope.
Local Open Scope list_scope.

Definition cl_disk : dir := Dir [("f.py", Ok [("E", VInt 1); ("d", VInt 2); ("a", VInt 3)]); ("g.py", Ok [("config_", VInt 1); ("a", VInt 1)])] [].
Definition cl_user : user := User (fun calls path o => Ok VNone) (fun _ _ => None) (fun _ => []) [].
Definition cl_items : items := Items [] (Coll "base" [EItem "f" (TFunc (Fn "f" ["E"; "d"; "a"])); EItem "g" (TFunc (Fn "g" ["config_"; "a"]))]).
Definition cl_rs : rs := match runner_load "base" cl_disk 0 with Ok s => s | Raise _ => RS (CMS (Sec "" None [] []) empty_config (Dir [] []) []) [] 0 [] end.
(** both items loaded *)
Definition cl_got : rs := fst (runner_get cl_items cl_user "g" (fst (runner_get cl_items cl_user "f" cl_rs))).
