(** What is said about sessions. *)
From Verif Require Export Session_Model CreateEx_Spec ExecRunEx_Spec.
From Verif Require Export FileStr_Spec Exec_Spec.
Local Open Scope string_scope.
Local Open Scope list_scope.

(** the same files and folders *)
Definition same_files (f g : fs) : Prop := forall q, f q = g q.
(** a manager as a load leaves it: items, and their configuration with nothing loaded and nothing called *)
Definition fresh_manager (i : items) (c : cms) (next : nat) : pm := PM (Some i) (Some (i, RS c [] next [])).
(** writing a config file again does not change it *)
Definition settles (cfg : bool -> string -> thing -> option string -> res string) : Prop :=
  forall g n t old s, cfg g n t old = Ok s -> cfg g n t (Some s) = Ok s.
(** the folder of config files is described by what is in it *)
Definition sees_files (config_dir : fs -> ConfigTree_Model.dir) : Prop := forall f g, same_files f g -> config_dir f = config_dir g.

(** the same text, or with fewer newlines at the end if it has settings *)
Definition trimmed (a b : string) : Prop := b = a \/ body a <> [] /\ tail_ok (body a) /\ exists k, b = chops k a.
(** files in which that makes no difference *)
Definition ignores_newlines (exec : path -> string -> res (dict pyval)) : Prop := forall rel a b, trimmed a b -> exec rel b = exec rel a.
(** an item, and what its config file holds, if there is one, that the library can write again and again *)
Definition maintained (it : item) (old : option string) : Prop :=
  item_ok it /\ survive (imports_brought it) /\
  match old with Some t => exists fl, supported t fl /\ no_imports_below t /\ survive (l_imports fl) | None => True end.

(** nobody else changes files *)
Definition undisturbed (ops : list sop) : Prop := forall g, ~ In (SEdit g) ops.

(** nothing is loaded *)
Definition no_load (ops : list sop) : Prop := ~ In SLoad ops.
(** what others made of the files *)
Fixpoint edited (f : fs) (ops : list sop) : fs :=
  match ops with [] => f | SEdit g :: rest => edited (g f) rest | _ :: rest => edited f rest end.

(** Examples: the project of [SetupEx_Spec], loaded; a session; the arguments of the last call. *)
Definition se_session (ops : list sop) : fs * pm :=
  session ex_parse ex_view ex_inst ex_cfg ex_config (ex_setup []) ex_user (left_in ex_disk (ex_load [] ex_disk new_pm), after (ex_load [] ex_disk new_pm)) ops.
Definition last_call (p : pm) : option (dict pyval) :=
  match p_runner p with
  | Some (_, r) => match rev (r_calls r) with (_, LPartial _ _ _ kw) :: _ => Some kw | _ => None end
  | None => None
  end.
(** somebody writes the file of the item [run.a] *)
Definition se_edit (text : string) : sop := SEdit (fun f q => if path_eqb ["proj"; "defaults"; "run"; "a.py"] q then Some (File text) else f q).
Definition se_run : sop := SOp (RRun Plain (AStr "run.a")).
Definition se_update (persist : bool) : sop := SOp (RUpdate None (Some "run.a") persist [("x", VInt 5)]).

(** the project with a new function: its load, and a session after it *)
Definition fresh_session (ops : list sop) : fs * pm :=
  session ex_parse ex_view ex_inst fresh_cfg fresh_config (ex_setup []) ex_user (left_in fresh_disk (fresh_load new_pm), after (fresh_load new_pm)) ops.
