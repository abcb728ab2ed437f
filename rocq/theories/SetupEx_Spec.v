(** Examples of projects. *)
From Verif Require Export Setup_Spec.
Local Open Scope string_scope.
Local Open Scope list_scope.

(** a file system given by a table *)
Fixpoint fs_of (l : list (path * node)) : fs :=
  match l with [] => fun _ => None | (p, n) :: l' => put p n (fs_of l') end.

(** The folder [base] of [f] as the config manager sees it, if no other names than [names] are used and nothing lies deeper
    than [depth]. *)
Section Scan.
Variable exec : path -> string -> res (dict pyval).
Variable names : list string.
Variables (f : fs) (base : path).
Definition picks {A} (g : string -> option A) : dict A := flat_map (fun n => match g n with Some v => [(n, v)] | None => [] end) names.
Fixpoint scan (depth : nat) (rel : path) : ConfigTree_Model.dir :=
  ConfigTree_Model.Dir (picks (fun n => match f (base ++ rel ++ [n]) with Some (File s) => Some (exec (rel ++ [n]) s) | _ => None end))
      (match depth with
       | 0 => []
       | S k => picks (fun n => match f (base ++ rel ++ [n]) with Some Dir => Some (scan k (rel ++ [n])) | _ => None end)
       end).
End Scan.

(** dict files as they are read, with functions for names and instances for strings *)
Definition ex_parse (general : bool) (text : string) : res (dict pd) :=
  match read (negb general) (if general then "pipeline_dict" else "class_dict") text with Some d => Ok d | None => Raise SyntaxError end.
Definition ex_view (_ : string) (v : pd) : res (string * thing) :=
  match v with PName n => Ok (n, TFunc (Fn n ["x"; "y"])) | _ => Raise AttributeError end.
Definition ex_inst (_ : ccfg) (v : pd) : res (string * thing) :=
  match v with PStr n => Ok (n, TInst (Fn "K" ["x"])) | _ => Raise AttributeError end.
(** config files stay as they are, new ones set [x] *)
Definition ex_cfg (_ : bool) (_ : string) (_ : thing) (old : option string) : res string := Ok (match old with Some s => s | None => "x = 1" end).
(** a few config files *)
Definition ex_exec (_ : path) (text : string) : res (dict pyval) :=
  if String.eqb text "x = 1" then Ok [("x", VInt 1)]
  else if String.eqb text "y = 2" then Ok [("y", VInt 2)]
  else if String.eqb text "x = 1; y = 1" then Ok [("x", VInt 1); ("y", VInt 1)]
  else if String.eqb text "x = 7; y = 7" then Ok [("x", VInt 7); ("y", VInt 7)]
  else if String.eqb text "broken" then Raise (UserExn 0)
  else Ok [].
Definition ex_names : list string := ["section.py"; "run"; "a.py"; "b.py"].
Definition ex_config (f : fs) : ConfigTree_Model.dir := scan ex_exec ex_names f ["proj"; "defaults"] 2 [].

Definition ex_setup (cs : list ccfg) : setup := SetUp ["proj"] "defaults" "proj" None cs.
Definition ex_class (name : string) : ccfg := [("name", CStr name); ("class", CClass (Fn "K" ["x"]))].
(** a project with one function in one section *)
Definition ex_table (dict_text section_text : string) : list (path * node) :=
  [ ([], Dir); (["proj"], Dir); (["proj"; "pipeline_dict.py"], File dict_text);
    (["proj"; "defaults"], Dir); (["proj"; "defaults"; "section.py"], File "");
    (["proj"; "defaults"; "run"], Dir); (["proj"; "defaults"; "run"; "section.py"], File section_text);
    (["proj"; "defaults"; "run"; "a.py"], File "x = 1; y = 1") ].
Definition ex_disk : fs := fs_of (ex_table "pipeline_dict = {'run': [a]}" "y = 2").
(** the same with a second function and a section file that cannot be executed *)
Definition ex_broken : fs := fs_of (ex_table "pipeline_dict = {'run': [a, b]}" "broken").
(** a project with a class dict *)
Definition ex_class_disk (name : string) : fs :=
  fs_of ((["proj"; (name ++ "_dict.py")%string], File "class_dict = {'s': ['k']}") :: ex_table "pipeline_dict = {'run': [a]}" "").

Definition ex_load (cs : list ccfg) (f : fs) (p : pm) : list fs * pm * res unit :=
  pm_load ex_parse ex_view ex_inst ex_cfg ex_config (ex_setup cs) 0 f p.

Definition ex_user : user := User (fun _ _ _ => Ok VNone) (fun _ _ => None) (fun _ => []) [].
(** a folder that has the name of the function *)
Definition ex_leftover : fs := fs_of ((["proj"; "defaults"; "run"; "a"], Dir) :: ex_table "pipeline_dict = {'run': [a]}" "y = 2").
Definition ex_config_leftover (f : fs) : ConfigTree_Model.dir := scan ex_exec ("a" :: ex_names) f ["proj"; "defaults"] 3 [].
Definition ex_items : items := Items [] (Coll "proj" [EColl (Coll "run" [EItem "a" (TFunc (Fn "a" ["x"; "y"]))])]).
