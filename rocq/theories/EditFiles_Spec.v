(** Config files written by hand while the manager is in use (C99). *)
From Verif Require Export OneArg_Spec.
From Verif Require Import Iterate_Spec.
From Coq Require Import ZArith.
Local Open Scope string_scope.
Local Open Scope list_scope.

(** A file that is there gets another content. The files are outside of the manager: nothing in memory changes. *)
Fixpoint edited_dir (d : dir) (folders : list string) (f : string) (content : dict pyval) : dir :=
  match folders with
  | [] => Dir (dset f (Ok content) (dir_files d)) (dir_subs d)
  | y :: rest => match dget y (dir_subs d) with
                 | Some d' => Dir (dir_files d) (dset y (edited_dir d' rest f content) (dir_subs d))
                 | None => d
                 end
  end.
Inductive step : Type := Do (op : rop) | Edit (ref : fileref) (content : dict pyval).
Definition edit (ref : fileref) (content : dict pyval) (s : rs) : rs :=
  let st := r_cms s in
  RS (CMS (cs_root st) (cs_local st) (edited_dir (cs_disk st) (fst ref) (snd ref) content) (cs_trace st)) (r_loaded s) (r_next s) (r_calls s).
Definition step_run (base : string) (its : items) (u : user) (s : rs) (t : step) : rs :=
  match t with Do op => rop_run base its u s op | Edit ref content => edit ref content s end.

(** What is known about the argument: what the item's file says, whether the file has not been read yet, and the machine of C96. *)
Record known : Type := Known { n_file : pyval; n_unread : bool; n_arg : arg }.

(** The file is read when the config is needed for the first time; a reset of a section around drops what was read. *)
Definition still_unread (path : string) (op : rop) (a : arg) (unread : bool) : bool :=
  match op with
  | RGet q => if String.eqb q path then match a_obj a with Some _ => unread | None => false end else unread
  | RRun _ (AStr q) | RUpdate _ (Some q) _ _ | RRefresh q => if String.eqb q path then false else unread
  | RReset (Some q) _ => if String.eqb q path then false else if begins (path_parts q) (path_parts path) then true else unread
  | _ => unread
  end.
Definition ref_eqb (r r' : fileref) : bool :=
  if list_eq_dec string_dec (fst r) (fst r') then String.eqb (snd r) (snd r') else false.
Definition on_edit (path k : string) (ref : fileref) (content : dict pyval) (n : known) : known :=
  let a := n_arg n in
  if ref_eqb ref (item_file (path_parts path))
  then match dget k content with
       | Some v => Known v (n_unread n) (if n_unread n then Arg v (a_kept a) (a_obj a) (a_around a) else a)
       | None => n
       end
  else if String.eqb (snd ref) "section.py"
       then let l := a_around a (CSec (fst ref)) in
            Known (n_file n) (n_unread n) (put_around (CSec (fst ref)) (Lay (l_val l) (l_kept l) (dget k content)) a)
       else n.
Fixpoint follows (base : string) (its : items) (u : user) (path k : string) (s : rs) (steps : list step) (n n' : known) : Prop :=
  match steps with
  | [] => n' = n
  | Do op :: rest => exists more : bool, (more = true <-> changes_more k s op) /\
      follows base its u path k (rop_run base its u s op) rest
        (Known (n_file n) (still_unread path op (n_arg n) (n_unread n)) (move path k (n_file n) more op (n_arg n))) n'
  | Edit ref content :: rest => follows base its u path k (edit ref content s) rest (on_edit path k ref content n) n'
  end.

(** The edits: of files that can be read, before and after. In the files that count for the argument it is given if it was given before. *)
Definition careful (path k : string) (s : rs) (ref : fileref) (content : dict pyval) : Prop :=
  let p := path_parts path in
  dwf content /\ exists old, read_file (cs_disk (r_cms s)) ref = Ok old /\
  (ref = item_file p \/ (exists q, In (CSec q) (refs p) /\ ref = (q, "section.py")) ->
   dmem k content = dmem k old /\ forall v, dget k content = Some v -> plain v = true).
(** operations as in C96 *)
Fixpoint all_careful (base : string) (its : items) (u : user) (path k : string) (s : rs) (steps : list step) : Prop :=
  match steps with
  | [] => True
  | t :: rest => match t with
                 | Do op => permitted base path k op /\ passes base u path s op
                 | Edit ref content => careful path k s ref content
                 end /\ all_careful base its u path k (step_run base its u s t) rest
  end.


(** the config is not in memory *)
Definition unread_in (path : string) (s : rs) : Prop := exists ref m, see (r_cms s) (path_parts path) = Some (SFile ref m).
Definition n_shows (path k : string) (n : known) (s : rs) : Prop :=
  a_shows path k (n_arg n) s /\ (n_unread n = true <-> unread_in path s) /\
  exists content, read_file (cs_disk (r_cms s)) (item_file (path_parts path)) = Ok content /\ dget k content = Some (n_file n).

(** Examples: [sec/f.py] says [y = 0], [sec/section.py] says [y = 1]; nothing overrides [g.py]. *)
Definition ef_disk : dir :=
  Dir [("g.py", Ok [("x", VInt 1); ("y", VInt 0)])]
      [("sec", Dir [("section.py", Ok [("y", VInt 1)]); ("f.py", Ok [("x", VInt 1); ("y", VInt 0)])] [])].
Definition ef_items : items := Items [] (Coll "base" [EItem "g" (TFunc (Fn "g" ["x"; "y"])); EColl (Coll "sec" [EItem "f" (TFunc (Fn "f" ["x"; "y"]))])]).
Definition ef_start : rs :=
  match runner_load "base" ef_disk 0 with Ok s => s | Raise _ => RS (CMS (Sec "" None [] []) empty_config (Dir [] []) []) [] 0 [] end.
Definition ef_then (steps : list step) : rs := fold_left (step_run "base" ef_items is_user) steps ef_start.
Definition ef_calls (s : rs) : list (option pyval) := map (fun c => dget "y" (arguments (snd c))) (r_calls s).
Definition ef_g (v : Z) : step := Edit ([], "g.py") [("x", VInt 1); ("y", VInt v)].
Definition ef_sec (v : Z) : step := Edit (["sec"], "section.py") [("y", VInt v)].
Definition run_g : step := Do (RRun Plain (AStr "g")).
Definition run_f : step := Do (RRun Plain (AStr "sec.f")).
