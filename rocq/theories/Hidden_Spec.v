(** Statements about folders whose names start with an underscore or a dot (C53). *)
From Verif Require Export ConfigTree_Model ConfigTree_Spec.
Local Open Scope string_scope.
Local Open Scope list_scope.

(** the name of a folder that is read as a section *)
Definition visible (folder : string) : bool :=
  match folder with
  | String c _ => negb (Ascii.eqb c "_"%char || Ascii.eqb c "."%char)
  | EmptyString => true
  end.
(** the folder without the sub-folders, at any depth, that are not *)
Fixpoint visible_part (d : dir) : dir :=
  match d with
  | Dir files subs => Dir files ((fix go (l : list (string * dir)) : list (string * dir) :=
      match l with
      | [] => []
      | (n, d') :: rest => if visible n then (n, visible_part d') :: go rest else go rest
      end) subs)
  end.

(** the exceptions the section.py files of a folder and its visible sub-folders raise, in the order in which the folders are
    read; a ValueError counts as "there is no section.py" *)
Definition section_error (d : dir) : list exn :=
  match dget "section.py" (dir_files d) with
  | Some (Raise ValueError) => []
  | Some (Raise e) => [e]
  | _ => []
  end.
Fixpoint section_errors (d : dir) : list exn :=
  section_error d ++
  match d with
  | Dir _ subs => (fix go (l : list (string * dir)) : list exn :=
      match l with
      | [] => []
      | (n, d') :: rest => (if visible n then section_errors d' else []) ++ go rest
      end) subs
  end.

(** example: a folder of checkpoints with a section.py that cannot be executed *)
Definition hd_disk (folder : string) : dir :=
  Dir [("f.py", Ok [("a", VInt 1)])] [("sub", Dir [("g.py", Ok [])] [(folder, Dir [("section.py", Raise SyntaxError)] [])])].
