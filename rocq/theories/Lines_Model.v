(** Model of the splitting of config files by lines: pyfileconf/config/logic/load.py, with all that it gives (FileStr_Model has only what
    the writing of config files uses).

    Simplifications: characters below 128; the lines are given. _split_assignment_line_into_variable_name_and_assignment is not called by
    the library. *)
From Verif Require Export FileStr_Model.
Local Open Scope string_scope.
Local Open Scope list_scope.

(** str.strip with the characters to remove *)
Fixpoint lstrip_by (p : ascii -> bool) (s : string) : string := match s with String c r => if p c then lstrip_by p r else s | "" => "" end.
Fixpoint rstrip_by (p : ascii -> bool) (s : string) : string :=
  match s with
  | "" => ""
  | String c r => match rstrip_by p r with "" => if p c then "" else String c "" | t => String c t end
  end.
Definition strip_by (p : ascii -> bool) (s : string) : string := rstrip_by p (lstrip_by p s).
Definition strip_newlines (s : string) : string := strip_by (Ascii.eqb nl_c) s.
Definition strip (s : string) : string := strip_by is_space s.

(** _is_whitespace_line, load.py:63-64 *)
Definition blank_line (l : string) : bool := String.eqb (strip l) "".

(** _strip_whitespace_lines_from_end_of_lines, load.py:66-83: the index where the loop over the reversed lines breaks, or its last one *)
Fixpoint break_at (k : nat) (lines : list string) : nat :=
  match lines with
  | [] => 0                                        (* there is a line *)
  | [l] => k
  | l :: rest => if negb (blank_line l) then k else break_at (S k) rest
  end.
Definition strip_end (lines : list string) : list string :=
  match lines with
  | [] => []
  | _ => rev (skipn (break_at 0 (rev lines)) (rev lines))
  end.

(** _split_lines_into_import_and_assignment, load.py:9-43: the loop with in_import_section and both sections so far *)
Fixpoint split_loop (strip_lines in_import : bool) (imports assigns lines : list string) : list string * list string :=
  match lines with
  | [] => (imports, assigns)
  | l :: rest =>
      let l := if strip_lines then strip_newlines l else l in
      if in_import then
        if contains l "import" || blank_line l then split_loop strip_lines true (imports ++ [l]) assigns rest
        else split_loop strip_lines false imports (assigns ++ [l]) rest
      else split_loop strip_lines false imports (assigns ++ [l]) rest
  end.
Definition split_file (strip_lines : bool) (lines : list string) : list string * list string :=
  let (i, a) := split_loop strip_lines true [] [] lines in (strip_end i, a).

(** _split_assignment_line_into_variable_name_and_assignment, load.py:45-61; (None, None) is [None] *)
Definition eq_c : ascii := ascii_of_nat 61.
Definition split_assignment (line : string) : option (string * string) :=
  if negb (has_char eq_c line) then None
  else match split eq_c line with
       | [a; b] => Some (strip a, strip b)
       | a :: rest => Some (strip a, strip (join (String eq_c "") rest))
       | [] => None                                (* split never returns [] *)
       end.
