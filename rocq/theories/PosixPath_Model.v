(** Model of the parts of CPython's [posixpath] that pyfileconf relies on.
    This is library code, not /repo code; it is modelled (rather than assumed) because
    pyfileconf/sectionpath/sectionpath.py:31-34, 97-99 and pyfileconf/main.py:470-474 are
    meaningless without it. The working directory [cwd] is a parameter; [os.getcwd()]
    always returns an absolute path. POSIX only ([os.sep = '/']). *)
From Verif Require Export Py_Exn.

Definition slash : ascii := "/"%char.
Definition sslash : string := "/".

(** posixpath.isabs *)
Definition isabs (p : string) : bool := startswith p sslash.

(** posixpath.join for two arguments *)
Definition path_join (a b : string) : string :=
  if startswith b sslash then b
  else if String.eqb a "" || endswith a sslash then (a ++ b)%string
  else (a ++ sslash ++ b)%string.

(** posixpath.join for one or more arguments, [join( *l )] *)
Definition path_join_list (l : list string) : string :=
  match l with
  | [] => ""                         (* Python: TypeError; never called so here *)
  | a :: r => fold_left path_join r a
  end.

(** number of leading slashes kept by normpath: 0, 1 or 2 *)
Definition initial_slashes (p : string) : nat :=
  if startswith p sslash then
    if startswith p "//" && negb (startswith p "///") then 2 else 1
  else 0.

(** one iteration of the loop in posixpath.normpath; [acc] is [new_comps] reversed *)
Definition norm_step (abs : bool) (acc : list string) (comp : string) : list string :=
  if String.eqb comp "" || String.eqb comp "." then acc
  else if negb (String.eqb comp "..")
          || (negb abs && match acc with [] => true | _ => false end)
          || match acc with x :: _ => String.eqb x ".." | [] => false end
       then comp :: acc
       else match acc with [] => [] | _ :: r => r end.

Definition norm_comps (abs : bool) (comps : list string) : list string :=
  rev (fold_left (norm_step abs) comps []).

Fixpoint repeat_str (n : nat) (s : string) : string :=
  match n with 0 => "" | S n' => (s ++ repeat_str n' s)%string end.

(** posixpath.normpath *)
Definition normpath (p : string) : string :=
  if String.eqb p "" then "."
  else
    let k := initial_slashes p in
    let body := join sslash (norm_comps (negb (Nat.eqb k 0)) (split slash p)) in
    let out := (repeat_str k sslash ++ body)%string in
    if String.eqb out "" then "." else out.

(** posixpath.abspath *)
Definition abspath (cwd p : string) : string :=
  normpath (if isabs p then p else path_join cwd p).

(** genericpath.commonprefix of two lists of components *)
Fixpoint common_prefix (l1 l2 : list string) : list string :=
  match l1, l2 with
  | x :: l1', y :: l2' => if String.eqb x y then x :: common_prefix l1' l2' else []
  | _, _ => []
  end.

Definition nonempty_s (s : string) : bool := negb (String.eqb s "").

(** posixpath.relpath *)
Definition relpath (cwd path start : string) : res string :=
  if String.eqb path "" then Raise ValueError
  else
    let start_list := filter nonempty_s (split slash (abspath cwd start)) in
    let path_list := filter nonempty_s (split slash (abspath cwd path)) in
    let i := length (common_prefix start_list path_list) in
    let rel_list := repeat ".." (length start_list - i) ++ skipn i path_list in
    match rel_list with
    | [] => Ok "."%string
    | _ => Ok (path_join_list rel_list)
    end.
