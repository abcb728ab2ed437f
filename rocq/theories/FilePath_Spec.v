(** What a POSIX path means, read from left to right, independently of how [posixpath] rewrites it.
    Symbolic links are left out, as in [posixpath] itself. *)
From Verif Require Export FilePath_Model.
Local Open Scope list_scope.

(** a directory is the list of names leading to it from the root. One component of a path: "" and
    "." stay, ".." goes one up (and stays at the root), any other name goes down *)
Definition go (d : list string) (c : string) : list string :=
  if String.eqb c "" || String.eqb c "." then d
  else if String.eqb c ".." then removelast d
  else d ++ [c].

Definition follow (d : list string) (cs : list string) : list string := fold_left go cs d.

(** the place a path leads to from a directory *)
Definition leads_to (d : list string) (p : string) : list string :=
  follow (if isabs p then [] else d) (split slash p).

(** the place a path means for a working directory given as text *)
Definition place (cwd p : string) : list string := leads_to (leads_to [] cwd) p.

(** a proper name *)
Definition a_name (s : string) : Prop :=
  s <> ""%string /\ s <> "."%string /\ s <> ".."%string /\ has_char slash s = false.

(** the longest common beginning of two places *)
Definition longest_common (a b c : list string) : Prop :=
  (exists r, a = c ++ r) /\ (exists r, b = c ++ r)
  /\ forall c', (exists r, a = c' ++ r) -> (exists r, b = c' ++ r) -> length c' <= length c.

(** absolute paths begin with one slash, or with the two they were given *)
Definition slashes_of (cwd p : string) : string :=
  if isabs p then repeat_str (initial_slashes p) sslash
  else repeat_str (initial_slashes cwd) sslash.

(** the text of a normalised relative path: first the steps up, then the names; "." if there are
    neither *)
Definition rel_text (ups : nat) (names : list string) : string :=
  match (repeat ".."%string ups ++ names)%list with
  | [] => "."%string
  | l => join sslash l
  end.
