(** C111: splitting config files by lines. *)
From Verif Require Import Lines_Spec Lines_Proofs.
Local Open Scope string_scope.
Local Open Scope list_scope.

(** The assignment section begins with the first line that neither contains import nor is blank, and goes to the end of the file; the
    import section is what comes before, without blank lines at its end, but of blank lines alone the first one stays. *)
Theorem C111_sections : forall lines strip_lines i a,
  split_file strip_lines lines = (i, a) ->
  exists blanks, divided (map (fun l => if strip_lines then strip_newlines l else l) lines) (i ++ blanks) a /\ Forall blank blanks /\
    ((i = [] /\ blanks = []) \/ (exists r x, i = r ++ [x] /\ ~ blank x) \/ (exists x, i = [x] /\ blank x)).
Proof.
  intros lines st i a E. unfold split_file in E. destruct (split_loop_divided st [] lines) as (i' & a' & E1 & D). rewrite E1 in E. cbn [app] in E. injection E as <- <-.
  destruct (strip_end_spec i') as (b & Eb & F & C). exists b. rewrite <- Eb. split; [exact D|]. split; [exact F|]. destruct C as [->|C]; [|now right].
  left. split; [reflexivity|]. cbn in Eb. now destruct b.
Qed.

(** So the sections are determined by the lines. *)
Theorem C111_division_is_unique : forall lines i a i' a', divided lines i a -> divided lines i' a' -> i = i' /\ a = a'.
Proof. exact divided_unique. Qed.

(** Unless newlines are stripped, the file is the import section, blank lines, and the assignment section. *)
Theorem C111_nothing_is_lost : forall lines, exists blanks,
  lines = fst (split_file false lines) ++ blanks ++ snd (split_file false lines) /\ Forall blank blanks.
Proof.
  intros lines. destruct (split_file false lines) as [i a] eqn:E. apply C111_sections in E as (b & (E & _) & F & _). rewrite map_id in E. exists b. cbn [fst snd].
  split; [now rewrite app_assoc | exact F].
Qed.

(** What is written back into rewritten config files (C43 to C45) is this assignment section. *)
Theorem C111_rewriting_keeps_this : forall lines, snd (split_file true lines) = snd (split_lines (map strip_newlines lines)).
Proof. exact split_file_lines. Qed.

(** An assignment is split at its first sign, and whitespace around both parts is removed. *)
Theorem C111_split_at_first_sign : forall line,
  match split_assignment line with
  | None => has_char "=" line = false
  | Some (x, v) => exists a b, line = (a ++ "=" ++ b)%string /\ has_char "=" a = false /\ stripped is_space a x /\ stripped is_space b v
  end.
Proof.
  intros line. destruct (has_char eq_c line) eqn:H.
  - destruct (has_sign line H) as (a & b & E & Ha). rewrite (first_sign line a b E Ha). exists a, b. split; [exact E|]. split; [exact Ha|].
    split; now apply strip_by_iff.
  - unfold split_assignment. rewrite H. exact H.
Qed.
(** What removing characters at both ends means determines the result. *)
Theorem C111_stripping : forall p s t, strip_by p s = t <-> stripped p s t.
Proof. exact strip_by_iff. Qed.

(** Refuted: the import section does not end with blank lines. *)
Theorem C111_no_blank_end_refuted : exists lines r x, fst (split_file true lines) = r ++ [x] /\ blank x.
Proof. exists [" "; ""], [], " ". split; [reflexivity|]. apply blank_iff. reflexivity. Qed.
(** Refuted: lines of the import section import something or are blank. Names and strings that contain import do, too. *)
Theorem C111_only_imports_refuted : exists lines l, In l (fst (split_file true lines)) /\ split_assignment l = Some ("important", "1") /\ snd (split_file true lines) = [].
Proof. exists ["important = 1"], "important = 1". split; [now left|]. split; reflexivity. Qed.
(** Refuted: imports are in the import section. Below a comment or an assignment they are not. *)
Theorem C111_all_imports_refuted : exists lines l, In l (snd (split_file true lines)) /\ l = "import os"%string /\ fst (split_file true lines) = [].
Proof. exists ["# comment"; "import os"], "import os". split; [right; now left|]. split; reflexivity. Qed.
(** Refuted: what stands before the sign is the name that is assigned to. *)
Theorem C111_name_before_sign_refuted :
  split_assignment "k: int = 1" = Some ("k: int", "1") /\ split_assignment "f(a=1)" = Some ("f(a", "1)") /\
  split_assignment "a == b" = Some ("a", "= b") /\ split_assignment "a = b = 5" = Some ("a", "b = 5").
Proof. repeat split; reflexivity. Qed.

Example C111_ex : split_file true ["from a import b"; ""; "import c"; " "; ""; "x = 1"; ""; "import d"] =
  (["from a import b"; ""; "import c"], ["x = 1"; ""; "import d"]) /\ split_file true [] = ([], []) /\
  split_file true [("import a" ++ nl)%string; nl; ("x = 1" ++ nl)%string] = (["import a"], ["x = 1"]) /\
  split_file false [("import a" ++ nl)%string; nl; ("x = 1" ++ nl)%string] = ([("import a" ++ nl)%string], [("x = 1" ++ nl)%string]).
Proof. repeat split; reflexivity. Qed.
Example C111_ex_assignment : split_assignment "  x =  'a=b' " = Some ("x", "'a=b'") /\ split_assignment "x" = None /\ split_assignment "=" = Some ("", "").
Proof. repeat split; reflexivity. Qed.

Print Assumptions C111_sections.
Print Assumptions C111_division_is_unique.
Print Assumptions C111_nothing_is_lost.
Print Assumptions C111_rewriting_keeps_this.
Print Assumptions C111_split_at_first_sign.
Print Assumptions C111_stripping.
Print Assumptions C111_no_blank_end_refuted.
Print Assumptions C111_only_imports_refuted.
Print Assumptions C111_all_imports_refuted.
Print Assumptions C111_name_before_sign_refuted.
