(** C74, continued: how the code is laid out does not change what is read. *)
From Verif Require Import PySource_Proofs Layout_Spec Layout_Proofs.
Local Open Scope string_scope.
Local Open Scope list_scope.

(** between tokens any blanks do: spaces, tabs, form feeds *)
Theorem C74_blanks_between_tokens : forall pre x b1 b2 s rest,
  complete pre -> plain_code x -> blanks b1 -> blanks b2 -> b1 <> "" -> b2 <> "" ->
  parse_lines (pre ++ (x ++ b1 ++ s)%string :: rest) = parse_lines (pre ++ (x ++ b2 ++ s)%string :: rest).
Proof.
  intros pre x b1 b2 s rest C P B1 B2 N1 N2. apply parse_line; [exact C|]. apply lex_after; [exact P|].
  intros d w. now rewrite !lex_blanks.
Qed.
(** indentation, blanks at the end of a line and comments do not count *)
Theorem C74_indentation_and_comments : forall pre x b s c rest,
  complete pre -> blanks b -> plain_code x ->
  parse_lines (pre ++ (b ++ s)%string :: rest) = parse_lines (pre ++ s :: rest) /\
  parse_lines (pre ++ (x ++ b)%string :: rest) = parse_lines (pre ++ x :: rest) /\
  parse_lines (pre ++ (x ++ String "#" c)%string :: rest) = parse_lines (pre ++ x :: rest).
Proof.
  intros pre x b s c rest C B P. split; [|split]; apply parse_line; try exact C.
  - now apply lex_skip.
  - rewrite <- (app_nil_r_s x) at 2. apply lex_after; [exact P|]. intros d w. destruct b as [|c0 b]; [reflexivity|].
    rewrite <- (app_nil_r_s (String c0 b)). now rewrite lex_blanks by (assumption || discriminate).
  - rewrite <- (app_nil_r_s x) at 2. apply lex_after; [exact P|]. intros d w. apply lex_comment.
Qed.

(** what stands in quotes is no code: comment signs, brackets, keywords, semicolons and quotes of the other kind are just text *)
Theorem C74_strings_are_values : forall pre ps rest rs x q s,
  parse_lines pre = Ok ps -> parse_lines rest = Ok rs -> is_name x = true -> quote_mark q -> inside q s ->
  parse_lines (pre ++ (x ++ " = " ++ quoted q s)%string :: rest) =
  Ok (ps ++ SAssign (Asgn (TgName x) None (Some [TLit (quoted q s)])) :: rs).
Proof.
  intros pre ps rest rs x q s Hp Hr N Q I. rewrite (PySource_Proofs.parse_lines_app _ _ _ Hp).
  assert (E : parse_lines [(x ++ " = " ++ quoted q s)%string] = Ok [SAssign (Asgn (TgName x) None (Some [TLit (quoted q s)]))]).
  { unfold parse_lines. cbn [logical lstart ls_mode ls_depth ls_lit]. destruct (is_name_chars x N) as [W Ne].
    rewrite (lex_word_end 0 x _ W Ne) by reflexivity. cbn [append].
    rewrite lex_blank_char, lex_op, lex_blank_char, (lex_quoted q 0 s Q I) by reflexivity. cbn [prepend app goes_on ls_mode ls_depth].
    cbn [res_list]. now rewrite (assign_line_stmt x (TLit (quoted q s)) N eq_refl eq_refl). }
  rewrite (parse_lines_cons _ _ _ E), Hr. reflexivity.
Qed.
(** nor is a text in triple quotes, however many lines it has *)
Theorem C74_docstrings_are_skipped : forall pre ps rest rs q l ls,
  parse_lines pre = Ok ps -> parse_lines rest = Ok rs -> quote_mark q -> Forall (inside q) (l :: ls) ->
  parse_lines (pre ++ docstring q l ls ++ rest) = Ok (ps ++ SOther :: rs).
Proof.
  intros pre ps rest rs q l ls Hp Hr Q F. rewrite (PySource_Proofs.parse_lines_app _ _ _ Hp).
  destruct (logical_docstring q l ls Q F) as [s E].
  assert (D : parse_lines (docstring q l ls) = Ok [SOther]) by (unfold parse_lines; now rewrite E).
  rewrite (PySource_Proofs.parse_lines_app _ _ _ D), Hr. reflexivity.
Qed.

Example C74_ex_strings :
  parse_lines ["import a"; "b = " ++ quoted (ascii_of_nat 34) "import c; it's ( # no"]%string =
    Ok [SImport (of_import [("a", None)]); SAssign (Asgn (TgName "b") None (Some [TLit (quoted (ascii_of_nat 34) "import c; it's ( # no")]))] /\
  docstring (ascii_of_nat 34) "import c" ["b = 1"; ""] = [(triple (ascii_of_nat 34) ++ "import c")%string; "b = 1"; triple (ascii_of_nat 34)] /\
  parse_lines (["import a"] ++ docstring (ascii_of_nat 34) "import c" ["b = 1"; ""]) = Ok [SImport (of_import [("a", None)]); SOther].
Proof. split; [|split]; vm_compute; reflexivity. Qed.
Example C74_ex_layout :
  complete ["import a"] /\ plain_code "b =" /\ blanks ly_tab /\
  parse_lines (["import a"] ++ [("b" ++ ly_tab ++ "=" ++ ly_tab ++ " c.d  # no")%string]) = parse_lines ["import a"; "b = c.d"] /\
  parse_lines ["import a"; "b = c.d"] <> Raise SyntaxError.
Proof.
  split; [eexists; vm_compute; reflexivity|]. split; [vm_compute; auto|]. split.
  { intros c H. unfold ly_tab in H. cbn [has_char] in H. rewrite Bool.orb_false_r in H. apply Ascii.eqb_eq in H. auto. }
  split; vm_compute; [reflexivity|discriminate].
Qed.

(** What is read as a name are Python's names. *)
Theorem C74_name_words : forall w, PySource_Model.is_name w = true <-> identifier w.
Proof. exact is_name_identifier. Qed.

Print Assumptions C74_blanks_between_tokens.
Print Assumptions C74_indentation_and_comments.
Print Assumptions C74_strings_are_values.
Print Assumptions C74_docstrings_are_skipped.
Print Assumptions C74_name_words.
