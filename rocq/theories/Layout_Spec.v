(** Statements about blanks and comments in source text (C74). *)
From Verif Require Export PySource_Model.
Local Open Scope string_scope.
Local Open Scope list_scope.

(** space, tab or form feed *)
Definition blanks (b : string) : Prop := forall c, has_char c b = true -> c = " "%char \/ c = ascii_of_nat 9 \/ c = ascii_of_nat 12.
(** without quotes, comments and backslashes *)
Definition plain_code (x : string) : Prop :=
  has_char (ascii_of_nat 39) x = false /\ has_char (ascii_of_nat 34) x = false /\ has_char (ascii_of_nat 92) x = false /\
  has_char "#" x = false.
(** the lines are whole logical lines, so that the next one begins a new one *)
Definition complete (pre : list string) : Prop := exists ls, logical None pre = Some ls.

(** text in quotes [q], without such quotes and backslashes in it *)
Definition quote_mark (q : ascii) : Prop := q = ascii_of_nat 39 \/ q = ascii_of_nat 34.
Definition inside (q : ascii) (s : string) : Prop := has_char q s = false /\ has_char (ascii_of_nat 92) s = false.
Definition quoted (q : ascii) (s : string) : string := String q (s ++ String q "").
(** a string in triple quotes that goes over the lines [l :: ls] *)
Definition triple (q : ascii) : string := String q (String q (String q "")).
Fixpoint until_triple (q : ascii) (l : string) (ls : list string) : list string :=
  match ls with [] => [(l ++ triple q)%string] | l' :: ls' => l :: until_triple q l' ls' end.
Definition docstring (q : ascii) (l : string) (ls : list string) : list string :=
  match until_triple q l ls with l0 :: r => (triple q ++ l0)%string :: r | [] => [] end.

(** example *)
Definition ly_tab : string := String (ascii_of_nat 9) "".

(** Python's names: letters, digits and underscores, not beginning with a digit, and no keyword. Characters that are not ASCII
    count as letters. *)
Definition name_letters : string := "abcdefghijklmnopqrstuvwxyzABCDEFGHIJKLMNOPQRSTUVWXYZ_".
Definition digits : string := "0123456789".
Definition python_keywords : list string :=
  ["False"; "None"; "True"; "and"; "as"; "assert"; "async"; "await"; "break"; "class"; "continue"; "def"; "del"; "elif"; "else";
   "except"; "finally"; "for"; "from"; "global"; "if"; "import"; "in"; "is"; "lambda"; "nonlocal"; "not"; "or"; "pass"; "raise";
   "return"; "try"; "while"; "with"; "yield"].
Definition identifier (w : string) : Prop :=
  w <> "" /\
  (forall c, has_char c w = true -> has_char c name_letters = true \/ has_char c digits = true \/ 128 <= nat_of_ascii c) /\
  (forall c r, w = String c r -> has_char c digits = false) /\
  ~ In w python_keywords.
