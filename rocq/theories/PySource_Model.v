(** Reading Python source: the part of ast.parse and of the two ast visitors that the library relies on when it reads config
    files and dict files, pyfileconf/io/file/load/parsers/{base,py,imp,assign}.py.

    Source text is a [string] after Python's newline translation. The reader splits it into logical lines as Python's tokenizer
    does (brackets, strings, comments, backslashes) and takes every logical line for one statement. It raises SyntaxError also
    for some things Python accepts: several statements on a line, a parenthesised target, control characters in the text.
    Whether indentation is right and whether the tokens of a line form a statement is not checked, apart from imports and
    assignments. Statements inside functions, classes and other blocks count like all others, as for the visitors. *)
From Verif Require Export Imports_Model.
Local Open Scope string_scope.
Local Open Scope list_scope.

Definition nl_c : ascii := ascii_of_nat 10.
Definition sq_c : ascii := ascii_of_nat 39.
Definition dq_c : ascii := ascii_of_nat 34.
Definition bs_c : ascii := ascii_of_nat 92.

(** [f.readlines()] with the newlines stripped, parsers/base.py:8-12 and config/logic/load.py:26-27: no line after a newline at
    the end *)
Definition drop_last_empty (l : list string) : list string :=
  match rev l with "" :: r => rev r | _ => l end.
Definition lines_of (t : string) : list string := drop_last_empty (split nl_c t).

(* ------------------------------------------------------------------ *)
(** * Tokens and logical lines *)

(** a word (name, keyword, number or part of one), a string literal with its quotes, or a single operator character *)
Inductive tok : Type := TWord (s : string) | TLit (s : string) | TOp (c : ascii).

(** inside code, inside a string, inside a triple-quoted string *)
Inductive smode : Type := Code | Str (q : ascii) | Tri (q : ascii).

(** the state at the beginning of a line, [lit]: the text of the unfinished string literal *)
Record lstate : Type := LS { ls_mode : smode; ls_depth : nat; ls_lit : string }.
Definition lstart : lstate := LS Code 0 "".

Definition between (a n b : nat) : bool := Nat.leb a n && Nat.leb n b.
Definition word_char (c : ascii) : bool :=
  let n := nat_of_ascii c in
  between 48 n 57 || between 65 n 90 || between 97 n 122 || Nat.eqb n 95 || Nat.leb 128 n.
Definition blank_char (c : ascii) : bool :=
  let n := nat_of_ascii c in Nat.eqb n 32 || Nat.eqb n 9 || Nat.eqb n 12.
Definition open_char (c : ascii) : bool :=
  match c with "("%char | "["%char | "{"%char => true | _ => false end.
Definition close_char (c : ascii) : bool :=
  match c with ")"%char | "]"%char | "}"%char => true | _ => false end.
Definition quote_char (c : ascii) : bool := Ascii.eqb c sq_c || Ascii.eqb c dq_c.

Definition flush (w : string) (l : list tok) : list tok := match w with "" => l | _ => TWord w :: l end.
Definition snoc (w : string) (c : ascii) : string := (w ++ String c "")%string.

(** The tokens of one line, the state after it, and whether it ends in a backslash. [w] is the word or string literal being
    read. Simplification: kinds of brackets are not told apart. *)
Fixpoint lex (m : smode) (d : nat) (w : string) (s : string) : option (list tok * lstate * bool) :=
  match s with
  | EmptyString =>
      match m with
      | Code => Some (flush w [], LS Code d "", false)
      | Str _ => None
      | Tri q => Some ([], LS (Tri q) d (snoc w nl_c), false)
      end
  | String c r =>
      match m with
      | Code =>
          if word_char c then lex Code d (snoc w c) r
          else
            match
              (if blank_char c then lex Code d "" r
               else if Ascii.eqb c "#" then Some ([], LS Code d "", false)
               else if quote_char c then
                 match r with
                 | String c1 (String c2 r2) =>
                     if Ascii.eqb c1 c && Ascii.eqb c2 c then lex (Tri c) d (String c (String c (String c ""))) r2
                     else lex (Str c) d (String c "") r
                 | _ => lex (Str c) d (String c "") r
                 end
               else if Ascii.eqb c bs_c then match r with EmptyString => Some ([], LS Code d "", true) | _ => None end
               else if Nat.ltb (nat_of_ascii c) 32 then None
               else if open_char c then
                 match lex Code (S d) "" r with Some (l, st, b) => Some (TOp c :: l, st, b) | None => None end
               else if close_char c then
                 match d with
                 | O => None
                 | S d' => match lex Code d' "" r with Some (l, st, b) => Some (TOp c :: l, st, b) | None => None end
                 end
               else match lex Code d "" r with Some (l, st, b) => Some (TOp c :: l, st, b) | None => None end)
            with
            | Some (l, st, b) => Some (flush w l, st, b)
            | None => None
            end
      | Str q =>
          if Ascii.eqb c bs_c then
            match r with
            | EmptyString => Some ([], LS (Str q) d (snoc (snoc w c) nl_c), true)
            | String c1 r1 => lex (Str q) d (snoc (snoc w c) c1) r1
            end
          else if Ascii.eqb c q then
            match lex Code d "" r with Some (l, st, b) => Some (TLit (snoc w c) :: l, st, b) | None => None end
          else lex (Str q) d (snoc w c) r
      | Tri q =>
          if Ascii.eqb c bs_c then
            match r with
            | EmptyString => Some ([], LS (Tri q) d (snoc (snoc w c) nl_c), false)
            | String c1 r1 => lex (Tri q) d (snoc (snoc w c) c1) r1
            end
          else if Ascii.eqb c q then
            match r with
            | String c1 (String c2 r2) =>
                if Ascii.eqb c1 q && Ascii.eqb c2 q then
                  match lex Code d "" r2 with
                  | Some (l, st, b) => Some (TLit (snoc (snoc (snoc w c) c1) c2) :: l, st, b)
                  | None => None
                  end
                else lex (Tri q) d (snoc w c) r
            | _ => lex (Tri q) d (snoc w c) r
            end
          else lex (Tri q) d (snoc w c) r
      end
  end.

(** whether the logical line goes on in the next line *)
Definition goes_on (st : lstate) (backslash : bool) : bool :=
  match ls_mode st, ls_depth st with Code, O => backslash | _, _ => true end.

(** The logical lines; [open]: the one begun in the lines before, with the state there. Empty lines and comments give logical
    lines without tokens. *)
Fixpoint logical (open : option (lstate * list tok)) (lines : list string) : option (list (list tok)) :=
  match lines with
  | [] => match open with None => Some [] | Some _ => None end
  | l :: rest =>
      let (st, cur) := match open with None => (lstart, []) | Some x => x end in
      match lex (ls_mode st) (ls_depth st) (ls_lit st) l with
      | None => None
      | Some (toks, st', b) =>
          if goes_on st' b then logical (Some (st', cur ++ toks)) rest
          else match logical None rest with
               | Some ls => Some ((cur ++ toks) :: ls)
               | None => None
               end
      end
  end.

(* ------------------------------------------------------------------ *)
(** * Statements *)

Definition keywords : list string :=
  ["False"; "None"; "True"; "and"; "as"; "assert"; "async"; "await"; "break"; "class"; "continue"; "def"; "del"; "elif"; "else";
   "except"; "finally"; "for"; "from"; "global"; "if"; "import"; "in"; "is"; "lambda"; "nonlocal"; "not"; "or"; "pass"; "raise";
   "return"; "try"; "while"; "with"; "yield"].
Definition is_digit (c : ascii) : bool := between 48 (nat_of_ascii c) 57.
Definition is_name (w : string) : bool :=
  match w with
  | EmptyString => false
  | String c _ => negb (is_digit c) && all_chars word_char w && negb (existsb (String.eqb w) keywords)
  end.

(** a dotted name at the beginning *)
Fixpoint dotted (ts : list tok) : option (string * list tok) :=
  match ts with
  | TWord a :: rest =>
      if is_name a then
        match rest with
        | TOp "."%char :: rest' => match dotted rest' with Some (b, r) => Some ((a ++ "." ++ b)%string, r) | None => None end
        | _ => Some (a, rest)
        end
      else None
  | _ => None
  end.

(** [n] or [n as b] *)
Definition as_part (n : string) (ts : list tok) : option alias :=
  match ts with
  | [] => Some (n, None)
  | [TWord a; TWord b] => if String.eqb a "as" && is_name b then Some (n, Some b) else None
  | _ => None
  end.
Definition module_alias (ts : list tok) : option alias :=
  match dotted ts with Some (n, rest) => as_part n rest | None => None end.
Definition object_alias (ts : list tok) : option alias :=
  match ts with TWord a :: rest => if is_name a then as_part a rest else None | _ => None end.

Definition is_op (c : ascii) (t : tok) : bool := match t with TOp d => Ascii.eqb d c | _ => false end.
Definition is_word (w : string) (t : tok) : bool := match t with TWord v => String.eqb v w | _ => false end.

Fixpoint split_commas (ts : list tok) : list (list tok) :=
  match ts with
  | [] => [[]]
  | t :: r => if is_op "," t then [] :: split_commas r
              else match split_commas r with [] => [[t]] | h :: tl => (t :: h) :: tl end
  end.

Fixpoint opt_list {A B} (f : A -> option B) (l : list A) : option (list B) :=
  match l with
  | [] => Some []
  | a :: r => match f a with
              | Some b => match opt_list f r with Some bs => Some (b :: bs) | None => None end
              | None => None
              end
  end.

(** the part after [import] of a from-import: a star, names, or names in parentheses with an optional comma at the end *)
Definition object_aliases (ts : list tok) : option (list alias) :=
  match ts with
  | [t] => if is_op "*" t then Some [("*", None)] else opt_list object_alias [ts]
  | t :: r =>
      if is_op "(" t then
        match rev r with
        | cl :: inner =>
            if is_op ")" cl then
              let parts := split_commas (rev inner) in
              opt_list object_alias
                (match rev parts with [] :: more => match more with [] => parts | _ => rev more end | _ => parts end)
            else None
        | [] => None
        end
      else opt_list object_alias (split_commas ts)
  | [] => None
  end.

Fixpoint skip_dots (ts : list tok) : list tok :=
  match ts with t :: r => if is_op "." t then skip_dots r else ts | [] => [] end.

(** targets of assignments: a name, an attribute of something, or something else (subscript, tuple, list, starred) *)
Inductive target : Type := TgName (x : string) | TgAttr | TgOther.

(** an assignment statement with its annotation and its value; [x: int] has none *)
Record asgn : Type := Asgn { a_target : target; a_ann : option (list tok); a_value : option (list tok) }.

(** What the visitors get: imports and assignments; [MultiAssign] has several targets. *)
Inductive stmt : Type := SImport (i : imp) | SBadImport (e : exn) | SAssign (a : asgn) | SMultiAssign | SOther.

(** an operator character that makes [=] after it part of a longer operator *)
Definition eq_prefix (t : option tok) : bool :=
  match t with
  | Some (TOp c) => existsb (Ascii.eqb c) ["="; "!"; "<"; ">"; "+"; "-"; "*"; "/"; "%"; "&"; "|"; "^"; "@"; ":"]%char
  | _ => false
  end.

Definition depth_after (d : nat) (t : tok) : nat :=
  match t with
  | TOp c => if open_char c then S d else if close_char c then pred d else d
  | _ => d
  end.

(** the tokens before and after the first [=] outside of brackets that is an operator of its own *)
Fixpoint find_eq (d : nat) (prev : option tok) (ts : list tok) : option (list tok * list tok) :=
  match ts with
  | [] => None
  | t :: r =>
      if is_op "=" t && Nat.eqb d 0 && negb (eq_prefix prev) && negb (match r with t' :: _ => is_op "=" t' | [] => false end)
      then Some ([], r)
      else match find_eq (depth_after d t) (Some t) r with
           | Some (b, a) => Some (t :: b, a)
           | None => None
           end
  end.

(** the tokens before and after the first [c] outside of brackets *)
Fixpoint find_op (c : ascii) (d : nat) (ts : list tok) : option (list tok * list tok) :=
  match ts with
  | [] => None
  | t :: r => if is_op c t && Nat.eqb d 0 then Some ([], r)
              else match find_op c (depth_after d t) r with
                   | Some (b, a) => Some (t :: b, a)
                   | None => None
                   end
  end.

(** [None]: not a target this reader knows *)
Definition target_of (ts : list tok) : option target :=
  match ts with
  | [] => None
  | [TWord x] => if is_name x then Some (TgName x) else None
  | t :: _ =>
      if is_op "(" t then None
      else match find_op "," 0 ts with
           | Some _ => Some TgOther
           | None => match rev ts with
                     | TWord a :: t' :: _ => if is_op "." t' then Some TgAttr else None
                     | t' :: _ => if is_op "]" t' then Some TgOther else None
                     | [] => None
                     end
           end
  end.

Definition assign_of (tg : list tok) (ann value : option (list tok)) : res stmt :=
  match target_of tg with
  | Some t => Ok (SAssign (Asgn t ann value))
  | None => Raise SyntaxError
  end.

(** The statement of a logical line that does not begin with a keyword. *)
Definition plain_stmt (ts : list tok) : res stmt :=
  match find_eq 0 None ts with
  | Some (before, after) =>
      match after with
      | [] => Raise SyntaxError
      | _ :: _ =>
          match find_op ":" 0 before with
          | Some (tg, ann) => assign_of tg (Some ann) (Some after)
          | None =>
              match find_eq 0 None after with
              | Some (b2, _) => if existsb (is_word "lambda") b2 then assign_of before None (Some after) else Ok SMultiAssign
              | None => assign_of before None (Some after)
              end
          end
      end
  | None =>
      match find_op ":" 0 ts with
      | Some (tg, t :: ann) => if is_op "=" t then Raise SyntaxError else assign_of tg (Some (t :: ann)) None
      | _ => Ok SOther
      end
  end.

(** keywords that begin a clause of a compound statement, whose block is on the following lines *)
Definition clause_keywords : list string :=
  ["async"; "class"; "def"; "elif"; "else"; "except"; "finally"; "for"; "if"; "try"; "while"; "with"].

Definition stmt_of (ts : list tok) : res stmt :=
  match find_op ";" 0 ts with
  | Some _ => Raise SyntaxError
  | None =>
      match ts with
      | [] => Ok SOther
      | TWord w :: rest =>
          if String.eqb w "import" then
            match opt_list module_alias (split_commas rest) with
            | Some al => Ok (SImport (of_import al))
            | None => Raise SyntaxError
            end
          else if String.eqb w "from" then
            let rest' := skip_dots rest in
            match (match dotted rest' with
                   | Some (m, r) => Some (Some m, r)
                   | None => if Nat.ltb (length rest') (length rest) then Some (None, rest') else None
                   end) with
            | Some (module, t :: names) =>
                if is_word "import" t then
                  match object_aliases names with
                  | Some al => match of_import_from module al with
                               | Ok i => Ok (SImport i)
                               | Raise e => Ok (SBadImport e)
                               end
                  | None => Raise SyntaxError
                  end
                else Raise SyntaxError
            | _ => Raise SyntaxError
            end
          else if existsb (String.eqb w) clause_keywords then
            (if is_op ":" (last ts (TOp ";")) then Ok SOther else Raise SyntaxError)
          else if existsb (String.eqb w) keywords then Ok SOther
          else plain_stmt ts
      | _ => plain_stmt ts
      end
  end.

Fixpoint res_list {A B} (f : A -> res B) (l : list A) : res (list B) :=
  match l with
  | [] => Ok []
  | a :: r => match f a with
              | Ok b => match res_list f r with Ok bs => Ok (b :: bs) | Raise e => Raise e end
              | Raise e => Raise e
              end
  end.

(** ast.parse of the text, parsers/py.py:10-17 *)
Definition parse_lines (lines : list string) : res (list stmt) :=
  match logical None lines with
  | None => Raise SyntaxError
  | Some ls => res_list stmt_of ls
  end.
Definition parse (t : string) : res (list stmt) := parse_lines (lines_of t).

(** extract_imports_from_ast, parsers/imp.py:16-34 *)
Fixpoint imports_of (l : list stmt) : res (list imp) :=
  match l with
  | [] => Ok []
  | SImport i :: r => match imports_of r with Ok is => Ok (i :: is) | Raise e => Raise e end
  | SBadImport e :: _ => Raise e
  | _ :: r => imports_of r
  end.

(** extract_assignments_from_ast, parsers/assign.py:9-31, and AssignmentStatement.from_ast_assign,
    assignments/models/statement.py:59-84: several targets raise NotImplementedError *)
Fixpoint assigns_of (l : list stmt) : res (list asgn) :=
  match l with
  | [] => Ok []
  | SAssign a :: r => match assigns_of r with Ok al => Ok (a :: al) | Raise e => Raise e end
  | SMultiAssign :: _ => Raise (LibExn "NotImplementedError")
  | _ :: r => assigns_of r
  end.
