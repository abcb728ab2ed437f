(** Specification vocabulary for C43-C45. *)
From Verif Require Import PySource_Spec FileStr_Model.
Local Open Scope string_scope.
Local Open Scope list_scope.

(** The lines the library takes for the imports at the top of a file, and those it takes for the settings. *)
Definition header (t : string) : list string := fst (split_lines (lines_of t)).
Definition body (t : string) : list string := snd (split_lines (lines_of t)).

(** Every line above the settings is blank or is an import statement of its own. *)
Definition header_ok (t : string) : Prop :=
  Forall (fun l => is_whitespace_line l = true \/ exists i, parse_lines [l] = Ok [SImport i]) (header t).

(** The last line that is not empty does not end in a backslash. *)
Definition tail_ok (lines : list string) : Prop :=
  match find (fun l => negb (String.eqb l "")) (rev lines) with
  | Some l => endswith l (String bs_c "") = false
  | None => True
  end.

(** No import statement stands among the settings. *)
Definition no_imports_below (t : string) : Prop :=
  forall st, parse_lines (body t) = Ok st -> imports_of st = Ok [].

(** The lines written for a value assign it to the name. *)
Definition value_ok (x : string) (v : value) : Prop :=
  Forall (fun l => has_char nl_c l = false) (assign_lines x v) /\ tail_ok (assign_lines x v) /\
  exists a, parse_lines (assign_lines x v) = Ok [SAssign a] /\ a_target a = TgName x.

(** The settings an item brings, and those of them that the file does not assign. *)
Definition brought (it : item) : dict value :=
  map (annotate (i_end it)) (i_defaults it) ++ dfilter (fun x => negb (dmem x (i_defaults it))) (i_end it).
Definition missing (it : item) (al : list asgn) : dict value := dfilter (fun x => negb (contains_varname al x)) (brought it).
Definition missing_begin (it : item) (al : list asgn) : list (string * string) :=
  filter (fun q => negb (contains_varname al (fst q))) (i_begin it).

(** What items are like: values with the source of an expression, and importable imports. The assignment at the beginning is
    that of the selector, or there is none and no line assigning a value contains "import". *)
Definition item_ok (it : item) : Prop :=
  dwf (i_defaults it) /\ dwf (i_end it) /\
  (forall x v, In (x, v) (brought it) -> value_ok x v) /\
  (forall p, In p (i_imports it) \/ In p (i_always_imports it) -> imp_ok (fst p)) /\
  (i_begin it = [selector_assign] \/
   i_begin it = [] /\ forall x v, In (x, v) (brought it) -> contains (hd "" (assign_lines x v)) "import" = false).

(** all imports an item brings *)
Definition imports_brought (it : item) : list imp := map fst (i_imports it ++ i_always_imports it).

(** The lines of a file: the imports and an empty line, the selector, the old settings, and the new ones, after which there is
    a newline. *)
Definition import_lines (is : list imp) : list string := match is with [] => [""] | _ => map print_imp is end.
Definition lines_for (d : dict value) : list string := flat_map (fun q => assign_lines (fst q) (snd q)) d.
Definition tail_lines (d : dict value) : list string := match d with [] => [] | _ => lines_for d ++ [""] end.
Definition out_lines (is : list imp) (bl : list string) (body : list string) (new : dict value) : list string :=
  (import_lines is ++ [""]) ++ bl ++ body ++ tail_lines new.

(** the imports of the config when it is written *)
Definition item_imports (it : item) : list pimp := fold_left add_if_missing (i_always_imports it) (i_imports it).

(** [s = Selector()] as it is read *)
Definition selector_asgn : asgn := Asgn (TgName "s") None (Some [TWord "Selector"; TOp "("; TOp ")"]).

(** [es] are the assignments read in the lines written for the values *)
Definition read_from (d : dict value) (es : list asgn) : Prop :=
  Forall2 (fun q a => parse_lines (assign_lines (fst q) (snd q)) = Ok [SAssign a] /\ a_target a = TgName (fst q)) d es.

(** the file can be read, and its header and its end have the form the library copes with *)
Definition supported (t : string) (f : loaded) : Prop := load_file t = Ok f /\ header_ok t /\ tail_ok (body t).

(** statements that are written as they were read (C47) *)
Definition survive (l : list imp) : Prop := forall i, In i l -> normal i = i.

Fixpoint copies (n : nat) (bi : list imp) : list imp := match n with O => [] | S m => bi ++ copies m bi end.

(** the item with the name of the class instance among its values *)
Definition with_name (it : item) (k : string) (v : value) : item :=
  Item (i_imports it) (dset k v (i_defaults it)) (i_always_imports it) (i_begin it) (i_end it).

(** one newline less at the end *)
Definition chop (s : string) : string := if endswith s nl then drop_last 1 s else s.

Fixpoint chops (n : nat) (s : string) : string := match n with O => s | S m => chops m (chop s) end.

(** the content of the file after [n] scaffoldings *)
Fixpoint again (astor : string -> option (list tok) -> value) (it : item) (n : nat) (t : string) : res string :=
  match n with
  | O => Ok t
  | S m => match scaffold astor it (Some t) with Ok t' => again astor it m t' | Raise e => Raise e end
  end.
