(** The parameters of a definition and what becomes of them. *)
From Verif Require Export Whole_Model ItemLoad_Spec FuncArgs_Spec Exec_Spec.
Local Open Scope string_scope.
Local Open Scope list_scope.

(** the parameters with the expressions of their defaults, None for those without *)
Definition written_defaults (a : arguments) : list (string * expr) :=
  map (fun q => (fst q, match snd q with Some e => e | None => ast_none end)) (params (sig_of (fun e => e) a)).
(** the annotation of a parameter, without quotes around it *)
Definition annotation_of (a : arguments) (k : string) : option expr :=
  match find (fun x => String.eqb (arg_name x) k) (all_args a) with
  | Some x => match arg_ann x with Some e => Some (strip_quotes e) | None => None end
  | None => None
  end.

(** What is printed for the expression can be read as a setting called [k] and means the expression. *)
Definition printed (py : python) (meaning : dict mval -> expr -> res mval) (prints : expr -> list string) (k : string) (ann : option string) (e : expr) : Prop :=
  value_ok k (Value ann (prints e)) /\
  forall a, parse_lines (assign_lines k (Value ann (prints e))) = Ok [SAssign a] -> exists t, a_value a = Some t /\ forall ns, py_eval py ns t = meaning ns e.
(** all defaults of a definition can be printed *)
Definition printable (py : python) (meaning : dict mval -> expr -> res mval) (prints : expr -> list string) (shows : expr -> string) (a : arguments) : Prop :=
  forall k e, In (k, e) (written_defaults a) -> printed py meaning prints k (match annotation_of a k with Some x => Some (shows x) | None => None end) e.
