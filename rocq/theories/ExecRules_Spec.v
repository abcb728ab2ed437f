(** Rules for executing statements, as the language reference gives them, to compare the executor of Exec_Model with. *)
From Verif Require Export Exec_Spec.
Local Open Scope string_scope.
Local Open Scope list_scope.

(** one after the other, up to the first that fails *)
Inductive in_turn {A} (R : A -> dict mval -> outcome -> Prop) : list A -> dict mval -> outcome -> Prop :=
| turn_done ns : in_turn R [] ns (ns, None)
| turn_next a l ns ns' o : R a ns (ns', None) -> in_turn R l ns' o -> in_turn R (a :: l) ns o
| turn_fails a l ns ns' e : R a ns (ns', Some e) -> in_turn R (a :: l) ns (ns', Some e).

Inductive followed (P Q : dict mval -> outcome -> Prop) : dict mval -> outcome -> Prop :=
| fol_both ns ns' o : P ns (ns', None) -> Q ns' o -> followed P Q ns o
| fol_fails ns ns' e : P ns (ns', Some e) -> followed P Q ns (ns', Some e).

(** Assigning to a target. The targets of a tuple are assigned from the left. *)
Inductive binds (py : python) : tgt -> mval -> dict mval -> outcome -> Prop :=
| b_name x v ns : binds py (GName x) v ns (dset x v ns, None)
| b_attr e a v ns : binds py (GAttr e a) v ns (ns, py_store py ns (GAttr e a) v)
| b_item e i v ns : binds py (GItem e i) v ns (ns, py_store py ns (GItem e i) v)
| b_no_sequence l v ns e : py_iter py v = Raise e -> binds py (GTuple l) v ns (ns, Some e)
| b_wrong_number l v ns vs : py_iter py v = Ok vs -> List.length vs <> List.length l -> binds py (GTuple l) v ns (ns, Some ValueError)
| b_tuple l v ns vs o : py_iter py v = Ok vs -> List.length vs = List.length l ->
    in_turn (fun q ns o => binds py (fst q) (snd q) ns o) (combine l vs) ns o -> binds py (GTuple l) v ns o.

(** an import binds what was imported, or fails without a change *)
Inductive imports_alias (py : python) : alias -> dict mval -> outcome -> Prop :=
| ia_fails a ns e : py_import py (fst a) = Some e -> imports_alias py a ns (ns, Some e)
| ia_renamed m n ns : py_import py m = None -> imports_alias py (m, Some n) ns (dset n (MModule m) ns, None)
| ia_plain m ns : py_import py m = None -> imports_alias py (m, None) ns (dset (hd "" (split "." m)) (MModule (hd "" (split "." m))) ns, None).
Inductive imports_from (py : python) (dots : nat) (m : option string) : alias -> dict mval -> outcome -> Prop :=
| if_star n ns d : py_star py dots m = Ok d -> imports_from py dots m ("*", n) ns (dupdate ns d, None)
| if_star_fails n ns e : py_star py dots m = Raise e -> imports_from py dots m ("*", n) ns (ns, Some e)
| if_name a ns w : fst a <> "*" -> py_from py dots m (fst a) = Ok w -> imports_from py dots m a ns (dset (from_name a) w ns, None)
| if_fails a ns e : fst a <> "*" -> py_from py dots m (fst a) = Raise e -> imports_from py dots m a ns (ns, Some e).

Inductive executes (py : python) : pstmt -> dict mval -> outcome -> Prop :=
| x_import al ns o : in_turn (imports_alias py) al ns o -> executes py (PImport al) ns o
| x_from dots m al ns o : in_turn (imports_from py dots m) al ns o -> executes py (PFrom dots m al) ns o
(* the value first, then the targets from the left *)
| x_assign ts e ns v o : py_eval py ns e = Ok v -> in_turn (fun t => binds py t v) ts ns o -> executes py (PAssign ts e) ns o
| x_assign_fails ts e ns ex : py_eval py ns e = Raise ex -> executes py (PAssign ts e) ns (ns, Some ex)
(* the value, the target, and then the annotation *)
| x_ann t ann e ns v ns' a : py_eval py ns e = Ok v -> binds py t v ns (ns', None) -> py_eval py ns' ann = Ok a -> executes py (PAnn t ann (Some e)) ns (ns', None)
| x_ann_value_fails t ann e ns ex : py_eval py ns e = Raise ex -> executes py (PAnn t ann (Some e)) ns (ns, Some ex)
| x_ann_target_fails t ann e ns v ns' ex : py_eval py ns e = Ok v -> binds py t v ns (ns', Some ex) -> executes py (PAnn t ann (Some e)) ns (ns', Some ex)
| x_ann_fails t ann e ns v ns' ex : py_eval py ns e = Ok v -> binds py t v ns (ns', None) -> py_eval py ns' ann = Raise ex -> executes py (PAnn t ann (Some e)) ns (ns', Some ex)
| x_declare t ann ns a : py_eval py ns ann = Ok a -> executes py (PAnn t ann None) ns (ns, None)
| x_declare_fails t ann ns ex : py_eval py ns ann = Raise ex -> executes py (PAnn t ann None) ns (ns, Some ex)
| x_aug x op ns v w : dget x ns = Some v -> py_aug py ns v op = Ok w -> executes py (PAug x op) ns (dset x w ns, None)
| x_aug_fails x op ns v ex : dget x ns = Some v -> py_aug py ns v op = Raise ex -> executes py (PAug x op) ns (ns, Some ex)
| x_aug_unbound x op ns : dget x ns = None -> executes py (PAug x op) ns (ns, Some name_error)
| x_del x ns v : dget x ns = Some v -> executes py (PDel x) ns (ddel x ns, None)
| x_del_unbound x ns : dget x ns = None -> executes py (PDel x) ns (ns, Some name_error)
| x_expr e ns v : py_eval py ns e = Ok v -> executes py (PExpr e) ns (ns, None)
| x_expr_fails e ns ex : py_eval py ns e = Raise ex -> executes py (PExpr e) ns (ns, Some ex)
| x_def f body ns w : py_def py ns f body = Ok w -> executes py (PDef f body) ns (dset f w ns, None)
| x_def_fails f body ns ex : py_def py ns f body = Raise ex -> executes py (PDef f body) ns (ns, Some ex)
| x_class c body ns w : py_class py ns c body = Ok w -> executes py (PClass c body) ns (dset c w ns, None)
| x_class_fails c body ns ex : py_class py ns c body = Raise ex -> executes py (PClass c body) ns (ns, Some ex)
| x_then e a b ns v o : py_eval py ns e = Ok v -> py_truth py v = Ok true -> in_turn (executes py) a ns o -> executes py (PIf e a b) ns o
| x_else e a b ns v o : py_eval py ns e = Ok v -> py_truth py v = Ok false -> in_turn (executes py) b ns o -> executes py (PIf e a b) ns o
| x_if_fails e a b ns ex : py_eval py ns e = Raise ex -> executes py (PIf e a b) ns (ns, Some ex)
| x_no_truth e a b ns v ex : py_eval py ns e = Ok v -> py_truth py v = Raise ex -> executes py (PIf e a b) ns (ns, Some ex)
(* every element is assigned to the target before the block *)
| x_for t e body ns v vs o : py_eval py ns e = Ok v -> py_iter py v = Ok vs ->
    in_turn (fun w => followed (binds py t w) (in_turn (executes py) body)) vs ns o -> executes py (PFor t e body) ns o
| x_for_fails t e body ns ex : py_eval py ns e = Raise ex -> executes py (PFor t e body) ns (ns, Some ex)
| x_no_sequence t e body ns v ex : py_eval py ns e = Ok v -> py_iter py v = Raise ex -> executes py (PFor t e body) ns (ns, Some ex)
(* names bound before the exception stay bound; interrupts and exits are not caught *)
| x_try a b ns ns' : in_turn (executes py) a ns (ns', None) -> executes py (PTry a b) ns (ns', None)
| x_except a b ns ns' ex o : in_turn (executes py) a ns (ns', Some ex) -> ex <> KeyboardInterrupt -> ex <> SystemExit ->
    in_turn (executes py) b ns' o -> executes py (PTry a b) ns o
| x_not_caught a b ns ns' ex : in_turn (executes py) a ns (ns', Some ex) -> ex = KeyboardInterrupt \/ ex = SystemExit ->
    executes py (PTry a b) ns (ns', Some ex).
