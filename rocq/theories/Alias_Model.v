(** One item of a manager whose config values may be list objects that others hold as well: the caller, the item's
    function while it runs, modules that config files import from. The rest of the model treats objects as values;
    here lists have an identity and contents that can be changed in place.

    Simplifications: of the objects only lists can be changed in place, the elements of a list are values; the item is
    a function and lies in no section with a config; keys of the config are no parameters of the methods they are
    passed to (for those see C09 and C10). *)
From Verif Require Export Config_Model.
Local Open Scope list_scope.

(** a reference to a list, or any other value *)
Inductive hv : Type :=
| HVal (v : pyval)
| HRef (l : nat).

(** the contents of all lists *)
Definition heap : Type := list (list pyval).

Definition contents (h : heap) (x : hv) : pyval :=
  match x with
  | HVal v => v
  | HRef l => VList (nth l h [])
  end.
Definition dcontents (h : heap) (d : dict hv) : dict pyval := map (fun kv => (fst kv, contents h (snd kv))) d.

(** the right-hand side of an assignment in a config file: a value, a list display (every execution makes a new list),
    or the name of a list imported from elsewhere *)
Inductive fx : Type :=
| FxVal (v : pyval)
| FxList (c : list pyval)
| FxName (l : nat).

(** executing a config file, config/models/file.py:14-27 with io/file/load/active/loader.py:14-20 *)
Definition eval_fx (h : heap) (e : fx) : heap * hv :=
  match e with
  | FxVal v => (h, HVal v)
  | FxList c => (h ++ [c], HRef (length h))
  | FxName l => (h, HRef l)
  end.
Fixpoint eval_file (file : list (string * fx)) (h : heap) (d : dict hv) : heap * dict hv :=
  match file with
  | [] => (h, d)
  | (k, e) :: rest => let '(h', x) := eval_fx h e in eval_file rest h' (dset k x d)
  end.

(** the config ([h_vals] is the dict itself, [h_applied] is _applied_updates), the keywords of the partial once the
    item was loaded, and what the function got at its calls *)
Record hst : Type := HS {
  h_heap : heap;
  h_vals : dict hv;
  h_applied : dict hv;
  h_loaded : option (dict hv);
  h_calls : list (dict pyval) }.

(** apply_config_to_partial, config/logic/apply.py:24-29 *)
Fixpoint h_apply (keywords : dict hv) (config : dict hv) : dict hv :=
  match config with
  | [] => keywords
  | (k, v) :: rest => h_apply (if dmem k keywords then dset k v keywords else keywords) rest
  end.
Definition apply_loaded (o : option (dict hv)) (config : dict hv) : option (dict hv) :=
  match o with Some kw => Some (h_apply kw config) | None => None end.

(** changing a list in place *)
Fixpoint put (l : nat) (c : list pyval) (h : heap) : heap :=
  match h, l with
  | [], _ => []
  | _ :: h', 0 => c :: h'
  | x :: h', S l' => x :: put l' c h'
  end.

Section Item.
Variable file : list (string * fx).
(** the parameters of the function *)
Variable params : list string.
(** what the function does to the lists it gets: new contents for some of its arguments *)
Variable body : dict pyval -> list (string * list pyval).

(** Runner.update, runner.py:378-383, with ConfigManager.update, manager.py:54-66, and ConfigBase.update and would_update,
    basemodels/config.py:65-74 and 136-157: values are compared by what they contain; the dict takes the objects
    themselves. The result says whether the config was updated. *)
Definition h_update (d : dict hv) (persist : bool) (s : hst) : hst * res bool :=
  let h := h_heap s in
  match would_update_loop (dcontents h (h_vals s)) (dcontents h d) with
  | Raise e => (s, Raise e)
  | Ok false => (s, Ok false)
  | Ok true =>
      let vals := dupdate (h_vals s) d in
      (HS h vals (if persist then dupdate (h_applied s) d else h_applied s) (apply_loaded (h_loaded s) vals) (h_calls s), Ok true)
  end.

(** Runner.refresh, runner.py:395-401, with ConfigManager.refresh, manager.py:68-78, and ConfigBase.refresh and
    change_from_refresh, basemodels/config.py:124-134 and 159-174: the file is executed once for the comparison and
    again for the refresh *)
Definition h_refresh (s : hst) : hst * res bool :=
  let '(h, new) := eval_file file (h_heap s) [] in
  match would_update_loop (dcontents h (h_vals s)) (dcontents h (dupdate new (h_applied s))) with
  | Raise e => (HS h (h_vals s) (h_applied s) (h_loaded s) (h_calls s), Raise e)
  | Ok false => (HS h (h_vals s) (h_applied s) (h_loaded s) (h_calls s), Ok false)
  | Ok true =>
      let '(h', new') := eval_file file h [] in
      let vals := dupdate (h_vals s) (dupdate new' (h_applied s)) in
      (HS h' vals (h_applied s) (apply_loaded (h_loaded s) vals) (h_calls s), Ok true)
  end.

(** Runner.reset, runner.py:385-393, with ConfigManager.reset and set, manager.py:100-111 and 160-197 *)
Definition h_reset (s : hst) : hst * res bool :=
  let '(h, new) := eval_file file (h_heap s) [] in
  match would_update_loop (dcontents h (h_vals s)) (dcontents h new) with
  | Raise e => (HS h (h_vals s) (h_applied s) (h_loaded s) (h_calls s), Raise e)
  | Ok false => (HS h (h_vals s) (h_applied s) (h_loaded s) (h_calls s), Ok false)
  | Ok true => (HS h new [] (apply_loaded (h_loaded s) new) (h_calls s), Ok true)
  end.

(** Runner._run_one_func, runner.py:185-194, with _get_one_func_with_config, 299-310: the partial has the config's objects *)
Definition keywords (s : hst) : dict hv :=
  match h_loaded s with
  | Some kw => kw
  | None => dfilter (fun k => existsb (String.eqb k) params) (h_vals s)
  end.
Definition change_arg (kw : dict hv) (h : heap) (kc : string * list pyval) : heap :=
  match dget (fst kc) kw with
  | Some (HRef l) => put l (snd kc) h
  | _ => h
  end.
Definition h_run (s : hst) : hst * res bool :=
  let kw := keywords s in
  let args := dcontents (h_heap s) kw in
  (HS (fold_left (change_arg kw) (body args) (h_heap s)) (h_vals s) (h_applied s) (Some kw) (h_calls s ++ [args]), Ok true).

(** what the caller does: operations of the manager on the item, making lists, changing lists in place *)
Inductive aop : Type :=
| AUpdate (d : dict hv) (persist : bool)
| ARefresh
| AReset
| ARun
| ANew (c : list pyval)
| APut (l : nat) (c : list pyval).

Definition h_step (o : aop) (s : hst) : hst * res bool :=
  match o with
  | AUpdate d persist => h_update d persist s
  | ARefresh => h_refresh s
  | AReset => h_reset s
  | ARun => h_run s
  | ANew c => (HS (h_heap s ++ [c]) (h_vals s) (h_applied s) (h_loaded s) (h_calls s), Ok true)
  | APut l c => (HS (put l c (h_heap s)) (h_vals s) (h_applied s) (h_loaded s) (h_calls s), Ok true)
  end.

(** PipelineManager.load: the config as the file gives it, nothing loaded *)
Definition h_load (h : heap) : hst :=
  let '(h', d) := eval_file file h [] in HS h' d [] None [].

Fixpoint h_steps (ops : list aop) (s : hst) : hst :=
  match ops with
  | [] => s
  | o :: rest => h_steps rest (fst (h_step o s))
  end.
End Item.
