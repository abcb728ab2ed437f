(** run_product with lists that can be changed in place: the copies taken of the updates, and which objects the cases use.

    Simplifications, besides those of [Alias_Model]: one item is updated and run; the cases are given by which of the
    item's updates they contain (the product with the updates of other items repeats them). *)
From Verif Require Export Alias_Model Iterate_Model.
Local Open Scope list_scope.

(** copy.deepcopy of one update dict: each list is copied once, [memo] says to which new list *)
Fixpoint memo_get (l : nat) (memo : list (nat * nat)) : option nat :=
  match memo with
  | [] => None
  | (a, b) :: rest => if Nat.eqb l a then Some b else memo_get l rest
  end.
Fixpoint deepcopy_loop (memo : list (nat * nat)) (h : heap) (d : dict hv) : heap * dict hv :=
  match d with
  | [] => (h, [])
  | (k, HVal v) :: rest => let '(h', d') := deepcopy_loop memo h rest in (h', (k, HVal v) :: d')
  | (k, HRef l) :: rest =>
      match memo_get l memo with
      | Some m => let '(h', d') := deepcopy_loop memo h rest in (h', (k, HRef m) :: d')
      | None => let '(h', d') := deepcopy_loop ((l, length h) :: memo) (h ++ [nth l h []]) rest in (h', (k, HRef (length h)) :: d')
      end
  end.
Definition deepcopy (h : heap) (d : dict hv) : heap * dict hv := deepcopy_loop [] h d.

(** _get_configs_by_section_path_dict, iterate.py:228-232: one copy of every update *)
Fixpoint copy_updates (h : heap) (updates : list (dict hv)) : heap * list (dict hv) :=
  match updates with
  | [] => (h, [])
  | d :: rest => let '(h1, d') := deepcopy h d in let '(h2, l) := copy_updates h1 rest in (h2, d' :: l)
  end.

Section Item.
Variable file : list (string * fx).
Variable params : list string.
Variable body : dict pyval -> list (string * list pyval).

(** IterativeRunner._run_case, iterate.py:131-136, with _fill_case_with_defaults, 88-95, and
    pyfileconf_iter_update_for_case, default_hooks.py:46-57: the update is left out if the filled dict equals the one of the
    case before *)
Definition needs_update (h : heap) (filled : dict hv) (last : option (dict hv)) : res bool :=
  match last with
  | None => Ok true
  | Some l => match dict_eq (dcontents h filled) (dcontents h l) with
              | Ok b => Ok (negb b)
              | Raise e => Raise e
              end
  end.
Definition a_case (defaults conf : dict hv) (s : hst) (last : option (dict hv)) : hst * option (dict hv) * res bool :=
  let filled := dupdate defaults conf in
  match needs_update (h_heap s) filled last with
  | Raise e => (s, last, Raise e)
  | Ok b =>
      let '(s1, r) := if b then h_update filled true s else (s, Ok false) in
      match r with
      | Raise e => (s1, last, Raise e)
      | Ok u => (fst (h_run params body s1), Some filled, Ok u)
      end
  end.

(** the loop of IterativeRunner.run, iterate.py:110-117; [cases] are the updates of the item, in the order of the cases *)
Fixpoint a_cases (defaults : dict hv) (cases : list (dict hv)) (s : hst) (last : option (dict hv)) : hst * option (dict hv) * res unit :=
  match cases with
  | [] => (s, last, Ok tt)
  | c :: rest =>
      match a_case defaults c s last with
      | (s', last', Ok _) => a_cases defaults rest s' last'
      | (s', last', Raise e) => (s', last', Raise e)
      end
  end.

(** PipelineManager.run_product with IterativeRunner.__init__, iterate.py:53-56: the defaults are a dict of the config's own
    objects, get_defaults, 68-86. [picks] says which update each case contains. *)
Definition a_run_product (updates : list (dict hv)) (picks : list nat) (s : hst) : hst * res unit :=
  let '(h, copies) := copy_updates (h_heap s) updates in
  let s0 := HS h (h_vals s) (h_applied s) (h_loaded s) (h_calls s) in
  let '(s', _, r) := a_cases (h_vals s) (map (fun i => nth i copies []) picks) s0 None in
  (s', r).
End Item.
