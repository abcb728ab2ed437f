(** Model of plugins: which are registered (pyfileconf/plugin/manager.py, manager_utils.py), the default ones
    (plugin/default_hooks.py), and what the others contribute to runs (main.py:125-160, 199-263; runner.py:89-125), updates
    (main.py:319-345), batch updates (batch.py:33-58) and iterations (iterate.py:58-66, 131-136).

    Trusted: pluggy keeps for each hook a list of implementations, adds those of a new plugin as [add_impl] says, calls them from
    the end of the list, and drops results that are None. Simplifications: no wrappers; plugins may change the arguments named
    here in place, and do nothing else; paths they return are strings; other than lists, iterables of updates are generators. *)
From Verif Require Export Iterate_Model.
Local Open Scope string_scope.
Local Open Scope list_scope.
Local Open Scope monad_scope.

(* ------------------------------------------------------------------ *)
(** * pluggy *)

Inductive place : Type := First | Normal | Last.
Record impl (A : Type) : Type := Impl { im_owner : string; im_place : place; im_do : A }.
Arguments Impl {A}. Arguments im_owner {A}. Arguments im_place {A}. Arguments im_do {A}.

Definition is_first {A} (i : impl A) : bool := match im_place i with First => true | _ => false end.
(** insert before the implementations with tryfirst, from the end of the list *)
Fixpoint insert_rev {A} (i : impl A) (r : list (impl A)) : list (impl A) :=
  match r with
  | j :: r' => if is_first j then j :: insert_rev i r' else i :: r
  | [] => [i]
  end.
(** HookCaller._add_hookimpl *)
Definition add_impl {A} (l : list (impl A)) (i : impl A) : list (impl A) :=
  match im_place i with
  | Last => i :: l
  | First => l ++ [i]
  | Normal => rev (insert_rev i (rev l))
  end.

(* ------------------------------------------------------------------ *)
(** * Plugins *)

(** what a caller gives to PipelineManager.run: strings and item views (by full path) *)
Inductive uitem : Type := UStr (s : string) | UView (full : string).
Inductive uarg : Type := UOne (i : uitem) | UMany (l : list uitem).
(** what a pyfileconf_pre_run plugin returns, hookspecs.py:63-77 *)
Inductive contrib : Type := CNone | CStr (s : string) | CList (l : list string).
(** what a pyfileconf_pre_update_batch plugin returns: nothing, the iterable it was given, or a list of its own *)
Definition upd : Type := sp_like * body.
Inductive bres : Type := BNone | BSame | BNew (l : list upd).
(** [bh_reads]: it iterates over the updates *)
Record bhook : Type := BHook { bh_reads : bool; bh_fun : list upd -> bres }.

(** The pyfileconf_ hooks a plugin implements. A hook that may change its argument in place gives the changed one too.
    pyfileconf_iter_update_for_case is given BatchUpdater.update. *)
Record plugin : Type := Plugin {
  pl_name : string;
  pl_pre_run : option (place * (uarg -> uarg * contrib));
  pl_post_run : option (place * (result -> option result));
  pl_pre_update : option (place * (option (dict pyval) -> dict pyval -> option (dict pyval)));
  pl_pre_update_batch : option (place * bhook);
  pl_get_cases : option (place * (list conf -> option (list case)));
  pl_modify_cases : option (place * (list case -> list case));
  pl_update_for_case : option (place * ((option string -> bool -> list upd -> M world unit) -> iter -> case -> M ist unit)) }.

(** The registered plugins, in the order they were registered *)
Definition plm : Type := list plugin.
(** the implementations of a hook *)
Definition impls {A} (hook : plugin -> option (place * A)) (ps : plm) : list (impl A) :=
  fold_left (fun l p => match hook p with Some (pl, f) => add_impl l (Impl (pl_name p) pl f) | None => l end) ps [].
(** in the order they are called *)
Definition calls {A} (hook : plugin -> option (place * A)) (ps : plm) : list A := map im_do (rev (impls hook ps)).

(** pyfileconf_iter_update_for_case, default_hooks.py:32-57 *)
Definition default_update_for_case (batch : option string -> bool -> list upd -> M world unit) (it : iter) (c : case) : M ist unit :=
  confs <- (fun s => (s, updated_confs (is_last s) c)) ;;
  on_world (batch (it_base it) (it_strip it) (map (fun q => (LStr (fst q), snd q)) confs)).

(** plugin/default_hooks.py. The default for pyfileconf_post_config_changed is in Deps_Model. *)
Definition default_name : string := "pyfileconf.plugin.default_hooks".
Definition default_plugin : plugin :=
  Plugin default_name None None None
    (Some (Normal, BHook false (fun _ => BSame)))                        (* 60-64 *)
    (Some (Normal, fun updates => Some (get_config_product updates)))     (* 17-30 *)
    None
    (Some (Normal, default_update_for_case)).                                 (* 32-57 *)

Definition registered (ps : plm) (n : string) : bool := existsb (fun p => String.eqb (pl_name p) n) ps.
(** PluginManager.register, unregister *)
Definition register (ps : plm) (p : plugin) : res plm := if registered ps (pl_name p) then Raise ValueError else Ok (ps ++ [p]).
Definition unregister (ps : plm) (n : string) : plm := filter (fun p => negb (String.eqb (pl_name p) n)) ps.

(** get_plugin_manager, manager_utils.py:4-11. [eps]: the plugins of installed packages (entry points), which are registered first *)
Definition get_plugin_manager (eps : list plugin) : plm := eps ++ [default_plugin].
(** reset_plugins, manager_utils.py:14-18: the new one replaces the old *)
Definition reset_plugins (eps : list plugin) (ps : plm) : plm := get_plugin_manager eps.
(** remove_default_plugins, manager_utils.py:21-24. Simplification: pluggy may raise if it is called twice. *)
Definition remove_default_plugins (ps : plm) : plm := unregister ps default_name.

(* ------------------------------------------------------------------ *)
(** * Runs *)

Section U.
Variable U : world -> string -> user.

(** _get_section_path_str_from_section_path_str_or_view, main.py:579-590, of strings and views *)
Definition uitem_path (i : uitem) : string :=
  match i with UStr s => s | UView full => join sdot (tl (path_parts full)) end.
Definition paths_of (a : uarg) : list string := match a with UOne i => [uitem_path i] | UMany l => map uitem_path l end.

(** the pre_run hooks, main.py:148-150: they all get the caller's own argument *)
Fixpoint pre_run_hooks (hs : list (uarg -> uarg * contrib)) (a : uarg) : uarg * list contrib :=
  match hs with
  | [] => (a, [])
  | h :: r => let '(a1, c) := h a in
              let '(a2, cs) := pre_run_hooks r a1 in
              (a2, match c with CNone => cs | _ => c :: cs end)
  end.

(** combine_items_into_list_..._if_only_one_item, logic/combine.py:4-30: one item, or several *)
Definition combined (a : uarg) (cs : list contrib) : contrib + list contrib :=
  match map CStr (paths_of a) ++ cs with [c] => inl c | l => inr l end.

Variable its : items.

(** the user's functions, with what the plugins add to results, runner.py:119 ([u_pre_run] is not used here) *)
Definition with_plugins (ps : plm) (u : user) : user :=
  User (u_call u) (u_init u)
    (fun r => flat_map (fun h => match h r with Some x => [x] | None => [] end) (calls pl_post_run ps)) (u_pre_run u).

(** Runner._run of an item that may be a list: SectionPath(list) raises, sectionpath.py:119-120 *)
Definition run_one_of (u : user) (c : contrib) : M rs result :=
  match c with CStr p => run_one its u p | _ => raise AttributeError end.

(** Runner.run, runner.py:89-125, given what the list consists of *)
Definition runner_run_of (u : user) (a : contrib + list contrib) : M rs result :=
  match a with
  | inl (CStr p) => runner_run its u (AStr p)
  | inl (CList l) => runner_run its u (AList l)
  | inl CNone => raise ValueError
  | inr l => rs <- mapM (run_one_of u) l ;;
             ret (RList (rs ++ u_post_run u (RList rs)))
  end.

(** the loop of _run_with_force_continue, main.py:234-253 *)
Fixpoint force_loop_of (u : user) (l : list contrib) : M rs (list result) :=
  match l with
  | [] => ret []
  | c :: rest =>
      r <- try_run (runner_run_of u (inl c)) ;;
      more <- force_loop_of u rest ;;
      ret match r with inl x => x :: more | inr _ => more end
  end.
(** PipelineManager._run_with_force_continue, main.py:224-263 *)
Definition force_continue_of (u : user) (a : contrib + list contrib) : M rs result :=
  match a with
  | inr l => rs <- force_loop_of u l ;; ret (RList rs)
  | inl (CList l) => rs <- force_loop_of u (map CStr l) ;; ret (RList rs)
  | inl c => rs <- force_loop_of u [c] ;; ret match rs with [r] => r | _ => RList [] end
  end.

(** PipelineManager.run, main.py:125-160: the paths are taken from the argument before the hooks are called *)
Definition run_with_plugins (ps : plm) (u : user) (set : setting) (a : uarg) : M rs result :=
  let x := combined a (snd (pre_run_hooks (calls pl_pre_run ps) a)) in
  let u := with_plugins ps u in
  match set with
  | Plain => runner_run_of u x
  | ForceContinue => force_continue_of u x
  | AutoPdb => r <- try_run (runner_run_of u x) ;; match r with inl y => ret y | inr _ => ret (RVal VNone) end
  end.

(* ------------------------------------------------------------------ *)
(** * Updates *)

(** the results of pyfileconf_pre_update, main.py:332-334 *)
Definition update_contributions (ps : plm) (d : option (dict pyval)) (kwargs : dict pyval) : list (dict pyval) :=
  flat_map (fun h => match h d kwargs with Some x => [x] | None => [] end) (calls pl_pre_update ps).

(** pyfileconf_pre_update_batch, batch.py:40-42: what is remaining of the updates, and the results. [gen]: they are a generator. *)
Fixpoint batch_hooks (gen : bool) (hs : list bhook) (updates : list upd) : list upd * list bres :=
  match hs with
  | [] => (updates, [])
  | h :: r => let out := bh_fun h (if bh_reads h then updates else []) in
              let '(remaining, outs) := batch_hooks gen r (if gen && bh_reads h then [] else updates)%bool in
              (remaining, out :: outs)
  end.
(** itertools.chain, batch.py:44 *)
Fixpoint chain_of (gen : bool) (remaining : list upd) (outs : list bres) : list upd :=
  match outs with
  | [] => []
  | BNone :: r => chain_of gen remaining r
  | BNew l :: r => l ++ chain_of gen remaining r
  | BSame :: r => remaining ++ chain_of gen (if gen then [] else remaining) r
  end.
(** BatchUpdater.update, batch.py:33-58 *)
Definition all_updates (ps : plm) (gen : bool) (updates : list upd) : list upd :=
  let '(remaining, outs) := batch_hooks gen (calls pl_pre_update_batch ps) updates in chain_of gen remaining outs.
Definition batch_with_plugins (ps : plm) (gen : bool) (base : option string) (strip : bool) (updates : list upd) : M world unit :=
  iterM (batch_step U base strip) (all_updates ps gen updates).

(* ------------------------------------------------------------------ *)
(** * Iterations *)

(** IterativeRunner.get_cases, iterate.py:58-66 *)
Definition cases_with_plugins (ps : plm) (updates : list conf) : list case :=
  fold_left (fun cases h => h cases) (calls pl_modify_cases ps)
    (flat_map (fun h => match h updates with Some l => l | None => [] end) (calls pl_get_cases ps)).
(** IterativeRunner.__init__, iterate.py:31-56 *)
Definition iter_with_plugins (ps : plm) (paths : list sp_like) (updates : list conf) (base : option string) (strip : bool) : M world iter :=
  items <- lift (list_from_ambiguous paths base strip) ;;
  let cases := cases_with_plugins ps updates in
  defaults <- get_defaults U base cases ;;
  ret (It base strip items cases defaults).
(** IterativeRunner._run_case, iterate.py:131-136 *)
Definition run_case_with_plugins (ps : plm) (it : iter) (c : case) : M ist result :=
  filled <- lift (fill_case it c) ;;
  iterM (fun h => h (batch_with_plugins ps false) it filled) (calls pl_update_for_case ps) ;;;
  r <- on_world (run_items U it) ;;
  modify (fun s => IS (is_world s) (Some filled)) ;;;
  ret r.
Fixpoint run_cases_with_plugins (ps : plm) (it : iter) (l : list case) : M ist (list (case * result)) :=
  match l with
  | [] => ret []
  | c :: rest => r <- run_case_with_plugins ps it c ;; more <- run_cases_with_plugins ps it rest ;; ret ((c, r) :: more)
  end.
(** PipelineManager.run_product, main.py:162-185. Simplification: the runs in it do without pre_run and post_run plugins. *)
Definition product_with_plugins (ps : plm) (name : string) (paths : list sp_like) (updates : list conf) : M world (list (case * result)) :=
  it <- iter_with_plugins ps paths updates (Some name) true ;;
  fun w => let '(s, r) := run_cases_with_plugins ps it (it_cases it) (IS w None) in (is_world s, r).
End U.
