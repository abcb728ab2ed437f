(** Model of functions that use the manager while they run: pyfileconf/runner/models/runner.py:89-219, 299-327, 403-409 and
    pyfileconf/main.py:125-160, 199-263 as in [Runner_Model], with user functions that are programs, and with the dependencies that
    are recorded for the running item (pmcontext/main.py:52-70, pmcontext/tracing.py, pmcontext/stack.py:76-82) and refreshed by the
    hook for changed configs (plugin/default_hooks.py:67-89, config/models/manager.py:79-93, 366-372).

    Simplifications: one manager, so that paths are not prefixed with its name; constructors and config files do not use the manager
    (so refreshing records no dependencies, and the loop of manager.py:84-93 is passed once); item views are left out. *)
From Verif Require Export Runner_Model Runner_Spec.
Local Open Scope string_scope.
Local Open Scope list_scope.
Local Open Scope monad_scope.

(** What an operation on the manager returns, and what a function does: it returns or raises, or uses the manager and goes on with the
    answer, which may be an exception it catches. What an instance reads of itself while running it gets with [RGet]. *)
Inductive answer : Type := AnGot (g : got) | AnRun (r : result) | AnNone.
Inductive prog : Type :=
| Done (r : res pyval)
| Use (op : rop) (k : res answer -> prog).

(** The manager and context.force_update_dependencies: pairs of an item and an item that depends on it. *)
Record ns : Type := NS { n_rs : rs; n_deps : list (string * string) }.
Definition on_rs {A} (m : M rs A) : M ns A := fun s => let '(r, o) := m (n_rs s) in (NS r (n_deps s), o).

(** add_config_dependency_for_currently_running_item_if_exists, pmcontext/main.py:52-70; a set, so pairs are there once *)
Definition pair_eqb (a b : string * string) : bool := (String.eqb (fst a) (fst b) && String.eqb (snd a) (snd b))%bool.
Definition record (top : option string) (path : string) : M ns unit :=
  modify (fun s => match top with
                   | Some f => if (String.eqb f path || existsb (pair_eqb (path, f)) (n_deps s))%bool then s
                               else NS (n_rs s) (n_deps s ++ [(path, f)])
                   | None => s
                   end).

Section Inside.
Variable base : string.
Variable its : items.
Variable u : user.             (* the constructors and hooks; u_call is not used *)
Variable progs : list (string * lobj) -> string -> lobj -> prog.   (* what an item does, given all calls made before *)
Variable order : list string -> list string.                       (* the order in which a set is visited *)

(** One level of nesting: [inner] does the operations made by running functions, unless the stack of Python is full. *)
Section Level.
Variable inner : option (option string -> rop -> M ns answer).

(** the body of a function; [top] is the item on top of context.stack *)
Fixpoint exec (top : option string) (p : prog) : M ns pyval :=
  match p with
  | Done r => lift r
  | Use op k => fun s => match inner with
                         | None => exec top (k (Raise RecursionError)) s
                         | Some f => let '(s', a) := f top op s in exec top (k a) s'
                         end
  end.

(** [func()] *)
Definition call (path : string) (o : lobj) : M ns result :=
  fun s => let r := n_rs s in
           (v <- exec (Some path) (progs (r_calls r) path o) ;; ret (RVal v))
             (NS (RS (r_cms r) (r_loaded r) (r_next r) (r_calls r ++ [(path, o)])) (n_deps s)).

(** Runner._get_one_func_with_config, runner.py:299-310, and _get_one_obj_with_config, runner.py:312-327 *)
Definition load_with (m : M rs lobj) (top : option string) (path : string) : M ns lobj :=
  loaded <- gets (fun s => dget path (r_loaded (n_rs s))) ;;
  o <- on_rs m ;;
  match loaded with Some _ => ret o | None => record top path ;;; ret o end.

(** Runner._run_one_func, _run_one_class and _run_one_specific_class, runner.py:185-219 *)
Definition in_run_func (top : option string) (path : string) : M ns result :=
  on_rs (get_func_and_config its path) ;;;
  o <- load_with (get_one_func_with_config its path) (Some path) path ;;
  r <- call path o ;;
  record top path ;;; ret r.
Definition in_run_class (top : option string) (path : string) : M ns result :=
  on_rs (get_func_and_config its path) ;;;
  o <- load_with (get_one_obj_with_config its u path) (Some path) path ;;
  r <- call path o ;;
  record top path ;;; ret r.
Definition in_run_specific_class (top : option string) (path : string) : M ns result :=
  on_rs (get_class_and_config its path) ;;;
  o <- load_with (get_one_obj_with_config its u path) (Some path) path ;;
  r <- call path o ;;
  record top path ;;; ret r.

(** Runner._run_section, runner.py:151-182 *)
Fixpoint in_run_section (top : option string) (c : coll) (path : string) {struct c} : M ns result :=
  match c with
  | Coll _ entries =>
      let subs := (fix go (l : list entry) : list (string * option (M ns result)) :=
                     match l with
                     | [] => []
                     | EItem n _ :: rest => (n, None) :: go rest
                     | EColl c' :: rest => (coll_name c', Some (in_run_section top c' (sub_path path (coll_name c')))) :: go rest
                     end) entries in
      results <- mapM (fun e =>
        match e with
        | EColl c' => match dget (coll_name c') (rev subs) with
                      | Some (Some m) => m
                      | _ => raise TypeError
                      end
        | EItem n (TFunc _) => in_run_func top (sub_path path n)
        | EItem n (TClass _) => in_run_class top path
        | EItem n (TInst _) => in_run_specific_class top path
        | EItem n (TBroken e) => raise e
        | EItem n TOther => raise ValueError
        end) entries ;;
      ret (RList results)
  end.

(** Runner._run, runner.py:127-149 *)
Definition in_run_one (top : option string) (path : string) : M ns result :=
  f <- lift (get_func_or_collection its path) ;;
  match f with
  | (false, FColl c) => in_run_section top c path
  | (_, FThing (TInst _)) => in_run_specific_class top path
  | (_, FThing (TClass _)) => in_run_class top path
  | (_, FThing (TFunc _)) => in_run_func top path
  | _ => raise ValueError
  end.

(** Runner.run, runner.py:89-125 *)
Definition in_runner_run (top : option string) (a : run_arg) : M ns result :=
  r <- match a with
       | AStr p => in_run_one top p
       | AList l => rs <- mapM (in_run_one top) l ;; ret (RList rs)
       end ;;
  match u_post_run u r, a with
  | [], _ => ret r
  | extra, AStr _ => ret (RList (r :: extra))
  | extra, AList _ => match r with
                      | RList rs => ret (RList (rs ++ extra))
                      | RVal _ => ret r
                      end
  end.

(** main.py:636-673, 224-263 and 125-160, 199-222 *)
Definition in_try {A} (m : M ns A) : M ns (A + exn) :=
  fun s => match m s with
           | (s', Ok a) => (s', Ok (inl a))
           | (s', Raise e) => if user_interrupt e then (s', Raise SystemExit) else (s', Ok (inr e))
           end.
Fixpoint in_force_loop (top : option string) (paths : list string) : M ns (list result) :=
  match paths with
  | [] => ret []
  | p :: rest =>
      r <- in_try (in_runner_run top (AStr p)) ;;
      rs <- in_force_loop top rest ;;
      match r with
      | inl x => ret (x :: rs)
      | inr _ => ret rs
      end
  end.
Definition in_force_continue (top : option string) (a : run_arg) : M ns result :=
  let paths := match a with AStr p => [p] | AList l => l end in
  rs <- in_force_loop top paths ;;
  match a with
  | AList _ => ret (RList rs)
  | AStr _ => match rs with
              | [] => ret (RList [])
              | [r] => ret r
              | _ => raise ValueError
              end
  end.
Definition in_pm_run (top : option string) (set : setting) (a : run_arg) : M ns result :=
  let a := combine a (u_pre_run u) in
  match set with
  | Plain => in_runner_run top a
  | ForceContinue => in_force_continue top a
  | AutoPdb => r <- in_try (in_runner_run top a) ;; match r with inl x => ret x | inr _ => ret (RVal VNone) end
  end.

(** Runner.get, runner.py:221-297: a dependency is recorded for every object loaded by it, also if a later one raises *)
Definition in_get (top : option string) (path : string) : M ns got :=
  fun s => let '(s1, o) := on_rs (runner_get its u path) s in
           let new := filter (fun q => negb (dmem q (r_loaded (n_rs s)))) (dkeys (r_loaded (n_rs s1))) in
           (fold_left (fun t q => fst (record top q t)) new s1, o).

(** Runner.update, reset and refresh, runner.py:378-401. They end with a call of the hook pyfileconf_post_config_changed if the config
    of a loaded object has changed, in [Runner_Model] an event [EvPost]. The default implementation refreshes the configs of all items
    that depend on it. *)
Definition hooked (before after : rs) : option string :=
  match rev (skipn (List.length (cs_trace (r_cms before))) (cs_trace (r_cms after))) with
  | EvPost p _ :: _ => Some p
  | _ => None
  end.
Definition dependents (deps : list (string * string)) (path : string) : list string :=
  map snd (filter (fun d => String.eqb (fst d) path) deps).
Definition refresh_dependents (top : option string) (path : string) : M ns unit :=
  fun s => (mapM (fun q => match inner with
                           | None => raise RecursionError
                           | Some f => f top (RRefresh q)
                           end) (order (dependents (n_deps s) path)) ;;; ret tt) s.
Definition change (top : option string) (m : M rs unit) : M ns answer :=
  fun s => match on_rs m s with
           | (s1, Raise e) => (s1, Raise e)
           | (s1, Ok _) => (match hooked (n_rs s) (n_rs s1) with
                            | Some p => refresh_dependents top p
                            | None => ret tt
                            end ;;; ret AnNone) s1
           end.

Definition op_with (top : option string) (op : rop) : M ns answer :=
  match op with
  | RGet path => g <- in_get top path ;; ret (AnGot g)
  | RRun set a => r <- in_pm_run top set a ;; ret (AnRun r)
  | RUpdate d path persist kw => change top (runner_update u d path persist kw)
  | RReset path ac => change top (runner_reset base u path ac)
  | RRefresh path => change top (runner_refresh u path)
  end.
End Level.

(** an operation, with room for [d] levels of operations inside operations *)
Fixpoint in_op (d : nat) : option string -> rop -> M ns answer :=
  op_with (match d with 0 => None | S d' => Some (in_op d') end).
End Inside.
