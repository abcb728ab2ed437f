(** Model of pyfileconf/runner/models/runner.py (class Runner), pyfileconf/config/logic/apply.py and the
    run methods of pyfileconf/main.py (125-160, 199-263, 636-678) with pyfileconf/logic/combine.py.

    Not modelled here: the context stack and dependency records (Context_Model, Deps_Model), logging,
    stdout capture (Stdout_Model), and user functions that call the manager back (Inside_Model). Hooks only observe. *)
From Verif Require Export Collection_Model.
Local Open Scope list_scope.
Local Open Scope monad_scope.

(** What is kept in [_loaded_objects]. [id] is the identity of the object. A partial is its function (or
    class) and the mutable [keywords]; an instance is described by its class and everything that was done
    to it: the keyword arguments of the constructor call and of the later [__init__] /
    [_pyfileconf_update_] calls, oldest first. *)
Inductive lobj : Type :=
| LPartial (id : nat) (f : callable) (is_class : bool) (keywords : dict pyval)
| LInst (id : nat) (k : callable) (calls : list (dict pyval)).

Definition lobj_id (o : lobj) : nat := match o with LPartial i _ _ _ => i | LInst i _ _ => i end.

Inductive result : Type :=
| RVal (v : pyval)
| RList (l : list result).

(** User code, as an arbitrary oracle. [u_call] is the outcome of calling a loaded object (or its
    execute attribute), given all calls made before; [u_init] says whether a constructor or update call
    raises; [u_post_run] are the results added by pyfileconf_post_run plugins and [u_pre_run] the paths
    added by pyfileconf_pre_run plugins (each plugin returning one path). *)
Record user : Type := User {
  u_call : list (string * lobj) -> string -> lobj -> res pyval;
  u_init : callable -> dict pyval -> option exn;
  u_post_run : result -> list result;
  u_pre_run : list string }.

(** Runner state: the config manager, [_loaded_objects], a counter for fresh identities, and the calls of
    user functions made so far (path and object called, newest last). *)
Record rs : Type := RS {
  r_cms : cms;
  r_loaded : dict lobj;
  r_next : nat;
  r_calls : list (string * lobj) }.

Definition on_cms {A} (m : M cms A) : M rs A :=
  fun s => let '(c, r) := m (r_cms s) in (RS c (r_loaded s) (r_next s) (r_calls s), r).
Definition set_loaded (path : string) (o : lobj) : M rs unit :=
  modify (fun s => RS (r_cms s) (dset path o (r_loaded s)) (r_next s) (r_calls s)).
Definition fresh : M rs nat :=
  fun s => (RS (r_cms s) (r_loaded s) (S (r_next s)) (r_calls s), Ok (r_next s)).

Section Runner.
Variable base : string.       (* the name of the config folder, for cm_reset *)
Variable its : items.
Variable u : user.

(** Runner._get_config, runner.py:329-333 *)
Definition get_config (path : string) : M rs config :=
  r <- on_cms (cm_get path) ;;
  match r with
  | None => raise not_loaded
  | Some r => on_cms (deref r)
  end.

(** FunctionConfig.for_function, pipelines/models/config.py:24-36 *)
Definition for_function (c : config) (args : list string) : dict pyval :=
  dfilter (fun k => mem k args) (c_vals c).

(** the parameters of a class as seen by getfullargspec(class), which includes self *)
Definition class_args (k : callable) : list string := "self"%string :: f_args k.

(** Runner._get_func_and_config, runner.py:354-362. getfullargspec raises TypeError for what is not
    callable. *)
Definition get_func_and_config (path : string) : M rs (callable * bool * dict pyval) :=
  c <- get_config path ;;
  f <- lift (get_func_or_collection its path) ;;
  match snd f with
  | FThing (TFunc f) => ret (f, false, for_function c (f_args f))
  | FThing (TClass k) => ret (k, true, for_function c (class_args k))
  | _ => raise TypeError
  end.

(** Runner._get_class_and_config, runner.py:364-376. Only reached for classes and instances; the last
    case stands for the other ones. *)
Definition get_class_and_config (path : string) : M rs (callable * bool * dict pyval) :=
  c <- get_config path ;;
  f <- lift (get_func_or_collection its path) ;;
  match snd f with
  | FThing (TClass k) => ret (k, true, for_function c (class_args k))
  | FThing (TInst k) => ret (k, false, for_function c (class_args k))
  | _ => raise TypeError
  end.

(** apply_config_to_partial, apply.py:24-29 *)
Fixpoint apply_config_to_partial (keywords : dict pyval) (config : dict pyval) : dict pyval :=
  match config with
  | [] => keywords
  | (k, v) :: rest => apply_config_to_partial (if dmem k keywords then dset k v keywords else keywords) rest
  end.

(** the part of apply_config_to_obj that selects the arguments, apply.py:16-19 *)
Definition relevant_config (k : callable) (config : dict pyval) : dict pyval :=
  dfilter (fun a => mem a (f_args k)) config.

(** apply_config, apply.py:7-36, on the object loaded for a path. If the user's code raises, what it has
    done before is not tracked. *)
Definition apply_config (path : string) (o : lobj) (config : dict pyval) : M rs unit :=
  match o with
  | LPartial id f b kw => set_loaded path (LPartial id f b (apply_config_to_partial kw config))
  | LInst id k calls =>
      let args := relevant_config k config in
      match u_init u k args with
      | Some e => raise e
      | None => set_loaded path (LInst id k (calls ++ [args]))
      end
  end.

(** Runner._get_one_func_with_config, runner.py:299-310 *)
Definition get_one_func_with_config (path : string) : M rs lobj :=
  loaded <- gets (fun s => dget path (r_loaded s)) ;;
  match loaded with
  | Some o => ret o
  | None =>
      fc <- get_func_and_config path ;;
      let '(f, is_class, kw) := fc in
      id <- fresh ;;
      let o := LPartial id f is_class kw in
      set_loaded path o ;;; ret o
  end.

(** Runner._get_one_obj_with_config, runner.py:312-327 *)
Definition get_one_obj_with_config (path : string) : M rs lobj :=
  loaded <- gets (fun s => dget path (r_loaded s)) ;;
  match loaded with
  | Some o => ret o
  | None =>
      lift (get_func_or_collection its path) ;;;
      kc <- get_class_and_config path ;;
      let '(k, is_class, kw) := kc in
      let args := if is_class then kw else relevant_config k kw in
      match u_init u k args with
      | Some e => raise e
      | None => id <- fresh ;;
                let o := LInst id k [args] in
                set_loaded path o ;;; ret o
      end
  end.

(** [func()]: the call is recorded even if it raises *)
Definition call_object (path : string) (o : lobj) : M rs result :=
  fun s => (RS (r_cms s) (r_loaded s) (r_next s) (r_calls s ++ [(path, o)]),
            match u_call u (r_calls s) path o with Ok v => Ok (RVal v) | Raise e => Raise e end).

(** Runner._run_one_func, runner.py:185-194 *)
Definition run_one_func (path : string) : M rs result :=
  get_func_and_config path ;;;
  o <- get_one_func_with_config path ;;
  call_object path o.

(** Runner._run_one_class, runner.py:196-205 *)
Definition run_one_class (path : string) : M rs result :=
  get_func_and_config path ;;;
  o <- get_one_obj_with_config path ;;
  call_object path o.

(** Runner._run_one_specific_class, runner.py:207-219 *)
Definition run_one_specific_class (path : string) : M rs result :=
  get_class_and_config path ;;;
  o <- get_one_obj_with_config path ;;
  call_object path o.

Definition sub_path (path name : string) : string := path_str (sp_join (mk_sp path) (mk_sp name)).

(** Runner._run_section, runner.py:151-182. The recursive call looks its section up again by path; that
    finds the last entry of that name, and iterating over something that is no section raises
    TypeError. An item [TInst] is not possible in this kind of collection. *)
Fixpoint run_section (c : coll) (path : string) {struct c} : M rs result :=
  match c with
  | Coll _ entries =>
      let subs := (fix go (l : list entry) : list (string * option (M rs result)) :=
                     match l with
                     | [] => []
                     | EItem n _ :: rest => (n, None) :: go rest
                     | EColl c' :: rest => (coll_name c', Some (run_section c' (sub_path path (coll_name c')))) :: go rest
                     end) entries in
      results <- mapM (fun e =>
        match e with
        | EColl c' => match dget (coll_name c') (rev subs) with
                      | Some (Some m) => m
                      | _ => raise TypeError
                      end
        | EItem n (TFunc _) => run_one_func (sub_path path n)
        | EItem n (TClass _) => run_one_class path
        | EItem n (TInst _) => run_one_specific_class path
        | EItem n (TBroken e) => raise e
        | EItem n TOther => raise ValueError
        end) entries ;;
      ret (RList results)
  end.

(** Runner._run, runner.py:127-149 *)
Definition run_one (path : string) : M rs result :=
  f <- lift (get_func_or_collection its path) ;;
  match f with
  | (false, FColl c) => run_section c path
  | (_, FThing (TInst _)) => run_one_specific_class path
  | (_, FThing (TClass _)) => run_one_class path
  | (_, FThing (TFunc _)) => run_one_func path
  | _ => raise ValueError
  end.

Inductive run_arg : Type := AStr (path : string) | AList (paths : list string).

(** Runner.run, runner.py:89-125 *)
Definition runner_run (a : run_arg) : M rs result :=
  r <- match a with
       | AStr p => run_one p
       | AList l => rs <- mapM run_one l ;; ret (RList rs)
       end ;;
  match u_post_run u r, a with
  | [], _ => ret r
  | extra, AStr _ => ret (RList (r :: extra))
  | extra, AList _ => match r with
                      | RList rs => ret (RList (rs ++ extra))
                      | RVal _ => ret r          (* not possible *)
                      end
  end.

(** combine_items_into_list_..._extract_from_list_if_only_one_item, logic/combine.py:4-30 *)
Definition combine (a : run_arg) (extra : list string) : run_arg :=
  match (match a with AStr p => [p] | AList l => l end) ++ extra with
  | [p] => AStr p
  | l => AList l
  end.

(** The outcome of [_try_except_run_func_except_user_interrupts], main.py:636-673: user interrupts quit
    the interpreter (SystemExit), other exceptions are caught. *)
Definition try_run {A} (m : M rs A) : M rs (A + exn) :=
  fun s => match m s with
           | (s', Ok a) => (s', Ok (inl a))
           | (s', Raise e) => if user_interrupt e then (s', Raise SystemExit) else (s', Ok (inr e))
           end.

(** the loop of _run_with_force_continue, main.py:234-253: results and (path, exception) pairs *)
Fixpoint force_loop (paths : list string) : M rs (list result * list (string * exn)) :=
  match paths with
  | [] => ret ([], [])
  | p :: rest =>
      r <- try_run (runner_run (AStr p)) ;;
      re <- force_loop rest ;;
      match r with
      | inl x => ret (x :: fst re, snd re)
      | inr e => ret (fst re, (p, e) :: snd re)
      end
  end.

(** PipelineManager._run_with_force_continue, main.py:224-263; also returns the exceptions reported *)
Definition run_with_force_continue (a : run_arg) : M rs (result * list (string * exn)) :=
  let paths := match a with AStr p => [p] | AList l => l end in
  re <- force_loop paths ;;
  match a with
  | AList _ => ret (RList (fst re), snd re)
  | AStr _ => match fst re with
              | [] => ret (RList [], snd re)
              | [r] => ret (r, snd re)
              | _ => raise ValueError
              end
  end.

(** PipelineManager.run, main.py:125-160 and 199-206, with the setting force_continue; the debugger
    setting auto_pdb (208-222) returns None for a failing run. *)
Inductive setting : Type := Plain | ForceContinue | AutoPdb.
Definition pm_run (set : setting) (a : run_arg) : M rs result :=
  let a := combine a (u_pre_run u) in
  match set with
  | Plain => runner_run a
  | ForceContinue => x <- run_with_force_continue a ;; ret (fst x)
  | AutoPdb => r <- try_run (runner_run a) ;; match r with inl x => ret x | inr _ => ret (RVal VNone) end
  end.

(** What Runner.get returns: a loaded object, or nested lists and dicts of them *)
Inductive got : Type :=
| GObj (o : lobj)
| GList (l : list got)
| GDict (d : list (string * got)).

(** Runner._get_section, runner.py:241-297. As in [run_section] the recursive call goes by path.
    name_for_obj (collection.py:94-98) fails for an instance hidden by a later one of the same name.
    Simplification: instances have an attribute name, as with the default key_attr; otherwise the message of the ValueError in a
    mixed section cannot be made and AttributeError is raised. *)
Definition is_coll (e : entry) : bool := match e with EColl _ => true | _ => false end.

Fixpoint get_section (c : coll) (path : string) {struct c} : M rs got :=
  match c with
  | Coll _ entries =>
      let subs := (fix go (l : list entry) : list (string * option (M rs got)) :=
                     match l with
                     | [] => []
                     | EItem n _ :: rest => (n, None) :: go rest
                     | EColl c' :: rest => (coll_name c', Some (get_section c' (sub_path path (coll_name c')))) :: go rest
                     end) entries in
      let sub n : M rs got := match dget n (rev subs) with
                              | Some (Some m) => m
                              | _ => raise TypeError
                              end in
      if existsb is_coll entries then
        rs <- mapM (fun e => match e with
                             | EColl c' => g <- sub (coll_name c') ;; ret (coll_name c', g)
                             | EItem _ (TBroken e) => raise e
                             | EItem _ _ => raise ValueError
                             end) entries ;;
        ret (GDict (dict_of rs))
      else
        rs <- (fix go (l : list entry) : M rs (list got) :=
                 match l with
                 | [] => ret []
                 | EColl _ :: rest => go rest          (* there are none *)
                 | EItem n t :: rest =>
                     g <- match t with
                          | TInst _ => if existsb (fun e => String.eqb n (entry_name e)) rest then raise ValueError
                                       else o <- get_one_obj_with_config (sub_path path n) ;; ret (GObj o)
                          | TFunc _ | TClass _ => o <- get_one_func_with_config (sub_path path n) ;; ret (GObj o)
                          | TBroken e => raise e
                          | TOther => raise ValueError
                          end ;;
                     gs <- go rest ;; ret (g :: gs)
                 end) entries ;;
        ret (GList rs)
  end.

(** Runner.get, runner.py:221-234 *)
Definition runner_get (path : string) : M rs got :=
  f <- lift (get_func_or_collection its path) ;;
  match snd f with
  | FColl c => get_section c path
  | FThing (TInst _) | FThing (TClass _) => o <- get_one_obj_with_config path ;; ret (GObj o)
  | FThing (TFunc _) => o <- get_one_func_with_config path ;; ret (GObj o)
  | _ => raise ValueError
  end.

(** [section_path_str in self._loaded_objects] *)
Definition loaded_at (path : option string) : M rs (option lobj) :=
  gets (fun s => match path with Some p => dget p (r_loaded s) | None => None end).

Definition opt_path (path : option string) : string := match path with Some p => p | None => "" end.

(** Runner.update, runner.py:378-383 with ConfigManager.track_post_update, manager.py:318-325. A keyword
    update named [d] collides with a parameter of track_post_update. *)
Definition runner_update (d : option (dict pyval)) (path : option string) (persist : bool) (kwargs : dict pyval)
  : M rs unit :=
  ru <- on_cms (cm_update d path persist kwargs) ;;
  let '(r, updated) := ru in
  o <- loaded_at path ;;
  match o with
  | Some o => if updated then
                c <- on_cms (deref r) ;;
                apply_config (opt_path path) o (c_vals c) ;;;
                if dmem "d" kwargs then raise TypeError
                else on_cms (emit (EvPost (opt_path path) (dupdate (opt_dict d) kwargs)))
              else ret tt
  | None => ret tt
  end.

(** the updates reported by [track_post_update(default, path, **default)], runner.py:393: a config value
    named [d] is taken for the parameter of that name (the names [config_], [section_path_str] and [self]
    have already been rejected by ConfigManager.set) *)
Definition post_reset_updates (vals : dict pyval) : res (dict pyval) :=
  match dget "d" vals with
  | None => Ok vals
  | Some VNone => Ok (ddel "d" vals)
  | Some _ => Raise TypeError
  end.

(** Runner.reset, runner.py:385-393 *)
Definition runner_reset (path : option string) (allow_create : bool) : M rs unit :=
  du <- on_cms (cm_reset base path allow_create) ;;
  let '(default, updated) := du in
  o <- loaded_at path ;;
  match o with
  | Some o =>
      if updated then
        match default with
        | DConf c => apply_config (opt_path path) o (c_vals c) ;;;
                     ups <- lift (post_reset_updates (c_vals c)) ;;
                     on_cms (emit (EvPost (opt_path path) ups))
        | DSec _ => raise TypeError           (* a ConfigSection has no values *)
        end
      else ret tt
  | None => ret tt
  end.

(** Runner.refresh, runner.py:395-401 *)
Definition runner_refresh (path : string) : M rs unit :=
  rbu <- on_cms (cm_refresh path) ;;
  let '(_, updated, updates) := rbu in
  o <- loaded_at (Some path) ;;
  match o with
  | Some o => if updated then
                c <- get_config path ;;
                apply_config path o (c_vals c) ;;;
                on_cms (emit (EvPost path updates))
              else ret tt
  | None => ret tt
  end.

End Runner.

(** a manager after [load()]: main.py:545-568 creates a new runner and a new config manager *)
Definition runner_load (base_name : string) (disk : dir) (next : nat) : res rs :=
  match cm_load base_name disk with
  | Ok c => Ok (RS c [] next [])
  | Raise e => Raise e
  end.
