(** Model of the execution context: pyfileconf/pmcontext/main.py, stack.py, tracing.py, and of the places that use it.

    Section paths are given by their path_str (SectionPath.from_ambiguous of a string; SectionPath equality and hash are those
    of path_str, C01-C03). Python's defaultdicts: a key without entry is an empty set. *)
From Verif Require Export Py_Dict Py_Exn.
Local Open Scope string_scope.
Local Open Scope list_scope.

(** pmcontext/actions.py:4-8 *)
Inductive action : Type := RUN | LOAD_FILE_EXECUTE | LOAD_FILE_AST | LOAD_PIPELINE_FILE_AST.
Definition action_eqb (a b : action) : bool :=
  match a, b with
  | RUN, RUN | LOAD_FILE_EXECUTE, LOAD_FILE_EXECUTE | LOAD_FILE_AST, LOAD_FILE_AST
  | LOAD_PIPELINE_FILE_AST, LOAD_PIPELINE_FILE_AST => true
  | _, _ => false
  end.

(** PyfileconfFrame, stack.py:10-21 *)
Record frame : Type := Frame { f_path : string; f_action : action }.

(** What can be asked of the context: currently_running_section_path_str, file_is_currently_being_loaded,
    currently_loading_file_section_path. *)
Record observation : Type := Obs { running : option string; loading : bool; loading_path : option string }.

(** PyFileConfContext, pmcontext/main.py:13-36; [log] is what user code has observed so far. The newest frame is last. *)
Record ctx : Type := Ctx { stack : list frame; deps : dict (list string); forced : dict (list string); log : list observation }.

(** pmcontext/stack.py:68-95 *)
Definition frames_of (a : action) (l : list frame) : list frame := filter (fun f => action_eqb (f_action f) a) l.
Definition newest (l : list frame) : option string := match rev l with [] => None | f :: _ => Some (f_path f) end.
Definition currently_running (s : ctx) : option string := newest (frames_of RUN (stack s)).
Definition file_is_being_loaded (s : ctx) : bool := match frames_of LOAD_FILE_EXECUTE (stack s) with [] => false | _ => true end.
Definition currently_loading (s : ctx) : option string := newest (frames_of LOAD_FILE_EXECUTE (stack s)).

Definition entry (k : string) (d : dict (list string)) : list string := match dget k d with Some l => l | None => [] end.
Definition set_add (x : string) (l : list string) : list string := if existsb (String.eqb x) l then l else l ++ [x].
Definition add_to (k x : string) (d : dict (list string)) : dict (list string) := dset k (set_add x (entry k d)) d.

(** PyFileConfContext.add_config_dependency, pmcontext/main.py:52-63 *)
Definition add_config_dependency (dependent depends_on : string) (force : bool) (s : ctx) : ctx :=
  if String.eqb dependent depends_on then s
  else Ctx (stack s) (add_to depends_on dependent (deps s)) (if force then add_to depends_on dependent (forced s) else forced s) (log s).

(** Uses of the context by the library and by user code. *)
Inductive call : Type :=
| AddDep (dependent depends_on : string) (force : bool)   (* an update whose value is an item view, main.py:379-391 *)
| DepRunning (depends_on : string) (force : bool)         (* getting or using an item, runner.py:406-409, itemview.py:200-202 *)
| DepLoading (depends_on : string) (force : bool)         (* looking up an item in a config file, selector.py:50-54 and 150-153 *)
| Observe
| Fail (e : exn)
| ResetContext.                                           (* context.reset(), pmcontext/main.py:38-42 *)

Definition do_call (c : call) (s : ctx) : ctx * res unit :=
  match c with
  | AddDep a b force => (add_config_dependency a b force s, Ok tt)
  | DepRunning b force =>        (* pmcontext/main.py:65-70 *)
      (match currently_running s with Some a => add_config_dependency a b force s | None => s end, Ok tt)
  | DepLoading b force =>
      (if file_is_being_loaded s then
         match currently_loading s with Some a => add_config_dependency a b force s | None => s end
       else s, Ok tt)
  | Observe => (Ctx (stack s) (deps s) (forced s)
                  (log s ++ [Obs (currently_running s) (file_is_being_loaded s) (currently_loading s)]), Ok tt)
  | Fail e => (s, Raise e)
  | ResetContext => (Ctx [] [] [] (log s), Ok tt)
  end.

(** Code, as far as the context is concerned. [Within f body]: [with StackTracker(...): body]; making the frame may raise (the
    manager of a file is looked up). [Try body]: exceptions of [body] are caught. *)
Inductive code : Type :=
| Call (c : call)
| Within (f : res frame) (body : list code)
| Try (body : list code).

Definition push (f : frame) (s : ctx) : ctx := Ctx (stack s ++ [f]) (deps s) (forced s) (log s).

(** [self.frames.pop(-1)], stack.py:61-62 *)
Definition pop (s : ctx) : ctx * res unit :=
  match stack s with
  | [] => (s, Raise IndexError)
  | l => (Ctx (removelast l) (deps s) (forced s) (log s), Ok tt)
  end.

(** StackTracker.__enter__ and __exit__, tracing.py:34-43. An exception of __exit__ replaces the one of the body. *)
Fixpoint exec (c : code) (s : ctx) {struct c} : ctx * res unit :=
  let block := fix block (l : list code) (s : ctx) : ctx * res unit :=
    match l with
    | [] => (s, Ok tt)
    | c :: rest => match exec c s with
                   | (s', Ok _) => block rest s'
                   | (s', Raise e) => (s', Raise e)
                   end
    end in
  match c with
  | Call c => do_call c s
  | Within (Raise e) _ => (s, Raise e)
  | Within (Ok f) body =>
      let '(s1, r) := block body (push f s) in
      match pop s1 with
      | (s2, Ok _) => (s2, r)
      | (s2, Raise e) => (s2, Raise e)
      end
  | Try body => let '(s', _) := block body s in (s', Ok tt)
  end.

Definition exec_block (l : list code) : M ctx unit := iterM exec l.

(** Running an item, runner.py:185-219: the frame is the full path; getting the config, the call of the user function etc. are
    the body; afterwards whatever is then running depends on the item. *)
Definition run_item (full_path : string) (body : list code) : list code :=
  [Within (Ok (Frame full_path RUN)) body; Call (DepRunning full_path true)].

(** Executing a config file, io/file/load/active/loader.py:9-18. [path]: what PyfileconfFrame.from_file_path gives, stack.py:29-39. *)
Definition load_file (path : res string) (body : list code) : code :=
  Within (match path with Ok p => Ok (Frame p LOAD_FILE_EXECUTE) | Raise e => Raise e end) body.

(** Getting the item [depends_on] through the selector (selector.py:144-155): dependencies, then loading it if needed ([body]),
    which makes whatever is running depend on it (runner.py:299-327). *)
Definition get_through_selector (depends_on : string) (body : list code) : list code :=
  Call (DepLoading depends_on true) :: body ++ [Call (DepRunning depends_on true)].
