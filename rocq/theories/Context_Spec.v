(** Specification vocabulary for C35-C37: what code does to the context according to its nesting alone. *)
From Verif Require Import Context_Model.
Local Open Scope string_scope.
Local Open Scope list_scope.

(** the context is never reset *)
Fixpoint no_reset (c : code) : bool :=
  match c with
  | Call ResetContext => false
  | Call _ => true
  | Within _ body | Try body => forallb no_reset body
  end.

(** the path of the innermost enclosing frame with the given action; [env] are the enclosing frames, innermost first *)
Fixpoint innermost (a : action) (env : list frame) : option string :=
  match env with
  | [] => None
  | f :: rest => if action_eqb (f_action f) a then Some (f_path f) else innermost a rest
  end.

(** what code at a place with enclosing frames [env] should observe *)
Definition should_observe (env : list frame) : observation :=
  Obs (innermost RUN env) (match innermost LOAD_FILE_EXECUTE env with Some _ => true | None => false end) (innermost LOAD_FILE_EXECUTE env).

(** the dependencies that should be recorded there: (dependent, depends_on, forced) *)
Definition should_record (env : list frame) (c : call) : list (string * string * bool) :=
  match c with
  | AddDep a b force => [(a, b, force)]
  | DepRunning b force => match innermost RUN env with Some a => [(a, b, force)] | None => [] end
  | DepLoading b force => match innermost LOAD_FILE_EXECUTE env with Some a => [(a, b, force)] | None => [] end
  | _ => []
  end.

Record meaning : Type := Mean { m_obs : list observation; m_rec : list (string * string * bool); m_out : res unit }.

Fixpoint sequence (l : list meaning) : meaning :=
  match l with
  | [] => Mean [] [] (Ok tt)
  | m :: rest => match m_out m with
                 | Raise e => m
                 | Ok _ => let k := sequence rest in Mean (m_obs m ++ m_obs k) (m_rec m ++ m_rec k) (m_out k)
                 end
  end.

Fixpoint means (env : list frame) (c : code) {struct c} : meaning :=
  match c with
  | Call Observe => Mean [should_observe env] [] (Ok tt)
  | Call (Fail e) => Mean [] [] (Raise e)
  | Call c => Mean [] (should_record env c) (Ok tt)
  | Within (Raise e) _ => Mean [] [] (Raise e)
  | Within (Ok f) body => sequence (map (means (f :: env)) body)
  | Try body => let m := sequence (map (means env) body) in Mean (m_obs m) (m_rec m) (Ok tt)
  end.

(** C37: nothing depends on itself, forced dependencies are dependencies, sets have no duplicates *)
Definition deps_ok (s : ctx) : Prop :=
  (forall k x, In x (entry k (deps s)) -> x <> k) /\
  (forall k x, In x (entry k (forced s)) -> In x (entry k (deps s))) /\
  (forall k, NoDup (entry k (deps s))) /\ (forall k, NoDup (entry k (forced s))).

Definition deps_grow (s s' : ctx) : Prop :=
  (forall k x, In x (entry k (deps s)) -> In x (entry k (deps s'))) /\
  (forall k x, In x (entry k (forced s)) -> In x (entry k (forced s'))).

Definition empty_ctx : ctx := Ctx [] [] [] [].
