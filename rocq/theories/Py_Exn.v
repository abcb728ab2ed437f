(** Exceptions as values, and a state + exception monad in which the state survives an
    exception: a Python statement that raises keeps every mutation made before. *)
From Verif Require Export Py_Str.

Inductive exn : Type :=
| KeyError | AttributeError | ValueError | TypeError | IndexError
| RecursionError | OSError | SyntaxError
| KeyboardInterrupt | SystemExit
| LibExn (name : string)        (* an exception class of pyfileconf.exceptions *)
| UserExn (n : nat).            (* raised by user code *)

(** the exceptions that end the program, _try_except_run_func_except_user_interrupts, pyfileconf/main.py:636-641; bdb.BdbQuit is raised
    when the user leaves a debugger *)
Definition user_interrupt (e : exn) : bool :=
  match e with KeyboardInterrupt | SystemExit => true | LibExn name => String.eqb name "BdbQuit" | _ => false end.

Inductive res (A : Type) : Type :=
| Ok (a : A)
| Raise (e : exn).
Arguments Ok {A} a.
Arguments Raise {A} e.

Definition rbind {A B} (m : res A) (f : A -> res B) : res B :=
  match m with Ok a => f a | Raise e => Raise e end.

Definition is_ok {A} (r : res A) : bool := match r with Ok _ => true | Raise _ => false end.

Definition M (S A : Type) : Type := S -> S * res A.
Definition ret {S A} (a : A) : M S A := fun s => (s, Ok a).
Definition raise {S A} (e : exn) : M S A := fun s => (s, Raise e).
Definition bind {S A B} (m : M S A) (f : A -> M S B) : M S B :=
  fun s => match m s with
           | (s', Ok a) => f a s'
           | (s', Raise e) => (s', Raise e)
           end.
Definition gets {S A} (f : S -> A) : M S A := fun s => (s, Ok (f s)).
Definition modify {S} (f : S -> S) : M S unit := fun s => (f s, Ok tt).
Definition lift {S A} (r : res A) : M S A := fun s => (s, r).

Declare Scope monad_scope.
Notation "x <- m ;; k" := (bind m (fun x => k))
  (at level 61, m at next level, right associativity) : monad_scope.
Notation "m ;;; k" := (bind m (fun _ => k))
  (at level 61, right associativity) : monad_scope.

(** for-loop: runs [f] on each element in order, stops at the first exception *)
Fixpoint mapM {S A B} (f : A -> M S B) (l : list A) : M S (list B) :=
  match l with
  | [] => ret []
  | a :: l' => bind (f a) (fun b => bind (mapM f l') (fun bs => ret (b :: bs)))
  end.

Fixpoint iterM {S A} (f : A -> M S unit) (l : list A) : M S unit :=
  match l with
  | [] => ret tt
  | a :: l' => bind (f a) (fun _ => iterM f l')
  end.
