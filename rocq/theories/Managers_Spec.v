(** Statements about several managers: what is done to other managers does not matter for a manager (C93). *)
From Verif Require Export Iterate_Model Runner_Spec.
From Verif Require Import Iterate_Spec.
From Coq Require Import ZArith.
Local Open Scope string_scope.
Local Open Scope list_scope.
Local Open Scope monad_scope.

(** What the operations on one manager give. *)
Inductive rout : Type := Got (g : got) | Ran (r : result) | Finished.
Definition act (p : pmst) (u : user) (op : rop) : M rs rout :=
  match op with
  | RGet path => g <- runner_get (pm_items p) u path ;; ret (Got g)
  | RRun set a => r <- pm_run (pm_items p) u set a ;; ret (Ran r)
  | RUpdate d path persist kw => runner_update u d path persist kw ;;; ret Finished
  | RReset path ac => runner_reset (pm_base p) u path ac ;;; ret Finished
  | RRefresh path => runner_refresh u path ;;; ret Finished
  end.

(** The operations: on one manager, batches of updates and of resets, iterations over cases (run_product and IterativeRunner);
    making or reloading a manager, and closing one. *)
Inductive wop : Type :=
| WOn (name : string) (op : rop)
| WUpdates (base : option string) (strip : bool) (updates : list (sp_like * body))
| WResets (base : option string) (strip : bool) (paths : list sp_like)
| WProduct (name : string) (paths : list sp_like) (updates : list conf) (collect : bool)
| WIterate (base : option string) (strip : bool) (paths : list sp_like) (updates : list conf) (should_run : case -> bool) (collect : bool)
| WPut (name : string) (p : pmst)
| WDrop (name : string).
Inductive wout : Type := Single (r : rout) | Done | Cases (l : list (case * result)).

Definition wop_run (U : world -> string -> user) (o : wop) : M world wout :=
  match o with
  | WOn name op => r <- on_manager U name (fun p u => act p u op) ;; ret (Single r)
  | WUpdates base strip l => batch_update U [] base strip l ;;; ret Done
  | WResets base strip l => batch_reset U base strip l ;;; ret Done
  | WProduct name paths updates collect => l <- run_product U name paths updates collect ;; ret (Cases l)
  | WIterate base strip paths updates should_run collect =>
      it <- iter_new U [] (fun l => l) paths updates base strip ;;
      l <- (fun w => let '(s, r) := iter_run U should_run it collect (IS w None) in (is_world s, r)) ;; ret (Cases l)
  | WPut name p => modify (dset name p) ;;; ret Done
  | WDrop name => modify (ddel name) ;;; ret Done
  end.
(** the managers after some operations, whether they raised or not *)
Definition after (U : world -> string -> user) (ops : list wop) (w : world) : world :=
  fold_left (fun w o => fst (wop_run U o w)) ops w.

(** The first name of a path. *)
Definition begins (s m : string) : Prop := has_char dot m = false /\ (s = m \/ exists r, s = (m ++ "." ++ r)%string).
(** The manager that an entry of a batch or of an iteration names, given the base section path and whether the first name of a
    view is dropped. Without a base path it is the first name (of a view whose first name is dropped: the second). Entries of
    other types are refused; they name every manager here. *)
Definition names_manager (base : option string) (strip : bool) (q : sp_like) (m : string) : Prop :=
  match base with
  | Some b => b <> "" /\ begins b m
  | None => match q with
            | LStr s => begins s m
            | LSp sp => exists s, sp = mk_sp s /\ begins s m
            | LView s => if strip then exists x r, s = (x ++ "." ++ r)%string /\ has_char dot x = false /\ begins r m else begins s m
            | SectionPath_Model.LOther => True
            end
  end.
Definition names_other (n : string) (base : option string) (strip : bool) (q : sp_like) : Prop :=
  exists m, m <> n /\ names_manager base strip q m.

(** Operations on manager [n] only, and operations that have nothing to do with it. *)
Definition on_it (n : string) (o : wop) : Prop :=
  match o with
  | WOn name _ | WPut name _ | WDrop name => name = n
  | WUpdates base strip l => forall q b, In (q, b) l -> names_manager base strip q n
  | WResets base strip l => forall q, In q l -> names_manager base strip q n
  | WProduct name _ _ _ => begins name n /\ name <> ""
  | WIterate base strip paths updates _ _ => (forall q, In q paths -> names_manager base strip q n) /\
                                             (forall p b, In (p, b) updates -> names_manager base strip (LStr p) n)
  end.
Definition elsewhere (n : string) (o : wop) : Prop :=
  match o with
  | WOn name _ | WPut name _ | WDrop name => name <> n
  | WUpdates base strip l => forall q b, In (q, b) l -> names_other n base strip q
  | WResets base strip l => forall q, In q l -> names_other n base strip q
  | WProduct name _ _ _ => exists m, m <> n /\ begins name m /\ name <> ""
  | WIterate base strip paths updates _ _ => (forall q, In q paths -> names_other n base strip q) /\
                                             (forall p b, In (p, b) updates -> names_other n base strip (LStr p))
  end.

(** two histories with the same operations on the manager *)
Inductive same_own (n : string) : list wop -> list wop -> Prop :=
| so_nil : same_own n [] []
| so_own o l l' : on_it n o -> same_own n l l' -> same_own n (o :: l) (o :: l')
| so_left o l l' : elsewhere n o -> same_own n l l' -> same_own n (o :: l) l'
| so_right o l l' : elsewhere n o -> same_own n l l' -> same_own n l (o :: l').

(** The code of the manager's items does not look at other managers. *)
Definition minds_own (U : world -> string -> user) (n : string) : Prop :=
  forall w w', dget n w = dget n w' -> U w n = U w' n.

(** the entries of a batch for manager [n] *)
Inductive part_for (n : string) (base : option string) (strip : bool) : list (sp_like * body) -> list (sp_like * body) -> Prop :=
| pf_nil : part_for n base strip [] []
| pf_own q b l l' : names_manager base strip q n -> part_for n base strip l l' -> part_for n base strip ((q, b) :: l) ((q, b) :: l')
| pf_other q b l l' : names_other n base strip q -> part_for n base strip l l' -> part_for n base strip ((q, b) :: l) l'.

(** Example: two managers with the items of Iterate_Example. The function g of manager m fails. *)
From Verif Require Import Iterate_Example.
Definition mg_U : world -> string -> user := fun _ name =>
  User (fun calls path o => if String.eqb path "g" then Raise (UserExn 1) else Ok (VList (VInt (Z.of_nat (List.length calls)) :: dvals (arguments o)))) (fun _ _ => None) (fun _ => []) [].
(** Code of manager n that looks at manager m: it returns how many calls that has made. *)
Definition mg_curious : world -> string -> user := fun w name =>
  let made := match dget "m" w with Some p => List.length (r_calls (pm_rs p)) | None => 0 end in
  User (fun _ path o => if String.eqb name "n" then Ok (VInt (Z.of_nat made)) else Ok VNone) (fun _ _ => None) (fun _ => []) [].
Definition mg_busy : list wop :=
  [WOn "m" (RRun Plain (AStr "f")); WOn "n" (RRun Plain (AStr "x")); WOn "m" (RRun Plain (AList ["g"; "f"]));
   WUpdates None false [(LStr "m.f", vals [("a", VInt 9)]); (LView "m.sec.h", vals [("q", VInt 9)])];
   WProduct "m" [LStr "f"; LView "n.x"] [("f", vals [("a", VInt 3)]); ("f", vals [("a", VInt 4)])] true;
   WUpdates (Some "n") true [(LStr "x", vals [("k", VInt 6)])]; WDrop "m"; WOn "m" (RRun Plain (AStr "f"));
   WProduct "n" [LStr "x"] [("x", vals [("k", VInt 7)]); ("x", vals [("k", VInt 8)])] true].
Definition mg_idle : list wop :=
  [WOn "n" (RRun Plain (AStr "x")); WUpdates (Some "n") true [(LStr "x", vals [("k", VInt 6)])];
   WProduct "n" [LStr "x"] [("x", vals [("k", VInt 7)]); ("x", vals [("k", VInt 8)])] true].
