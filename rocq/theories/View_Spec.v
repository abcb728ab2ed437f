(** Statements about acting on views. *)
From Verif Require Export View_Model Selector_Spec GetAttr_Spec.
Local Open Scope string_scope.
Local Open Scope list_scope.

Definition world_ok (w : world) : Prop := mgrs_ok (smgrs w).
(** nothing is left over from earlier accesses (C26) *)
Definition quiet (m : vmgr) : Prop := g_full (v_gs m) = "".

(** names that managers and runners do not use themselves *)
Definition usable (xs : list string) : Prop := Forall (fun x => plain_name x /\ x <> "") xs.
(** nor do registrars *)
Definition reg_plain (parts : list string) : Prop := match parts with [] => True | x :: _ => x <> "collection" /\ ~ In x reg_reserved end.

(** the item, section of a manager that a path stands for *)
Definition item_of (m : vmgr) (xs : list string) (t : thing) : Prop :=
  exists g c parts n, in_collection (as_smgr m) g c parts xs /\ leads c parts (EItem n t) /\ reg_plain parts.
Definition section_of (m : vmgr) (xs : list string) (c' : coll) : Prop :=
  (exists r, xs = [reg_name r] /\ In r (i_specific (v_items m)) /\ c' = reg_coll r) \/
  exists g c parts, in_collection (as_smgr m) g c parts xs /\ leads c parts (EColl c') /\ reg_plain parts.
(** all names that mean something in a section *)
Definition names_in (c : coll) : list string := "collection" :: reg_reserved ++ coll_reserved ++ map entry_name (coll_entries c).

(** The manager after [pm.get(path)]. *)
Definition after_get (u : user) (m : vmgr) (path : string) : vmgr :=
  VMgr (v_items m) (v_klasses m) (GS "" (fst (runner_get (v_items m) u path (g_rs (v_gs m))))).

(** All class dicts of a list that are for class [k] have the same method. *)
Definition one_method (k : callable) (x : string) (l : list (callable * string)) : Prop :=
  In (k, x) l /\ forall x', In (k, x') l -> x' = x.

(** Which exception reading an attribute through a view raises if looking up its item raised one: too deep a recursion and a manager
    that is not loaded are reported as wrong names. *)
Definition read_error (e e' : exn) : Prop :=
  (e = RecursionError \/ e = LibExn "PipelineManagerNotLoadedException") /\ e' = LibExn "ItemNotFoundException" \/
  e <> RecursionError /\ e <> LibExn "PipelineManagerNotLoadedException" /\ e' = e.

(** everything that can be done with views *)
Inductive vop : Type :=
| OpCall (path : string) (args : list pyval) (kwargs : dict pyval)
| OpItem (path : string)
| OpRead (path x : string)
| OpSet (path key : string) (v : pyval).
(** whether an operation gave something *)
Inductive vout : Type := Failed (e : exn) | Called (c : vcall) | Read (r : vread) | Item (a : attr) (rest : list string) | Done.
Definition vop_run (u : user) (sub : callable -> callable -> bool) (ua : lobj -> string -> uattr) (sel : vsel) (o : vop) (w : world) : world * vout :=
  match o with
  | OpCall p args kw => let '(w1, r) := view_call u sub ua sel p args kw w in (w1, match r with Ok c => Called c | Raise e => Failed e end)
  | OpItem p => let '(w1, r) := real_item u w p in (w1, match r with Ok (a, rest) => Item a rest | Raise e => Failed e end)
  | OpRead p x => let '(w1, r) := view_getattr u ua sel p x w in (w1, match r with Ok c => Read c | Raise e => Failed e end)
  | OpSet p k v => let '(w1, r) := view_setattr u p k v w in (w1, match r with Ok _ => Done | Raise e => Failed e end)
  end.
Fixpoint vops_run (u : user) (sub : callable -> callable -> bool) (ua : lobj -> string -> uattr) (sel : vsel) (l : list vop) (w : world) : world * list vout :=
  match l with
  | [] => (w, [])
  | o :: rest => let '(w1, r) := vop_run u sub ua sel o w in let '(w2, rs) := vops_run u sub ua sel rest w1 in (w2, r :: rs)
  end.

(** An operation on a view of manager [n] whose names managers do not use themselves. *)
Definition on_manager (n : string) (o : vop) : Prop :=
  exists below, path_parts match o with OpCall p _ _ => p | OpItem p => p | OpRead p _ => p | OpSet p _ _ => p end = n :: below /\
                below <> [] /\ usable below.
(** No item and no attribute of one was reached. *)
Definition reaches_nothing (o : vop) (r : vout) : Prop :=
  match o with
  | OpCall _ _ _ | OpItem _ => r = Failed AttributeError
  | OpRead _ _ => (exists e, r = Failed e) \/ (exists q, r = Read (RView q)) \/ r = Read ROwn
  | OpSet _ _ _ => True
  end.

(** For examples: manager "p" over the config folder of Runner_Example, with class dicts "kls" and "klt" for the same class but
    different methods, and manager "q" with a class dict for this class, too. *)
From Verif Require Runner_Example.
Definition vx_k : callable := Fn "K" [].
Definition vx_items : items := Items [Reg "kls" (Coll "kls" [EItem "one" (TInst vx_k)]); Reg "klt" (Coll "klt" [EItem "two" (TInst vx_k)])] (i_general Runner_Example.ex_items).
Definition vx_one : lobj := LInst 7 vx_k [].
Definition vx_p : vmgr := VMgr vx_items [("kls", (vx_k, "run")); ("klt", (vx_k, "execute"))] (GS "" (RS (r_cms Runner_Example.ex_rs) [("kls.one", vx_one)] 8 [])).
Definition vx_q : vmgr := VMgr (Items [Reg "kls" (Coll "kls" [])] (Coll "q" [])) [("kls", (vx_k, "go"))] (GS "" (RS (r_cms Runner_Example.ex_rs) [] 0 [])).
Definition vx_w : world := [("p", vx_p); ("q", vx_q)].
Definition vx_sel : vsel := match make_selector vx_w with Ok s => s | Raise _ => VSel [] [] end.
Definition vx_sub (a b : callable) : bool := callable_eqb a b.
Definition vx_ua (o : lobj) (x : string) : uattr :=
  match o with LInst _ _ _ => if mem x ["run"; "execute"; "go"] then UMethod else if String.eqb x "k" then UValue else UMissing | LPartial _ _ _ _ => UMissing end.
Definition vx_user : user := Runner_Example.ex_user.
(** the same with a section called "run" *)
Definition vx_run : world := [("p", VMgr (Items [] (Coll "p" [EColl (Coll "run" [EItem "e" (TFunc (Fn "e" []))]); EItem "e" (TFunc (Fn "e" []))])) [] (GS "" Runner_Example.ex_rs))].
