(** Statements about modules. *)
From Verif Require Export Modules_Model.
Local Open Scope string_scope.
Local Open Scope list_scope.

(** A load without other loads in it, in which nothing is taken out of sys.modules. *)
Definition simple (a : act) : Prop := match a with Import _ | Throw _ => True | _ => False end.
Definition simple_load (l : list act) : Prop := forall a, In a l -> simple a.

(** Histories of simple loads, reloads and imports, without interrupts. *)
Definition no_interrupt (a : act) : Prop := match a with Throw e => is_exception e = true | _ => True end.
Definition plain (a : act) : Prop :=
  match a with
  | Import _ => True
  | Load _ b | Reload _ b => simple_load b /\ forall a, In a b -> no_interrupt a
  | _ => False
  end.

(** Every module object was made before; sys.modules is a dict. *)
Definition sane (s : st) : Prop := dwf (mods s) /\ forall m v, dget m (mods s) = Some v -> v < fresh s.

(** The modules that came in between. *)
Definition new_between (s s' : st) : list string := filter (fun m => negb (mem_s (dkeys (mods s)) m)) (dkeys (mods s')).

Definition without (l : list string) (d : dict nat) : dict nat := dfilter (fun m => negb (mem_s l m)) d.

Fixpoint times (n : nat) (m : M st unit) (s : st) : st := match n with O => s | S k => times k m (fst (m s)) end.

(** No load or reload of manager i in it. *)
Fixpoint never_loads (i : string) (a : act) : Prop :=
  let all := fix all (l : list act) : Prop := match l with [] => True | a :: l => never_loads i a /\ all l end in
  match a with
  | Import _ | Drop _ | Throw _ => True
  | Try b => all b
  | Load j b | Reload j b => i <> j /\ all b
  end.
