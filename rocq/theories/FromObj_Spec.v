(** Statements about configs made from objects. *)
From Verif Require Export FromObj_Model.
Local Open Scope string_scope.
Local Open Scope list_scope.

Section Spec.
Context {V : Type}.
Variable none : V.
Variable as_str : V -> option string.
Variable of_str : string -> V.
Variable attr : string -> res V.

(** what the object says about a parameter with a default or none: its attribute, if it has one that is not None *)
Inductive chosen (x : string) (o : option V) : V -> Prop :=
| chosen_attr v : attr x = Ok v -> v <> none -> chosen x o v
| chosen_none v : attr x = Ok none -> (o = Some v \/ o = None /\ v = none) -> chosen x o v
| chosen_missing v : attr x = Raise AttributeError -> (o = Some v \/ o = None /\ v = none) -> chosen x o v.

(** how a value stands in the config *)
Inductive stands (key x : string) : V -> cval V -> Prop :=
| stands_none : stands key x none CNone
| stands_str v t : v <> none -> x = key -> as_str v = Some t -> stands key x v (CStr t)
| stands_obj v : v <> none -> (x = key -> as_str v = None) -> stands key x v (CObj v).

(** the object it stands for *)
Definition means (c : cval V) : V := match c with CObj v => v | CNone => none | CStr t => of_str t end.
Definition all_means (d : dict (cval V)) : dict V := map (fun q => (fst q, means (snd q))) d.

(** reading the attributes raises nothing but AttributeError *)
Definition readable (l : list string) : Prop := forall x, In x l -> (exists v, attr x = Ok v) \/ attr x = Raise AttributeError.
End Spec.

(** Examples: values are strings, "None" is None, all others are strings; class C: def __init__(self, name, a='1', *, b='2') *)
Definition ex_sig : sig string := Sig [] ["self"; "name"; "a"] ["1"] false [("b", Some "2")] false.
Definition ex_is_none (v : string) : bool := String.eqb v "None".
Definition ex_str (v : string) : option string := if String.eqb v "None" then None else Some v.
(** an object with name 'n' and a = None, without an attribute b *)
Definition ex_attr (x : string) : res string :=
  if String.eqb x "name" then Ok "n" else if String.eqb x "a" then Ok "None" else Raise AttributeError.
(** class D: def __init__(this, self) *)
Definition ex_other : sig string := Sig [] ["this"; "self"] [] false [] false.
