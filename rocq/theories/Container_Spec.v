(** What is said about containers. *)
From Verif Require Export Container_Model.
Local Open Scope string_scope.
Local Open Scope list_scope.

(** an equality as it should be *)
Record equality {A} (same : A -> A -> bool) : Prop := {
  eq_refl_ : forall x, same x x = true;
  eq_sym_ : forall x y, same x y = true -> same y x = true;
  eq_trans_ : forall x y z, same x y = true -> same y z = true -> same x z = true }.
(** a selection of the items of a list, in their order *)
Inductive selection {A} : list A -> list A -> Prop :=
| sel_nil : selection [] []
| sel_take x a l : selection a l -> selection (x :: a) (x :: l)
| sel_skip x a l : selection a l -> selection a (x :: l).
(** no two items are the same *)
Inductive distinct {A} (same : A -> A -> bool) : list A -> Prop :=
| dis_nil : distinct same []
| dis_cons x l : (forall y, In y l -> same x y = false) -> distinct same l -> distinct same (x :: l).

(** blanks around a word, and a word in upper or lower case *)
Definition blank (s : string) : Prop := all_chars is_space s = true.
Definition upper_of (c : ascii) : ascii := ascii_of_nat (nat_of_ascii c - 32).
Fixpoint spelled (w x : string) : Prop :=
  match w, x with
  | "", "" => True
  | String c w, String d x => (c = d \/ c = upper_of d) /\ spelled w x
  | _, _ => False
  end.
