(** Vocabulary for the splitting of config files by lines (C111). *)
From Verif Require Export Lines_Model.
Local Open Scope string_scope.
Local Open Scope list_scope.

(** [t] is [s] without the characters of [p] at both ends. *)
Definition bare (p : ascii -> bool) (t : string) : Prop :=
  (forall c r, t = String c r -> p c = false) /\ (forall r c, t = (r ++ String c "")%string -> p c = false).
Definition stripped (p : ascii -> bool) (s t : string) : Prop :=
  exists a b, s = (a ++ t ++ b)%string /\ all_chars p a = true /\ all_chars p b = true /\ bare p t.

Definition blank (l : string) : Prop := forall c, has_char c l = true -> is_space c = true.
(** what may stand in the import section *)
Definition of_imports (l : string) : Prop := (exists a b, l = (a ++ "import" ++ b)%string) \/ blank l.

(** [lines] are those up to the first that belongs to the assignments, and the rest *)
Definition divided (lines imports assigns : list string) : Prop :=
  lines = imports ++ assigns /\ Forall of_imports imports /\ match assigns with [] => True | l :: _ => ~ of_imports l end.
