(** Which configs a case has in common with the case before it, for C30. *)
From Verif Require Export Iterate_Model.
Local Open Scope list_scope.

(** two values count as the same if they are one object or Python's [==] says so *)
Definition counts_same (v w : pyval) : Prop := py_is v w = true \/ py_eq v w = EqBool true.

(** two dicts with the same keys and values *)
Definition same_dict (a b : dict pyval) : Prop :=
  (forall k, In k (dkeys a) <-> In k (dkeys b))
  /\ forall k v w, dget k a = Some v -> dget k b = Some w -> counts_same v w.

(** two updates of the same path with the same values and the same dict argument *)
Definition same_conf (c c' : conf) : Prop :=
  fst c = fst c' /\ same_dict (b_vals (snd c)) (b_vals (snd c'))
  /\ match b_d (snd c), b_d (snd c') with
     | None, None => True
     | Some d, Some d' => same_dict d d'
     | _, _ => False
     end.

(** a list without the elements that have a property, the others in their order *)
Inductive without {A} (P : A -> Prop) : list A -> list A -> Prop :=
| wo_nil : without P [] []
| wo_drop x l r : P x -> without P l r -> without P (x :: l) r
| wo_keep x l r : ~ P x -> without P l r -> without P (x :: l) (x :: r).

(** a config that was already part of a case *)
Definition already_in (last : case) (c : conf) : Prop := exists c', In c' last /\ same_conf c c'.

(** update dicts have every key once *)
Definition conf_wf (c : conf) : Prop :=
  dwf (b_vals (snd c)) /\ forall d, b_d (snd c) = Some d -> dwf d.

(** all values compare normally *)
Definition conf_plain (c : conf) : Prop :=
  (forall k v, dget k (b_vals (snd c)) = Some v -> plain v = true)
  /\ forall d k v, b_d (snd c) = Some d -> dget k d = Some v -> plain v = true.
