(** C104: containers of statements, equal assignments, renames and positions. *)
From Coq Require Import Lia.
From Verif Require Import Container_Proofs Imports_Proofs.
Local Open Scope string_scope.
Local Open Scope list_scope.

(** An item is left out iff there is the same one already; otherwise it goes to the front if it prefers that, else to the end. *)
Theorem C104_add : forall A (same : A -> A -> bool) begin l x,
  ((exists y, In y l /\ same x y = true) -> add_missing same begin l x = l) /\
  ((forall y, In y l -> same x y = false) -> add_missing same begin l x = if begin x then x :: l else l ++ [x]).
Proof.
  intros A same begin l x. rewrite add_one. split; intros H.
  - apply has_iff in H. now rewrite H.
  - apply has_false in H. now rewrite H.
Qed.

(** Adding items one after the other: those put in front stand in the opposite order, those at the end in their order, and what was
    there in between; afterwards every item is there, and no two are the same if none were before. *)
Theorem C104_add_all : forall A (same : A -> A -> bool) begin xs l, equality same ->
  exists b e, fold_left (add_missing same begin) xs l = rev b ++ l ++ e /\
    selection b (filter begin xs) /\ selection e (filter (fun x => negb (begin x)) xs) /\
    (forall x, In x xs -> exists y, In y (rev b ++ l ++ e) /\ same x y = true) /\ (distinct same l -> distinct same (rev b ++ l ++ e)).
Proof.
  intros A same begin xs l [R S T]. destruct (add_all same begin xs l) as (b & e & E & B & F). exists b, e. split; [exact E|]. split; [exact B|]. split; [exact F|]. rewrite <- E. clear b e E B F. split.
  - intros x H. apply has_iff. revert l. induction xs as [|y xs IH]; [destruct H|]. intros l. cbn [fold_left]. destruct H as [->|H]; [apply has_all, has_add_self, R|now apply IH].
  - revert l. induction xs as [|y xs IH]; intros l D; [exact D|]. cbn [fold_left]. apply IH, distinct_add; [|exact D].
    intros z. destruct (same y z) eqn:E; [now rewrite (S _ _ E)|]. destruct (same z y) eqn:E'; [|reflexivity]. now rewrite (S _ _ E') in E.
Qed.

(** Imports are added like this, those being left out that are part of a statement (C60). *)
Theorem C104_imports : forall l p, add_if_missing l p = add_missing (fun p q => within (fst p) (fst q)) snd l p.
Proof.
  intros l p. rewrite add_one. unfold add_if_missing, contained, has. assert (existsb (within (fst p)) (map fst l) = existsb (fun q => within (fst p) (fst q)) l) as ->; [|reflexivity].
  induction l as [|q l IH]; [reflexivity|]. cbn. now rewrite IH.
Qed.

(** Inserting at a position: from the front, from the end, or at one of the ends if there is no such position. *)
Theorem C104_insert : forall A (same : A -> A -> bool) i l x, (forall y, In y l -> same x y = false) ->
  exists a b, l = a ++ b /\ insert_if_missing same i l x = a ++ x :: b /\
  let n := Z.of_nat (List.length l) in let k := Z.of_nat (List.length a) in
  (Z.le 0 i -> k = Z.min i n) /\ (Z.lt i 0 -> k = Z.max 0 (n + i)).
Proof.
  intros A same i l x N. apply has_false in N. unfold insert_if_missing, insert_at. rewrite N.
  set (k := Z.to_nat _). exists (firstn k l), (skipn k l). split; [now rewrite firstn_skipn|]. split; [reflexivity|].
  cbn zeta. rewrite firstn_length. subst k. destruct (Z.ltb i 0) eqn:E; [apply Z.ltb_lt in E|apply Z.ltb_ge in E]; split; intros H; lia.
Qed.

(** Two containers are put together if the right one is of the left one's class or derived from it. *)
Theorem C104_together : forall A derived c (l : list A) c' l',
  add_containers derived (c, l) (c', l') = if derived c' c then Ok (c, l ++ l') else Raise TypeError.
Proof. reflexivity. Qed.

(** Assignments are equal iff they have the same name and value; this is an equality. *)
Theorem C104_equal_assignments : (forall a b, assign_eq a (CAssign b) = Ok true <-> as_name a = as_name b /\ as_value a = as_value b) /\ equality assign_same.
Proof.
  assert (H : forall a b, assign_same a b = true <-> as_name a = as_name b /\ as_value a = as_value b).
  { intros a b. unfold assign_same, assign_eq. now rewrite andb_true_iff, !eqb_eq_s. }
  split; [|split].
  - intros a b. rewrite <- H. unfold assign_same, assign_eq. split; [intros E; now injection E as ->|intros ->; reflexivity].
  - intros x. now apply H.
  - intros x y E. apply H in E as [? ?]. now apply H.
  - intros x y z E F. apply H in E as [? ?], F as [? ?]. apply H. split; congruence.
Qed.

(** An assignment of a syntax tree is compared like the statement made from it; several targets raise; other things are different. *)
Theorem C104_compared_with : forall a,
  (forall t v ann begin, assign_eq a (CAst [t] v ann) = assign_eq a (CAssign (Assignment t v ann begin))) /\
  (forall t t' ts v ann, assign_eq a (CAst (t :: t' :: ts) v ann) = Raise (LibExn "NotImplementedError")) /\ assign_eq a CThing = Ok false.
Proof. intros a. repeat split. Qed.

(** So an assignment that differs in its annotation is left out. *)
Theorem C104_annotations_kept_refuted : exists a b l, as_ann a <> as_ann b /\ l = [a] /\ add_missing assign_same as_begin l b = l.
Proof. exists (Assignment "x" "1" None false), (Assignment "x" "1" (Some "int") false), [Assignment "x" "1" None false]. split; [discriminate|]. now split. Qed.
(** One with another value is not, so a name can be assigned twice. *)
Theorem C104_names_once_refuted : exists a b l, as_name a = as_name b /\ l = [a] /\ contains_varname l (as_name b) = true /\ add_missing assign_same as_begin l b = [a; b].
Proof. exists (Assignment "x" "1" None false), (Assignment "x" "2" None false), [Assignment "x" "1" None false]. now repeat split. Qed.
Theorem C104_contains_varname : forall l x, contains_varname l x = true <-> In x (map as_name l).
Proof.
  intros l x. unfold contains_varname. rewrite existsb_exists, in_map_iff. split; intros (a & H & E); exists a.
  - apply eqb_eq_s in E. now split.
  - split; [exact E|now apply eqb_eq_s].
Qed.

(** Renames: a name is found iff it is renamed; of several renames the last counts. *)
Theorem C104_rename_of : forall r n,
  (has_renamed r n = true <-> exists m, In (n, m) r) /\ (has_renamed r n = false -> get_rename r n = Raise KeyError) /\
  (forall q, get_rename r n = Ok q <-> fst q = n /\ exists a b, r = a ++ q :: b /\ ~ In n (map fst b)) /\
  (forall m, dget n (name_map r) = Some m <-> get_rename r n = Ok (n, m)) /\
  (forall m, has_rename r (n, m) = true <-> In (n, m) r).
Proof.
  intros r n.
  assert (G : forall q, get_rename r n = Ok q <-> fst q = n /\ exists a b, r = a ++ q :: b /\ ~ In n (map fst b)).
  { intros q. transitivity (dget n (rename_map r) = Some q).
    - unfold get_rename. destruct (dget n (rename_map r)) as [p|]; split; intros E; try discriminate; now injection E as ->.
    - unfold rename_map. rewrite last_pair. split.
      + intros (a & p & b & E & K & -> & N). split; [exact K|]. now exists a, b.
      + intros (K & a & b & E & N). now exists a, q, b. }
  assert (H : has_renamed r n = true <-> exists m, In (n, m) r).
  { unfold has_renamed. rewrite smem_In, in_map_iff. split; [intros ([x m] & E & I); cbn in E; subst x; now exists m|intros (m & I); now exists (n, m)]. }
  split; [exact H|]. split; [|split; [exact G|split]].
  - intros E. unfold get_rename. destruct (dget n (rename_map r)) as [q|] eqn:D; [|reflexivity]. exfalso.
    assert (has_renamed r n = true); [|congruence]. apply H. unfold rename_map in D. apply last_pair in D as (a & [x m] & b & -> & K & _). cbn in K. subst x. exists m. apply in_or_app. right. now left.
  - intros m. rewrite G. unfold name_map. rewrite <- (pairs_id r) at 1. rewrite last_pair. split.
    + intros (a & [x y] & b & E & K & M & N). cbn in K, M. subst x y. split; [reflexivity|]. now exists a, b.
    + intros (_ & a & b & E & N). now exists a, (n, m), b.
  - intros m. unfold has_rename. apply rmem_In.
Qed.
(** Two names for one: only the last is known. *)
Theorem C104_all_new_names_known_refuted : exists r n, r = [("a", "x"); ("a", "y")] /\ In n (new_names_of r) /\ (forall m, dget m (name_map r) <> Some n).
Proof.
  exists [("a", "x"); ("a", "y")], "x". split; [reflexivity|]. split; [now left|]. intros m. cbn. destruct (String.eqb m "a"); discriminate.
Qed.
(** The maps from names to new names and back are inverse if no name and no new name is repeated. *)
Theorem C104_names_and_back : forall r, NoDup (orig_names_of r) -> NoDup (new_names_of r) -> forall a b,
  dget a (name_map r) = Some b <-> dget b (reverse_map r) = Some a.
Proof.
  intros r N M a b. unfold orig_names_of, new_names_of in *. transitivity (In (a, b) r).
  - unfold name_map. rewrite (dict_of_id r N). split; [apply dget_Some_In|now apply In_dget].
  - unfold reverse_map. assert (dwf (map (fun q => (snd q, fst q)) r)) as W by (unfold dwf, dkeys; now rewrite map_map).
    rewrite (dict_of_id _ W). split; [intros H; apply In_dget; [exact W|]; apply in_map_iff; now exists (a, b)|].
    intros H. apply dget_Some_In, in_map_iff in H as ([x y] & E & H). cbn in E. now injection E as <- <-.
Qed.
(** In general the map back gives a name that has this new name, the last one. *)
Theorem C104_back : forall r n m, dget m (reverse_map r) = Some n <-> exists a b, r = a ++ (n, m) :: b /\ ~ In m (new_names_of b).
Proof.
  intros r n m. unfold reverse_map. rewrite last_pair. split.
  - intros (a & [x y] & b & E & K & M & N). cbn in K, M. subst x y. now exists a, b.
  - intros (a & b & E & N). now exists a, (n, m), b.
Qed.

(** The modules and objects listed, and the names imported. *)
Theorem C104_listed : forall l n,
  (In n (modules_of l) <-> (exists os r, In (ObjImp os n r) l) \/ exists ms r, In (ModImp ms r) l /\ In n ms) /\
  (In n (objs_of l) <-> exists os m r, In (ObjImp os m r) l /\ In n os) /\
  (In n (imported_names l) <-> In n (modules_of l) \/ In n (objs_of l) \/ exists i, In i l /\ In n (new_names_of match i with ModImp _ r => r | ObjImp _ _ r => r end)).
Proof.
  intros l n. unfold modules_of, objs_of, imported_names, new_names_of. rewrite !in_flat_map. split; [|split].
  - split.
    + intros ([ms r|os m r] & H & E); [right; now exists ms, r|]. left. destruct E as [->|[]]. now exists os, r.
    + intros [(os & r & H)|(ms & r & H & E)]; [exists (ObjImp os n r); split; [exact H|now left]|now exists (ModImp ms r)].
  - split; [intros ([ms r|os m r] & H & E); [destruct E|now exists os, m, r]|intros (os & m & r & H & E); now exists (ObjImp os m r)].
  - split.
    + intros ([ms r|os m r] & H & E); rewrite ?in_app_iff in E.
      * destruct E as [E|E]; [left; now exists (ModImp ms r)|right; right; now exists (ModImp ms r)].
      * destruct E as [E|[E|E]]; [right; left; now exists (ObjImp os m r)|right; right; now exists (ObjImp os m r)|left; now exists (ObjImp os m r)].
    + intros [(i & H & E)|[(i & H & E)|(i & H & E)]]; exists i; (split; [exact H|]); destruct i as [ms r|os m r]; rewrite ?in_app_iff; auto; destruct E.
Qed.

(** A position means the front iff it is one of five words, in upper or lower case and with blanks around it. *)
Theorem C104_front : forall s, is_begin_str s = true <->
  exists a w b x, s = Some (a ++ w ++ b)%string /\ blank a /\ blank b /\ spelled w x /\ In x ["b"; "begin"; "beginning"; "start"; "s"].
Proof.
  intros [s|]; [|split; [discriminate|intros (a & w & b & x & E & _); discriminate]]. cbn [is_begin_str]. rewrite smem_In.
  assert (L : forall x, In x ["b"; "begin"; "beginning"; "start"; "s"] -> (forall w, lower w = x <-> spelled w x) /\ solid x /\ x <> "").
  { intros x H. split; [apply lower_spelled; intros d; cbn in H; repeat (destruct H as [<-|H]; [cbn; intuition|]); destruct H|].
    cbn in H. repeat (destruct H as [<-|H]; [split; [reflexivity|discriminate]|]). destruct H. }
  split.
  - intros H. destruct (lstrip_split s) as (a & E & A). destruct (rstrip_split (lstrip s)) as (b & F & B). exists a, (rstrip (lstrip s)), b, (lower (rstrip (lstrip s))).
    split; [now rewrite <- F, <- E|]. split; [exact A|]. split; [exact B|]. split; [|exact H]. now apply (L _ H).
  - intros (a & w & b & x & E & A & B & S & H). injection E as ->. destruct (L x H) as (Q & D & N). apply Q in S. subst x.
    assert (solid w) as D' by now apply solid_lower. rewrite lstrip_solid; [|exact A|exact D'|intros ->; now apply N]. now rewrite rstrip_solid.
Qed.
Theorem C104_position : forall s, preferred_position s = (if is_begin_str s then "begin" else "end") /\ is_begin_str (Some (preferred_position s)) = is_begin_str s.
Proof. intros s. split; [reflexivity|]. unfold preferred_position. now destruct (is_begin_str s). Qed.

Example C104_premises : equality assign_same /\ distinct assign_same [Assignment "x" "1" None false; Assignment "x" "2" None true] /\
  is_begin_str (Some " Begin ") = true /\ is_begin_str (Some "first") = false /\ NoDup (orig_names_of [("a", "b"); ("b", "a")]) /\
  fold_left (add_missing assign_same as_begin) [Assignment "x" "2" None true; Assignment "y" "1" None true; Assignment "z" "1" None false] [Assignment "x" "1" None false]
  = [Assignment "y" "1" None true; Assignment "x" "2" None true; Assignment "x" "1" None false; Assignment "z" "1" None false].
Proof.
  split; [apply C104_equal_assignments|]. split; [repeat constructor; cbn; intuition (subst; reflexivity)|]. repeat split; repeat constructor; cbn; intuition discriminate.
Qed.

Print Assumptions C104_add.
Print Assumptions C104_add_all.
Print Assumptions C104_imports.
Print Assumptions C104_insert.
Print Assumptions C104_together.
Print Assumptions C104_equal_assignments.
Print Assumptions C104_compared_with.
Print Assumptions C104_annotations_kept_refuted.
Print Assumptions C104_names_once_refuted.
Print Assumptions C104_contains_varname.
Print Assumptions C104_rename_of.
Print Assumptions C104_all_new_names_known_refuted.
Print Assumptions C104_names_and_back.
Print Assumptions C104_back.
Print Assumptions C104_listed.
Print Assumptions C104_front.
Print Assumptions C104_position.
