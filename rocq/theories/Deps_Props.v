(** C38, C39: a change reaches all items that depend on it; the loop that does this ends. *)
From Verif Require Import Deps_Model Deps_Spec Deps_Proofs DepsEnd_Proofs DepsOrder_Proofs.
From Coq Require Import Permutation Lia.
Local Open Scope string_scope.
Local Open Scope list_scope.

(** a small example: a.x is given, b.y = a.x + 1, c.z = 10 * a.x + b.y *)
Definition example_file (i : string) : prog nat :=
  if String.eqb i "a" then Ret [("x", 1)]
  else if String.eqb i "b" then Read "a" "x" (fun v => Ret [("y", v + 1)])
  else if String.eqb i "c" then Read "a" "x" (fun v => Read "b" "y" (fun w => Ret [("z", 10 * v + w); ("k", 0)]))
  else Fail KeyError.
(** objects keep the values they know *)
Definition example_init (c : dict nat) : dict nat :=
  flat_map (fun k => match dget k c with Some v => [(k, v)] | None => [] end) ["x"; "y"; "z"; "k"].
Definition example_user (order : st nat -> list string -> list string) : user nat :=
  User nat Nat.eqb example_file (fun _ => []) (fun _ c => Ok (example_init c)) (fun _ _ c => Ok (example_init c)) order.
Definition example_rank (i : string) : nat := if String.eqb i "c" then 2 else if String.eqb i "b" then 1 else 0.
Definition example_keys (i k : string) : bool :=
  (String.eqb i "a" && String.eqb k "x") || (String.eqb i "b" && String.eqb k "y") || (String.eqb i "c" && (String.eqb k "z" || String.eqb k "k")).

Definition run_all {V} (u : user V) (n : nat) (l : list (op V)) : M (st V) unit := iterM (op_run u n) l.

(* ------------------------------------------------------------------ *)
(** * C38 *)

(** After an update, in whatever order dependents are visited, all configs that were up to date before are so again: each is
    what its file yields for the present values of the other items, overridden by the item's persisted updates. The updated
    item itself is an exception if the update was not persisted. *)
Theorem C38_update_reaches_all_dependents : forall V (u : user V) rank n i d persist s s',
  acyclic u rank -> set_order u -> st_wf s ->
  (forall x, clean u s x) -> update u n i d persist s = (s', Ok tt) ->
  forall x, persist = true \/ x <> i -> clean u s' x.
Proof. intros V u rank n i d persist s s' Hac Hord W C E x H. destruct (update_clean u rank Hac Hord n i d persist s s' W E) as [_ X]. auto. Qed.

(** A refresh makes the config of the refreshed item up to date, even if it was not, and keeps the others so. *)
Theorem C38_refresh_brings_up_to_date : forall V (u : user V) rank n i s s',
  acyclic u rank -> set_order u -> st_wf s -> refresh u n i s = (s', Ok tt) ->
  clean u s' i /\ forall x, clean u s x -> clean u s' x.
Proof. intros V u rank n i s s' Hac Hord W E. destruct (refresh_refreshes u rank Hac Hord n i s s' W E) as [_ X]. split; [|intros x H]; apply X; auto. Qed.

(** Loading keeps all configs up to date, even if it fails. *)
Theorem C38_loading_keeps_everything_up_to_date : forall V (u : user V) rank n i s s' r,
  acyclic u rank -> st_wf s -> (forall x, clean u s x) -> load u n i s = (s', r) -> forall x, clean u s' x.
Proof.
  intros V u rank n i s s' r Hac W C E x. destruct (load_loads u rank Hac n i s) as ((_ & _ & X) & _). destruct (X W) as [_ X']. rewrite E in X'. auto.
Qed.

(** So everything is up to date after any sequence of loads, persisted updates and refreshes. *)
Theorem C38_always_up_to_date : forall V (u : user V) rank n l s,
  acyclic u rank -> set_order u -> (forall i d p, In (Update i d p) l -> p = true) ->
  run_all u n l empty_st = (s, Ok tt) -> forall x, clean u s x.
Proof.
  intros V u rank n l s Hac Hord Hp E. assert (G : forall s0, st_wf s0 -> (forall x, clean u s0 x) -> run_all u n l s0 = (s, Ok tt) -> forall x, clean u s x).
  { clear E. induction l as [|o l IH]; intros s0 W C E; unfold run_all in E; cbn [iterM] in E; [injection E as <-; exact C|]. unfold bind in E.
    destruct (op_run u n o s0) as [s1 [[]|e]] eqn:E1; [|discriminate]. assert (X : st_wf s1 /\ forall x, clean u s1 x).
    { destruct o as [i|i d p|i]; cbn [op_run] in E1.
      - destruct (load_loads u rank Hac n i s0) as ((_ & _ & X) & _). destruct (X W) as [W' X']. rewrite E1 in W', X'. split; [exact W'|]. auto.
      - destruct (update_clean u rank Hac Hord n i d p s0 s1 W E1) as [W' X]. split; [exact W'|]. intro x. apply X; [apply C|left].
        apply (Hp i d p). now left.
      - destruct (refresh_refreshes u rank Hac Hord n i s0 s1 W E1) as [W' X]. split; [exact W'|]. auto. }
    destruct X as [W1 C1]. apply (IH (fun i d p H => Hp i d p (or_intror H)) s1 W1 C1 E). }
  apply (G empty_st); [intros i c; discriminate|intros x c; discriminate|exact E].
Qed.

Example C38_acyclic_example : forall order, acyclic (example_user order) example_rank.
Proof.
  intros order i. cbn [example_user u_file]. unfold example_file.
  destruct (String.eqb_spec i "a"); [constructor|]. destruct (String.eqb_spec i "b") as [->|]; [|destruct (String.eqb_spec i "c") as [->|]; [|constructor]].
  - constructor; [cbv; lia|]. intro v. constructor.
  - constructor; [cbv; lia|]. intro v. constructor; [cbv; lia|]. intro w. constructor.
Qed.

(** a.x = 2 changes b and c, and c's own update persists *)
Example C38_example : exists s,
  run_all (example_user (fun _ l => rev l)) 9 [Load "c"; Update "c" [("k", 5)] true; Update "a" [("x", 2)] true] empty_st = (s, Ok tt) /\
  dget "c" (objs s) = Some [("z", 23); ("k", 5)] /\ dget "b" (objs s) = Some [("y", 3)] /\
  dependents "a" s = ["c"; "b"] /\ dependents "b" s = ["c"].
Proof. eexists. split; [vm_compute; reflexivity|]. split; [reflexivity|]. split; [reflexivity|]. split; reflexivity. Qed.

(** The result does not depend on the order: items loaded after both runs have the same attributes and config values. This
    needs that values that compare equal are the same, no section config has values for the items, objects are constructed
    anew from the config, and a file always assigns the same names. *)
Theorem C38_order_does_not_matter : forall V (u : user V) keys rank n i d o1 o2 s s1 s2,
  regular u keys -> acyclic u rank -> set_order (with_order u o1) -> set_order (with_order u o2) -> settled u keys s ->
  update (with_order u o1) n i d true s = (s1, Ok tt) -> update (with_order u o2) n i d true s = (s2, Ok tt) ->
  forall x, (forall c1 c2, dget x (cfgs s1) = Some c1 -> dget x (cfgs s2) = Some c2 -> same_values (vals c1) (vals c2)) /\
            (forall a b, dget x (objs s1) = Some a -> dget x (objs s2) = Some b -> a = b).
Proof. intros V u keys rank n i d o1 o2 s s1 s2 R H. exact (order_independent u keys rank R H n i d o1 o2 s s1 s2). Qed.

(** The states reached by loads, persisted updates and refreshes are such states. *)
Theorem C38_settled_states_are_those_reached : forall V (u : user V) keys rank n l s,
  regular u keys -> acyclic u rank -> set_order u -> (forall i d p, In (Update i d p) l -> p = true) ->
  run_all u n l empty_st = (s, Ok tt) -> settled u keys s.
Proof.
  intros V u keys rank n l s Reg Hac Hord Hp E. assert (G : forall s0, settled u keys s0 -> run_all u n l s0 = (s, Ok tt) -> settled u keys s).
  { clear E. induction l as [|o l IH]; intros s0 S E; unfold run_all in E; cbn [iterM] in E; [injection E as <-; exact S|]. unfold bind in E.
    destruct (op_run u n o s0) as [s1 [[]|e]] eqn:E1; [|discriminate].
    apply (IH (fun i d p H => Hp i d p (or_intror H)) s1); [|exact E]. eapply op_settled; try eassumption.
    destruct o as [i|i d p|i]; auto. apply (Hp i d p). now left. }
  apply (G empty_st); [|exact E]. split; [intros i c; discriminate|]. split; [intros x c; discriminate|]. split; [intros x c k; discriminate|intros x o; discriminate].
Qed.

Example C38_regular_example : forall order, regular (example_user order) example_keys.
Proof.
  intro order. split; cbn [example_user u_eq u_inherited u_init u_apply u_file].
  - intros v w H. now apply Nat.eqb_eq.
  - reflexivity.
  - intros _ c c' H. unfold example_init. cbn [flat_map]. now rewrite !H.
  - reflexivity.
  - intros i objs l d k. unfold example_file, example_keys.
    destruct (String.eqb_spec i "a") as [->|Na]; [|destruct (String.eqb_spec i "b") as [->|Nb]; [|destruct (String.eqb_spec i "c") as [->|Nc]]].
    + intros [= <- <-]. change (dmem k [("x", 1)] = (String.eqb k "x" || false || false)). unfold dmem. cbn [dget]. now destruct (String.eqb k "x").
    + cbn [yields]. destruct (dget "a" objs) as [o|]; [|discriminate]. destruct (dget "x" o) as [v|]; [|discriminate]. intros [= <- <-].
      change (dmem k [("y", v + 1)] = (String.eqb k "y" || false)). unfold dmem. cbn [dget]. now destruct (String.eqb k "y").
    + cbn [yields]. destruct (dget "a" objs) as [o|]; [|discriminate]. destruct (dget "x" o) as [v|]; [|discriminate].
      destruct (dget "b" objs) as [o2|]; [|discriminate]. destruct (dget "y" o2) as [w|]; [|discriminate]. intros [= <- <-].
      change (dmem k [("z", 10 * v + w); ("k", 0)] = (String.eqb k "z" || String.eqb k "k")). unfold dmem. cbn [dget]. now destruct (String.eqb k "z"), (String.eqb k "k").
    + discriminate.
Qed.

(** With values from a section config the order does matter: c.z = a.x - b.y with b.y = a.x stays the same, so c is left alone
    if b is visited first. If c is visited first then the section value replaces the user's persisted update of c.k. *)
Definition section_file (i : string) : prog nat :=
  if String.eqb i "a" then Ret [("x", 1)]
  else if String.eqb i "b" then Read "a" "x" (fun v => Ret [("y", v)])
  else if String.eqb i "c" then Read "a" "x" (fun v => Read "b" "y" (fun w => Ret [("z", v - w); ("k", 0)]))
  else Fail KeyError.
Definition section_user (order : st nat -> list string -> list string) : user nat :=
  User nat Nat.eqb section_file (fun i => if String.eqb i "c" then [("k", 7)] else []) (fun _ c => Ok c) (fun _ _ c => Ok c) order.

Theorem C38_order_does_not_matter_with_section_values_refuted : exists (u : user nat) o1 o2 rank l s s1 s2 c1 c2,
  acyclic u rank /\ set_order (with_order u o1) /\ set_order (with_order u o2) /\ run_all u 9 l empty_st = (s, Ok tt) /\
  update (with_order u o1) 9 "a" [("x", 2)] true s = (s1, Ok tt) /\ update (with_order u o2) 9 "a" [("x", 2)] true s = (s2, Ok tt) /\
  dget "c" (objs s1) = Some c1 /\ dget "c" (objs s2) = Some c2 /\ dget "k" c1 = Some 7 /\ dget "k" c2 = Some 1.
Proof.
  exists (section_user (fun _ l => l)), (fun _ l => l), (fun _ l => rev l), example_rank, [Load "c"; Update "c" [("k", 1)] true].
  do 5 eexists. split.
  { intro i. cbn [section_user u_file]. unfold section_file.
    destruct (String.eqb_spec i "a"); [constructor|]. destruct (String.eqb_spec i "b") as [->|]; [|destruct (String.eqb_spec i "c") as [->|]; [|constructor]].
    - constructor; [cbv; lia|]. intro v. constructor.
    - constructor; [cbv; lia|]. intro v. constructor; [cbv; lia|]. intro w. constructor. }
  split; [intros s l; apply Permutation_refl|]. split; [intros s l; apply Permutation_sym, Permutation_rev|].
  split; [vm_compute; reflexivity|]. split; [vm_compute; reflexivity|]. split; [vm_compute; reflexivity|].
  split; [reflexivity|]. split; [reflexivity|]. split; reflexivity.
Qed.

(** A name that the file assigns only for the new value is not added (unless some stored value changes as well). *)
Theorem C38_new_names_appear_refuted : exists (u : user nat) rank s c l d,
  acyclic u rank /\ set_order u /\
  run_all u 9 [Load "b"; Update "a" [("x", 1)] true] empty_st = (s, Ok tt) /\ dget "b" (cfgs s) = Some c /\
  yields (objs s) (u_file u "b") = Some (l, d) /\ dget "w" d = Some 1 /\ dget "w" (vals c) = None.
Proof.
  exists (User nat Nat.eqb (fun i => if String.eqb i "a" then Ret [("x", 0)] else if String.eqb i "b" then
      Read "a" "x" (fun v => Ret (if Nat.eqb v 0 then [("y", 0)] else [("y", 0); ("w", 1)])) else Fail KeyError)
    (fun _ => []) (fun _ c => Ok c) (fun _ _ c => Ok c) (fun _ l => l)), example_rank.
  do 4 eexists. split.
  { intro i. cbn [u_file]. destruct (String.eqb_spec i "a"); [constructor|]. destruct (String.eqb_spec i "b") as [->|]; [|constructor].
    constructor; [cbv; lia|]. intro v. constructor. }
  split; [intros s l; apply Permutation_refl|]. split; [vm_compute; reflexivity|].
  split; [reflexivity|]. split; [vm_compute; reflexivity|]. split; reflexivity.
Qed.

(** An exception in one dependent leaves those not visited yet out of date, while the update itself stays. *)
Theorem C38_everything_up_to_date_after_an_exception_refuted : exists (u : user nat) rank s s' o,
  acyclic u rank /\ set_order u /\ run_all u 9 [Load "b"; Load "c"] empty_st = (s, Ok tt) /\
  update u 9 "a" [("x", 5)] true s = (s', Raise ValueError) /\ dget "a" (objs s') = Some o /\ dget "x" o = Some 5 /\ ~ clean u s' "c".
Proof.
  exists (User nat Nat.eqb (fun i => if String.eqb i "a" then Ret [("x", 0)] else if String.eqb i "b" then
      Read "a" "x" (fun v => if Nat.eqb v 5 then Fail ValueError else Ret [("y", 0)])
      else if String.eqb i "c" then Read "a" "x" (fun v => Ret [("y", v)]) else Fail KeyError)
    (fun _ => []) (fun _ c => Ok c) (fun _ _ c => Ok c) (fun _ l => l)), example_rank.
  do 3 eexists. split.
  { intro i. cbn [u_file]. destruct (String.eqb_spec i "a"); [constructor|]. destruct (String.eqb_spec i "b") as [->|]; [|destruct (String.eqb_spec i "c") as [->|]; [|constructor]].
    - constructor; [cbv; lia|]. intro v. destruct (Nat.eqb v 5); constructor.
    - constructor; [cbv; lia|]. intro v. constructor. }
  split; [intros s l; apply Permutation_refl|]. split; [vm_compute; reflexivity|]. split; [vm_compute; reflexivity|].
  split; [reflexivity|]. split; [reflexivity|].
  intro C. destruct (C _ eq_refl) as (l & d & Y & _ & U). cbn in Y. injection Y as <- <-. destruct (U "y" 5 0 eq_refl eq_refl) as [X|X]; discriminate X.
Qed.

(** Items that refer to each other, or to themselves, can never be loaded, wherever one starts: nothing says that they go in a circle,
    a name is said to be wrong. [C]: items whose files first of all read from one of them. *)
Theorem C38_cycles_give_up : forall V (u : user V) (C : string -> Prop) n i s,
  (forall x, C x -> exists j k cont, u_file u x = Read j k cont /\ C j) ->
  (forall x, C x -> dget x (cfgs s) = None /\ dget x (objs s) = None) -> C i ->
  snd (load u (S n) i s) = Raise (LibExn "ItemNotFoundException").
Proof.
  intros V u C n i s HC. revert i s. induction n as [|n IH]; intros i s A Hi; destruct (A i Hi) as [Ac Ao]; destruct (HC i Hi) as (j & k & cont & E & Hj);
    rewrite load_eq, Ao, config_get_eq, own_config_eq, Ac, E.
  - reflexivity.
  - cbn [exec]. unfold bind, modify, by_view. destruct (add_dependency_other i j s) as [X Y].
    assert (Z := IH j (add_dependency i j s)). rewrite X, Y in Z. specialize (Z A Hj).
    destruct (load u (S n) j (add_dependency i j s)) as [s1 r]. cbn [snd] in Z. now rewrite Z.
Qed.
Example C38_cycle_example : let u := User nat Nat.eqb (fun i => if String.eqb i "a" then Read "b" "x" (fun v => Ret [("x", v)]) else Read "a" "x" (fun v => Ret [("x", v)]))
    (fun _ => []) (fun _ c => Ok c) (fun _ _ c => Ok c) (fun _ l => l) in
  snd (load u 9 "a" empty_st) = Raise (LibExn "ItemNotFoundException") /\
  forall x, x = "a" \/ x = "b" -> exists j k cont, u_file u x = Read j k cont /\ (j = "a" \/ j = "b").
Proof. split; [vm_compute; reflexivity|]. intros x [-> | ->]; do 3 eexists; (split; [reflexivity|]); auto. Qed.
(** Whatever is read in a config file, a lookup that goes too deep is never reported as such. *)
Theorem C38_depth_is_not_reported : forall V (u : user V) n i s,
  never_raises u RecursionError -> snd (load u (S n) i s) <> Raise RecursionError.
Proof.
  intros V u n i s He. rewrite load_eq. destruct (dget i (objs s)); [discriminate|]. rewrite config_get_eq, own_config_eq.
  destruct (dget i (cfgs s)) as [c|].
  - cbn [snd]. destruct (u_init u i _) as [o|e] eqn:E; [discriminate|]. cbn. intros [= ->]. now apply (proj1 (proj2 He)) in E.
  - assert (X : forall p, never_fails RecursionError p -> forall s0, snd (exec (load u n) i p s0) <> Raise RecursionError).
    { intros p Hp. induction Hp as [d|e' Hn|j k cont _ IH]; intros s0; cbn [exec]; [discriminate | cbn; congruence|].
      unfold bind, modify, gets, by_view. destruct (load u n j (add_dependency i j s0)) as [s1 [[]|e]].
      - destruct (dget j (objs s1)) as [o|]; [|discriminate]. destruct (dget k o); [apply IH|discriminate].
      - destruct e; cbn; discriminate. }
    specialize (X _ (proj1 He i) s). destruct (exec (load u n) i (u_file u i) s) as [s1 [d|e]]; cbn [snd] in *; [|congruence].
    destruct (u_init u i _) as [o|e] eqn:E; [discriminate|]. cbn. intros [= ->]. now apply (proj1 (proj2 He)) in E.
Qed.

(** Without cycles and with enough depth, no update gives up: [N] bounds the length of chains of references. *)
Theorem C38_updates_end : forall V (u : user V) rank U N n i d persist s,
  acyclic u rank -> (forall x, In x U -> reads_within U (u_file u x) /\ rank x <= N) -> (forall e, gave_up e -> never_raises u e) -> set_order u ->
  deps_within rank U s -> In i U -> N + N + length U + 1 < n ->
  (forall e, gave_up e -> snd (update u n i d persist s) <> Raise e) /\ deps_within rank U (fst (update u n i d persist s)).
Proof.
  intros V u rank U N n i d persist s Hac HU He Hord D Hi Hn. destruct (safe_update u rank U N Hac HU He Hord n i d persist Hi Hn s D). auto.
Qed.
Theorem C38_refreshes_end : forall V (u : user V) rank U N n i s,
  acyclic u rank -> (forall x, In x U -> reads_within U (u_file u x) /\ rank x <= N) -> (forall e, gave_up e -> never_raises u e) -> set_order u ->
  deps_within rank U s -> In i U -> N + (N - rank i) + length U + 1 < n ->
  (forall e, gave_up e -> snd (refresh u n i s) <> Raise e) /\ deps_within rank U (fst (refresh u n i s)).
Proof. intros V u rank U N n i s Hac HU He Hord D Hi Hn. destruct (safe_refresh u rank U N Hac HU He Hord n i Hi Hn s D). auto. Qed.
Theorem C38_loads_end : forall V (u : user V) rank U N n i s,
  acyclic u rank -> (forall x, In x U -> reads_within U (u_file u x) /\ rank x <= N) -> (forall e, gave_up e -> never_raises u e) -> set_order u ->
  deps_within rank U s -> In i U -> rank i < n ->
  (forall e, gave_up e -> snd (load u n i s) <> Raise e) /\ deps_within rank U (fst (load u n i s)).
Proof. intros V u rank U N n i s Hac HU He Hord D Hi Hn. destruct (safe_load u rank U N Hac HU He n i Hi Hn s D). auto. Qed.

Example C38_ends_example : forall order n d s, n > 9 -> set_order (example_user order) -> deps_within example_rank ["a"; "b"; "c"] s ->
  forall e, gave_up e -> snd (update (example_user order) n "a" d true s) <> Raise e.
Proof.
  intros order n d s Hn Hord D. apply (C38_updates_end nat (example_user order) example_rank ["a"; "b"; "c"] 2); auto.
  - apply C38_acyclic_example.
  - intros x [<-|[<-|[<-|[]]]]; cbn [example_user u_file]; unfold example_file; cbn [String.eqb]; (split; [|cbv; lia]); cbn;
      repeat (first [apply RWRet|apply RWRead; [cbn; tauto|]|intro]).
  - intros e G. split; [|split; intros; discriminate]. intro i. cbn [example_user u_file]. unfold example_file.
    destruct G as [-> | ->]; destruct (String.eqb i "a"), (String.eqb i "b"), (String.eqb i "c"); repeat (first [apply NFRet|apply NFRead|apply NFFail; discriminate|intro]).
  - now left.
  - cbn. lia.
Qed.

Example C38_order_example : exists s s1 s2 o,
  run_all (example_user (fun _ l => l)) 9 [Load "c"; Load "b"] empty_st = (s, Ok tt) /\
  update (example_user (fun _ l => l)) 9 "a" [("x", 2)] true s = (s1, Ok tt) /\
  update (example_user (fun _ l => rev l)) 9 "a" [("x", 2)] true s = (s2, Ok tt) /\
  dget "c" (objs s1) = Some o /\ dget "c" (objs s2) = Some o /\ dget "c" (objs s) <> Some o.
Proof. do 4 eexists. split; [vm_compute; reflexivity|]. split; [vm_compute; reflexivity|]. split; [vm_compute; reflexivity|]. split; [reflexivity|]. split; [reflexivity|discriminate]. Qed.

(* ------------------------------------------------------------------ *)
(** * C39 *)

(** The loop does the same as refreshing the items of some list, in which no item occurs twice, one after the other; [deps_of]
    gives the dependents recorded in a state and [refresh] may do anything, also change the dependents. If nothing is raised
    then all items that depend on the changed one in the end were refreshed. [RecursionError] stands for a loop that goes on
    for ever: it takes a list longer than any bound. *)
Theorem C39_each_dependent_refreshed_once : forall T (deps_of : T -> list string) order refresh n s s' r,
  (forall s l, Permutation (order s l) l) -> (forall s, NoDup (deps_of s)) ->
  dep_loop deps_of order refresh n (deps_of s) [] s = (s', r) ->
  exists l, NoDup l /\
    match iterM refresh l s with
    | (s1, Ok _) => s1 = s' /\ (r = Ok tt /\ incl (deps_of s') l \/ r = Raise RecursionError /\ n <= length l)
    | (s1, Raise e) => s1 = s' /\ r = Raise e
    end.
Proof.
  intros T deps_of order refresh n s s' r Hord Hnd E.
  destruct (dep_loop_trace deps_of order refresh Hord (fun _ => True) (fun _ => True) n) with (upd := deps_of s) (done := @nil string) (s := s) (s' := s') (r := r)
    as (l & N & _ & H); auto.
  exists l. split; [exact N|]. destruct (iterM refresh l s) as [s1 [[]|e]]; [|exact H]. destruct H as [-> [[-> H]|H]]; (split; [reflexivity|]); [left|right; exact H].
  split; [reflexivity|]. intros x Hx. destruct (H x Hx) as [|[]]. assumption.
Qed.

(** The exception for unresolvable dependencies is never raised by the loop itself. *)
Theorem C39_loop_never_raises_resolve_error : forall T (deps_of : T -> list string) order refresh n s,
  (forall s l, Permutation (order s l) l) -> (forall s, NoDup (deps_of s)) ->
  (forall x s, snd (refresh x s) <> Raise resolve_error) ->
  snd (dep_loop deps_of order refresh n (deps_of s) [] s) <> Raise resolve_error.
Proof.
  intros T deps_of order refresh n s Hord Hnd Hr. destruct (dep_loop deps_of order refresh n (deps_of s) [] s) as [s' r] eqn:E.
  destruct (C39_each_dependent_refreshed_once T deps_of order refresh n s s' r Hord Hnd E) as (l & _ & H). cbn [snd].
  assert (I : forall l s, snd (iterM refresh l s) <> Raise resolve_error).
  { intro l0. induction l0 as [|a l0 IH]; intro s0; cbn [iterM]; [discriminate|]. unfold bind. specialize (Hr a s0).
    destruct (refresh a s0) as [s2 [[]|e]]; [apply IH|exact Hr]. }
  specialize (I l s). destruct (iterM refresh l s) as [s1 [[]|e]].
  - destruct H as [_ [[-> _]|[-> _]]]; discriminate.
  - destruct H as [_ ->]. exact I.
Qed.

(** Nor is it by updates and refreshes, of which it is a part, unless user code raises it. *)
Theorem C39_updates_never_raise_resolve_error : forall V (u : user V) n i d persist s,
  set_order u -> never_raises u resolve_error ->
  snd (update u n i d persist s) <> Raise resolve_error /\ snd (refresh u n i s) <> Raise resolve_error.
Proof.
  intros V u n i d persist s Hord H. split.
  - apply (never_update u resolve_error H); [discriminate|intros [X|X]; discriminate].
  - apply (never_refresh u resolve_error H); [discriminate|intros [X|X]; discriminate].
Qed.

(** If only finitely many items can ever depend on the changed one then the loop ends. *)
Theorem C39_loop_ends : forall T (deps_of : T -> list string) order refresh U n s,
  (forall s l, Permutation (order s l) l) -> (forall s, NoDup (deps_of s)) -> (forall s, incl (deps_of s) U) ->
  (forall x s, snd (refresh x s) <> Raise RecursionError) -> length U < n ->
  snd (dep_loop deps_of order refresh n (deps_of s) [] s) <> Raise RecursionError.
Proof.
  intros T deps_of order refresh U n s Hord Hnd HU Hr Hn. destruct (dep_loop deps_of order refresh n (deps_of s) [] s) as [s' r] eqn:E.
  destruct (dep_loop_trace deps_of order refresh Hord (fun _ => True) (fun x => In x U) n) with (upd := deps_of s) (done := @nil string) (s := s) (s' := s') (r := r)
    as (l & N & Hl & H); auto.
  { intros s0 x _. apply HU. } { apply HU. }
  assert (I : forall l s, snd (iterM refresh l s) <> Raise RecursionError).
  { intro l0. induction l0 as [|a l0 IH]; intro s0; cbn [iterM]; [discriminate|]. unfold bind. specialize (Hr a s0).
    destruct (refresh a s0) as [s2 [[]|e]]; [apply IH|exact Hr]. }
  specialize (I l s). destruct (iterM refresh l s) as [s1 [[]|e]].
  - destruct H as [_ [[-> _]|[-> H]]]; [discriminate|]. assert (X := NoDup_incl_length N (fun x Hx => proj1 (Hl x Hx))). lia.
  - destruct H as [_ ->]. exact I.
Qed.

(** ... and otherwise it may not: here each refresh adds a dependent. *)
Theorem C39_loop_ends_refuted : exists (deps_of : nat -> list string) refresh,
  (forall s, NoDup (deps_of s)) /\ (forall x s, snd (refresh x s) = Ok tt) /\
  forall n, snd (dep_loop deps_of (fun _ l => l) refresh n (deps_of 1) [] 1) = Raise RecursionError.
Proof.
  set (name := fix name k := match k with 0 => "" | S k => String "x" (name k) end). set (deps_of := fun k => map name (seq 0 k)).
  assert (L : forall k, String.length (name k) = k).
  { induction k as [|k IH]; [reflexivity|]. cbn [name String.length]. now rewrite IH. }
  assert (Inj : forall a b, name a = name b -> a = b) by (intros a b H; rewrite <- (L a), <- (L b); now rewrite H).
  assert (In_deps : forall k x, In (name k) (deps_of x) <-> k < x).
  { intros k x. unfold deps_of. rewrite in_map_iff. split; [intros (y & E & H); apply Inj in E as ->; apply in_seq in H; lia|].
    intro H. exists k. split; [reflexivity|]. apply in_seq. lia. }
  exists deps_of, (fun _ k => (S k, Ok tt)). split; [|split; [reflexivity|]].
  { intro s. unfold deps_of. generalize (seq_NoDup s 0). generalize (seq 0 s). induction 1 as [|x l Hx _ IH]; [constructor|]. cbn [map]. constructor; [|exact IH].
    intro H. apply in_map_iff in H as (y & E & H). apply Inj in E as ->. contradiction. }
  assert (G : forall n k done, (forall x, In x done <-> exists y, y < k /\ x = name y) ->
    snd (dep_loop deps_of (fun _ l => l) (fun _ k => (S k, Ok tt)) n [name k] done (S k)) = Raise RecursionError).
  { induction n as [|n IH]; intros k done Hd; [reflexivity|]. rewrite dep_loop_eq by discriminate. cbn [iterM]. unfold bind, ret.
    assert (E : minus (deps_of (S (S k))) (done ++ [name k]) = [name (S k)]).
    { assert (D : forall x, mem (name x) (done ++ [name k]) = (x <=? k)%nat).
      { intro x. destruct (mem (name x) (done ++ [name k])) eqn:M; symmetry.
        - apply mem_In, in_app_iff in M as [M|[M|[]]].
          + apply Hd in M as (y & Hy & E). apply Inj in E as ->. apply Nat.leb_le. lia.
          + apply Inj in M as ->. apply Nat.leb_le. lia.
        - apply Nat.leb_gt. apply mem_false in M. destruct (Nat.lt_ge_cases k x) as [|H]; [assumption|]. exfalso. apply M, in_app_iff.
          destruct (Nat.eq_dec x k) as [->|]; [right; now left|left]. apply Hd. exists x. split; [lia|reflexivity]. }
      unfold minus, deps_of. rewrite (seq_S (S k) 0), map_app, filter_app. cbn [map filter Nat.add].
      assert (F : filter (fun x => negb (mem x (done ++ [name k]))) (map name (seq 0 (S k))) = []).
      { assert (A : forall l, (forall y, In y l -> y <= k) -> filter (fun x => negb (mem x (done ++ [name k]))) (map name l) = []).
        { induction l as [|y l IHl]; intro Hl; [reflexivity|]. cbn [map filter]. rewrite D. replace (y <=? k)%nat with true by (symmetry; apply Nat.leb_le, Hl; now left).
          apply IHl. intros z Hz. apply Hl. now right. }
        apply A. intros y Hy. apply in_seq in Hy. lia. }
      rewrite F, D. replace (S k <=? k)%nat with false by (symmetry; apply Nat.leb_gt; lia). reflexivity. }
    rewrite E. apply IH. intro x. rewrite in_app_iff, Hd. cbn [In]. split.
    - intros [(y & H & ->)|[<-|[]]]; [exists y|exists k]; (split; [lia|reflexivity]).
    - intros (y & H & ->). destruct (Nat.eq_dec y k) as [->|]; [right; now left|left]. exists y. split; [lia|reflexivity]. }
  intro n. apply (G n 0 []). intro x. split; [intros []|]. intros (y & H & _). lia.
Qed.

(** dependents that appear while the loop runs are refreshed as well: refreshing "b" makes "d" a dependent *)
Example C39_example : exists s,
  dep_loop (fun s : list string * list string => fst s) (fun _ l => rev l)
    (fun x s => ((if String.eqb x "b" then ["b"; "c"; "d"] else fst s, snd s ++ [x]), Ok tt)) 9 ["b"; "c"] [] (["b"; "c"], []) = (s, Ok tt) /\
  snd s = ["c"; "b"; "d"].
Proof. eexists. split; [vm_compute; reflexivity|]. reflexivity. Qed.

Print Assumptions C38_update_reaches_all_dependents.
Print Assumptions C38_refresh_brings_up_to_date.
Print Assumptions C38_loading_keeps_everything_up_to_date.
Print Assumptions C38_always_up_to_date.
Print Assumptions C38_order_does_not_matter.
Print Assumptions C38_settled_states_are_those_reached.
Print Assumptions C38_order_does_not_matter_with_section_values_refuted.
Print Assumptions C38_new_names_appear_refuted.
Print Assumptions C38_everything_up_to_date_after_an_exception_refuted.
Print Assumptions C38_cycles_give_up.
Print Assumptions C38_depth_is_not_reported.
Print Assumptions C38_updates_end.
Print Assumptions C38_refreshes_end.
Print Assumptions C38_loads_end.
Print Assumptions C39_each_dependent_refreshed_once.
Print Assumptions C39_loop_never_raises_resolve_error.
Print Assumptions C39_updates_never_raise_resolve_error.
Print Assumptions C39_loop_ends.
Print Assumptions C39_loop_ends_refuted.
