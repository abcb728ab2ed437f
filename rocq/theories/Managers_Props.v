(** C93: what is done to other managers does not matter for a manager. *)
From Verif Require Import Managers_Spec Managers_Proofs Iterate_Example.
Local Open Scope string_scope.
Local Open Scope list_scope.

(** Two histories with the same operations on a manager, and any operations on other managers in between: the manager is in the
    same state afterwards (configs, loaded objects, calls made), and what is done with it next gives the same. *)
Theorem C93_only_own_operations_matter : forall U n ops ops' w, dwf w -> minds_own U n -> same_own n ops ops' ->
  let a := after U ops w in
  let b := after U ops' w in
  dget n a = dget n b /\
  forall o, on_it n o -> snd (wop_run U o a) = snd (wop_run U o b) /\ dget n (fst (wop_run U o a)) = dget n (fst (wop_run U o b)).
Proof.
  intros U n ops ops' w W L H a b. assert (S : same n a b) by (apply histories; trivial; now repeat split).
  split; [exact (proj2 S)|]. intros o O. destruct (own_op U n L o O a b S) as [[_ H1] H2]. now split.
Qed.

(** In particular operations on other managers alone change nothing, whatever their code looks at. *)
Theorem C93_other_operations_do_not_matter : forall U n ops w, (forall o, In o ops -> elsewhere n o) ->
  dget n (after U ops w) = dget n w.
Proof.
  intros U n. induction ops as [|o ops IH]; intros w H; [reflexivity|]. unfold after in *. cbn [fold_left].
  rewrite IH by (intros; apply H; now right). apply (other_op U n o (H o (or_introl eq_refl)) w).
Qed.

(** Operations on a manager change no other one. *)
Theorem C93_operations_change_one_manager : forall U n m o w, on_it n o -> m <> n -> dget m (fst (wop_run U o w)) = dget m w.
Proof.
  intros U n m o w O N. apply (other_op U m o). destruct o; cbn [on_it elsewhere] in *.
  - congruence.
  - intros q b I. exists n. split; [congruence|now apply (O q b)].
  - intros q I. exists n. split; [congruence|now apply O].
  - exists n. split; [congruence|exact O].
  - destruct O as [O1 O2]. split; intros; exists n; (split; [congruence|eauto]).
  - congruence.
  - congruence.
Qed.

(** A batch that updates several managers and succeeds does for each of them what its own part does. *)
Theorem C93_batch_of_several_managers : forall U n base strip updates own w w', dwf w -> minds_own U n -> part_for n base strip updates own ->
  batch_update U [] base strip updates w = (w', Ok tt) ->
  snd (batch_update U [] base strip own w) = Ok tt /\ dget n w' = dget n (fst (batch_update U [] base strip own w)).
Proof.
  intros U n base strip updates own w w' W L P H.
  destruct (batch_for U n base strip updates own L P w w w') as [H1 [_ H2]]; [now repeat split|exact H|]. now split.
Qed.

(** One that fails at another manager may not get to it. *)
Theorem C93_failing_batch_refuted : exists U n updates own w, dwf w /\ minds_own U n /\ part_for n None false updates own /\
  snd (batch_update U [] None false own w) = Ok tt /\
  dget n (fst (batch_update U [] None false updates w)) = dget n w /\ dget n (fst (batch_update U [] None false own w)) <> dget n w.
Proof.
  exists ex_U, "n", [(LStr "m.none", vals [("a", VInt 1)]); (LStr "n.x", vals [("k", VInt 6)])], [(LStr "n.x", vals [("k", VInt 6)])], ex_w.
  split; [repeat (apply NoDup_cons; [cbn; intuition discriminate|]); apply NoDup_nil|]. split; [now intros w w'|].
  split; [apply pf_other; [exists "m"; split; [discriminate|split; [reflexivity|right; now exists "none"]]|]; apply pf_own; [split; [reflexivity|right; now exists "x"]|apply pf_nil]|].
  split; [vm_compute; reflexivity|]. split; [vm_compute; reflexivity|]. vm_compute. discriminate.
Qed.

(** Code that looks at other managers is affected by what is done to them. *)
Theorem C93_curious_code_refuted : exists U n o o' w, dwf w /\ elsewhere n o /\ on_it n o' /\
  snd (wop_run U o' (after U [o] w)) <> snd (wop_run U o' w) /\ dget n (after U [o] w) = dget n w.
Proof.
  exists mg_curious, "n", (WOn "m" (RRun Plain (AStr "f"))), (WOn "n" (RRun Plain (AStr "x"))), ex_w.
  split; [repeat (apply NoDup_cons; [cbn; intuition discriminate|]); apply NoDup_nil|]. split; [discriminate|]. split; [reflexivity|].
  split; [vm_compute; discriminate|vm_compute; reflexivity].
Qed.

(** run_product of one manager leaves every other one alone, even if it is given views of the other's items (they stand for the
    items with the same paths in this manager, C31). *)
Theorem C93_foreign_views : forall U n m paths updates collect w, m <> n -> has_char dot m = false -> m <> "" ->
  dget n (fst (wop_run U (WProduct m paths updates collect) w)) = dget n w.
Proof.
  intros U n m paths updates collect w N D E. apply (other_op U n). exists m. split; [exact N|]. split; [|exact E]. split; [exact D|now left].
Qed.

(** The two example histories: with and without what is done to manager m, which fails, is iterated over and closed. *)
Example C93_example :
  same_own "n" mg_busy mg_idle /\ minds_own mg_U "n" /\ dwf ex_w /\
  dget "n" (after mg_U mg_busy ex_w) = dget "n" (after mg_U mg_idle ex_w) /\ dget "m" (after mg_U mg_busy ex_w) = None /\
  option_map (fun p => List.length (r_calls (pm_rs p))) (dget "n" (after mg_U mg_busy ex_w)) = Some 3 /\
  option_map (fun p => List.length (r_calls (pm_rs p))) (dget "m" (after mg_U (firstn 5 mg_busy) ex_w)) = Some 3.
Proof.
  assert (B : forall m r, has_char dot m = false -> begins (m ++ "." ++ r)%string m) by (intros m r D; split; [exact D|right; now exists r]).
  split.
  - unfold mg_busy, mg_idle. apply so_left; [discriminate|]. apply so_own; [reflexivity|]. apply so_left; [discriminate|].
    apply so_left; [intros q b [[= <- <-]|[[= <- <-]|[]]]; exists "m"; (split; [discriminate|]); [exact (B "m" "f" eq_refl)|exact (B "m" "sec.h" eq_refl)]|].
    apply so_left; [exists "m"; split; [discriminate|split; [split; [reflexivity|now left]|discriminate]]|].
    apply so_own; [intros q b _; split; [discriminate|split; [reflexivity|now left]]|].
    apply so_left; [discriminate|]. apply so_left; [discriminate|]. apply so_own; [split; [split; [reflexivity|now left]|discriminate]|]. apply so_nil.
  - split; [now intros w w'|]. split; [repeat (apply NoDup_cons; [cbn; intuition discriminate|]); apply NoDup_nil|].
    split; [vm_compute; reflexivity|]. split; [vm_compute; reflexivity|]. split; vm_compute; reflexivity.
Qed.

Print Assumptions C93_only_own_operations_matter.
Print Assumptions C93_other_operations_do_not_matter.
Print Assumptions C93_operations_change_one_manager.
Print Assumptions C93_batch_of_several_managers.
Print Assumptions C93_failing_batch_refuted.
Print Assumptions C93_curious_code_refuted.
Print Assumptions C93_foreign_views.
