(** Property theorems C07 (one update), C08 (refresh), C09 (change detection). Specification
    vocabulary: Config_Spec. [cfg_checked_update] / [cfg_checked_refresh] are the manager's
    update/refresh on one item's config. *)
From Verif Require Import Config_Model Config_Spec Config_Proofs.
Local Open Scope string_scope.
Local Open Scope list_scope.

(** ** C07 *)
(** a request with a real change stores keywords over dict over old values, touches no other key, and
    records all requested values iff it is persistent *)
Theorem C07_change_stores_exactly_the_request : forall c d persist kwargs,
  dwf (opt_dict d) -> dwf kwargs -> no_clash ["config_"; "E"] kwargs ->
  comparable (c_vals c) (dupdate (opt_dict d) kwargs) ->
  really_changes (c_vals c) (dupdate (opt_dict d) kwargs) ->
  exists c', cfg_checked_update c d persist kwargs = Ok (c', true) /\
    c_name c' = c_name c /\ c_file c' = c_file c /\
    (forall k, dget k (c_vals c') =
       match dget k kwargs with
       | Some v => Some v
       | None => match dget k (opt_dict d) with Some v => Some v | None => dget k (c_vals c) end
       end) /\
    (forall k, dget k (c_applied c') =
       if persist then match dget k kwargs with
                       | Some v => Some v
                       | None => match dget k (opt_dict d) with Some v => Some v | None => dget k (c_applied c) end
                       end
       else dget k (c_applied c)).
Proof.
  intros c d p kw Hd Hk Hn Hc Hr. exists (cfg_update c d p kw).
  split; [now apply checked_update_change|]. split; [reflexivity|]. split; [reflexivity|]. split.
  - intro k. now apply cfg_update_get.
  - intro k. cbn. destruct p; [|reflexivity]. rewrite dget_dupdate by now apply dupdate_wf.
    rewrite dget_dupdate by exact Hk. now destruct (dget k kw), (dget k (opt_dict d)).
Qed.

Theorem C07_otherwise_nothing_changes : forall c d persist kwargs,
  dwf (opt_dict d) -> no_clash ["config_"] kwargs ->
  comparable (c_vals c) (dupdate (opt_dict d) kwargs) ->
  ~ really_changes (c_vals c) (dupdate (opt_dict d) kwargs) ->
  cfg_checked_update c d persist kwargs = Ok (c, false).
Proof. exact checked_update_nochange. Qed.

(** a request naming only keys the config does not have is dropped without any error *)
Theorem C07_new_keys_alone_are_dropped : forall c d persist kwargs,
  dwf (opt_dict d) -> no_clash ["config_"] kwargs ->
  (forall k v, dget k (dupdate (opt_dict d) kwargs) = Some v -> dget k (c_vals c) = None) ->
  cfg_checked_update c d persist kwargs = Ok (c, false).
Proof.
  intros c d p kw Hd Hn H. apply checked_update_nochange; try assumption.
  - intros k o n H1 H2. specialize (H k n H2). congruence.
  - intros (k & o & n & H1 & H2 & _). specialize (H k n H2). congruence.
Qed.

(** so the natural contract "a successful update makes the value readable" is false *)
Theorem C07_update_then_read_refuted : exists c kwargs k v c' b,
  cfg_checked_update c None true kwargs = Ok (c', b) /\ dget k kwargs = Some v /\ dget k (c_vals c') <> Some v.
Proof.
  exists (Cfg (Some "f") [("a", VInt 1)] [] None), [("new", VInt 5)], "new", (VInt 5). do 2 eexists.
  split; [reflexivity|]. split; [reflexivity|]. cbn. discriminate.
Qed.

Definition ex_c : config := Cfg (Some "f") [("a", VInt 1); ("b", VStr "x")] [] None.
Example C07_ex_change :
  cfg_checked_update ex_c (Some [("a", VInt 2); ("n", VNone)]) true [("a", VInt 3)]
  = Ok (Cfg (Some "f") [("a", VInt 3); ("b", VStr "x"); ("n", VNone)] [("a", VInt 3); ("n", VNone)] None, true)
  /\ really_changes (c_vals ex_c) (dupdate [("a", VInt 2); ("n", VNone)] [("a", VInt 3)])
  /\ comparable (c_vals ex_c) (dupdate [("a", VInt 2); ("n", VNone)] [("a", VInt 3)]).
Proof.
  split; [reflexivity|]. split.
  - now exists "a", (VInt 1), (VInt 3).
  - intros k o n H1 H2. cbn in *. destruct (k =? "a"); [injection H1 as <-; injection H2 as <-; now exists false|].
    destruct (k =? "n"); [|discriminate]. injection H2 as <-.
    destruct (k =? "b"); [|discriminate]. injection H1 as <-. now exists false.
Qed.
Example C07_ex_nochange : cfg_checked_update ex_c None true [("n", VNone)] = Ok (ex_c, false).
Proof. reflexivity. Qed.

(** ** C08 *)
(** what a refresh stores after any history, starting from a freshly loaded config *)
Theorem C08_refresh_after_any_history : forall name ref file0 ops c file log k,
  dwf file0 -> Forall hop_wf ops ->
  hrun (loaded_config name ref file0, file0) ops = ((c, file), log) ->
  no_clash ["self"; "pyfileconf_persist"; "E"] (refresh_updates c file) ->
  exists c' u, cfg_refresh c file = Ok (c', u) /\
    dget k (c_vals c') = match last_persisted k log with
                         | Some v => Some v
                         | None => match dget k file with Some v => Some v | None => dget k (c_vals c) end
                         end.
Proof.
  intros name ref f0 ops c file log k Hf Hops Hrun Hn.
  destruct (hrun_applied ops (loaded_config name ref f0, f0) k) as [(W1 & W2 & W3) A]; [|exact Hops|].
  { repeat split; cbn; [constructor|exact Hf|exact Hf]. }
  rewrite Hrun in W1, W2, W3, A. cbn [fst snd loaded_config c_applied dget] in *.
  destruct (refresh_value c file k W2 W1 Hn) as (c' & E & _ & V).
  exists c', (refresh_updates c file). split; [exact E|]. rewrite V, A. now destruct (last_persisted k log).
Qed.

(** the manager's refresh does this exactly when some present key would change ... *)
Theorem C08_manager_refresh_when_changed : forall c file,
  dwf file -> comparable (c_vals c) (refresh_updates c file) ->
  really_changes (c_vals c) (refresh_updates c file) ->
  cfg_checked_refresh c file = match cfg_refresh c file with
                               | Ok (c', u) => Ok (c', true, u) | Raise e => Raise e end.
Proof. intros c file H1 H2. now apply checked_refresh_decides. Qed.

(** ... and nothing at all otherwise (so a key newly added to the file is not picked up alone) *)
Theorem C08_manager_refresh_when_unchanged : forall c file,
  dwf file -> comparable (c_vals c) (refresh_updates c file) ->
  ~ really_changes (c_vals c) (refresh_updates c file) ->
  cfg_checked_refresh c file = Ok (c, false, []).
Proof. intros c file H1 H2. now apply checked_refresh_decides. Qed.

(** a refresh never forgets a persisted update and records none *)
Theorem C08_refresh_keeps_record : forall c file c' b u,
  cfg_checked_refresh c file = Ok (c', b, u) -> c_applied c' = c_applied c.
Proof.
  intros c file c' b u H. apply checked_refresh_inv in H as [(_ & -> & _)|(_ & H)]; [reflexivity|].
  now apply cfg_refresh_shape in H as (_ & H & _).
Qed.

(** "a persistent update survives every refresh" is false: an update equal to the current value is
    not recorded, so a later edit of the file wins over it *)
Theorem C08_persisted_always_survives_refuted : exists name ref file0 ops c file log k v d,
  hrun (loaded_config name ref file0, file0) ops = ((c, file), log) /\
  ops = [HUpdate None true d; HEdit [(k, VInt 9)]; HRefresh] /\ dget k d = Some v /\
  dget k (c_vals c) = Some (VInt 9) /\ v <> VInt 9.
Proof.
  exists "f", ([], "f.py"), [("a", VInt 1)], [HUpdate None true [("a", VInt 1)]; HEdit [("a", VInt 9)]; HRefresh].
  do 3 eexists. exists "a", (VInt 1), [("a", VInt 1)]. repeat split; discriminate.
Qed.

Definition ex_hist : list hop :=
  [HUpdate None true [("a", VInt 5)]; HUpdate None false [("b", VInt 6)];
   HEdit [("a", VInt 10); ("b", VInt 20); ("c", VInt 30)]; HRefresh].
Example C08_ex :
  let '((c, file), log) := hrun (loaded_config "f" ([], "f.py") [("a", VInt 1); ("b", VInt 2)],
                                 [("a", VInt 1); ("b", VInt 2)]) ex_hist in
  c_vals c = [("a", VInt 5); ("b", VInt 20); ("c", VInt 30)] /\ last_persisted "a" log = Some (VInt 5) /\
  last_persisted "b" log = None /\ Forall hop_wf ex_hist /\
  no_clash ["self"; "pyfileconf_persist"; "E"] (refresh_updates c file).
Proof.
  cbn. repeat split; try (repeat constructor; cbn; intuition discriminate).
  intros n [<-|[<-|[<-|[]]]]; reflexivity.
Qed.

(** ** C09 *)
(** with every needed comparison having a truth value: a change is reported iff a present key gets a
    value comparing unequal *)
Theorem C09_change_iff : forall c d persist kwargs,
  dwf (opt_dict d) -> no_clash ["config_"; "E"] kwargs ->
  comparable (c_vals c) (dupdate (opt_dict d) kwargs) ->
  ((exists c', cfg_checked_update c d persist kwargs = Ok (c', true)) <->
   really_changes (c_vals c) (dupdate (opt_dict d) kwargs)).
Proof.
  intros c d p kw Hd Hn Hc.
  destruct (wul_comparable (c_vals c) (dupdate (opt_dict d) kw)) as [Ht Hf]; [now apply dupdate_wf|exact Hc|].
  split.
  - intros [c' H]. apply Ht. unfold cfg_checked_update in H.
    destruct (dmem "config_" kw); [discriminate|]. unfold would_update in H. cbn [opt_dict] in H.
    rewrite dupdate_nil_r in H. now destruct (would_update_loop _ _) as [[]|].
  - intro H. eexists. now apply checked_update_change.
Qed.

(** in general: the keys are examined in order, the first that is unequal decides, and one whose
    comparison has no truth value before that makes the call raise ValueError and change nothing *)
Theorem C09_raise_iff : forall vals updates e,
  would_update_loop vals updates = Raise e <->
  exists before k v old after, updates = before ++ (k, v) :: after /\
    dget k vals = Some old /\ values_are_equal old v = Raise e /\
    (forall k' v' old', In (k', v') before -> dget k' vals = Some old' -> values_are_equal old' v' = Ok true).
Proof. exact wul_raise. Qed.

Theorem C09_true_iff : forall vals updates,
  would_update_loop vals updates = Ok true <->
  exists before k v old after, updates = before ++ (k, v) :: after /\
    dget k vals = Some old /\ values_are_equal old v = Ok false /\
    (forall k' v' old', In (k', v') before -> dget k' vals = Some old' -> values_are_equal old' v' = Ok true).
Proof. exact wul_true. Qed.

Theorem C09_raises_only_value_error : forall vals updates e,
  would_update_loop vals updates = Raise e -> e = ValueError.
Proof. exact wul_raise_value_error. Qed.

Theorem C09_raising_comparison_is_a_change : forall x y : pyval,
  py_eq x y = EqRaise -> (forall i c, x <> VFrame i c) -> (forall i c, y <> VFrame i c) ->
  values_are_equal x y = Ok false.
Proof.
  intros x y H H1 H2.
  destruct x; try (now elim (H1 _ _ eq_refl)); destruct y; try (now elim (H2 _ _ eq_refl));
    cbn [values_are_equal]; now rewrite ?H.
Qed.

Theorem C09_frames_compared_by_content : forall i c j c',
  values_are_equal (VFrame i c) (VFrame j c') = Ok (Nat.eqb c c').
Proof. reflexivity. Qed.

Theorem C09_frame_differs_from_everything_else : forall i c (x : pyval),
  (forall j c', x <> VFrame j c') ->
  values_are_equal (VFrame i c) x = Ok false /\ values_are_equal x (VFrame i c) = Ok false.
Proof. intros i c x H. destruct x; try (now elim (H _ _ eq_refl)); split; reflexivity. Qed.

(** 1 and True (0 and False) count as equal, so replacing one by the other is not a change *)
Theorem C09_bool_int : forall b : bool,
  values_are_equal (VInt (if b then 1 else 0)%Z) (VBool b) = Ok true /\
  values_are_equal (VBool b) (VInt (if b then 1 else 0)%Z) = Ok true.
Proof. intros []; split; reflexivity. Qed.

(** storing an array over anything but a frame (even over itself) raises *)
Theorem C09_array_raises : forall i (x : pyval),
  (forall j c, x <> VFrame j c) -> (forall j, x <> VBadEq j) ->
  values_are_equal (VArray i) x = Raise ValueError /\ values_are_equal x (VArray i) = Raise ValueError.
Proof.
  intros i x H1 H2. destruct x; try (now elim (H1 _ _ eq_refl)); try (now elim (H2 _ eq_refl)); split; reflexivity.
Qed.

(** an ordinary value is never a change over itself *)
Theorem C09_same_value_no_change : forall x, plain x = true -> values_are_equal x x = Ok true.
Proof. exact values_refl_plain. Qed.

Example C09_ex :
  cfg_checked_update ex_c None true [("a", VBool true)] = Ok (ex_c, false) /\
  cfg_checked_update ex_c None true [("a", VArray 0)] = Raise ValueError /\
  (exists c', cfg_checked_update ex_c None true [("b", VInt 0); ("a", VArray 0)] = Ok (c', true)) /\
  py_eq (VBadEq 1) (VBadEq 1) = EqRaise.
Proof. repeat split; try reflexivity. eexists. reflexivity. Qed.

(* ------------------------------------------------------------------ *)
(** * C58 *)

(** Attribute access on a config tells whether the key exists, but never its value: it is None for every key. *)
Theorem C58_config_attribute_is_none : forall c k v, dget k (c_vals c) = Some v -> cfg_getattr c k = Ok VNone.
Proof. intros c k v H. unfold cfg_getattr, dmem. now rewrite H. Qed.
Theorem C58_missing_attribute_raises : forall c k, dget k (c_vals c) = None -> cfg_getattr c k = Raise AttributeError.
Proof. intros c k H. unfold cfg_getattr, dmem. now rewrite H. Qed.
Theorem C58_attribute_is_value_refuted : exists c k v, dget k (c_vals c) = Some v /\ cfg_getattr c k <> Ok v.
Proof.
  exists (cfg_update empty_config None true [("x", VInt 1)]), "x", (VInt 1). split; [reflexivity|discriminate].
Qed.

Print Assumptions C07_change_stores_exactly_the_request.
Print Assumptions C07_otherwise_nothing_changes.
Print Assumptions C07_new_keys_alone_are_dropped.
Print Assumptions C07_update_then_read_refuted.
Print Assumptions C08_refresh_after_any_history.
Print Assumptions C08_manager_refresh_when_changed.
Print Assumptions C08_manager_refresh_when_unchanged.
Print Assumptions C08_refresh_keeps_record.
Print Assumptions C08_persisted_always_survives_refuted.
Print Assumptions C09_change_iff.
Print Assumptions C09_raise_iff.
Print Assumptions C09_true_iff.
Print Assumptions C09_raises_only_value_error.
Print Assumptions C09_raising_comparison_is_a_change.
Print Assumptions C09_frames_compared_by_content.
Print Assumptions C09_frame_differs_from_everything_else.
Print Assumptions C09_bool_int.
Print Assumptions C09_array_raises.
Print Assumptions C09_same_value_no_change.
Print Assumptions C58_config_attribute_is_none.
Print Assumptions C58_missing_attribute_raises.
Print Assumptions C58_attribute_is_value_refuted.
