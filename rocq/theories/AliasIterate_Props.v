(** C91: run_product takes one deep copy of every update; the cases share the copies, and share the config's own objects
    for what they do not update. *)
From Verif Require Import AliasIterate_Spec AliasIterate_Proofs Alias_Proofs Config_Proofs.
Local Open Scope list_scope.

(** the copies have the contents of what was given, in new lists that no two updates share *)
Theorem C91_updates_are_copied : forall h updates,
  Forall (refs_ok h) updates ->
  exists n copies, copy_updates h updates = (h ++ n, copies) /\ length copies = length updates
    /\ (forall i, i < length updates -> copy_of h (nth i updates []) (h ++ n) (nth i copies []))
    /\ (forall i j l, holds (nth i copies []) l -> holds (nth j copies []) l -> i = j).
Proof.
  intros h updates R. destruct (copy_updates_spec updates h R) as (n & copies & E & L & C & S).
  exists n, copies. split; [exact E|]. split; [exact L|]. split; [intros i Hi; now apply C|exact S].
Qed.

(** within one update, keys that shared a list share its copy, and others do not *)
Theorem C91_copy_keeps_sharing : forall h d,
  refs_ok h d ->
  exists h' f, deepcopy h d = (h', map (fun kv => (fst kv, match snd kv with HVal v => HVal v | HRef l => HRef (f l) end)) d)
    /\ (forall l l', holds d l -> holds d l' -> f l = f l' -> l = l').
Proof.
  intros h d R. destruct (deepcopy_spec h d R) as (n & f & E & _ & I). exists (h ++ n), f. split; [exact E|exact I].
Qed.

(** the run is a sequence of calls as in C90, none of which changes a list in place (but for what the function does) *)
Theorem C91_run_product_is_calls : forall file params body s updates picks,
  reached file params body s -> Forall key_ok (dkeys (h_vals s)) -> Forall (update_ok (h_heap s)) updates ->
  exists ops, fst (a_run_product params body updates picks s) = h_steps file params body ops s
    /\ calls_ok file params body ops s /\ Forall changes_nothing ops.
Proof.
  intros file params body s updates picks R K U. pose proof (reached_ok _ _ _ _ R) as A. pose proof A as [[V1 V2] _ _ _].
  unfold a_run_product. destruct (copy_updates_spec updates (h_heap s)) as (n & copies & -> & L & C & S).
  { revert U. apply Forall_impl. intros d Ud. apply Ud. }
  destruct (news_steps file params body n s) as [E1 C1]. rewrite <- E1.
  destruct (a_cases_ops file params body (h_vals s) (map (fun i => nth i copies []) picks) (h_steps file params body (map ANew n) s) None)
    as (ops & E2 & C2 & N2).
  - rewrite E1; cbn. split; [exact V1|]. split; [now apply refs_ok_app|exact K].
  - rewrite E1; cbn. rewrite Forall_forall. intros d I. apply in_map_iff in I as (i & <- & _). now apply (copies_ok updates).
  - exists (map ANew n ++ ops). rewrite h_steps_app. split; [|split].
    + destruct (a_cases _ _ _ _ _ _) as [[s' last'] r]. exact E2.
    + apply calls_app; [exact C1|exact C2].
    + apply Forall_app. split; [|exact N2]. rewrite Forall_forall. intros o I. apply in_map_iff in I as (c & <- & _). exact Logic.I.
Qed.

(** if the function changes no list, the run is the one with values: every case is filled with the defaults, the update is
    left out if the filled case equals the one before, and the function runs with the config *)
Theorem C91_values_suffice : forall name ref file params body s updates picks,
  reached file params body s -> Forall key_ok (map fst file) -> Forall key_ok (dkeys (h_vals s)) -> pure_body body ->
  Forall (update_ok (h_heap s)) updates -> Forall (fun i => i < length updates) picks ->
  let '(t, _, r) := v_cases params (dcontents (h_heap s) (h_vals s)) (map (fun i => dcontents (h_heap s) (nth i updates [])) picks)
                            (seen name ref s) None in
  seen name ref (fst (a_run_product params body updates picks s)) = t /\ snd (a_run_product params body updates picks s) = r.
Proof.
  intros name ref file params body s updates picks R Kf K P U Pk. pose proof (reached_ok _ _ _ _ R) as A. pose proof A as [[V1 V2] [A1 [A2 A3]] L0 F].
  unfold a_run_product. destruct (copy_updates_spec updates (h_heap s)) as (n & copies & -> & L & C & S).
  { revert U. apply Forall_impl. intros d Ud. apply Ud. }
  set (s0 := HS (h_heap s ++ n) (h_vals s) (h_applied s) (h_loaded s) (h_calls s)).
  assert (ast_ok file s0) as A0 by (unfold s0; apply ast_grow; now destruct s).
  assert (seen name ref s0 = seen name ref s) as Es.
  { unfold seen, s0; cbn [h_heap h_vals h_applied h_loaded h_calls]. rewrite !dcontents_app by assumption. f_equal.
    destruct (h_loaded s) as [kw|] eqn:El; [|reflexivity]. cbn [option_map]. now rewrite dcontents_app by now apply L0. }
  pose proof (a_cases_seen name ref file params body (h_vals s) (map (fun i => nth i copies []) picks) s0 None A0 Kf P) as E.
  assert (dcontents (h_heap s0) (h_vals s) = dcontents (h_heap s) (h_vals s)) as Ed by now apply dcontents_app.
  assert (map (dcontents (h_heap s0)) (map (fun i => nth i copies []) picks) = map (fun i => dcontents (h_heap s) (nth i updates [])) picks) as Ec.
  { rewrite map_map. apply map_ext_in. intros i I. rewrite Forall_forall in Pk. specialize (Pk i I).
    destruct (C i Pk) as [(_ & C2 & _) _]. exact C2. }
  rewrite Ed, Ec, Es in E. cbn [option_map] in E.
  destruct (a_cases params body (h_vals s) (map (fun i => nth i copies []) picks) s0 None) as [[s' last'] r].
  rewrite E; [auto| |].
  - unfold s0; cbn. split; [exact V1|]. split; [now apply refs_ok_app|exact K].
  - rewrite Forall_forall. intros d I. apply in_map_iff in I as (i & <- & _). now apply (copies_ok updates).
Qed.

(** whatever the function does to its arguments, the lists that the config does not hold stay as they are; so do the ones in
    the updates given *)
Theorem C91_given_lists_stay : forall file params body s updates picks l,
  Forall (refs_ok (h_heap s)) updates -> l < length (h_heap s) -> ~ held file s l ->
  nth l (h_heap (fst (a_run_product params body updates picks s))) [] = nth l (h_heap s) [].
Proof.
  intros file params body s updates picks l R L N. unfold a_run_product.
  destruct (copy_updates_spec updates (h_heap s) R) as (n & copies & -> & Lc & C & S).
  assert (forall i, ~ holds (nth i copies []) l) as Nc.
  { intros i H. destruct (Nat.lt_ge_cases i (length updates)) as [Li|Li].
    - destruct (C i Li) as [(_ & _ & D) _]. specialize (D l H). apply (Nat.lt_irrefl l). eapply Nat.lt_le_trans; [exact L|apply D].
    - rewrite nth_overflow in H by (now rewrite Lc). destruct H as (k & []). }
  set (s0 := HS (h_heap s ++ n) (h_vals s) (h_applied s) (h_loaded s) (h_calls s)).
  pose proof (a_cases_frame params body l (h_vals s) (map (fun i => nth i copies []) picks) s0 None) as E.
  destruct (a_cases _ _ _ _ _ _) as [[s' last'] r]. cbn [fst] in *. rewrite E.
  - unfold s0; cbn. now rewrite app_nth1.
  - intro H. apply N. now left.
  - rewrite Forall_forall. intros d I. apply in_map_iff in I as (i & <- & _). apply Nc.
  - intro H. apply N. now left.
  - intros kw E' H. apply N. right; right; left. exists kw. auto.
Qed.

(** what the function gets in a case: if the config was updated, the present contents of the case's objects; if not, those of
    the objects the config has, whatever the case says *)
Theorem C91_case_arguments : forall file params body s defaults conf last s' last' u,
  reached file params body s -> (forall k, In k params -> In k (map fst file)) ->
  update_ok (h_heap s) (dupdate defaults conf) ->
  a_case params body defaults conf s last = (s', last', Ok u) ->
  exists args, h_calls s' = h_calls s ++ [args]
    /\ forall k, In k params ->
         dget k args = option_map (contents (h_heap s))
                         (match (if u then dget k (dupdate defaults conf) else None) with
                          | Some x => Some x
                          | None => dget k (h_vals s)
                          end).
Proof.
  intros file params body s defaults conf last s' last' u R Sub U E.
  pose proof (a_case_ops file params body defaults conf s last) as H. rewrite E in H.
  destruct H as (b & _ & -> & _ & H1 & H2). set (filled := dupdate defaults conf) in *.
  set (s1 := if b then fst (h_update filled true s) else s).
  assert (h_steps file params body (case_ops b filled) s = fst (h_step file params body ARun s1)) as E1 by (unfold s1; now destruct b).
  assert (reached file params body s1) as R1.
  { unfold s1. destruct b; [|exact R].
    apply (reached_more _ _ _ _ [AUpdate filled true] R). apply calls_cons; [exact U|apply calls_nil]. }
  assert (h_heap s1 = h_heap s /\ h_calls s1 = h_calls s) as [Hh Hc].
  { unfold s1. destruct b; [|auto]. unfold h_update. now destruct (would_update_loop _ _) as [[|]|]. }
  pose proof (reached_loaded _ _ _ _ Sub R1) as [_ Lk].
  exists (dcontents (h_heap s1) (keywords params s1)). split; [rewrite E1; cbn; now rewrite Hc|].
  intros k Ik.
  assert (existsb (String.eqb k) params = true) as Ek by (apply existsb_exists; exists k; split; [exact Ik|apply String.eqb_refl]).
  rewrite dcontents_get, Hh.
  assert (dget k (keywords params s1) = dget k (h_vals s1)) as ->.
  { unfold keywords. destruct (h_loaded s1) as [kw|] eqn:El; [rewrite (Lk kw k eq_refl)|rewrite dget_dfilter]; now rewrite Ek. }
  f_equal. destruct u.
  - destruct (H1 eq_refl) as [-> Hu]. unfold s1. unfold h_update in *.
    destruct (would_update_loop _ _) as [[|]|]; try discriminate. cbn. now apply dget_dupdate, U.
  - destruct (H2 eq_refl) as [Hv _]. rewrite E1 in Hv. cbn in Hv. now rewrite Hv.
Qed.

(** not so: every case runs with the values given for it. The case is repeated (as with updates of another item), its list is
    the same copy, which the function has changed. *)
Theorem C91_case_gets_its_values_refuted : exists file params body s updates picks k,
  reached file params body s /\ Forall (update_ok (h_heap s)) updates /\
  map (dget k) (h_calls (fst (a_run_product params body updates picks s)))
  <> map (fun i => dget k (dcontents (h_heap s) (nth i updates []))) picks
  /\ snd (a_run_product params body updates picks s) = Ok tt.
Proof.
  exists ax_file, ax_params, ax_body, (h_load ax_file ap_heap), ap_updates, [0; 0], "xs"%string. split; [|split; [|split]].
  - exists ap_heap, []. split; [repeat constructor|]. split; [apply calls_nil|reflexivity].
  - unfold ap_updates, update_ok, dwf, refs_ok, key_ok. repeat constructor; vm_compute; intuition discriminate.
  - vm_compute. discriminate.
  - vm_compute. reflexivity.
Qed.

(** not so: what the function gets is what the case contains. The first case equals the config, so the config keeps its own
    list; the second equals the first, so nothing is updated although the config's list has changed. *)
Theorem C91_case_describes_call_refuted : exists file params body s updates picks k,
  reached file params body s /\ Forall (update_ok (h_heap s)) updates /\
  exists s' copies h r, a_run_product params body updates picks s = (s', r) /\ r = Ok tt
    /\ copy_updates (h_heap s) updates = (h, copies)
    /\ (exists a b, h_calls s' = [a; b]
         /\ dget k b <> dget k (dcontents (h_heap s') (nth (nth 1 picks 0) copies []))
         /\ dget k (dcontents (h_heap s') (nth (nth 1 picks 0) copies [])) = dget k (dcontents (h_heap s) (nth (nth 1 picks 0) updates []))).
Proof.
  exists ax_file, ax_params, ax_body, (h_load ax_file (ap_heap ++ [[VInt 1]])), [[("xs"%string, HRef 3)]], [0; 0], "xs"%string.
  split; [|split].
  - exists (ap_heap ++ [[VInt 1]]), []. split; [repeat constructor|]. split; [apply calls_nil|reflexivity].
  - unfold update_ok, dwf, refs_ok, key_ok. repeat constructor; vm_compute; intuition discriminate.
  - eexists _, _, _, _. split; [vm_compute; reflexivity|]. split; [reflexivity|]. split; [vm_compute; reflexivity|].
    eexists _, _. split; [reflexivity|]. split; [vm_compute; discriminate|]. vm_compute. reflexivity.
Qed.

(** not so: the result of a case depends on the case only, not on the ones before *)
Theorem C91_cases_are_independent_refuted : exists file params body s updates i picks k,
  reached file params body s /\ Forall (update_ok (h_heap s)) updates /\
  exists a b d, h_calls (fst (a_run_product params body updates [i] s)) = [a]
    /\ h_calls (fst (a_run_product params body updates (picks ++ [i]) s)) = b ++ [d] /\ dget k a <> dget k d.
Proof.
  exists ax_file, ax_params, ax_body, (h_load ax_file ap_heap), ap_updates, 0, [0; 1], "xs"%string. split; [|split].
  - exists ap_heap, []. split; [repeat constructor|]. split; [apply calls_nil|reflexivity].
  - unfold ap_updates, update_ok, dwf, refs_ok, key_ok. repeat constructor; vm_compute; intuition discriminate.
  - eexists _, [_; _], _. split; [vm_compute; reflexivity|]. split; [vm_compute; reflexivity|]. vm_compute. discriminate.
Qed.

Example C91_ex_run :
  map (dget "xs") (h_calls (fst (a_run_product ax_params ax_body ap_updates [0; 0; 1; 1] (h_load ax_file ap_heap))))
  = [Some (VList [VInt 2]); Some (VList [VInt 2; VInt 9]); Some (VList [VInt 3]); Some (VList [VInt 3; VInt 9])]
  /\ firstn 3 (h_heap (fst (a_run_product ax_params ax_body ap_updates [0; 0; 1; 1] (h_load ax_file ap_heap)))) = ap_heap.
Proof. vm_compute. auto. Qed.
Example C91_ex_premises :
  file_ok ap_heap ax_file /\ Forall key_ok (dkeys (h_vals (h_load ax_file ap_heap))) /\
  ~ held ax_file (h_load ax_file ap_heap) 1 /\ pure_body (fun _ => []).
Proof.
  split; [repeat constructor|]. split; [vm_compute; repeat constructor; discriminate|]. split; [|intro; reflexivity].
  intros [(k & I)|[(k & [])|[(kw & E & _)|(k & I)]]]; vm_compute in *; intuition congruence.
Qed.

Print Assumptions C91_updates_are_copied.
Print Assumptions C91_copy_keeps_sharing.
Print Assumptions C91_run_product_is_calls.
Print Assumptions C91_values_suffice.
Print Assumptions C91_given_lists_stay.
Print Assumptions C91_case_arguments.
Print Assumptions C91_case_gets_its_values_refuted.
Print Assumptions C91_case_describes_call_refuted.
Print Assumptions C91_cases_are_independent_refuted.
