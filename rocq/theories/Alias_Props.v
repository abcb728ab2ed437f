(** C90: config values are the objects themselves, never copies: what the library does with lists that others hold and
    change in place, and when treating objects as values is enough. *)
From Verif Require Import Alias_Spec Alias_Proofs Config_Proofs.
Local Open Scope list_scope.

(** if nobody changes a list in place, the item behaves as in the model where objects are values *)
Theorem C90_values_suffice : forall name ref file params body h ops,
  file_ok h file -> Forall key_ok (map fst file) ->
  calls_ok file params body ops (h_load file h) -> Forall changes_nothing ops -> pure_body body ->
  seen name ref (h_steps file params body ops (h_load file h))
  = v_steps params (seen_ops file params body ops (h_load file h)) (VS (loaded_config name ref (file_values file h)) None []).
Proof.
  intros name ref file params body h ops F K C N P.
  rewrite steps_seen; [|now apply load_ok|assumption..]. f_equal.
  unfold h_load. destruct (eval_file_new file h F) as (n & new & -> & _ & C1 & _).
  unfold seen, loaded_config; cbn [h_heap h_vals h_applied h_loaded h_calls option_map]. now rewrite C1.
Qed.

(** in any state, whatever was changed in place before: an update, refresh or reset does to the present contents what it
    does in the model where objects are values, with the same result *)
Theorem C90_steps_on_present_contents : forall name ref file params body s o,
  reached file params body s -> Forall key_ok (map fst file) -> aop_ok (h_heap s) o ->
  o = ARefresh \/ o = AReset \/ (exists d persist, o = AUpdate d persist) ->
  seen name ref (fst (h_step file params body o s)) = fst (v_step params (seen_op file o s) (seen name ref s))
  /\ snd (h_step file params body o s) = snd (v_step params (seen_op file o s) (seen name ref s)).
Proof.
  intros name ref file params body s o R K O E. apply step_seen; [now apply reached_ok with params body|exact K|exact O| |].
  - destruct E as [->|[->|(d & p & ->)]]; exact I.
  - destruct E as [->|[->|(d & p & ->)]]; discriminate.
Qed.

(** the library itself changes no list: update, refresh and reset at most add new ones *)
Theorem C90_library_changes_no_list : forall file params body s o l,
  reached file params body s -> o = ARefresh \/ o = AReset \/ (exists d persist, o = AUpdate d persist) ->
  l < length (h_heap s) ->
  nth l (h_heap (fst (h_step file params body o s))) [] = nth l (h_heap s) [].
Proof.
  intros file params body s o l R E L.
  destruct (step_grows file params body o s) as (n & ->); [now apply reached_ok with params body| |].
  - destruct E as [->|[->|(d & p & ->)]]; exact I.
  - now rewrite app_nth1.
Qed.

(** a run changes nothing but the lists that are values of the parameters *)
Theorem C90_run_changes_arguments_only : forall file params body s l,
  ~ holds (keywords params s) l ->
  nth l (h_heap (fst (h_step file params body ARun s))) [] = nth l (h_heap s) []
  /\ h_vals (fst (h_step file params body ARun s)) = h_vals s
  /\ h_applied (fst (h_step file params body ARun s)) = h_applied s.
Proof. intros file params body s l N. cbn. split; [now apply change_args_other|auto]. Qed.

(** changing a list in place changes, at once, the value of exactly the keys that hold it: in the config, in the updates
    that a refresh applies again, and in the loaded item. The library does nothing. *)
Theorem C90_in_place_change : forall file params body s l c,
  l < length (h_heap s) ->
  let s' := fst (h_step file params body (APut l c) s) in
  h_vals s' = h_vals s /\ h_applied s' = h_applied s /\ h_loaded s' = h_loaded s
  /\ forall d k, dget k (dcontents (h_heap s') d) = option_map (now l c (h_heap s)) (dget k d).
Proof.
  intros file params body s l c L s'. repeat split. intros d k. rewrite dcontents_get.
  destruct (dget k d) as [x|]; [|reflexivity]. cbn [option_map]. f_equal. now apply put_contents.
Qed.

(** every run passes what the objects in the config contain at that moment, whether the item was loaded before or not *)
Theorem C90_run_passes_present_contents : forall file params body s,
  reached file params body s -> (forall k, In k params -> In k (map fst file)) ->
  exists args, h_calls (fst (h_step file params body ARun s)) = h_calls s ++ [args]
    /\ forall k, dget k args = if existsb (String.eqb k) params then option_map (contents (h_heap s)) (dget k (h_vals s)) else None.
Proof.
  intros file params body s R Sub. exists (dcontents (h_heap s) (keywords params s)). split; [reflexivity|].
  intro k. rewrite dcontents_get. pose proof (reached_loaded _ _ _ _ Sub R) as [_ L].
  unfold keywords. destruct (h_loaded s) as [kw|] eqn:E.
  - rewrite (L kw k eq_refl). now destruct (existsb (String.eqb k) params).
  - rewrite dget_dfilter. now destruct (existsb (String.eqb k) params).
Qed.

(** an update that changes something puts the very objects given into the config, for all keys given; an update that
    changes nothing takes none of them *)
Theorem C90_update_takes_objects : forall file params body s d persist,
  dwf d ->
  let s' := fst (h_step file params body (AUpdate d persist) s) in
  match snd (h_step file params body (AUpdate d persist) s) with
  | Ok true => forall k, dget k (h_vals s') = match dget k d with Some x => Some x | None => dget k (h_vals s) end
  | _ => s' = s
  end.
Proof.
  intros file params body s d persist W. cbn. unfold h_update.
  destruct (would_update_loop _ _) as [[|]|e]; [|reflexivity..]. cbn. intro k. now apply dget_dupdate.
Qed.

(** giving the objects that the config has already is never a change, whatever was done to them *)
Theorem C90_same_objects_no_update : forall file params body s d persist,
  (forall k x, In (k, x) d -> dget k (h_vals s) = Some x /\ plain (contents (h_heap s) x) = true) ->
  h_step file params body (AUpdate d persist) s = (s, Ok false).
Proof. intros file params body s d persist H. cbn. unfold h_update. now rewrite wul_same. Qed.

(** a reset that changes something restores what the file says, and forgets the updates; one that changes nothing found
    every value equal to what the file says *)
Theorem C90_reset_restores : forall file params body s,
  reached file params body s ->
  let s' := fst (h_step file params body AReset s) in
  match snd (h_step file params body AReset s) with
  | Ok true => dcontents (h_heap s') (h_vals s') = file_values file (h_heap s) /\ h_applied s' = []
  | Ok false => h_vals s' = h_vals s /\ h_applied s' = h_applied s
      /\ forall k v, In (k, v) (file_values file (h_heap s)) ->
           exists v', dget k (dcontents (h_heap s) (h_vals s)) = Some v' /\ values_are_equal v' v = Ok true
  | Raise _ => h_vals s' = h_vals s /\ h_applied s' = h_applied s
  end.
Proof.
  intros file params body s R. pose proof (reached_ok _ _ _ _ R) as A. pose proof A as [[V1 V2] _ _ F].
  cbn. unfold h_reset. destruct (eval_file_new file (h_heap s) F) as (n & new & -> & R1 & C1 & W1).
  rewrite C1, dcontents_app by exact V2.
  destruct (would_update_loop _ _) as [[|]|e] eqn:E; cbn; [auto| |auto]. repeat split.
  intros k v I.
  assert (dmem k (h_vals s) = true) as M.
  { apply (reached_keys _ _ _ _ R). apply (file_values_keys file (h_heap s)). apply (in_map fst) in I. exact I. }
  unfold dmem in M. rewrite dcontents_get. destruct (dget k (h_vals s)) as [x|] eqn:G; [|discriminate].
  exists (contents (h_heap s) x). split; [reflexivity|].
  apply (proj1 (wul_false _ _) E k v); [exact I|]. now rewrite dcontents_get, G.
Qed.

(** a refresh that changes something gives every key what the persisted updates contain now, else what the file says now,
    else leaves it; the persisted updates stay the same objects *)
Theorem C90_refresh_gives_present_contents : forall file params body s,
  reached file params body s ->
  let s' := fst (h_step file params body ARefresh s) in
  h_applied s' = h_applied s
  /\ match snd (h_step file params body ARefresh s) with
     | Ok true => forall k, dget k (dcontents (h_heap s') (h_vals s'))
                            = match dget k (h_applied s) with
                              | Some x => Some (contents (h_heap s) x)
                              | None => match dget k (file_values file (h_heap s)) with
                                        | Some v => Some v
                                        | None => option_map (contents (h_heap s)) (dget k (h_vals s))
                                        end
                              end
     | _ => h_vals s' = h_vals s
     end.
Proof.
  intros file params body s R. pose proof (reached_ok _ _ _ _ R) as A. pose proof A as [[V1 V2] [A1 [A2 A3]] _ F].
  cbn [h_step]. unfold h_refresh. destruct (eval_file_new file (h_heap s) F) as (n & new & -> & R1 & C1 & W1).
  destruct (would_update_loop _ _) as [[|]|e] eqn:E; cbn [fst snd h_vals h_applied]; [|auto|auto].
  destruct (eval_file_new file (h_heap s ++ n)) as (n2 & new2 & -> & R2 & C2 & W2); [now apply file_ok_app|].
  cbn [fst snd h_vals h_applied h_heap].
  split; [reflexivity|]. intro k.
  rewrite !dcontents_update, C2, file_values_app by assumption.
  rewrite <- app_assoc, !dcontents_app by assumption.
  rewrite !dget_dupdate; [|now apply dcontents_wf|apply dupdate_wf, file_values_wf].
  rewrite !dcontents_get. destruct (dget k (h_applied s)); [reflexivity|]. cbn.
  now destruct (dget k (file_values file (h_heap s))).
Qed.

(** a list written out in the file is a new one at every execution, and a different one for every name *)
Theorem C90_file_lists_are_new : forall file h,
  file_ok h file ->
  (forall k c, assigned file k = Some (FxList c) ->
     exists l, dget k (h_vals (h_load file h)) = Some (HRef l) /\ length h <= l)
  /\ (forall k k' l, length h <= l ->
        dget k (h_vals (h_load file h)) = Some (HRef l) -> dget k' (h_vals (h_load file h)) = Some (HRef l) -> k = k').
Proof.
  intros file h F. pose proof (eval_file_lists file h F) as H. unfold h_load.
  destruct (eval_file file h []) as [h' new]. exact H.
Qed.

(** and so a reset that changes something leaves no list of the caller or of the function in the config, unless the file
    imports it *)
Theorem C90_reset_lets_go : forall file params body s k l,
  reached file params body s -> snd (h_step file params body AReset s) = Ok true -> l < length (h_heap s) ->
  dget k (h_vals (fst (h_step file params body AReset s))) = Some (HRef l) -> assigned file k = Some (FxName l).
Proof.
  intros file params body s k l R E L G. cbn in E, G. unfold h_reset in E, G.
  pose proof (eval_file_get file (h_heap s) [] k) as H.
  destruct (eval_file file (h_heap s) []) as [h' new]; cbn in H.
  destruct (would_update_loop _ _) as [[|]|e]; try discriminate. cbn in G.
  destruct H as [[H _]|[(v & _ & H)|[(l' & N & H)|(c & l' & _ & H & B)]]]; rewrite G in H; try discriminate.
  - injection H as <-. exact N.
  - injection H as <-. exfalso. apply (Nat.lt_irrefl l). eapply Nat.lt_le_trans; eassumption.
Qed.

(** lists that the item does not hold do not matter: changing one in place changes no later call of the function and no
    value of the config, as long as the list is not given to the item *)
Theorem C90_other_lists_do_not_matter : forall file params body s l c ops,
  reached file params body s -> l < length (h_heap s) -> ~ held file s l ->
  calls_ok file params body ops s -> Forall (fun o => ~ mentions o l) ops ->
  let s1 := h_steps file params body ops s in
  let s2 := h_steps file params body ops (fst (h_step file params body (APut l c) s)) in
  h_calls s2 = h_calls s1 /\ h_vals s2 = h_vals s1
  /\ dcontents (h_heap s2) (h_vals s2) = dcontents (h_heap s1) (h_vals s1).
Proof.
  intros file params body s l c ops R L N C M s1 s2.
  pose proof (sim_steps file params body l ops s _ (reached_ok _ _ _ _ R) C M (sim_put file l c s L N)) as S.
  fold s1 in S. change (h_steps file params body ops _) with s2 in S. destruct S as [S1 S2 S3 S4 S5 S6 S7 S8].
  repeat split; [congruence..|]. rewrite <- S3. symmetry. apply (same_but_contents l); [repeat split; assumption|].
  intro H. apply S8. now left.
Qed.

(** not so: running twice without any change in between passes the same arguments. The function appended to its list,
    which is the one in the config. *)
Theorem C90_runs_repeat_refuted : exists file params body s,
  reached file params body s /\
  exists a b, h_calls (h_steps file params body [ARun; ARun] s) = [a; b] /\ a <> b.
Proof.
  exists ax_file, ax_params, ax_body, (h_load ax_file ax_heap). split.
  - exists ax_heap, []. split; [repeat constructor|]. split; [apply calls_nil|reflexivity].
  - eexists _, _. split; [vm_compute; reflexivity|discriminate].
Qed.

(** not so: the lists a caller gives stay as they are *)
Theorem C90_given_lists_stay_refuted : exists file params body s d,
  reached file params body s /\ aop_ok (h_heap s) (AUpdate d true) /\
  exists l, holds d l /\ nth l (h_heap (h_steps file params body [AUpdate d true; ARun] s)) [] <> nth l (h_heap s) [].
Proof.
  exists ax_file, ax_params, ax_body, (h_load ax_file ax_heap), [("xs"%string, HRef 1)]. split; [|split].
  - exists ax_heap, []. split; [repeat constructor|]. split; [apply calls_nil|reflexivity].
  - vm_compute. repeat split; repeat constructor; try discriminate; intuition discriminate.
  - exists 1. split; [exists "xs"%string; now left|]. vm_compute. discriminate.
Qed.

(** not so: a changed list is noticed when it is given again. (Then nothing is refreshed that depends on the config.) *)
Theorem C90_changed_list_noticed_refuted : exists file params body s l c d,
  reached file params body s /\ aop_ok (h_heap s) (APut l c) /\ holds d l /\
  contents (h_heap (fst (h_step file params body (APut l c) s))) (HRef l) <> contents (h_heap s) (HRef l) /\
  snd (h_step file params body (AUpdate d true) (fst (h_step file params body (APut l c) s))) = Ok false.
Proof.
  exists ax_file, ax_params, ax_body, (h_steps ax_file ax_params ax_body [AUpdate [("xs"%string, HRef 1)] true] (h_load ax_file ax_heap)).
  exists 1, [VInt 3], [("xs"%string, HRef 1)]. split; [|split; [|split; [|split]]].
  - exists ax_heap, [AUpdate [("xs"%string, HRef 1)] true]. split; [repeat constructor|]. split; [ok_calls|reflexivity].
  - vm_compute. repeat constructor.
  - exists "xs"%string. now left.
  - vm_compute. discriminate.
  - vm_compute. reflexivity.
Qed.

(** not so: a refresh brings a persisted update back to what it was when given *)
Theorem C90_refresh_brings_back_refuted : exists file params body s d k,
  reached file params body s /\ aop_ok (h_heap s) (AUpdate d true) /\
  let s1 := fst (h_step file params body (AUpdate d true) s) in
  let s2 := h_steps file params body [ARun; ARefresh] s1 in
  dget k (dcontents (h_heap s2) (h_vals s2)) <> dget k (dcontents (h_heap s1) (h_vals s1)).
Proof.
  exists ax_file, ax_params, ax_body, (h_load ax_file ax_heap), [("xs"%string, HRef 1)], "xs"%string. split; [|split].
  - exists ax_heap, []. split; [repeat constructor|]. split; [apply calls_nil|reflexivity].
  - vm_compute. repeat split; repeat constructor; try discriminate; intuition discriminate.
  - vm_compute. discriminate.
Qed.

(** not so: after a reset the config has nothing to do with the lists given before. If the list was changed in place to
    what the file says, the reset finds nothing to do and the config keeps the caller's list. *)
Theorem C90_reset_always_lets_go_refuted : exists file params body s l,
  reached file params body s /\ ~ (exists k, assigned file k = Some (FxName l)) /\ l < length (h_heap s) /\
  holds (h_vals (fst (h_step file params body AReset s))) l.
Proof.
  exists ax_file, ax_params, ax_body,
    (h_steps ax_file ax_params ax_body [AUpdate [("xs"%string, HRef 1)] true; APut 1 [VInt 1]] (h_load ax_file ax_heap)), 1.
  split; [|split; [|split]].
  - exists ax_heap, [AUpdate [("xs"%string, HRef 1)] true; APut 1 [VInt 1]].
    split; [repeat constructor|]. split; [ok_calls|reflexivity].
  - intros (k & E). cbn in E.
    destruct (String.eqb k "ys"); [discriminate|]. destruct (String.eqb k "n"); [discriminate|].
    destruct (String.eqb k "xs"); discriminate.
  - vm_compute. repeat constructor.
  - exists "xs"%string. vm_compute. now left.
Qed.

(** examples: the function appends to its list; after a reset the file's list is back; the imported list is seen through
    the file; a list the caller keeps for themselves plays no part *)
Example C90_ex_runs :
  map (dget "xs") (h_calls (h_steps ax_file ax_params ax_body
        [ARun; ARun; AReset; ARun; AUpdate [("xs"%string, HRef 1)] true; ARun; ARun; AReset; ARun] (h_load ax_file ax_heap)))
  = [Some (VList [VInt 1]); Some (VList [VInt 1; VInt 9]); Some (VList [VInt 1]);
     Some (VList [VInt 2]); Some (VList [VInt 2; VInt 9]); Some (VList [VInt 1])].
Proof. vm_compute. reflexivity. Qed.
Example C90_ex_import :
  let s := h_steps ax_file ax_params ax_body [APut 0 [VInt 8]] (h_load ax_file ax_heap) in
  dget "ys" (dcontents (h_heap s) (h_vals s)) = Some (VList [VInt 8])
  /\ snd (h_step ax_file ax_params ax_body AReset s) = Ok false.
Proof. vm_compute. auto. Qed.
Example C90_ex_calls_ok :
  calls_ok ax_file ax_params ax_body [AUpdate [("xs"%string, HRef 1)] true; ARun; ARefresh] (h_load ax_file ax_heap)
  /\ file_ok ax_heap ax_file /\ Forall key_ok (map fst ax_file) /\ (forall k, In k ax_params -> In k (map fst ax_file))
  /\ ~ held ax_file (h_load ax_file ax_heap) 1.
Proof.
  split; [ok_calls|]. split; [repeat constructor|]. split; [repeat constructor; discriminate|]. split.
  - intros k [<-|[<-|[]]]; cbn; auto.
  - intros [(k & I)|[(k & [])|[(kw & E & _)|(k & I)]]]; vm_compute in *; intuition congruence.
Qed.

Print Assumptions C90_values_suffice.
Print Assumptions C90_steps_on_present_contents.
Print Assumptions C90_library_changes_no_list.
Print Assumptions C90_run_changes_arguments_only.
Print Assumptions C90_in_place_change.
Print Assumptions C90_run_passes_present_contents.
Print Assumptions C90_update_takes_objects.
Print Assumptions C90_same_objects_no_update.
Print Assumptions C90_reset_restores.
Print Assumptions C90_refresh_gives_present_contents.
Print Assumptions C90_file_lists_are_new.
Print Assumptions C90_reset_lets_go.
Print Assumptions C90_other_lists_do_not_matter.
Print Assumptions C90_runs_repeat_refuted.
Print Assumptions C90_given_lists_stay_refuted.
Print Assumptions C90_changed_list_noticed_refuted.
Print Assumptions C90_refresh_brings_back_refuted.
Print Assumptions C90_reset_always_lets_go_refuted.
