(** Proofs for C30, C31 and C56. *)
From Verif Require Import Iterate_Model Config_Spec ConfigTree_Spec Runner_Spec Iterate_Spec SectionPath_Proofs Config_Proofs ConfigTree_Proofs ConfigOps_Proofs ConfigLoad_Proofs Runner_Proofs RunnerOps_Proofs Product_Proofs Iterate_Proofs IterateRun_Proofs IterateCase_Proofs.
From Coq Require Import Lia.
Local Open Scope list_scope.
Local Open Scope monad_scope.

(* ------------------------------------------------------------------ *)
(** * C31 *)

Lemma manager_of_app m p : has_char dot m = false -> manager_of (mk_sp (m ++ "." ++ p)) = m /\ relative (mk_sp (m ++ "." ++ p)) = p.
Proof.
  intro Hm. unfold manager_of, relative. change (m ++ "." ++ p)%string with (m ++ String dot p)%string.
  cbn [sections mk_sp path_str]. unfold section_path_str_to_section_strs. rewrite split_app, (split_no_sep _ _ Hm). cbn [app tl hd].
  split; [reflexivity|]. apply (join_split dot).
Qed.

Lemma addresses_sp base strip q m p : addresses base strip q m p -> has_char dot m = false ->
  exists sp, from_ambiguous q strip base = Ok sp /\ manager_of sp = m /\ relative sp = p.
Proof.
  intros H Hm. exists (mk_sp (m ++ "." ++ p)). split; [|now apply manager_of_app].
  destruct H; cbn [from_ambiguous]; try reflexivity; try (now rewrite sp_join_mk).
  exact (from_ambiguous_view_strip name path (Some name) Hm).
Qed.

Lemma dfilter_all {A} (f : string -> bool) (d : dict A) : (forall k, In k (dkeys d) -> f k = true) -> dfilter f d = d.
Proof.
  induction d as [|[k v] d IH]; intro H; [reflexivity|]. unfold dfilter in *. cbn [filter fst]. rewrite (H k) by (now left).
  f_equal. apply IH. intros k' Hk. apply H. now right.
Qed.

Lemma dget_None_In {A} k (d : dict A) : dget k d = None -> ~ In k (dkeys d).
Proof. intros H Hi. apply In_dkeys_dget in Hi as [v Hv]. congruence. Qed.

Lemma update_call_single u rel x s : free_kwargs (s_kw x) ->
  update_call u rel (as_body x) s = runner_update u (s_d x) (Some rel) (s_persist x) (s_kw x) s.
Proof.
  intro Hf. unfold update_call, as_body. cbn [b_vals].
  assert (Hs : dmem "self" (("pyfileconf_persist"%string, VBool (s_persist x)) :: s_kw x) = false).
  { apply dmem_dget. cbn [dget]. replace (String.eqb "self" "pyfileconf_persist") with false by reflexivity. apply Hf. now left. }
  rewrite Hs. unfold bind, lift. unfold given_dict. cbn [b_d b_vals].
  assert (Hd : dget "d_" (("pyfileconf_persist"%string, VBool (s_persist x)) :: s_kw x) = None).
  { cbn [dget]. replace (String.eqb "d_" "pyfileconf_persist") with false by reflexivity. apply Hf. right. now left. }
  rewrite Hd. assert (Hk : given_kwargs (Body (s_d x) (("pyfileconf_persist"%string, VBool (s_persist x)) :: s_kw x)) = s_kw x).
  { unfold given_kwargs. cbn [b_vals]. unfold dfilter. cbn [filter fst].
    replace (negb (mem "pyfileconf_persist" ["d_"; "pyfileconf_persist"; "section_path_str"])%string) with false by reflexivity.
    apply (dfilter_all (fun k => negb (mem k ["d_"; "pyfileconf_persist"; "section_path_str"])%string)).
    intros k Hk. destruct (mem k _) eqn:E; [|reflexivity]. exfalso. apply mem_In in E. apply (dget_None_In k (s_kw x)); [|exact Hk].
    apply Hf. cbn in E. cbn. tauto. }
  rewrite Hk. replace (given_persist (Body (s_d x) (("pyfileconf_persist"%string, VBool (s_persist x)) :: s_kw x))) with (s_persist x) by reflexivity.
  now destruct (s_d x).
Qed.

Lemma update_call_default u rel d kw s : free_kwargs kw ->
  update_call u rel (Body d kw) s = update_call u rel (Body d (("pyfileconf_persist"%string, VBool true) :: kw)) s.
Proof.
  intro Hf. change (Body d (("pyfileconf_persist"%string, VBool true) :: kw)) with (as_body (Single "" "" d true kw)).
  rewrite update_call_single by exact Hf. cbn [s_d s_persist s_kw]. unfold update_call. cbn [b_vals].
  assert (Hs : dmem "self" kw = false) by (apply dmem_dget; apply Hf; now left). rewrite Hs. unfold bind, lift, given_dict. cbn [b_d b_vals].
  assert (Hd : dget "d_" kw = None) by (apply Hf; right; now left). rewrite Hd.
  assert (Hk : given_kwargs (Body d kw) = kw).
  { apply (dfilter_all (fun k => negb (mem k ["d_"; "pyfileconf_persist"; "section_path_str"])%string)).
    intros k Hk. destruct (mem k _) eqn:E; [|reflexivity]. exfalso. apply mem_In in E. apply (dget_None_In k kw); [|exact Hk].
    apply Hf. cbn in E. cbn. tauto. }
  rewrite Hk. assert (Hp : given_persist (Body d kw) = true).
  { unfold given_persist. cbn [b_vals]. assert (X : dget "pyfileconf_persist" kw = None) by (apply Hf; cbn; tauto). now rewrite X. }
  rewrite Hp. now destruct d.
Qed.

Lemma pm_update_plain u d path persist kw s : free_kwargs kw ->
  pm_update u [] d path persist kw s = (let '(s', r) := runner_update u d path persist kw s in (s', d, r)).
Proof.
  intro Hf. unfold pm_update. cbn [concat]. change (dict_of (@nil (string * pyval))) with (@nil (string * pyval)). rewrite dupdate_nil_r.
  replace (existsb (fun k => dmem k kw) reserved_kwargs) with false.
  - destruct d as [d|]; [rewrite dupdate_nil_r|]; reflexivity.
  - symmetry. apply not_true_is_false. intro H. apply existsb_exists in H as (k & Hk & Hm). apply dmem_In, In_dkeys_dget in Hm as [v Hv].
    rewrite (Hf k Hk) in Hv. discriminate.
Qed.

Lemma batch_step_single U base strip q x w : addresses base strip q (s_manager x) (s_path x) -> has_char dot (s_manager x) = false ->
  free_kwargs (s_kw x) -> batch_step U base strip (q, as_body x) w = single_update U x w.
Proof.
  intros Ha Hm Hf. destruct (addresses_sp _ _ _ _ _ Ha Hm) as (sp & E1 & E2 & E3). unfold batch_step, bind, lift. cbn [fst snd]. rewrite E1.
  unfold on_manager, single_update. rewrite E2, E3. destruct (dget (s_manager x) w) as [p|]; [|reflexivity].
  rewrite update_call_single by exact Hf. rewrite pm_update_plain by exact Hf.
  now destruct (runner_update _ _ _ _ _ _).
Qed.

Lemma batch_sequence U base strip qs xs : forall w,
  Forall2 (fun q x => addresses base strip q (s_manager x) (s_path x) /\ has_char dot (s_manager x) = false /\ free_kwargs (s_kw x)) qs xs ->
  in_sequence U xs w (fst (batch_update U [] base strip (List.combine qs (map as_body xs)) w))
                     (snd (batch_update U [] base strip (List.combine qs (map as_body xs)) w)).
Proof.
  unfold batch_update. cbn [concat app]. intros w H. revert w. induction H as [|q x qs xs (Ha & Hm & Hf) H IH]; intro w; [constructor|].
  cbn [map List.combine iterM]. unfold bind. rewrite (batch_step_single U base strip q x w Ha Hm Hf).
  destruct (single_update U x w) as [w1 [[]|e]] eqn:E; cbn [fst snd].
  - eapply seq_next; [exact E|apply IH].
  - now apply seq_fail.
Qed.

Lemma in_sequence_fun U l w w1 o1 w2 o2 : in_sequence U l w w1 o1 -> in_sequence U l w w2 o2 -> w1 = w2 /\ o1 = o2.
Proof.
  intros H1. revert w2 o2. induction H1 as [|x l w w1 w2 o E H IH|x l w w1 e E]; intros w3 o3 H3; inversion H3; subst.
  - auto.
  - rewrite E in *. match goal with H : (_, _) = (_, _) |- _ => injection H as <- end. now apply IH.
  - congruence.
  - congruence.
  - rewrite E in *. match goal with H : (_, _) = (_, _) |- _ => injection H as <- <- end. auto.
Qed.

Lemma in_sequence_outcome U l w w' o : in_sequence U l w w' o <->
  (o = Ok tt /\ in_sequence U l w w' (Ok tt)) \/
  (exists done x rest w1 e, l = done ++ x :: rest /\ in_sequence U done w w1 (Ok tt) /\ single_update U x w1 = (w', Raise e) /\ o = Raise e).
Proof.
  split.
  - intro H. induction H as [w|x l w w1 w2 o E H IH|x l w w1 e E].
    + left. split; [reflexivity|constructor].
    + destruct IH as [[-> IH]|(done & y & rest & w3 & e & -> & H1 & H2 & ->)].
      * left. split; [reflexivity|]. eapply seq_next; eassumption.
      * right. exists (x :: done), y, rest, w3, e. split; [reflexivity|]. split; [eapply seq_next; eassumption|]. auto.
    + right. exists [], x, l, w, e. split; [reflexivity|]. split; [constructor|]. auto.
  - intros [[-> H]|(done & x & rest & w1 & e & -> & H & E & ->)]; [exact H|].
    remember (Ok tt) as o eqn:Eo. revert E. induction H as [w|y l w w2 w3 o E2 H IH|y l w w2 e2 E2]; intro E; cbn [app].
    + now apply seq_fail.
    + eapply seq_next; [exact E2|]. now apply IH.
    + discriminate.
Qed.

(* ------------------------------------------------------------------ *)
(** * C56 *)

Lemma dupdate_app {A} (d a b : dict A) : dupdate d (a ++ b) = dupdate (dupdate d a) b.
Proof. revert d. induction a as [|[k v] a IH]; intro d; [reflexivity|]. cbn [app]. rewrite !dupdate_cons. apply IH. Qed.

Lemma dget_updates k ds : Forall dwf ds -> forall d : dict pyval,
  dget k (dupdate d (concat ds)) = match first_of k (rev ds) with Some v => Some v | None => dget k d end.
Proof.
  induction 1 as [|a ds Ha H IH]; intro d; [reflexivity|]. cbn [concat rev]. rewrite dupdate_app, IH, first_of_app.
  destruct (first_of k (rev ds)); [reflexivity|]. cbn [first_of]. rewrite dget_dupdate by exact Ha. now destruct (dget k a).
Qed.
Lemma dget_contributed k ds : Forall dwf ds -> dget k (dict_of (concat ds)) = first_of k (rev ds).
Proof. intro H. unfold dict_of. rewrite dget_updates by exact H. now destruct (first_of k (rev ds)). Qed.

Lemma dget_new k ds (d : dict pyval) : Forall dwf ds -> dget k (dupdate d (dict_of (concat ds))) = first_of k (rev ds ++ [d]).
Proof.
  intro H. rewrite dget_dupdate by apply dict_of_wf. rewrite dget_contributed by exact H. rewrite first_of_app.
  destruct (first_of k (rev ds)); [reflexivity|]. cbn [first_of]. now destruct (dget k d).
Qed.

Lemma reserved_none (ds : list (dict pyval)) kw : Forall dwf ds -> free_kwargs kw -> Forall free_kwargs ds ->
  existsb (fun k => dmem k (dupdate kw (dict_of (concat ds)))) reserved_kwargs = false.
Proof.
  intros W Hk Hd. apply not_true_is_false. intro H. apply existsb_exists in H as (k & Hr & Hm). apply dmem_In, In_dkeys_dget in Hm as [v Hv].
  rewrite dget_new in Hv by exact W. apply first_of_In in Hv as (L & HL & Hv). apply in_app_iff in HL as [HL|[<-|[]]].
  - apply in_rev in HL. rewrite Forall_forall in Hd. rewrite (Hd L HL k Hr) in Hv. discriminate.
  - rewrite (Hk k Hr) in Hv. discriminate.
Qed.

Lemma reserved_some (ds : list (dict pyval)) kw k : Forall dwf ds -> In k ["self"; "d_"; "section_path_str"; "pyfileconf_persist"]%string ->
  (exists L, In L (kw :: ds) /\ In k (dkeys L)) ->
  existsb (fun k => dmem k (dupdate kw (dict_of (concat ds)))) reserved_kwargs = true.
Proof.
  intros W Hr (L & HL & HkL). apply existsb_exists. exists k. split; [exact Hr|]. apply dmem_In.
  destruct (dget k (dupdate kw (dict_of (concat ds)))) as [v|] eqn:E; [apply dget_Some_In in E; now apply (in_map fst) in E|].
  exfalso. rewrite dget_new in E by exact W. apply In_dkeys_dget in HkL as [v Hv].
  assert (X : dget k L = None); [|congruence]. apply (first_of_None k _ E). apply in_app_iff.
  destruct HL as [<-|HL]; [right; now left|left; now apply -> in_rev].
Qed.

Lemma plugin_update u ds d path persist kw s s' d' o :
  Forall dwf ds -> dwf kw -> dwf (opt_dict d) -> free_kwargs kw -> Forall free_kwargs ds ->
  pm_update u ds d (Some path) persist kw s = (s', d', o) ->
  (match d with None => d' = None | Some d0 => exists d1, d' = Some d1 /\ forall k, dget k d1 = first_of k (rev ds ++ [d0]) end) /\
  forall r c, target (r_cms s) (path_parts path) = Some r -> current (r_cms s) r = Some c -> o = Ok tt ->
    exists c', current (r_cms s') r = Some c' /\
      ((c' = c /\ forall k old v, dget k (c_vals c) = Some old -> first_of k (rev ds ++ [kw; opt_dict d]) = Some v -> values_are_equal old v = Ok true) \/
       ((forall k, dget k (c_vals c') = first_of k (rev ds ++ [kw; opt_dict d; c_vals c])) /\
        exists k old v, dget k (c_vals c) = Some old /\ first_of k (rev ds ++ [kw; opt_dict d]) = Some v /\ values_are_equal old v = Ok false)).
Proof.
  intros W Wk Wd Hk Hd H. unfold pm_update in H. rewrite (reserved_none ds kw W Hk Hd) in H.
  set (new := dict_of (concat ds)) in *. set (dd := match d with Some d0 => Some (dupdate d0 new) | None => None end) in *.
  destruct (runner_update u dd (Some path) persist (dupdate kw new) s) as [s1 o1] eqn:E. injection H as <- <- <-. split.
  - unfold dd. destruct d as [d0|]; [|reflexivity]. eexists. split; [reflexivity|]. intro k. now apply dget_new.
  - intros r c Ht Hc ->. assert (S := runner_update_spec _ _ _ _ _ _ _ _ E). cbn zeta in S. rewrite Ht, Hc in S.
    destruct S as (_ & _ & _ & S). destruct (cfg_checked_update c dd persist (dupdate kw new)) as [[c' b]|e] eqn:Ek; [|destruct S as (Y & _); discriminate].
    exists c'. split; [apply S|].
    assert (Wn : dwf new) by apply dict_of_wf.
    assert (Wkn : dwf (dupdate kw new)) by (now apply dupdate_wf).
    assert (Wdd : dwf (opt_dict dd)) by (unfold dd; destruct d; [now apply dupdate_wf|constructor]).
    assert (Hdd : forall k, first_of k (rev ds) = None -> dget k (opt_dict dd) = dget k (opt_dict d)).
    { intros k Ef. unfold dd. destruct d as [d0|]; [|reflexivity]. cbn [opt_dict]. unfold new. rewrite dget_new by exact W. rewrite first_of_app, Ef.
      cbn [first_of]. now destruct (dget k d0). }
    assert (All : forall k, dget k (dupdate (opt_dict dd) (dupdate kw new)) = first_of k (rev ds ++ [kw; opt_dict d])).
    { intro k. rewrite dget_dupdate by exact Wkn. unfold new at 1. rewrite dget_new by exact W. rewrite !first_of_app.
      destruct (first_of k (rev ds)) as [v|] eqn:Ef; [reflexivity|]. cbn [first_of]. destruct (dget k kw) as [v|]; [reflexivity|].
      rewrite (Hdd k Ef). now destruct (dget k (opt_dict d)). }
    assert (Wall : dwf (dupdate (opt_dict dd) (dupdate kw new))) by (now apply dupdate_wf).
    assert (Ek' := Ek). unfold cfg_checked_update in Ek'. destruct (dmem "config_" _); [discriminate|].
    unfold would_update in Ek'. cbn [opt_dict] in Ek'. rewrite dupdate_nil_r in Ek'.
    destruct (would_update_loop (c_vals c) (dupdate (opt_dict dd) (dupdate kw new))) as [[]|] eqn:Ew; try discriminate.
    + destruct (dmem "E" _); [discriminate|]. injection Ek' as <- <-. right. split.
      * intro k. cbn [cfg_update c_vals]. rewrite dget_dupdate by exact Wkn. unfold new at 1. rewrite dget_new by exact W. rewrite !first_of_app.
        destruct (first_of k (rev ds)) as [v|] eqn:Ef; [reflexivity|]. cbn [first_of]. destruct (dget k kw) as [v|]; [reflexivity|].
        rewrite dget_dupdate by exact Wdd. rewrite (Hdd k Ef). destruct (dget k (opt_dict d)); [reflexivity|]. now destruct (dget k (c_vals c)).
      * apply wul_true in Ew as (before & k & v & old & after & Eu & Ho & Hv & _). exists k, old, v. split; [exact Ho|]. split; [|exact Hv].
        rewrite <- All. apply In_dget; [exact Wall|]. rewrite Eu. apply in_app_iff. right. now left.
    + injection Ek' as <- <-. left. split; [reflexivity|]. intros k old v Ho Hv. rewrite <- All in Hv.
      exact (proj1 (wul_false _ _) Ew k v old (dget_Some_In _ _ _ Hv) Ho).
Qed.

(* ------------------------------------------------------------------ *)
(** * C30 *)

Section Gen.
  Variable U : world -> string -> user.
  Variable sr : case -> bool.
  Variable it : iter.

  Lemma executed_length cs s s' rs : executed U it cs s s' rs -> length rs = length cs.
  Proof. induction 1; cbn; congruence. Qed.

  Lemma run_cases_executed l : forall s s' out, run_cases U sr it l s = (s', Ok out) <->
    exists rs, executed U it (filter sr l) s s' rs /\ out = List.combine (filter sr l) rs.
  Proof.
    induction l as [|c l IH]; intros s s' out; cbn [run_cases filter].
    - split; [intros [= <- <-]; exists []; split; [constructor|reflexivity]|].
      intros (rs & H & ->). inversion H; subst. reflexivity.
    - destruct (sr c); [|apply IH]. unfold bind. split.
      + destruct (run_case U it c s) as [s1 [r|]] eqn:E; [|discriminate].
        destruct (run_cases U sr it l s1) as [s2 [more|]] eqn:E2; [|discriminate]. intros [= <- <-].
        apply IH in E2 as (rs & H & ->). exists (r :: rs). split; [econstructor; eassumption|reflexivity].
      + intros (rs & H & ->). inversion H as [|? ? ? s1 ? r rs' E H']; subst. rewrite E.
        assert (E2 : run_cases U sr it l s1 = (s', Ok (List.combine (filter sr l) rs'))) by (apply IH; eauto).
        now rewrite E2.
  Qed.

  Lemma run_cases_fails l : forall s s' e, run_cases U sr it l s = (s', Raise e) <->
    exists done c rest s1 rs, filter sr l = done ++ c :: rest /\ executed U it done s s1 rs /\ run_case U it c s1 = (s', Raise e).
  Proof.
    induction l as [|c l IH]; intros s s' e; cbn [run_cases filter].
    - split; [discriminate|]. intros (done & c & rest & s1 & rs & E & _). destruct done; discriminate.
    - destruct (sr c); [|apply IH]. unfold bind. split.
      + destruct (run_case U it c s) as [s1 [r|e1]] eqn:E.
        * destruct (run_cases U sr it l s1) as [s2 [more|e2]] eqn:E2; [discriminate|]. intros [= <- <-].
          apply IH in E2 as (done & c' & rest & s3 & rs & E3 & H & E4). exists (c :: done), c', rest, s3, (r :: rs).
          split; [cbn; now rewrite E3|]. split; [econstructor; eassumption|exact E4].
        * intros [= <- <-]. exists [], c, (filter sr l), s, []. split; [reflexivity|]. split; [constructor|exact E].
      + intros (done & c' & rest & s1 & rs & E3 & H & E4). destruct done as [|d done]; cbn [app] in E3; injection E3 as -> E3.
        * inversion H; subst. now rewrite E4.
        * inversion H as [|? ? ? s2 ? r rs' E H']; subst. rewrite E.
          assert (E2 : run_cases U sr it l s2 = (s', Raise e)) by (apply IH; exists done, c', rest, s1, rs'; auto).
          now rewrite E2.
  Qed.

  (** what the generator still has to do *)
  Lemma gen_take_executed k : forall l s s' rs, k <= length (filter sr l) -> executed U it (firstn k (filter sr l)) s s' rs ->
    exists rest, gen_take U sr it k l s = (s', rest, map (fun x => Ok (Some x)) (List.combine (firstn k (filter sr l)) rs)) /\
                 filter sr rest = skipn k (filter sr l).
  Proof.
    induction k as [|k IH]; intros l s s' rs Hk H.
    - cbn in H. inversion H; subst. exists l. split; reflexivity.
    - cbn [gen_take]. induction l as [|c l IHl]; [cbn in Hk; lia|]. cbn [filter gen_next] in *. destruct (sr c) eqn:Ec.
      + cbn [length] in Hk. cbn [firstn] in H. inversion H as [|? ? ? s1 ? r rs' E H']; subst. rewrite E.
        destruct (IH l s1 s' rs' ltac:(lia) H') as (rest & E2 & E3). rewrite E2. exists rest. split; [reflexivity|]. cbn [skipn]. exact E3.
      + destruct (IHl Hk H) as (rest & E2 & E3). exists rest. split; [exact E2|exact E3].
  Qed.

  Lemma gen_exhausted k : forall l s, filter sr l = [] -> exists rest, gen_take U sr it k l s = (s, rest, repeat (Ok None) k) /\ filter sr rest = [].
  Proof.
    induction k as [|k IH]; intros l s H; [exists l; split; [reflexivity|exact H]|]. cbn [gen_take].
    assert (E : gen_next U sr it l s = (s, [], Ok None)).
    { induction l as [|c l IHl]; [reflexivity|]. cbn [gen_next filter] in *. destruct (sr c); [discriminate|]. now apply IHl. }
    rewrite E. destruct (IH [] s eq_refl) as (rest & E2 & E3). rewrite E2. exists rest. split; [reflexivity|exact E3].
  Qed.

  Lemma gen_next_fails l c rest s s' e : filter sr l = c :: rest -> run_case U it c s = (s', Raise e) ->
    gen_next U sr it l s = (s', [], Raise e).
  Proof.
    intros H E. induction l as [|d l IH]; [discriminate|]. cbn [gen_next filter] in *. destruct (sr d); [|now apply IH].
    injection H as -> _. now rewrite E.
  Qed.

  Lemma run_cases_app l l' : forall s s' out, run_cases U sr it (l ++ l') s = (s', Ok out) ->
    exists s1 o1 o2, run_cases U sr it l s = (s1, Ok o1) /\ run_cases U sr it l' s1 = (s', Ok o2) /\ out = o1 ++ o2.
  Proof.
    induction l as [|c l IH]; intros s s' out H; [exists s, [], out; auto|]. cbn [app run_cases] in *. destruct (sr c).
    - unfold bind in *. destruct (run_case U it c s) as [s1 [r|]]; [|discriminate].
      destruct (run_cases U sr it (l ++ l') s1) as [s2 [more|]] eqn:E2; [|discriminate]. injection H as <- <-.
      destruct (IH _ _ _ E2) as (s3 & o1 & o2 & A & B & ->). rewrite A. exists s3, ((c, r) :: o1), o2. auto.
    - apply IH. exact H.
  Qed.
End Gen.

(** the values of the last case stay *)
Lemma last_case_values U sr w0 w1 it updates paths base strip front c s' out :
  iter_new U [] (fun l => l) paths updates base strip w0 = (w1, Ok it) ->
  isolated w0 it updates -> loaded_in_step w0 it updates ->
  it_cases it = front ++ [c] -> sr c = true -> run_cases U sr it (it_cases it) (IS w1 None) = (s', Ok out) ->
  forall p b d k e, In (p, b) c -> dget (full_path base p) (it_defaults it) = Some d -> case_value d b k = Some e ->
    exists cfg v, config_at (is_world s') (full_path base p) = Some cfg /\ dget k (c_vals cfg) = Some v /\ same_value v e.
Proof.
  intros Hnew Hiso Hst Hcs Hsr Hrun p b d k e Hin Hd He.
  destruct (new_fields _ _ _ _ _ _ _ _ Hnew) as (E1 & _ & E3 & _).
  assert (Hc : In c (it_cases it)) by (rewrite Hcs; apply in_app_iff; right; now left).
  assert (Hcp : map fst c = first_seen (map fst updates)) by (apply case_paths; now rewrite <- E3).
  rewrite Hcs in Hrun. apply run_cases_app in Hrun as (s1 & o1 & o2 & R1 & R2 & _).
  cbn [run_cases] in R2. rewrite Hsr in R2. unfold bind in R2. destruct (run_case U it c s1) as [s2 [r|]] eqn:Ec; [|discriminate].
  injection R2 as <- _. assert (Ec' := Ec). unfold run_case, bind, lift in Ec'. destruct (fill_case it c) as [filled|] eqn:Hf; [|discriminate].
  assert (Hall : forall q, In q (first_seen (map fst updates)) -> exists d, dget (full_path base q) (it_defaults it) = Some d).
  { intros q Hq. rewrite <- E1. eapply filled_defaults; [exact Hf|]. now rewrite Hcp. }
  assert (Hg : good_state w0 it updates base s1).
  { eapply run_cases_step; [exact Hnew|exact Hiso|exact Hall| | |exact R1].
    - intros x Hx. rewrite Hcs. apply in_app_iff. now left.
    - split; [exact (start_Inv _ _ _ _ _ _ _ _ Hnew Hiso Hst Hall)|discriminate]. }
  destruct (run_case_step U _ _ _ _ _ _ _ Hnew Hiso Hall c s1 s2 r Hc Hg Ec) as [HI _].
  assert (Hlast : is_last s2 = Some filled).
  { destruct (update_for_case U it filled s1) as [s3 [[]|]]; [|discriminate].
    destruct (on_world (run_items U it) s3) as [s4 [r'|]]; [|discriminate]. unfold modify, ret in Ec'. now injection Ec' as <- <-. }
  rewrite Hlast in HI.
  assert (Hp : In p (first_seen (map fst updates))) by (rewrite <- Hcp; now apply (in_map fst) in Hin).
  destruct (HI p Hp) as (s & Es & [[W Ht _ (cfg & Hcfg & Hv & _)] _]).
  destruct (fill_case_spec it c filled Hf) as [A B].
  assert (Hb' : In (p, snd (fill_conf d (p, b))) filled) by (apply B; exists b, d; rewrite E1; auto).
  assert (N : NoDup (map fst filled)) by (rewrite A, Hcp; apply first_seen_NoDup).
  rewrite Hd in Hv. cbn [env] in Hv. unfold over in Hv. rewrite (In_dget_case filled p _ N Hb') in Hv.
  assert (Hub : In (p, b) updates) by (eapply case_entries; [rewrite <- E3; exact Hc|exact Hin]).
  unfold case_value in He. destruct (dget k d) as [d0|] eqn:Ek; [|discriminate].
  destruct (Hv k d0 Ek) as (v & e' & H1 & H2 & H3).
  rewrite fill_conf_get in H2; [|apply (iso_updates _ _ _ Hiso p b Hub)|apply (iso_defaults _ _ _ Hiso _ _ Hd)].
  exists cfg, v. split; [|split; [exact H1|]].
  - unfold config_at, ref_at. rewrite Es, Ht. exact Hcfg.
  - rewrite Ek in H2. destruct (dget k (b_vals b)); congruence.
Qed.
