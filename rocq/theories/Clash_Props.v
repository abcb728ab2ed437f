(** Property C64: parameters named like parameters of the library's own functions. *)
From Verif Require Import Runner_Model RunnerOps_Proofs ConfigOps_Proofs Config_Proofs Config_Spec Runner_Spec ConfigTree_Spec ConfigTree_Proofs ConfigLoad_Proofs Clash_Proofs Clash_Spec.
Local Open Scope string_scope.
Local Open Scope list_scope.

(** As a dict every name can be updated: nothing is ever rejected because of its name. *)
Theorem C64_any_name_in_a_dict : forall u d path persist s s' o r c,
  target (r_cms s) (path_parts path) = Some r -> current (r_cms s) r = Some c ->
  dwf d -> comparable (c_vals c) d -> (forall k a, u_init u k a = None) ->
  runner_update u (Some d) (Some path) persist [] s = (s', o) ->
  o = Ok tt /\
  (really_changes (c_vals c) d -> current (r_cms s') r = Some (cfg_update c (Some d) persist [])) /\
  (~ really_changes (c_vals c) d -> current (r_cms s') r = Some c).
Proof.
  intros u d path persist s s' o r c Ht Hc Wd Hcmp Hi H. assert (S := runner_update_spec _ _ _ _ _ _ _ _ H). cbv zeta in S.
  rewrite Ht, Hc in S. destruct S as (_ & _ & _ & S). unfold cfg_checked_update in S. cbn [dmem dget opt_dict] in S. rewrite dupdate_nil_r in S.
  unfold would_update in S. cbn [opt_dict] in S. rewrite dupdate_nil_r in S.
  destruct (wul_decides (c_vals c) d Wd Hcmp) as [[E D]|[E D]]; rewrite E in S; destruct S as (S1 & S2).
  - assert (O : o = Ok tt).
    { destruct (dget path (r_loaded s)) as [[i f b kw|i k calls]|]; cbn [applied_to] in S2; [|rewrite Hi in S2|]; tauto. }
    split; [exact O|]. split; [now intros _|easy].
  - destruct S2 as (O & _). split; [exact O|]. split; [easy|now intros _].
Qed.

(** As a keyword, [config_] is always rejected, before anything happens. *)
Theorem C64_config_keyword_never_works : forall u d path persist kw s s' o r c,
  target (r_cms s) (path_parts path) = Some r -> current (r_cms s) r = Some c -> dmem "config_" kw = true ->
  runner_update u d (Some path) persist kw s = (s', o) ->
  o = Raise TypeError /\ current (r_cms s') r = Some c /\ r_loaded s' = r_loaded s /\ cs_trace (r_cms s') = cs_trace (r_cms s).
Proof.
  intros u d path persist kw s s' o r c Ht Hc Hk H. assert (S := runner_update_spec _ _ _ _ _ _ _ _ H). cbv zeta in S. rewrite Ht, Hc in S.
  assert (E : cfg_checked_update c d persist kw = Raise TypeError) by (unfold cfg_checked_update; now rewrite Hk).
  assert (T := update_raise_trace _ _ _ _ _ _ _ _ _ _ _ Ht Hc E H). rewrite Hk, app_nil_r in T.
  rewrite E in S. destruct S as (_ & _ & _ & -> & -> & S). auto.
Qed.

(** [E] is rejected exactly if the update would change something; the pre hook has then announced a change that does not come. *)
Theorem C64_E_keyword : forall u d path persist kw s s' o r c,
  target (r_cms s) (path_parts path) = Some r -> current (r_cms s) r = Some c ->
  dmem "E" kw = true -> dmem "config_" kw = false -> dwf (opt_dict d) ->
  let all := dupdate (opt_dict d) kw in
  comparable (c_vals c) all -> runner_update u d (Some path) persist kw s = (s', o) ->
  current (r_cms s') r = Some c /\ r_loaded s' = r_loaded s /\
  (really_changes (c_vals c) all -> o = Raise TypeError /\ cs_trace (r_cms s') = cs_trace (r_cms s) ++ [EvPre path all]) /\
  (~ really_changes (c_vals c) all -> o = Ok tt /\ cs_trace (r_cms s') = cs_trace (r_cms s)).
Proof.
  intros u d path persist kw s s' o r c Ht Hc Hk Hk2 Wd all Hcmp H. assert (S := runner_update_spec _ _ _ _ _ _ _ _ H). cbv zeta in S. rewrite Ht, Hc in S.
  assert (T := fun e E => update_raise_trace _ _ _ _ _ _ _ _ _ _ e Ht Hc E H). fold all in T, S. rewrite Hk2 in T. unfold cfg_checked_update in S, T. fold all in S, T. rewrite Hk2, Hk in S, T.
  assert (Wa : dwf all) by (now apply dupdate_wf).
  unfold would_update in S, T. cbn [opt_dict] in S, T. rewrite dupdate_nil_r in S, T.
  destruct (wul_decides (c_vals c) all Wa Hcmp) as [[E D]|[E D]]; rewrite E in S, T.
  - destruct S as (_ & _ & _ & -> & -> & S). rewrite (T TypeError eq_refl). split; [exact S|]. split; [reflexivity|]. split; [auto|easy].
  - destruct S as (_ & _ & _ & S & -> & -> & ->). rewrite app_nil_r. split; [exact S|]. split; [reflexivity|]. split; [easy|auto].
Qed.

(** [d] is rejected when it is too late: the config is changed, the loaded object too, and the post hook, which refreshes what
    depends on the item, is not called. *)
Theorem C64_d_keyword_on_a_loaded_item : forall u d path persist kw s s' o r c ob,
  target (r_cms s) (path_parts path) = Some r -> current (r_cms s) r = Some c -> dget path (r_loaded s) = Some ob ->
  dmem "d" kw = true -> no_clash ["config_"; "E"] kw -> dwf (opt_dict d) -> (forall k a, u_init u k a = None) ->
  let all := dupdate (opt_dict d) kw in
  comparable (c_vals c) all -> really_changes (c_vals c) all -> runner_update u d (Some path) persist kw s = (s', o) ->
  o = Raise TypeError /\ current (r_cms s') r = Some (cfg_update c d persist kw) /\
  (exists ob', applied_to u ob (c_vals (cfg_update c d persist kw)) = Ok ob' /\ dget path (r_loaded s') = Some ob') /\
  cs_trace (r_cms s') = cs_trace (r_cms s) ++ [EvPre path all].
Proof.
  intros u d path persist kw s s' o r c ob Ht Hc Hl Hk Hn Wd Hi all Hcmp Hr H.
  assert (S := runner_update_spec _ _ _ _ _ _ _ _ H). cbv zeta in S.
  rewrite Ht, Hc, (checked_update_change c d persist kw) in S; auto. destruct S as (_ & _ & _ & S1 & S). rewrite Hl in S. rewrite Hk in S.
  destruct (applied_to u ob (c_vals (cfg_update c d persist kw))) as [ob'|e] eqn:Ea.
  - destruct S as (-> & -> & ->). split; [reflexivity|]. split; [exact S1|]. split; [|reflexivity]. exists ob'. split; [reflexivity|]. apply dget_dset_eq.
  - exfalso. destruct ob; cbn [applied_to] in Ea; [discriminate|]. now rewrite Hi in Ea.
Qed.

(** For an item that is not loaded [d] is a name like any other. *)
Theorem C64_d_keyword_otherwise : forall u d path persist kw s s' o r c,
  target (r_cms s) (path_parts path) = Some r -> current (r_cms s) r = Some c -> dget path (r_loaded s) = None ->
  no_clash ["config_"; "E"] kw -> dwf (opt_dict d) ->
  comparable (c_vals c) (dupdate (opt_dict d) kw) -> runner_update u d (Some path) persist kw s = (s', o) -> o = Ok tt.
Proof.
  intros u d path persist kw s s' o r c Ht Hc Hl Hn Wd Hcmp H. assert (S := runner_update_spec _ _ _ _ _ _ _ _ H). cbv zeta in S. rewrite Ht, Hc in S.
  destruct S as (_ & _ & _ & S). unfold cfg_checked_update in S.
  assert (H1 : dmem "config_" kw = false) by (apply dmem_dget, Hn; cbn; auto). assert (H2 : dmem "E" kw = false) by (apply dmem_dget, Hn; cbn; auto).
  rewrite H1, H2 in S. unfold would_update in S. cbn [opt_dict] in S. rewrite dupdate_nil_r in S.
  destruct (wul_decides (c_vals c) (dupdate (opt_dict d) kw) (dupdate_wf _ _ Wd) Hcmp) as [[E D]|[E D]]; rewrite E in S; rewrite ?Hl in S; tauto.
Qed.

(** Refreshing an item whose file assigns [self], [pyfileconf_persist], or [E] with a value other than None: it fails as soon as
    there is something to refresh, and nothing is stored. *)
Theorem C64_refresh_clash : forall u path s s' o c ref content,
  let p := path_parts path in
  target (r_cms s) p = Some (CItem p) -> current (r_cms s) (CItem p) = Some c -> c_file c = Some ref ->
  read_file (cs_disk (r_cms s)) ref = Ok content -> dwf content ->
  let all := refresh_updates c content in
  dmem "self" all = true \/ dmem "pyfileconf_persist" all = true \/ (exists v, dget "E" all = Some v /\ v <> VNone) ->
  comparable (c_vals c) all -> really_changes (c_vals c) all -> runner_refresh u path s = (s', o) ->
  o = Raise TypeError /\ current (r_cms s') (CItem p) = Some c /\ r_loaded s' = r_loaded s /\
  cs_trace (r_cms s') = cs_trace (r_cms s) ++ [EvPre path all].
Proof.
  intros u path s s' o c ref content p Ht Hc Hr Hf Wf all Hcl Hcmp Hch H.
  destruct (checked_refresh_decides c content Wf Hcmp) as [A _].
  assert (Er : cfg_refresh c content = Raise TypeError).
  { unfold cfg_refresh. fold all. destruct Hcl as [E|[E|(v & E & N)]].
    - now rewrite E.
    - now rewrite E, orb_true_r.
    - destruct (dmem "self" all || dmem "pyfileconf_persist" all); [reflexivity|]. rewrite E. now destruct v. }
  assert (Eu := A Hch). rewrite Er in Eu.
  assert (Ech : change_from_refresh c content = Ok all).
  { unfold change_from_refresh. fold all. unfold would_update. cbn [opt_dict]. rewrite dupdate_nil_r.
    destruct (wul_decides (c_vals c) all) as [[E D]|[E D]]; [now apply dupdate_wf|exact Hcmp|now rewrite E|tauto]. }
  destruct (refresh_raise_trace u path s s' o c ref content TypeError Ht Hc Hr Hf Eu H) as (-> & L & C & T). rewrite Ech in T.
  split; [reflexivity|]. split; [exact C|]. split; [exact L|]. rewrite T. destruct all as [|x l]; [|reflexivity].
  destruct Hch as (k & a & b & _ & X & _). discriminate.
Qed.

(** If the file assigns None to [E] the refresh succeeds but leaves out [E]: the stored value stays. *)
Theorem C64_refresh_skips_E : forall c content c' b ups,
  dwf content -> dget "E" (refresh_updates c content) = Some VNone -> cfg_checked_refresh c content = Ok (c', b, ups) ->
  dget "E" (c_vals c') = dget "E" (c_vals c).
Proof.
  intros c content c' b ups Wf HE H. unfold cfg_checked_refresh in H. destruct (change_from_refresh c content) as [[|x l]|e]; [now injection H as <- _ _| |discriminate].
  unfold cfg_refresh in H. destruct (dmem "self" (refresh_updates c content) || dmem "pyfileconf_persist" (refresh_updates c content)); [discriminate|].
  rewrite HE in H. injection H as <- _ _. cbn [cfg_update c_vals opt_dict]. rewrite dupdate_nil_r.
  assert (W : dwf (ddel "E" (refresh_updates c content))) by (now apply ddel_wf, dupdate_wf).
  rewrite dget_dupdate by exact W. now rewrite dget_ddel_eq by (now apply dupdate_wf).
Qed.
Theorem C64_refresh_rereads_everything_refuted : exists c content c' ups k v,
  cfg_checked_refresh c content = Ok (c', true, ups) /\ dget k content = Some v /\ dget k (c_applied c) = None /\ dget k (c_vals c') <> Some v.
Proof.
  exists (Cfg (Some "f") [("E", VInt 1); ("a", VInt 1)] [] None), [("E", VNone); ("a", VInt 2)]. do 2 eexists. exists "E", VNone.
  split; [vm_compute; reflexivity|]. split; [reflexivity|]. split; [reflexivity|]. vm_compute. discriminate.
Qed.

(** Resetting an item whose file assigns one of the other names fails whatever the values are: such an item can never be reset. *)
Theorem C64_reset_clash : forall base u path s s' o c content,
  let p := path_parts path in
  target (r_cms s) p = Some (CItem p) -> current (r_cms s) (CItem p) = Some c ->
  read_file (cs_disk (r_cms s)) (item_file p) = Ok content ->
  dmem "self" content = true \/ dmem "config_" content = true \/ dmem "section_path_str" content = true \/ (exists v, dget "d_" content = Some v /\ v <> VNone) ->
  runner_reset base u (Some path) false s = (s', o) ->
  o = Raise TypeError /\ current (r_cms s') (CItem p) = Some c /\ r_loaded s' = r_loaded s /\ cs_trace (r_cms s') = cs_trace (r_cms s).
Proof.
  intros base u path s s' o c content p Ht Hc Hf Hcl H. assert (S := runner_reset_spec base u path s s' o c content H Ht Hc Hf).
  assert (E : value_as_kwargs content = Raise TypeError).
  { unfold value_as_kwargs. destruct Hcl as [E|[E|[E|(v & E & N)]]].
    - now rewrite E.
    - now rewrite E, orb_true_r.
    - now rewrite E, !orb_true_r.
    - destruct (_ || _ || _); [reflexivity|]. rewrite E. now destruct v. }
  rewrite E in S. destruct S as (_ & _ & _ & -> & -> & ->). split; [reflexivity|]. split; [|auto].
  unfold runner_reset, bind at 1, on_cms in H. destruct (cm_reset base (Some path) false (r_cms s)) as [st o1] eqn:Er.
  destruct (cm_reset_item _ _ _ _ _ Ht Er) as (_ & S). fold p in S. rewrite Hf, Hc, E in S. destruct S as (-> & R & _). injection H as <-.
  exact (read_current _ _ _ R).
Qed.

(** A file with a value for [d]: the reset of a loaded item takes effect and fails then. *)
Theorem C64_reset_d_clash : forall base u path s s' o c content ob v,
  let p := path_parts path in
  target (r_cms s) p = Some (CItem p) -> current (r_cms s) (CItem p) = Some c ->
  read_file (cs_disk (r_cms s)) (item_file p) = Ok content -> dwf content ->
  no_clash ["self"; "config_"; "section_path_str"; "d_"] content -> dget "d" content = Some v -> v <> VNone ->
  dget path (r_loaded s) = Some ob -> (forall k a, u_init u k a = None) ->
  comparable (c_vals c) content -> really_changes (c_vals c) content ->
  runner_reset base u (Some path) false s = (s', o) ->
  o = Raise TypeError /\ current (r_cms s') (CItem p) = Some (loaded_config (last p "") (item_file p) content) /\
  cs_trace (r_cms s') = cs_trace (r_cms s) ++ [EvPre path content].
Proof.
  intros base u path s s' o c content ob v p Ht Hc Hf Wf Hn Hd Hv Hl Hi Hcmp Hch H. assert (S := runner_reset_spec base u path s s' o c content H Ht Hc Hf).
  rewrite (value_as_kwargs_noclash content Hn) in S. unfold would_update in S. cbn [opt_dict] in S. rewrite dupdate_nil_r in S.
  destruct (wul_decides (c_vals c) content Wf Hcmp) as [[E D]|[E D]]; [|tauto]. rewrite E, Hl in S. destruct S as (_ & _ & _ & S).
  assert (Hp : post_reset_updates content = Raise TypeError) by (unfold post_reset_updates; rewrite Hd; now destruct v).
  assert (exists ob', applied_to u ob content = Ok ob') as (ob' & Eo) by (destruct ob; cbn [applied_to]; [eauto|]; rewrite Hi; eauto).
  rewrite Eo, Hp in S. destruct S as (_ & -> & ->). split; [reflexivity|]. split; [|reflexivity].
  unfold runner_reset, bind at 1, on_cms in H. destruct (cm_reset base (Some path) false (r_cms s)) as [st o1] eqn:Er.
  destruct (cm_reset_item _ _ _ _ _ Ht Er) as (_ & S). fold p in S. rewrite Hf, Hc, (value_as_kwargs_noclash content Hn) in S.
  unfold would_update in S. cbn [opt_dict] in S. rewrite dupdate_nil_r, E in S. destruct S as (-> & R & _).
  assert (C := read_current _ _ _ R). cbv [bind loaded_at gets] in H. cbn [r_loaded] in H. rewrite Hl in H.
  change (c_vals (item_default p content)) with content in H.
  enough (r_cms s' = st \/ exists ev, r_cms s' = CMS (cs_root st) (cs_local st) (cs_disk st) (cs_trace st ++ [ev])) as [->|(ev & ->)]; [exact C| |].
  { unfold current, see, lookup_at in *. cbn [cs_root cs_disk] in *. exact C. }
  left. destruct ob as [i f b kw|i k calls]; cbn [apply_config] in H.
  - cbn in H. rewrite Hp in H. cbn in H. now injection H as <-.
  - rewrite Hi in H. cbn in H. rewrite Hp in H. cbn in H. now injection H as <-.
Qed.

Example C64_example : exists c, target (r_cms cl_got) (path_parts "f") = Some (CItem (path_parts "f")) /\ current (r_cms cl_got) (CItem (path_parts "f")) = Some c /\
  c_vals c = [("E", VInt 1); ("d", VInt 2); ("a", VInt 3)] /\
  snd (runner_update cl_user (Some [("E", VInt 5); ("d", VInt 6); ("config_", VInt 7)]) (Some "f") true [] cl_got) = Ok tt /\
  snd (runner_update cl_user None (Some "f") true [("config_", VInt 7)] cl_got) = Raise TypeError /\
  snd (runner_update cl_user None (Some "f") true [("E", VInt 1)] cl_got) = Ok tt /\
  snd (runner_update cl_user None (Some "f") true [("E", VInt 5)] cl_got) = Raise TypeError /\
  snd (runner_update cl_user None (Some "f") true [("d", VInt 5)] cl_rs) = Ok tt /\
  snd (runner_update cl_user None (Some "f") true [("d", VInt 5)] cl_got) = Raise TypeError /\
  own_values (r_cms (fst (runner_update cl_user None (Some "f") true [("d", VInt 5)] cl_got))) ["f"] = Some [("E", VInt 1); ("d", VInt 5); ("a", VInt 3)] /\
  snd (runner_refresh cl_user "f" (fst (runner_update cl_user None (Some "f") false [("a", VInt 5)] cl_got))) = Raise TypeError /\
  snd (runner_reset "base" cl_user (Some "g") false cl_got) = Raise TypeError /\
  snd (runner_reset "base" cl_user (Some "f") false cl_got) = Ok tt /\
  snd (runner_reset "base" cl_user (Some "f") false (fst (runner_update cl_user None (Some "f") false [("a", VInt 5)] cl_got))) = Raise TypeError.
Proof. eexists. split; [vm_compute; reflexivity|]. split; [vm_compute; reflexivity|]. vm_compute. repeat split. Qed.
Example C64_premises_example : no_clash ["config_"; "E"] [("d", VInt 5)] /\ really_changes [("E", VInt 1); ("d", VInt 2); ("a", VInt 3)] [("d", VInt 5)] /\
  comparable [("E", VInt 1); ("d", VInt 2); ("a", VInt 3)] [("d", VInt 5)] /\ dget "f" (r_loaded cl_got) <> None.
Proof.
  split; [intros n [<-|[<-|[]]]; reflexivity|]. split; [exists "d", (VInt 2), (VInt 5); repeat split|]. split; [|vm_compute; discriminate].
  intros k old new H1 H2. cbn in H2. destruct (String.eqb k "d") eqn:E; [|discriminate]. apply String.eqb_eq in E. subst k. injection H2 as <-. cbn in H1. injection H1 as <-. eexists. reflexivity.
Qed.

Print Assumptions C64_any_name_in_a_dict.
Print Assumptions C64_config_keyword_never_works.
Print Assumptions C64_E_keyword.
Print Assumptions C64_d_keyword_on_a_loaded_item.
Print Assumptions C64_d_keyword_otherwise.
Print Assumptions C64_refresh_clash.
Print Assumptions C64_refresh_skips_E.
Print Assumptions C64_refresh_rereads_everything_refuted.
Print Assumptions C64_reset_clash.
Print Assumptions C64_reset_d_clash.
