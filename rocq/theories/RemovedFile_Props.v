(** C53 and C64, continued: config files that are gone, and the names d and d_ with the value None in a reset. *)
From Verif Require Import Runner_Model RunnerOps_Proofs ConfigOps_Proofs Config_Proofs Config_Spec ConfigTree_Proofs ConfigLoad_Proofs Clash_Proofs RemovedFile_Spec RemovedFile_Proofs.
Local Open Scope string_scope.
Local Open Scope list_scope.

(** An item that was not loaded yet, with its file gone: whatever needs its config raises OSError and changes nothing. *)
Theorem C53_item_of_a_removed_file : forall path st ref n,
  see st (path_parts path) = Some (SFile ref n) -> gone (cs_disk st) ref ->
  get_func_or_section_configs (path_parts path) st = (st, Raise OSError)
  /\ (forall d persist kw, cm_update d (Some path) persist kw st = (st, Raise OSError))
  /\ cm_refresh path st = (st, Raise OSError).
Proof.
  intros path st ref n Hs Hg. assert (E := gf_file_err st _ ref n OSError Hs (read_gone _ _ Hg)).
  split; [exact E|]. split; [intros d persist kw; unfold cm_update|unfold cm_refresh]; unfold bind, stored_config.
  all: change (get_func_or_section_configs (path_parts path)) with (gf (path_parts path)); now rewrite E.
Qed.

(** A loaded item whose file is gone keeps its config and its object, which can be used and updated; refreshing and
    resetting raise OSError, call no hook and change nothing. *)
Theorem C53_refresh_of_a_removed_file : forall u path s s' o c ref,
  let p := path_parts path in
  target (r_cms s) p = Some (CItem p) -> current (r_cms s) (CItem p) = Some c -> c_file c = Some ref ->
  gone (cs_disk (r_cms s)) ref -> runner_refresh u path s = (s', o) ->
  o = Raise OSError /\ r_loaded s' = r_loaded s /\ current (r_cms s') (CItem p) = Some c /\
  cs_trace (r_cms s') = cs_trace (r_cms s).
Proof.
  intros u path s s' o c ref p Ht Hc Hr Hg H. assert (Hf := read_gone _ _ Hg). unfold runner_refresh, on_cms in H.
  destruct (cm_refresh path (r_cms s)) as [st o1] eqn:Ecm.
  assert (S := cm_refresh_spec _ _ _ _ Ecm). fold p in S. rewrite Ht, Hc, Hr, Hf in S. destruct S as (T & -> & R).
  cbv [bind] in H. cbn in H. rewrite Ecm in H. injection H as <- <-. cbn [r_cms r_loaded]. split; [reflexivity|]. split; [reflexivity|].
  split; [exact (read_current _ _ _ R)|].
  unfold cm_refresh in Ecm. cbv [bind] in Ecm.
  destruct (stored_current (r_cms s) (Some path) (CItem p) c Ht Hc) as [s1 Es]. rewrite Es in Ecm.
  destruct (stored_spec _ _ _ _ Es) as (_ & T1 & L1 & Tr1 & c' & C1 & C2). rewrite Hc in C1. injection C1 as <-.
  rewrite (deref_read _ _ _ C2) in Ecm. unfold reread in Ecm. rewrite Hr in Ecm.
  assert (D1 : cs_disk s1 = cs_disk (r_cms s)) by apply T1. rewrite D1, Hf in Ecm.
  injection Ecm as <-. exact Tr1.
Qed.
Theorem C53_reset_of_a_removed_file : forall base u path s,
  let p := path_parts path in
  target (r_cms s) p = Some (CItem p) -> gone (cs_disk (r_cms s)) (item_file p) ->
  runner_reset base u (Some path) false s = (s, Raise OSError).
Proof.
  intros base u path s p Ht Hg. assert (Hf := read_gone _ _ Hg). unfold runner_reset, bind, on_cms.
  destruct (cm_reset base (Some path) false (r_cms s)) as [st o1] eqn:E.
  destruct (cm_reset_item _ _ _ _ _ Ht E) as (_ & S). fold p in S. rewrite Hf in S. destruct S as [-> ->].
  now destruct s.
Qed.

(** A file that assigns None to [d_] or [d]: the reset passes over [d_] in the comparison and for the pre hook, and over
    [d] for the post hook; the config gets both. *)
Theorem C64_reset_none_names : forall base u path s s' o c content ob,
  let p := path_parts path in
  target (r_cms s) p = Some (CItem p) -> current (r_cms s) (CItem p) = Some c ->
  read_file (cs_disk (r_cms s)) (item_file p) = Ok content -> dwf content ->
  no_clash ["self"; "config_"; "section_path_str"] content ->
  dget "d" content = Some VNone -> dget "d_" content = Some VNone ->
  dget path (r_loaded s) = Some ob -> (forall k a, u_init u k a = None) ->
  comparable (c_vals c) (ddel "d_" content) ->
  runner_reset base u (Some path) false s = (s', o) ->
  o = Ok tt /\
  (really_changes (c_vals c) (ddel "d_" content) ->
     current (r_cms s') (CItem p) = Some (loaded_config (last p "") (item_file p) content) /\
     cs_trace (r_cms s') = cs_trace (r_cms s) ++ [EvPre path (ddel "d_" content); EvPost path (ddel "d" content)]) /\
  (~ really_changes (c_vals c) (ddel "d_" content) ->
     current (r_cms s') (CItem p) = Some c /\ cs_trace (r_cms s') = cs_trace (r_cms s)).
Proof.
  intros base u path s s' o c content ob p Ht Hc Hf Wf Hn Hd Hd_ Hl Hi Hcmp H.
  assert (S := runner_reset_spec base u path s s' o c content H Ht Hc Hf).
  assert (Ev : value_as_kwargs content = Ok (ddel "d_" content)).
  { unfold value_as_kwargs, dmem. rewrite (Hn "self"), (Hn "config_"), (Hn "section_path_str") by (cbn; tauto). cbn [orb]. now rewrite Hd_. }
  rewrite Ev in S. unfold would_update in S. cbn [opt_dict] in S. rewrite dupdate_nil_r in S.
  assert (Hp : post_reset_updates content = Ok (ddel "d" content)) by (unfold post_reset_updates; now rewrite Hd).
  assert (exists ob', applied_to u ob content = Ok ob') as (ob' & Eo) by (destruct ob; cbn [applied_to]; [eauto|]; rewrite Hi; eauto).
  assert (R := H). unfold runner_reset, bind at 1, on_cms in R. destruct (cm_reset base (Some path) false (r_cms s)) as [st o1] eqn:Er.
  destruct (cm_reset_item _ _ _ _ _ Ht Er) as (_ & S2). fold p in S2. rewrite Hf, Hc, Ev in S2.
  unfold would_update in S2. cbn [opt_dict] in S2. rewrite dupdate_nil_r in S2.
  destruct (wul_decides (c_vals c) (ddel "d_" content) (ddel_wf _ _ Wf) Hcmp) as [[E D]|[E D]]; rewrite E in S, S2.
  - rewrite Hl, Eo, Hp in S. destruct S as (_ & _ & _ & _ & -> & Tr). split; [reflexivity|]. split; [|easy]. intros _.
    split; [|exact Tr]. destruct S2 as (-> & Rd & _).
    assert (C := read_current _ _ _ Rd). cbv [bind loaded_at gets] in R. cbn [r_loaded] in R. rewrite Hl in R.
    change (c_vals (item_default p content)) with content in R.
    enough (r_cms s' = st \/ exists ev, r_cms s' = CMS (cs_root st) (cs_local st) (cs_disk st) (cs_trace st ++ [ev])) as [->|(ev & ->)]; [exact C| |].
    { unfold current, see, lookup_at in *. cbn [cs_root cs_disk] in *. exact C. }
    right. destruct ob as [i f b kw|i k calls]; cbn [apply_config] in R.
    + cbn in R. rewrite Hp in R. cbn in R. injection R as <-. eexists. reflexivity.
    + rewrite Hi in R. cbn in R. rewrite Hp in R. cbn in R. injection R as <-. eexists. reflexivity.
  - destruct S as (_ & _ & _ & -> & _ & Tr). split; [reflexivity|]. split; [easy|]. intros _. split; [|exact Tr].
    destruct S2 as (-> & Rd & _). assert (C := read_current _ _ _ Rd).
    cbv [bind loaded_at gets] in R. cbn [r_loaded] in R. rewrite Hl in R. injection R as <-. exact C.
Qed.

Example C53_ex_removed : gone (Dir [] []) ([], "f.py") /\ gone (Dir [] []) (["a"], "f.py") /\ ~ gone cl_disk ([], "f.py") /\
  snd (runner_refresh cl_user "f" (rf_gone cl_got)) = Raise OSError /\
  runner_reset "base" cl_user (Some "f") false (rf_gone cl_got) = (rf_gone cl_got, Raise OSError) /\
  snd (runner_update cl_user (Some [("a", VInt 9)]) (Some "f") true [] (rf_gone cl_got)) = Ok tt /\
  snd (runner_update cl_user (Some [("a", VInt 9)]) (Some "f") true [] (rf_gone cl_rs)) = Raise OSError.
Proof.
  split; [right; eexists; split; reflexivity|]. split; [left; reflexivity|].
  split; [intros [H|(d & H & G)]; [discriminate|injection H as <-; discriminate]|]. vm_compute. auto.
Qed.
Example C64_ex_none_names :
  snd (runner_reset "base" cl_user (Some "f") false rf_got) = Ok tt /\
  cs_trace (r_cms (fst (runner_reset "base" cl_user (Some "f") false rf_got)))
  = cs_trace (r_cms rf_got) ++ [EvPre "f" [("d", VNone); ("a", VInt 3)]; EvPost "f" [("d_", VNone); ("a", VInt 3)]].
Proof. vm_compute. auto. Qed.

(** A reset that puts a whole section back tells nobody, and cannot be given to an object: if one is kept under the path of the section,
    TypeError is raised, with the section put back. *)
Theorem C64_reset_of_a_section : forall base u path allow_create s st x, cm_reset base (Some path) allow_create (r_cms s) = (st, Ok (DSec x, true)) ->
  runner_reset base u (Some path) allow_create s =
    (RS st (r_loaded s) (r_next s) (r_calls s), match dget path (r_loaded s) with Some _ => Raise TypeError | None => Ok tt end).
Proof.
  intros base u path allow_create s st x H. unfold runner_reset, bind, on_cms. rewrite H. cbn. now destruct (dget path (r_loaded s)).
Qed.
Example C64_ex_sections : exists s s', rf_loaded [] = Some s /\ rf_loaded ["sec"] = Some s' /\
  (exists st x, cm_reset "base" (Some "sec") false (r_cms s) = (st, Ok (DSec x, true))) /\
  snd (runner_reset "base" cl_user (Some "sec") false s') = Raise TypeError /\
  snd (runner_reset "base" cl_user (Some "sec") false s) = Ok tt /\ snd (runner_reset "base" cl_user (Some "own") false s) = Raise TypeError.
Proof. eexists. eexists. split; [reflexivity|]. split; [reflexivity|]. split; [eexists; eexists; vm_compute; reflexivity|]. vm_compute. auto. Qed.

Print Assumptions C53_item_of_a_removed_file.
Print Assumptions C53_refresh_of_a_removed_file.
Print Assumptions C53_reset_of_a_removed_file.
Print Assumptions C64_reset_none_names.
Print Assumptions C64_reset_of_a_section.
