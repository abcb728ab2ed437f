(** C88: creating entries of a loaded manager (PipelineManager.create as a whole). *)
From Verif Require Import Create_Spec CreateEx_Spec Create_Proofs CreateEx_Proofs Setup_Proofs SetupLoad_Proofs Project_Proofs.
Local Open Scope string_scope.
Local Open Scope list_scope.

(** A path and a function that do not fit together change nothing: a function for the entry of a class dict, a path into a class
    dict that is too short, or no function for the pipeline dict. *)
Theorem C88_misfit_rejected : forall parse inst cfg config_dir save u shared s path func f p, misfit s path func ->
  pm_create parse inst cfg config_dir save u shared s path func f p = ([], p, Raise ValueError).
Proof. intros parse inst cfg config_dir save u shared s path func f p. apply create_rejected. Qed.
(** All other arguments belong to exactly one place in one dict file. *)
Theorem C88_misfit_or_placed : forall s path func, (misfit s path func /\ forall pl, ~ placed s path func pl) \/ (~ misfit s path func /\ exists! pl, placed s path func pl).
Proof. intros s path func. apply misfit_or_placed. Qed.

(** Either nothing at all happens to the files and the manager, namely when the entry can not be added to the dict file, and the call
    raises; or the dict file has the new entry in the end, no matter how the call went on. *)
Theorem C88_nothing_or_entry : forall parse inst cfg config_dir save u shared s path func pl f p l p' o, wf f -> placed s path func pl ->
  pm_create parse inst cfg config_dir save u shared s path func f p = (l, p', o) ->
  (l = [] /\ p' = p /\ (exists e, o = Raise e) /\ forall d d' text, ~ entered parse save f pl d d' text) \/
  exists d d' text, entered parse save f pl d d' text /\ final f l (pl_file pl) = Some (File text).
Proof. intros parse inst cfg config_dir save u shared s path func pl f p l p' o W P H. exact (nothing_or_entry parse inst cfg config_dir save u shared s path func f p l p' o pl W P H). Qed.

(** The tree in memory and the dict files stay in step, whatever the outcome: if the manager's items were those of the files before
    the call, they are those of the files after it. For the pipeline dict: the text that is written must say what it should, and no
    part of the path may be a name that registrars and collections define themselves. *)
Theorem C88_in_step : forall parse view inst cfg config_dir save u shared s path n t f p l p' o i, wf f ->
  placed s path (Some (n, t)) (general_place s path n) -> usable_path path ->
  acceptable parse view inst f (su_folder s) (su_name s) (su_classes s) i -> p_items p = Some i ->
  (forall c, In c (su_classes s) -> dget "name" c <> Some (CStr "pipeline")) ->
  (forall d d' text, entered parse save f (general_place s path n) d d' text ->
     pd_wf (PDict d) /\ says parse view (file_text f (pipeline_file (su_folder s))) text d d' n t) ->
  pm_create parse inst cfg config_dir save u shared s path (Some (n, t)) f p = (l, p', o) ->
  exists i', p_items p' = Some i' /\ acceptable parse view inst (final f l) (su_folder s) (su_name s) (su_classes s) i'.
Proof. intros parse view inst cfg config_dir save u shared s path n t f p l p' o i. apply in_step_general. Qed.
(** The same for a class dict. *)
Theorem C88_class_in_step : forall parse view inst cfg config_dir save u shared s path f p l p' o i own, wf f -> class_of s (hd "" path) = Some own ->
  3 <= List.length path -> usable_path (removelast (tl path)) ->
  acceptable parse view inst f (su_folder s) (su_name s) (su_classes s) i -> p_items p = Some i ->
  hd "" path <> "pipeline" -> su_config_folder s <> "pipeline_dict.py" ->
  (forall d d' text, entered parse save f (class_place s path) d d' text -> pd_wf (PDict d) /\ parse false text = Ok d') ->
  (exists n t, inst (dupdate default_ccfg own) (PStr (last path "")) = Ok (n, t)) ->
  pm_create parse inst cfg config_dir save u shared s path None f p = (l, p', o) ->
  exists i', p_items p' = Some i' /\ acceptable parse view inst (final f l) (su_folder s) (su_name s) (su_classes s) i'.
Proof. intros parse view inst cfg config_dir save u shared s path f p l p' o i own. apply in_step_class. Qed.
(** In step means: loading again gives the items that the manager has already. *)
Theorem C88_load_gives_the_same : forall parse view inst cfg config_dir s next f p i l p' o, Forall (@dwf cval) (su_classes s) ->
  acceptable parse view inst f (su_folder s) (su_name s) (su_classes s) i -> p_items p = Some i ->
  pm_load parse view inst cfg config_dir s next f p = (l, p', o) -> p_items p' = Some i.
Proof.
  intros parse view inst cfg config_dir s next f p i l p' o W A Hi H. rewrite (load_accepted parse view inst cfg config_dir s next f p i W A) in H.
  destruct (scaffold_all cfg (defaults_of s) i f) as [l1 [[]|e]]; [|now injection H as <- <- <-]. destruct (cm_load _ _) as [c|e]; now injection H as <- <- <-.
Qed.

(** A function that was created can be run at once: its config file has been written, the rest of the configuration is as it was, and
    the function is called with the values of its own file and of the sections around it, in the usual order. A section around it
    that is new sets nothing. *)
Theorem C88_created_then_run : forall parse view inst cfg config_dir save u exec s path n g f p i r l p' i', wf f -> p = PM (Some i) (Some (i, r)) ->
  acceptable parse view inst f (su_folder s) (su_name s) (su_classes s) i ->
  placed s path (Some (n, TFunc g)) (general_place s path n) -> usable_path (path ++ [n]) -> path <> [] -> Forall (fun x => has_char dot x = false) (path ++ [n]) ->
  let full := join sdot (path ++ [n]) in let file := defaults_of s ++ path ++ [(n ++ ".py")%string] in
  cms_wf (r_cms r) -> lookup_at (r_cms r) (path ++ [n]) = Raise KeyError -> Forall (fun x => mem x sec_reserved = false) (path ++ [n]) -> dget full (r_loaded r) = None ->
  pm_create parse inst cfg config_dir save u true s path (Some (n, TFunc g)) f p = (l, p', Ok tt) -> p_items p' = Some i' -> tidy true (i_general i') ->
  mirrors exec (final f l) (defaults_of s) (config_dir (final f l)) -> (forall rel t v, exec rel t = Ok v -> dwf v) ->
  exists r' text own, p' = PM (Some i') (Some (i', r')) /\ cfg true n (TFunc g) (content f file) = Ok text /\ final f l file = Some (File text) /\
    exec (path ++ [(n ++ ".py")%string]) text = Ok own /\
    (forall q, see (r_cms r') q = seen_with (r_cms r) (path ++ [n]) (loaded_config n (path, (n ++ ".py")%string) own) q) /\ r_loaded r' = r_loaded r /\ r_calls r' = r_calls r /\
    forall u', exists r'' kw, run_one i' u' full r' = (r'', match u_call u' (r_calls r) full (LPartial (r_next r) g false kw) with Ok v => Ok (RVal v) | Raise e => Raise e end) /\
      r_calls r'' = r_calls r ++ [(full, LPartial (r_next r) g false kw)] /\ dwf kw /\
      forall k, dget k kw = if mem k (f_args g) then effective (r_cms r) (path ++ [n]) own k else None.
Proof.
  intros parse view inst cfg config_dir save u exec s path n g f p i r l p' i' A1 A2 A3 A4 A5 A6 A7 full file A8 A9 A10 A11 A12 A13 A14 A15 A16.
  destruct (create_then_run parse view inst cfg config_dir save u exec s path n g f p i r l p' i' A1 A2 A3 A4 A5 A6 A7 A8 A9 A10 A11 A12 A13 A14 A15 A16) as (r' & text & own & B1 & B2 & B3 & B4 & B5 & B6).
  exists r', text, own. split; [exact B1|]. split; [exact B2|]. split; [exact B3|]. split; [exact B4|]. split; [|exact B6]. intros q. rewrite (B5 q). unfold new_config, item_file. now rewrite removelast_last, last_last.
Qed.

(** Without a runner (nothing was loaded, or the first load failed) create never succeeds. *)
Theorem C88_needs_a_runner : forall parse inst cfg config_dir save u shared s path func f p, p_runner p = None ->
  snd (pm_create parse inst cfg config_dir save u shared s path func f p) <> Ok tt.
Proof. intros parse inst cfg config_dir save u shared s path func f p. apply create_no_runner. Qed.
(** A class without registrar among the loaded items: the entry is written, then the name of the class is looked up in vain. *)
Theorem C88_class_without_registrar : forall parse inst cfg config_dir save u shared s path f p i d d' text, placed s path None (class_place s path) -> p_items p = Some i ->
  hd "" path <> "general" -> (forall r, In r (i_specific i) -> reg_name r <> hd "" path) -> entered parse save f (class_place s path) d d' text ->
  exists l, pm_create parse inst cfg config_dir save u shared s path None f p = (l, p, Raise KeyError) /\ final f l = put (dict_file (su_folder s) (hd "" path)) (File text) f.
Proof. intros parse inst cfg config_dir save u shared s path f p i d d' text. apply create_no_registrar. Qed.

(** A section that create makes can not be configured like others before the next load, although it has got its section.py. *)
Theorem C88_new_section_configurable_refuted : let r := cr_create true [] ["new"] (Some "b") ex_disk cr_pm in
  snd r = Ok tt /\ left_in ex_disk r ["proj"; "defaults"; "new"; "section.py"] <> None /\ cr_update (after r) "new" = Some (Raise not_loaded) /\
  cr_update (after (cr_load [] (left_in ex_disk r) (after r))) "new" = Some (Ok tt).
Proof. vm_compute. repeat split. discriminate. Qed.
(** Only the innermost of several new sections gets a section.py; a load makes the others. *)
Theorem C88_sections_get_their_file_refuted : let r := cr_create true [] ["new"; "deep"] (Some "b") ex_disk cr_pm in
  snd r = Ok tt /\ left_in ex_disk r ["proj"; "defaults"; "new"; "deep"; "section.py"] <> None /\ left_in ex_disk r ["proj"; "defaults"; "new"; "section.py"] = None /\
  left_in (left_in ex_disk r) (cr_load [] (left_in ex_disk r) (after r)) ["proj"; "defaults"; "new"; "section.py"] <> None.
Proof. vm_compute. repeat split; discriminate. Qed.
(** Creating an entry that is there already is no error and not without effect: the section then runs it twice. *)
Theorem C88_again_harmless_refuted : let r := cr_create true [] ["run"] (Some "b") ex_disk cr_pm in
  let r2 := cr_create true [] ["run"] (Some "b") (left_in ex_disk r) (after r) in
  snd r = Ok tt /\ snd r2 = Ok tt /\ option_map (fun x => map fst (fst x)) (cr_run (after r2) "run") = Some ["run.a"; "run.b"; "run.b"].
Proof. vm_compute. repeat split. Qed.
(** A call that raises may have changed the dict file: the manager must be loaded, but this is only found out after the entry was
    written. Loading and calling again then makes a second entry. *)
Theorem C88_raising_changes_nothing_refuted : let r := cr_create true [] ["run"] (Some "b") ex_disk new_pm in
  let p := after (cr_load [] (left_in ex_disk r) new_pm) in let r2 := cr_create true [] ["run"] (Some "b") (left_in ex_disk r) p in
  snd r = Raise ValueError /\ left_in ex_disk r ["proj"; "pipeline_dict.py"] = Some (File "pipeline_dict = {""run"": [a,b,],}") /\
  snd r2 = Ok tt /\ option_map (fun x => map fst (fst x)) (cr_run (after r2) "run") = Some ["run.a"; "run.b"; "run.b"].
Proof. vm_compute. repeat split. Qed.
(** After a reload that failed, create succeeds but the runner does not know the new item. *)
Theorem C88_created_can_be_run_refuted : let p := after (cr_load [] ex_broken cr_pm) in let r := cr_create false [] ["new"] (Some "b") ex_broken p in
  snd (cr_load [] ex_broken cr_pm) = Raise (UserExn 0) /\ snd r = Ok tt /\ cr_run (after r) "new.b" = Some ([], Raise AttributeError).
Proof. vm_compute. repeat split. Qed.

(** After a first load that failed while the config files were read, create writes the entry and the config file of the function,
    keeps the new item, and then says that nothing was loaded. *)
Theorem C88_failed_first_load_refuted : let r0 := cr_load [] ex_broken new_pm in let p := after r0 in let r := cr_create false [] ["new"] (Some "b") ex_broken p in
  snd r0 = Raise (UserExn 0) /\ p_items p <> None /\ snd r = Raise (LibExn "PipelineManagerNotLoadedException") /\ p_items (after r) <> p_items p /\
  left_in ex_broken r ["proj"; "defaults"; "new"; "b.py"] <> None /\ ex_broken ["proj"; "defaults"; "new"; "b.py"] = None /\
  left_in ex_broken r ["proj"; "pipeline_dict.py"] <> ex_broken ["proj"; "pipeline_dict.py"].
Proof. vm_compute. repeat split; discriminate. Qed.

(** Non-vacuity *)
Example C88_ex_run : cr_run (after (cr_create true [] ["run"] (Some "b") ex_disk cr_pm)) "run.b" =
  Some ([("run.b", LPartial 0 (Fn "b" ["x"; "y"]) false [("x", VInt 1); ("y", VInt 2)])], Ok (RVal VNone)).
Proof. vm_compute. reflexivity. Qed.
Example C88_ex_class : let f := ex_class_disk "k" in let r := cr_create true [ex_class "k"] ["k"; "s"; "m"] None f (after (cr_load [ex_class "k"] f new_pm)) in
  snd r = Ok tt /\ left_in f r ["proj"; "k_dict.py"] = Some (File "class_dict = {'s': ['k', 'm']}") /\
  cr_run (after r) "k.s.m" = Some ([("k.s.m", LInst 0 (Fn "K" ["x"]) [[("x", VInt 1)]])], Ok (RVal VNone)).
Proof. vm_compute. repeat split. Qed.
Example C88_ex_without_registrar : let f := ex_class_disk "k" in let r := cr_create true [ex_class "k"] ["k"; "s"; "m"] None f (after (cr_load [] f new_pm)) in
  snd r = Raise KeyError /\ left_in f r ["proj"; "k_dict.py"] = Some (File "class_dict = {'s': ['k', 'm']}").
Proof. vm_compute. repeat split. Qed.
Example C88_ex_misfit : misfit (ex_setup [ex_class "k"]) ["k"; "s"] None /\ misfit (ex_setup [ex_class "k"]) ["run"] None.
Proof. split; [left; split; [exists (ex_class "k"); split; [now left|reflexivity]|right; cbn; auto with arith]|right; split; [intros c [<-|[]]; discriminate|reflexivity]]. Qed.
(** the premises of the theorems hold for the example *)
Example C88_ex_in_step : exists l p', cr_create true [] ["run"] (Some "b") ex_disk cr_pm = (l, p', Ok tt) /\ p_items p' = Some cr_new /\
  acceptable ex_parse ex_view ex_inst (final ex_disk l) ["proj"] "proj" [] cr_new.
Proof.
  destruct (cr_create true [] ["run"] (Some "b") ex_disk cr_pm) as [[l p'] o] eqn:E. pose proof cr_created as C. rewrite E in C. cbn in C. subst o. exists l, p'. split; [reflexivity|].
  assert (I : p_items p' = Some cr_new) by (change p' with (snd (fst (l, p', @Ok unit tt))); rewrite <- E; vm_compute; reflexivity). split; [exact I|].
  destruct (C88_in_step ex_parse ex_view ex_inst ex_cfg cr_config cr_save ex_user true (ex_setup []) ["run"] "b" (snd cr_b) ex_disk cr_pm l p' (Ok tt) ex_items ex_wf cr_placed cr_run_usable cr_ok) as (i' & K1 & K2); [now rewrite cr_pm_eq|intros c []|exact cr_says|exact E|]. rewrite I in K1. injection K1 as <-. exact K2.
Qed.
Example C88_ex_then_run : exists l p', cr_create true [] ["run"] (Some "b") ex_disk cr_pm = (l, p', Ok tt) /\ cr_pm = PM (Some ex_items) (Some (ex_items, cr_r)) /\
  cms_wf (r_cms cr_r) /\ lookup_at (r_cms cr_r) ["run"; "b"] = Raise KeyError /\ dget "run.b" (r_loaded cr_r) = None /\
  p_items p' = Some cr_new /\ tidy true (i_general cr_new) /\ mirrors ex_exec (final ex_disk l) ["proj"; "defaults"] (cr_config (final ex_disk l)).
Proof.
  destruct (cr_create true [] ["run"] (Some "b") ex_disk cr_pm) as [[l p'] o] eqn:E. pose proof cr_created as C. rewrite E in C. cbn in C. subst o. exists l, p'. split; [reflexivity|]. split; [exact cr_pm_eq|]. split; [exact cr_pm_wf|]. split; [vm_compute; reflexivity|]. split; [vm_compute; reflexivity|].
  split; [change p' with (snd (fst (l, p', @Ok unit tt))); rewrite <- E; vm_compute; reflexivity|]. split; [exact cr_new_tidy|]. apply cr_mirrors. exact (cr_final l p' E).
Qed.

Print Assumptions C88_misfit_rejected.
Print Assumptions C88_misfit_or_placed.
Print Assumptions C88_nothing_or_entry.
Print Assumptions C88_in_step.
Print Assumptions C88_class_in_step.
Print Assumptions C88_load_gives_the_same.
Print Assumptions C88_created_then_run.
Print Assumptions C88_new_section_configurable_refuted.
Print Assumptions C88_sections_get_their_file_refuted.
Print Assumptions C88_again_harmless_refuted.
Print Assumptions C88_raising_changes_nothing_refuted.
Print Assumptions C88_created_can_be_run_refuted.
Print Assumptions C88_needs_a_runner.
Print Assumptions C88_class_without_registrar.
Print Assumptions C88_failed_first_load_refuted.
