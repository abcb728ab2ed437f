(** C70: making and loading a manager; C71: loading again; C72: from files to calls. *)
From Verif Require Import Setup_Spec SetupEx_Spec Setup_Proofs SetupFiles_Proofs SetupLoad_Proofs SetupEx_Proofs Project_Proofs ProjectEx_Proofs.
Local Open Scope string_scope.
Local Open Scope list_scope.

(* ------------------------------------------------------------------ *)
(** * C70 *)

(** The dict files and the descriptions of the class dicts are all checked before anything is written: if they are not
    acceptable, loading raises, and neither the files nor the manager change. *)
Theorem C70_rejected_changes_nothing : forall parse view inst cfg config_dir s next f p,
  Forall (@dwf cval) (su_classes s) -> (forall i, ~ acceptable parse view inst f (su_folder s) (su_name s) (su_classes s) i) ->
  exists e, pm_load parse view inst cfg config_dir s next f p = ([], p, Raise e).
Proof. intros. now apply load_rejected. Qed.

(** The keys that the dict describing a class dict may have. *)
Theorem C70_keys : forall k, In k ccfg_keys <->
  k = "name" \/ k = "class" \/ k = "klass" \/ k = "always_import_strs" \/ k = "always_assign_strs" \/ k = "key_attr" \/ k = "execute_attr".
Proof. intros k. unfold ccfg_keys. cbn [In]. intuition congruence. Qed.

(** A class dict has its own settings; without one for the imports or the assignments it has None for them, i.e. those of the
    library, and no other defaults. *)
Theorem C70_class_defaults : forall own k, dwf own ->
  (forall v, dget k own = Some v -> dget k (dupdate default_ccfg own) = Some v) /\
  (dget k own = None -> k = "always_import_strs" \/ k = "always_assign_strs" -> dget k (dupdate default_ccfg own) = Some CNone) /\
  (dget k own = None -> k <> "always_import_strs" -> k <> "always_assign_strs" -> dget k (dupdate default_ccfg own) = None).
Proof.
  intros own k W. rewrite dget_dupdate by exact W. unfold default_ccfg. cbn [dget fst snd]. split; [now intros v ->|]. split.
  - intros -> [->| ->]; reflexivity.
  - intros -> A B. apply String.eqb_neq in A, B. now rewrite A, B.
Qed.

(** If they are, the config files are written and the config is loaded. *)
Theorem C70_accepted : forall parse view inst cfg config_dir s next f p i,
  Forall (@dwf cval) (su_classes s) -> acceptable parse view inst f (su_folder s) (su_name s) (su_classes s) i ->
  pm_load parse view inst cfg config_dir s next f p =
  match scaffold_all cfg (defaults_of s) i f with
  | (l, Raise e) => (l, p, Raise e)
  | (l, Ok _) => match cm_load (su_config_folder s) (config_dir (final f l)) with
                 | Raise e => (l, PM (Some i) (p_runner p), Raise e)
                 | Ok c => (l, PM (Some i) (Some (i, RS c [] next [])), Ok tt)
                 end
  end.
Proof. intros. now apply load_accepted. Qed.

(** What is loaded is determined by the files. *)
Theorem C70_determined : forall parse view inst s f i i', Forall (@dwf cval) (su_classes s) ->
  acceptable parse view inst f (su_folder s) (su_name s) (su_classes s) i -> acceptable parse view inst f (su_folder s) (su_name s) (su_classes s) i' -> i = i'.
Proof. intros parse view inst s f i i'. apply accepted_once. Qed.

(** After that, a path belongs to the section or to the class dict it begins with. *)
Theorem C70_paths_unambiguous : forall parse view inst s f i d, Forall (@dwf cval) (su_classes s) ->
  acceptable parse view inst f (su_folder s) (su_name s) (su_classes s) i -> has_dict parse f (su_folder s) d ->
  (forall path x rest, path_parts path = x :: rest -> In x (top_sections d) ->
     get_func_or_collection i path = match general_get (i_general i) (x :: rest) with Ok v => Ok (false, v) | Raise e => Raise e end) /\
  (forall path r rest, In r (i_specific i) -> path_parts path = reg_name r :: rest ->
     get_func_or_collection i path = if String.eqb (join sdot rest) "" then Ok (true, FColl (reg_coll r)) else match reg_get (reg_coll r) rest with Ok v => Ok (true, v) | Raise e => Raise e end).
Proof.
  intros parse view inst s f i d W A D. split.
  - intros path x rest. now apply (lookup_general parse view inst s f i d).
  - intros path r rest. now apply (lookup_specific parse view inst s f).
Qed.

(** Some class dicts can be described but never loaded, whatever the files are: those without a class, with unknown keys, with a
    name that is no string or one of four names. *)
Theorem C70_never_loaded : forall parse view inst cfg config_dir s c, Forall (@dwf cval) (su_classes s) -> In c (su_classes s) ->
  (forall n, dget "name" c <> Some (CStr n)) \/ dget "class" c = None \/ dget "class" c = Some CNone \/ ~ incl (dkeys c) ccfg_keys \/
  (exists n, dget "name" c = Some (CStr n) /\ In n ["scaffold_config"; "get"; "basepath"; "name"]) ->
  forall next f p, exists e, pm_load parse view inst cfg config_dir s next f p = ([], p, Raise e).
Proof. intros parse view inst cfg config_dir s c. apply never_loaded. Qed.

(** The constructor: without a name for a class dict, or with exclusive options, nothing is registered and nothing written.
    Otherwise the manager is registered, also if making the project fails. *)
Theorem C70_constructor : forall auto_pdb force_continue m s r f,
  construct auto_pdb force_continue m s r f =
  if existsb (fun c => negb (dmem "name" c)) (su_classes s) then (r, [], Raise KeyError)
  else if auto_pdb && force_continue then (r, [], Raise ValueError)
  else let names := map (fun c => match dget "name" c with Some v => shown_as v | None => "" end) (su_classes s) in
       let (l, o) := create_if_needed (su_folder s) (su_config_folder s) (su_logs s) names f in
       (dset (m_name m) m r, l, match o with Ok _ => Ok new_pm | Raise e => Raise e end).
Proof.
  intros. unfold construct. rewrite class_names_spec. set (t := fun c : dict cval => negb (dmem "name" c)).
  destruct (existsb t (su_classes s)) eqn:E.
  - apply existsb_exists in E as (c & C & T). destruct (find t (su_classes s)) eqn:F; [reflexivity|]. apply (find_none _ _ F) in C. congruence.
  - destruct (find t (su_classes s)) as [c|] eqn:F.
    { apply find_some in F as [F1 F2]. assert (existsb t (su_classes s) = true) by (apply existsb_exists; eauto). congruence. }
    unfold register. destruct (auto_pdb && force_continue); [reflexivity|]. rewrite map_map.
    assert (M : map (fun c => shown match dget "name" c with Some v => v | None => CNone end) (su_classes s) = map (fun c => match dget "name" c with Some v => shown_as v | None => "" end) (su_classes s)).
    { apply map_ext_in. intros c C. assert (N := find_none _ _ F c C). unfold t, dmem in N. destruct (dget "name" c); [reflexivity|discriminate]. }
    rewrite M. cbv zeta. now destruct (create_if_needed _ _ _ _ f) as [l [[]|]].
Qed.

(** If the names are strings, the project is made with these names. *)
Theorem C70_constructor_with_names : forall force_continue m s r f names,
  map (dget "name") (su_classes s) = map (fun n => Some (CStr n)) names ->
  construct false force_continue m s r f =
  (let (l, o) := create_if_needed (su_folder s) (su_config_folder s) (su_logs s) names f in
   (dset (m_name m) m r, l, match o with Ok _ => Ok new_pm | Raise e => Raise e end)).
Proof.
  intros force_continue m s r f names. rewrite C70_constructor. cbn [andb].
  assert (K : forall cs ns, map (dget "name") cs = map (fun n => Some (CStr n)) ns ->
    existsb (fun c => negb (dmem "name" c)) cs = false /\ map (fun c => match dget "name" c with Some v => shown_as v | None => "" end) cs = ns).
  { induction cs as [|c cs IH]; intros [|n ns]; cbn [map]; intros E; try discriminate; [now split|]. injection E as E1 E2. apply IH in E2 as [I J].
    cbn [existsb]. unfold dmem at 1. unfold ccfg in *. rewrite E1, J. split; [exact I|reflexivity]. }
  intros E. apply K in E as [-> E]. cbv zeta. rewrite E. reflexivity.
Qed.

(** The registrars by name: a class dict called general hides the general one. *)
Theorem C70_registrars_by_name : forall i q d x, registrar_dict (PM (Some i) q) = Ok d -> NoDup (map reg_name (i_specific i)) ->
  dget x d = match find_registrar x (i_specific i) with Some r => Some (reg_coll r) | None => if String.eqb x "general" then Some (i_general i) else None end.
Proof. exact registrar_dict_spec. Qed.

(** Names of class dicts that are neither repeated nor names of sections are not always accepted. *)
Theorem C70_free_names_accepted_refuted : exists d, has_dict ex_parse (ex_class_disk "get") ["proj"] d /\ ~ In "get" (top_sections d) /\
  snd (ex_load [ex_class "k"] (ex_class_disk "k") new_pm) = Ok tt /\ snd (ex_load [ex_class "get"] (ex_class_disk "get") new_pm) = Raise ValueError.
Proof.
  exists [("run", PList [PName "a"])]. split; [right; eexists; split; [vm_compute; reflexivity|vm_compute; reflexivity]|]. split; [vm_compute; intuition discriminate|]. split; vm_compute; reflexivity.
Qed.
(** The general registrar is not always found under its name. *)
Theorem C70_general_registrar_found_refuted : exists p, snd (fst (ex_load [ex_class "general"] (ex_class_disk "general") new_pm)) = p /\
  exists i d, p_items p = Some i /\ registrar_dict p = Ok d /\ dget "general" d <> Some (i_general i).
Proof. eexists. split; [reflexivity|]. eexists. eexists. split; [vm_compute; reflexivity|]. split; [vm_compute; reflexivity|]. vm_compute. discriminate. Qed.
(** A name that is None: the constructor makes None_dict.py, but loading always raises. *)
Theorem C70_constructed_can_be_loaded_refuted : exists m s f, snd (construct false false m s [] f) = Ok new_pm /\
  final f (snd (fst (construct false false m s [] f))) ["proj"; "None_dict.py"] = Some (File class_text) /\
  forall parse view inst cfg config_dir next f' p, exists e, pm_load parse view inst cfg config_dir s next f' p = ([], p, Raise e).
Proof.
  exists (Mgr 0 "proj" "proj" "defaults"), (ex_setup [[("name", CNone); ("class", CClass (Fn "K" []))]]), disk. split; [vm_compute; reflexivity|]. split; [vm_compute; reflexivity|].
  intros. eapply C70_never_loaded; [|left; reflexivity|left; intros n; discriminate]. repeat constructor; cbn; intuition discriminate.
Qed.
(** A constructor that raises does not always leave the registry as it was. *)
Theorem C70_failed_constructor_unregistered_refuted : exists m s f r l e, construct false false m s [] f = (r, l, Raise e) /\ r <> [].
Proof.
  exists (Mgr 0 "proj" "proj" "defaults"), (ex_setup []), (fs_of [([], Dir); (["proj"], File "")]).
  assert (H : exists e, snd (construct false false (Mgr 0 "proj" "proj" "defaults") (ex_setup []) [] (fs_of [([], Dir); (["proj"], File "")])) = Raise e) by (eexists; vm_compute; reflexivity).
  assert (R : fst (fst (construct false false (Mgr 0 "proj" "proj" "defaults") (ex_setup []) [] (fs_of [([], Dir); (["proj"], File "")]))) <> []) by (vm_compute; discriminate).
  destruct (construct _ _ _ _ _ _) as [[r l] o]. destruct H as [e H]. cbn in *. subst o. exists r, l, e. split; [reflexivity|exact R].
Qed.

(** examples: a project with a class dict is accepted, and one with a section of the same name is not *)
Example C70_ex_accepted : exists i, acceptable ex_parse ex_view ex_inst (ex_class_disk "k") ["proj"] "proj" [ex_class "k"] i /\ List.length (i_specific i) = 1.
Proof.
  destruct (checked ex_parse ex_view ex_inst (ex_class_disk "k") ["proj"] "proj" [ex_class "k"]) as [i|e] eqn:E; [|vm_compute in E; discriminate].
  exists i. split; [apply checked_iff; [repeat constructor; cbn; intuition discriminate|exact E]|]. vm_compute in E. injection E as <-. reflexivity.
Qed.
Example C70_ex_rejected : forall i, ~ acceptable ex_parse ex_view ex_inst (ex_class_disk "run") ["proj"] "proj" [ex_class "run"] i.
Proof. intros i A. apply checked_iff in A; [vm_compute in A; discriminate|repeat constructor; cbn; intuition discriminate]. Qed.

(* ------------------------------------------------------------------ *)
(** * C71 *)

(** A load that fails keeps the runner. Either the manager stays as it was, or all config files have been written, the config
    files could not be loaded, and the manager has its new registrars. *)
Theorem C71_failed_load : forall parse view inst cfg config_dir s next f p l p' e, Forall (@dwf cval) (su_classes s) ->
  pm_load parse view inst cfg config_dir s next f p = (l, p', Raise e) ->
  p' = p \/
  exists i, acceptable parse view inst f (su_folder s) (su_name s) (su_classes s) i /\ scaffold_all cfg (defaults_of s) i f = (l, Ok tt) /\
    cm_load (su_config_folder s) (config_dir (final f l)) = Raise e /\ p' = PM (Some i) (p_runner p).
Proof.
  intros parse view inst cfg config_dir s next f p l p' e D H. apply load_failed in H as [H|(i & C & H)]; [now left|]. right. exists i. split; [now apply checked_iff|exact H].
Qed.
Theorem C71_runner_kept : forall parse view inst cfg config_dir s next f p l p' e,
  pm_load parse view inst cfg config_dir s next f p = (l, p', Raise e) -> p_runner p' = p_runner p.
Proof. intros parse view inst cfg config_dir s next f p l p' e H. apply load_failed in H as [->|(i & _ & _ & _ & ->)]; reflexivity. Qed.

(** What was loaded before makes no difference to whether a load succeeds, to the files it writes, and to what is loaded then. *)
Theorem C71_history_irrelevant : forall parse view inst cfg config_dir s next f p q,
  let (a, o) := pm_load parse view inst cfg config_dir s next f p in
  let (b, o') := pm_load parse view inst cfg config_dir s next f q in
  o = o' /\ fst a = fst b /\ (o = Ok tt -> snd a = snd b).
Proof.
  intros. destruct (pm_load parse view inst cfg config_dir s next f p) as [[l p'] o] eqn:E. destruct (load_history _ _ _ _ _ _ _ _ _ q _ _ _ E) as (q' & Eq & H & _). rewrite Eq. cbn. split; [reflexivity|]. split; [reflexivity|]. intros K. symmetry. now apply H.
Qed.
(** In particular a load after a failed one gives what it would have given without it. *)
Theorem C71_retry : forall parse view inst cfg config_dir s next f f' p l p' e l' p'',
  pm_load parse view inst cfg config_dir s next f p = (l, p', Raise e) ->
  pm_load parse view inst cfg config_dir s next f' p' = (l', p'', Ok tt) <-> pm_load parse view inst cfg config_dir s next f' p = (l', p'', Ok tt).
Proof.
  intros parse view inst cfg config_dir s next f f' p l p' e l' p'' _. split; intros H.
  - destruct (load_history _ _ _ _ _ _ _ _ _ p _ _ _ H) as (q' & E & K & _). rewrite E. now rewrite (K eq_refl).
  - destruct (load_history _ _ _ _ _ _ _ _ _ p' _ _ _ H) as (q' & E & K & _). rewrite E. now rewrite (K eq_refl).
Qed.

(** The manager is not always as it was after a failed load: its items are new, its runner is not. *)
Theorem C71_failed_reload_undone_refuted : exists p f l p' e, (exists f0 l0, ex_load [] f0 new_pm = (l0, p, Ok tt)) /\
  ex_load [] f p = (l, p', Raise e) /\ p' <> p /\
  (exists i j r, p_items p' = Some i /\ p_runner p' = Some (j, r) /\ get_func_or_collection i "run.b" = Ok (false, FThing (TFunc (Fn "b" ["x"; "y"]))) /\
     get_func_or_collection j "run.b" = Raise AttributeError).
Proof.
  destruct ex_loads as (l0 & r & H & _). exists (PM (Some ex_items) (Some (ex_items, r))), ex_broken.
  assert (P : p_items (snd (fst (ex_load [] ex_broken (PM (Some ex_items) (Some (ex_items, r)))))) = Some (Items [] (Coll "proj" [EColl (Coll "run" [EItem "a" (TFunc (Fn "a" ["x"; "y"])); EItem "b" (TFunc (Fn "b" ["x"; "y"]))])]))) by (vm_compute; reflexivity).
  assert (E : snd (ex_load [] ex_broken (PM (Some ex_items) (Some (ex_items, r)))) = Raise (UserExn 0)) by (vm_compute; reflexivity).
  destruct (ex_load [] ex_broken _) as [[l p'] o] eqn:L. cbn in P, E. subst o. exists l, p', (UserExn 0). split; [eauto|]. split; [reflexivity|]. split; [intros ->; discriminate|].
  assert (R := C71_runner_kept _ _ _ _ _ _ _ _ _ _ _ _ L). eexists. exists ex_items, r. split; [exact P|]. split; [exact R|]. split; vm_compute; reflexivity.
Qed.

(* ------------------------------------------------------------------ *)
(** * C72 *)

(** From the files to a call: if a project loads and its pipeline dict has a function at a path, then that function has a config
    file, written from its signature and what the file held before, and running it calls it once, with the arguments that the
    section files and its own file give to its parameters; the section files count more, the inner ones more than the outer. *)
Theorem C72_files_to_call : forall parse view inst cfg config_dir exec s next f p l p',
  pm_load parse view inst cfg config_dir s next f p = (l, p', Ok tt) -> wf f ->
  mirrors exec (final f l) (defaults_of s) (config_dir (final f l)) -> (forall rel t v, exec rel t = Ok v -> dwf v) ->
  exists i r, p' = PM (Some i) (Some (i, r)) /\
  forall d folders n it g, has_dict parse f (su_folder s) d -> tidy_items i -> distinct_names (i_general i) ->
    plain_path (su_config_folder s) (folders ++ [n]) ->
    let view' := view (file_text f (pipeline_file (su_folder s))) in
    let file := defaults_of s ++ folders ++ [(n ++ ".py")%string] in
    PipeDict_Spec.written view' (PDict d) (folders ++ [n]) it -> view' it = Ok (n, TFunc g) ->
    final f l (defaults_of s ++ folders ++ [n]) <> Some Dir ->
    exists text, cfg true n (TFunc g) (content f file) = Ok text /\ final f l file = Some (File text) /\
    forall own path u, exec (folders ++ [(n ++ ".py")%string]) text = Ok own -> path_parts path = folders ++ [n] ->
    exists r' kw, run_one i u path r = (r', match u_call u [] path (LPartial next g false kw) with Ok v => Ok (RVal v) | Raise e => Raise e end) /\
      r_calls r' = [(path, LPartial next g false kw)] /\ dwf kw /\
      forall k, dget k kw = if mem k (f_args g) then setting exec (final f l) (defaults_of s) folders n k else None.
Proof. intros parse view inst cfg config_dir exec s next f p l p'. apply end_to_end. Qed.

(** Every folder with finitely many names and levels can be described as the config manager sees it. *)
Theorem C72_folders_described : forall exec names f base depth, wf f -> NoDup names ->
  (forall p, f (base ++ p) <> None -> Forall (fun x => In x names) p /\ List.length p <= depth) -> f base = Some Dir ->
  mirrors exec f base (scan exec names f base depth []).
Proof. intros exec names f base depth. apply scan_mirrors. Qed.

(** A function whose config file is there can not always be run: a folder of the same name hides the file. *)
Theorem C72_leftover_folder_harmless_refuted :
  let (q, o) := pm_load ex_parse ex_view ex_inst ex_cfg ex_config_leftover (ex_setup []) 0 ex_leftover new_pm in
  o = Ok tt /\ final ex_leftover (fst q) ["proj"; "defaults"; "run"; "a.py"] = Some (File "x = 1; y = 1") /\
  exists i r, p_runner (snd q) = Some (i, r) /\ is_func i "run.a" (Fn "a" ["x"; "y"]) /\
    snd (run_one i ex_user "run.a" r) = Raise (LibExn "ConfigManagerNotLoadedException").
Proof.
  set (x := pm_load _ _ _ _ _ _ _ _ _).
  assert (H1 : snd x = Ok tt) by (vm_compute; reflexivity).
  assert (H2 : final ex_leftover (fst (fst x)) ["proj"; "defaults"; "run"; "a.py"] = Some (File "x = 1; y = 1")) by (vm_compute; reflexivity).
  assert (H3 : exists i r, p_runner (snd (fst x)) = Some (i, r) /\ get_func_or_collection i "run.a" = Ok (false, FThing (TFunc (Fn "a" ["x"; "y"]))) /\ snd (run_one i ex_user "run.a" r) = Raise (LibExn "ConfigManagerNotLoadedException")).
  { eexists. eexists. split; [vm_compute; reflexivity|]. split; vm_compute; reflexivity. }
  destruct x as [q o]. cbn [fst snd] in *. split; [exact H1|]. split; [exact H2|]. destruct H3 as (i & r & A & B & C). exists i, r. split; [exact A|]. split; [now exists false|exact C].
Qed.

(** example: all conditions hold for the project ex_disk, and y comes from the section file *)
Example C72_ex : exists l r, ex_load [] ex_disk new_pm = (l, PM (Some ex_items) (Some (ex_items, r)), Ok tt) /\ wf ex_disk /\
  mirrors ex_exec (final ex_disk l) ["proj"; "defaults"] (ex_config (final ex_disk l)) /\ (forall rel t v, ex_exec rel t = Ok v -> dwf v) /\
  has_dict ex_parse ex_disk ["proj"] [("run", PList [PName "a"])] /\ tidy_items ex_items /\ distinct_names (i_general ex_items) /\
  plain_path "defaults" ["run"; "a"] /\ PipeDict_Spec.written (ex_view "") (PDict [("run", PList [PName "a"])]) ["run"; "a"] (PName "a") /\
  final ex_disk l ["proj"; "defaults"; "run"; "a"] <> Some Dir /\ ex_exec ["run"; "a.py"] "x = 1; y = 1" = Ok [("x", VInt 1); ("y", VInt 1)] /\
  setting ex_exec (final ex_disk l) ["proj"; "defaults"] ["run"] "a" "x" = Some (VInt 1) /\
  setting ex_exec (final ex_disk l) ["proj"; "defaults"] ["run"] "a" "y" = Some (VInt 2).
Proof.
  destruct ex_loads as (l & r & H & S). exists l, r. split; [exact H|]. split; [exact ex_wf|]. split; [now apply ex_mirrors|]. split; [exact ex_exec_wf|].
  split; [right; eexists; split; [vm_compute; reflexivity|vm_compute; reflexivity]|]. split; [exact ex_tidy|].
  split; [cbn; repeat split; repeat constructor; intros []|].
  split. { repeat split; try (repeat constructor; discriminate); try discriminate; vm_compute; repeat constructor; try discriminate. }
  split. { eapply (W_key _ _ "run"); [now left|reflexivity|]. eapply W_item; [now left|reflexivity|reflexivity]. }
  split; [rewrite S; discriminate|]. split; [reflexivity|]. unfold setting, values_of. cbn [app section_files map]. rewrite !S. split; vm_compute; reflexivity.
Qed.

Print Assumptions C70_rejected_changes_nothing.
Print Assumptions C70_class_defaults.
Print Assumptions C70_accepted.
Print Assumptions C70_determined.
Print Assumptions C70_paths_unambiguous.
Print Assumptions C70_never_loaded.
Print Assumptions C70_constructor.
Print Assumptions C70_constructor_with_names.
Print Assumptions C70_registrars_by_name.
Print Assumptions C70_free_names_accepted_refuted.
Print Assumptions C70_general_registrar_found_refuted.
Print Assumptions C70_constructed_can_be_loaded_refuted.
Print Assumptions C70_failed_constructor_unregistered_refuted.
Print Assumptions C71_failed_load.
Print Assumptions C71_runner_kept.
Print Assumptions C71_history_irrelevant.
Print Assumptions C71_retry.
Print Assumptions C71_failed_reload_undone_refuted.
Print Assumptions C72_files_to_call.
Print Assumptions C72_folders_described.
Print Assumptions C72_leftover_folder_harmless_refuted.
Print Assumptions C70_keys.
