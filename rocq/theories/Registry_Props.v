(** Property theorems C05 (which manager owns a file) and C06 (which manager a name denotes).
    Specification vocabulary: Registry_Spec. *)
From Verif Require Import Registry_Model Registry_Spec SectionPath_Proofs Registry_Proofs.
Local Open Scope string_scope.
Local Open Scope list_scope.

(** ** C05: the owner of a file is the first registered manager whose folder strictly contains it
    (whole path components, so [proj2] is not inside [proj]) *)
Theorem C05_owner_of_file : forall cwd r file m,
  startswith cwd "/" = true ->
  (forall x, In x (dvals r) -> abspath cwd (m_folder x) <> "/" /\ abspath cwd (m_folder x) <> "//") ->
  (get_manager_by_filepath cwd r file = Ok m <->
   exists before after, dvals r = before ++ m :: after /\
     strictly_inside (abspath cwd (m_folder m)) (abspath cwd file) /\
     Forall (fun x => ~ strictly_inside (abspath cwd (m_folder x)) (abspath cwd file)) before).
Proof. exact by_filepath. Qed.

Theorem C05_no_owner : forall cwd r file,
  startswith cwd "/" = true ->
  (forall x, In x (dvals r) -> abspath cwd (m_folder x) <> "/" /\ abspath cwd (m_folder x) <> "//") ->
  (forall x, In x (dvals r) -> ~ strictly_inside (abspath cwd (m_folder x)) (abspath cwd file)) ->
  get_manager_by_filepath cwd r file = Raise (LibExn "NoPipelineManagerForFilepathException").
Proof. exact by_filepath_none. Qed.

(** the exception to the rule: a manager whose folder is the file system root owns no file *)
Theorem C05_root_manager_owns_nothing : forall cwd r m file,
  startswith cwd "/" = true -> abspath cwd (m_folder m) = "/" ->
  initial_slashes (absin cwd file) = 1 ->
  get_manager_by_filepath cwd r file <> Ok m.
Proof.
  intros cwd r m file H1 H2 H3. unfold get_manager_by_filepath.
  destruct (find _ (dvals r)) as [x|] eqn:E; [|discriminate]. intros [= ->].
  apply find_some in E as [_ E]. now rewrite (root_folder_claims_nothing cwd m file H1 H2 H3) in E.
Qed.

(** the config file the library itself writes for item [s] of manager [m] is read back as the item
    path [m.s] whenever the owner lookup finds [m] *)
Theorem C05_config_file_names_its_item : forall cwd r m s,
  startswith cwd "/" = true ->
  (forall part, In part (sections (mk_sp s)) -> part <> "" /\ has_char "/" part = false) ->
  get_manager_by_filepath cwd r (to_filepath (mk_sp s) (default_config_path m) ++ ".py") = Ok m ->
  frame_section_path_of_file cwd r (to_filepath (mk_sp s) (default_config_path m) ++ ".py")
  = Ok (mk_sp (m_name m ++ "." ++ s)).
Proof.
  intros cwd r m s Hc Hs H. unfold frame_section_path_of_file. rewrite H.
  rewrite (filepath_roundtrip cwd _ s Hc (proj2 (Forall_forall _ _) Hs)). now rewrite sp_join_mk.
Qed.

(** nested projects: the documented expectation "the innermost project owns the file" is false, the
    outer one wins when it was registered first *)
Theorem C05_innermost_owner_refuted : exists cwd r file m inner,
  startswith cwd "/" = true /\ get_manager_by_filepath cwd r file = Ok m /\
  In inner (dvals r) /\ inner <> m /\
  strictly_inside (abspath cwd (m_folder m)) (abspath cwd (m_folder inner)) /\
  strictly_inside (abspath cwd (m_folder inner)) (abspath cwd file).
Proof.
  exists "/w", [("a", Mgr 0 "a" "/w/a" "d"); ("b", Mgr 1 "b" "/w/a/b" "d")], "/w/a/b/d/f.py",
    (Mgr 0 "a" "/w/a" "d"), (Mgr 1 "b" "/w/a/b" "d").
  repeat split; try reflexivity; try discriminate; [now right; left| |].
  - exists ["b"]. repeat split; try discriminate; intros; destruct H as [<-|[]]; easy.
  - exists ["d"; "f.py"]. repeat split; try discriminate; intros; destruct H as [<-|[<-|[]]]; easy.
Qed.

Definition ex_reg : registry := [("p", Mgr 0 "p" "proj" "d"); ("q", Mgr 1 "q" "proj2" "d")].
Example C05_ex :
  get_manager_by_filepath "/w" ex_reg "proj2/d/x.py" = Ok (Mgr 1 "q" "proj2" "d") /\
  frame_section_path_of_file "/w" ex_reg "proj2/d/x.py" = Ok (mk_sp "q.x") /\
  (forall x, In x (dvals ex_reg) -> abspath "/w" (m_folder x) <> "/" /\ abspath "/w" (m_folder x) <> "//").
Proof. repeat split; destruct H as [<-|[<-|[]]]; discriminate. Qed.

(** ** C06: after any history, a name denotes exactly the newest live manager of that name *)
Theorem C06_registry_is_newest_live : forall ops : list reg_op,
  ids_consistent ops ->
  forall name m, dget name (reg_run ops) = Some m <-> newest_live ops name m.
Proof. exact registry_refines. Qed.

Theorem C06_lookup_by_path : forall ops s m,
  ids_consistent ops ->
  (get_manager_by_section_path_str (reg_run ops) s = Ok m <->
   exists name, hd_error (sections (mk_sp s)) = Some name /\ newest_live ops name m).
Proof.
  intros ops s m H. rewrite by_section_path.
  split; intros (n & H1 & H2); exists n; (split; [exact H1|]); now apply (registry_refines ops H).
Qed.

(** no live manager of the name: there is always a first part of the path, and the exception says that nothing is registered for it *)
Theorem C06_unknown_name : forall ops s,
  ids_consistent ops ->
  (forall name m, hd_error (sections (mk_sp s)) = Some name -> ~ newest_live ops name m) ->
  get_manager_by_section_path_str (reg_run ops) s = Raise (LibExn "NoPipelineManagerForSectionPathException").
Proof.
  intros ops s H N. unfold get_manager_by_section_path_str. destruct (sections (mk_sp s)) as [|name rest] eqn:E.
  - exfalso. unfold mk_sp in E. cbn [sections] in E. unfold section_path_str_to_section_strs in E. now apply split_nonempty in E.
  - destruct (dget name (reg_run ops)) as [m|] eqn:D; [|reflexivity]. exfalso. apply (N name m eq_refl). now apply (registry_refines ops H).
Qed.

(** finalising an old manager never unregisters a newer one of the same name *)
Theorem C06_late_finaliser_harmless : forall ops old m,
  dget (m_name m) (reg_run ops) = Some m -> m_id old <> m_id m ->
  dget (m_name m) (reg_run (ops ++ [OpDel old])) = Some m.
Proof.
  intros ops old m H Hid. rewrite reg_run_snoc. cbn. unfold finalise.
  destruct (dget (m_name old) (reg_run ops)) as [cur|] eqn:E; [|exact H].
  destruct (Nat.eqb (m_id cur) (m_id old)) eqn:E2; [|exact H].
  rewrite dget_ddel_neq; [exact H|]. intro En. rewrite En in H. rewrite H in E. injection E as <-.
  apply Nat.eqb_eq in E2. congruence.
Qed.

(** a construction rejected for conflicting options leaves the registry untouched *)
Theorem C06_rejected_construction : forall ops m,
  reg_run (ops ++ [OpNew true true m]) = reg_run ops /\
  snd (register true true m (reg_run ops)) = Raise ValueError.
Proof. intros. split; [|reflexivity]. now rewrite reg_run_snoc. Qed.

Definition ex_ops : list reg_op :=
  [OpNew false false (Mgr 0 "p" "a" "d"); OpNew true false (Mgr 1 "p" "b" "d"); OpDel (Mgr 0 "p" "a" "d")].
Example C06_ex : ids_consistent ex_ops /\
  get_manager_by_section_path_str (reg_run ex_ops) "p.s.f" = Ok (Mgr 1 "p" "b" "d").
Proof.
  split; [|reflexivity]. intros m m' H H'.
  assert (G : forall x, (exists a f, In (OpNew a f x) ex_ops) \/ In (OpDel x) ex_ops ->
     x = Mgr 0 "p" "a" "d" \/ x = Mgr 1 "p" "b" "d").
  { intros x [(a & f & [E|[E|[E|[]]]])|[E|[E|[E|[]]]]]; inversion E; auto. }
  destruct (G _ H) as [-> | ->], (G _ H') as [-> | ->]; cbn; intro; congruence.
Qed.

Example C06_ex_unknown : get_manager_by_section_path_str (reg_run ex_ops) "q.s.f" = Raise (LibExn "NoPipelineManagerForSectionPathException") /\
  hd_error (sections (mk_sp "")) = Some "" /\ get_manager_by_section_path_str (reg_run ex_ops) "" = Raise (LibExn "NoPipelineManagerForSectionPathException").
Proof. repeat split; reflexivity. Qed.

Print Assumptions C05_owner_of_file.
Print Assumptions C05_no_owner.
Print Assumptions C05_root_manager_owns_nothing.
Print Assumptions C05_config_file_names_its_item.
Print Assumptions C05_innermost_owner_refuted.
Print Assumptions C06_registry_is_newest_live.
Print Assumptions C06_lookup_by_path.
Print Assumptions C06_late_finaliser_harmless.
Print Assumptions C06_rejected_construction.
Print Assumptions C06_unknown_name.
