(** Property theorems C89: what file paths mean to pyfileconf, whatever way they are written.
    Specification vocabulary: FilePath_Spec. *)
From Verif Require Import FilePath_Model FilePath_Spec FilePath_Proofs SectionPath_Proofs.
Import SectionPath_Model.
Local Open Scope string_scope.
Local Open Scope list_scope.

(** ** C89 *)

(** an absolute path is the place a path means, read from left to right *)
Theorem C89_absolute_path : forall cwd p, isabs cwd = true ->
  abspath cwd p = (slashes_of cwd p ++ join "/" (place cwd p))%string
  /\ Forall a_name (place cwd p)
  /\ forall d, leads_to d (abspath cwd p) = place cwd p.
Proof.
  intros cwd p H. split; [exact (abspath_text _ _ H)|]. split; [apply place_names|].
  intro d. exact (leads_abspath _ _ d H).
Qed.

(** two ways to write a path have the same absolute path exactly when they mean the same place,
    a leading "//" put aside *)
Theorem C89_same_place : forall cwd a b, isabs cwd = true -> slashes_of cwd a = slashes_of cwd b ->
  (abspath cwd a = abspath cwd b <-> place cwd a = place cwd b).
Proof. exact abspath_inj. Qed.

Theorem C89_one_place_one_path_refuted : exists cwd a b,
  isabs cwd = true /\ place cwd a = place cwd b /\ abspath cwd a <> abspath cwd b.
Proof. exists "/w", "/a", "//a". repeat split. discriminate. Qed.

(** normalising keeps the meaning from every directory, and is done after one time *)
Theorem C89_normal_path : forall p,
  normpath (normpath p) = normpath p /\ forall d, leads_to d (normpath p) = leads_to d p.
Proof. intro p. split; [apply normpath_idem|]. intro d. apply leads_normpath. Qed.

(** a relative path in normal form goes up first and then down, and is "." if it stays *)
Theorem C89_normal_form : forall p, isabs p = false ->
  exists ups names, normpath p = rel_text ups names /\ Forall a_name names.
Proof. intros p H. destruct (normpath_rel p H) as (n & l & E & L & _). now exists n, l. Qed.

(** the path from one place to another goes up to the last folder they share and then down; it is
    relative and leads there *)
Theorem C89_relative_path : forall cwd path start, isabs cwd = true ->
  (path = "" -> relpath cwd path start = Raise ValueError)
  /\ (path <> "" ->
      exists shared up down,
        longest_common (place cwd start) (place cwd path) shared
        /\ place cwd start = shared ++ up /\ place cwd path = shared ++ down
        /\ relpath cwd path start = Ok (rel_text (length up) down)
        /\ isabs (rel_text (length up) down) = false
        /\ leads_to (place cwd start) (rel_text (length up) down) = place cwd path).
Proof.
  intros cwd path start H. split; [intros ->; reflexivity|]. intro N.
  destruct (relpath_text cwd path start H N) as (c & a & b & L & A & B & E).
  exists c, a, b. split; [exact L|]. split; [exact A|]. split; [exact B|]. split; [exact E|].
  assert (NB : Forall a_name b).
  { pose proof (place_names cwd path) as NP. rewrite B in NP. now apply Forall_app in NP. }
  destruct (rel_text_comps (length a) b NB) as [R F]. split; [exact R|].
  unfold leads_to. rewrite R, F, follow_app, follow_ups, A, app_length.
  replace (length c + length a - length a) with (length c) by (rewrite Nat.add_sub; reflexivity).
  rewrite firstn_app, Nat.sub_diag, firstn_all. cbn [firstn]. rewrite app_nil_r.
  rewrite (follow_names_only _ _ NB). symmetry. exact B.
Qed.

(** the section path of a file below a folder: the folders on the way and the file's name without
    ".py" *)
Theorem C89_section_path_of_file : forall cwd base file way, isabs cwd = true -> file <> "" ->
  place cwd file = place cwd base ++ way ->
  from_filepath cwd base file
  = Ok (mk_sp (match way with [] => "." | _ => join "." (map_last strip_py way) end)).
Proof.
  intros cwd base file way H N P. destruct way as [|x way].
  - rewrite app_nil_r in P. exact (from_filepath_same _ _ _ H N P).
  - apply (from_filepath_inside _ _ _ _ H N P). discriminate.
Qed.

(** it leads back to the file if the names have no dots (but the one of ".py") *)
Theorem C89_file_of_section_path : forall cwd base file parts, isabs cwd = true -> file <> "" ->
  parts <> [] ->
  (forall x, In x parts -> x <> "" /\ has_char "/" x = false /\ has_char "." x = false) ->
  place cwd file = place cwd base ++ add_ext_last parts ->
  from_filepath cwd base file = Ok (mk_sp (join "." parts))
  /\ place cwd (to_filepath (mk_sp (join "." parts)) base ++ ".py") = place cwd file.
Proof.
  intros cwd base file parts H N Ne Hp P. apply (comes_back _ _ _ _ H N Ne); [| |exact P];
    apply Forall_forall; intros x I; destruct (Hp x I) as (A & B & C); [now split|exact C].
Qed.

(** a file that is not below the folder gets a section path that begins with empty parts *)
Theorem C89_file_outside : forall cwd base file, isabs cwd = true -> file <> "" ->
  (forall way, place cwd file <> place cwd base ++ way) ->
  exists sp, from_filepath cwd base file = Ok sp
             /\ nth_error (sections sp) 0 = Some "" /\ nth_error (sections sp) 1 = Some "".
Proof. exact from_filepath_outside. Qed.

(** as for the files of a manager that are not in its config folder, such as the dict files: while
    they are loaded, the frame on the stack is the manager's name, empty parts, and what remains *)
Theorem C89_frame_of_file_outside : forall cwd r m file, isabs cwd = true -> file <> "" ->
  get_manager_by_filepath cwd r file = Ok m ->
  (forall way, place cwd file <> place cwd (default_config_path m) ++ way) ->
  exists sp rest, frame_section_path_of_file cwd r file = Ok sp
    /\ sections sp = sections (mk_sp (m_name m)) ++ "" :: "" :: rest.
Proof.
  intros cwd r m file H N G O.
  destruct (from_filepath_any cwd (default_config_path m) file H N) as (c & a & b & _ & _ & _ & E0).
  destruct (from_filepath_outside cwd (default_config_path m) file H N O) as (sp & E & S0 & S1).
  exists (sp_join (mk_sp (m_name m)) sp).
  rewrite (frame_of_file _ _ _ _ _ G E). rewrite E in E0. injection E0 as ->.
  rewrite sp_join_sections. remember (sections (mk_sp (join sdot _))) as l eqn:El in *.
  destruct l as [|x [|y l]]; try discriminate. injection S0 as ->. injection S1 as ->.
  now exists l.
Qed.

Theorem C89_dict_file_frame_refuted : exists cwd r file m sp,
  isabs cwd = true /\ get_manager_by_filepath cwd r file = Ok m
  /\ frame_section_path_of_file cwd r file = Ok sp
  /\ place cwd (to_filepath sp (m_folder m) ++ ".py") <> place cwd file
  /\ sections sp = ["pm"; ""; ""; ""; "pipeline_dict"].
Proof.
  exists "/w", [("pm", {| m_id := 0; m_name := "pm"; m_folder := "proj"; m_default_config_folder := "defaults" |})],
    "proj/pipeline_dict.py".
  do 2 eexists. split; [reflexivity|]. split; [vm_compute; reflexivity|].
  split; [vm_compute; reflexivity|]. split; [vm_compute; discriminate|]. vm_compute. reflexivity.
Qed.

(** neither do different files always have different section paths, nor do these always lead back *)
Theorem C89_own_section_path_refuted : exists cwd base f g sp,
  isabs cwd = true /\ place cwd f <> place cwd g
  /\ from_filepath cwd base f = Ok sp /\ from_filepath cwd base g = Ok sp.
Proof.
  exists "/w", "defaults", "defaults/a/b.py", "defaults/a.b.py". eexists.
  split; [reflexivity|]. split; [vm_compute; discriminate|]. split; vm_compute; reflexivity.
Qed.

Theorem C89_outside_leads_back_refuted : exists cwd base file sp,
  isabs cwd = true /\ from_filepath cwd base file = Ok sp
  /\ place cwd (to_filepath sp base ++ ".py") <> place cwd file.
Proof.
  exists "/w", "defaults", "x.py". eexists.
  split; [reflexivity|]. split; [vm_compute; reflexivity|]. vm_compute. discriminate.
Qed.

(** the name of a config section is that of its folder, however this is written; the root has none.
    A config file without a given name is called as the file, whatever folder it is in *)
Theorem C89_section_name : forall cwd basepath, isabs cwd = true ->
  config_section_name cwd basepath = last (place cwd basepath) "".
Proof. exact section_name_last. Qed.

Theorem C89_file_name : forall d x, has_char "/" x = false ->
  config_file_name (d ++ "/" ++ x ++ ".py") None = x
  /\ forall n f, config_file_name f (Some n) = n.
Proof.
  intros d x H. split; [|reflexivity]. unfold config_file_name, basename.
  change (d ++ "/" ++ x ++ ".py")%string with (d ++ String slash (x ++ ".py"))%string.
  assert (Hx : has_char slash (x ++ ".py") = false) by (rewrite has_char_app; unfold slash; now rewrite H).
  rewrite split_app, (split_no_sep _ _ Hx), last_last. unfold strip_py.
  assert (endswith (x ++ ".py") ".py" = true) as -> by (apply endswith_iff; now exists x).
  apply (drop_last_app x ".py").
Qed.

Example C89_ex_paths :
  place "/home/u" "../x//./pm/.." = ["home"; "x"]
  /\ abspath "/home/u" "../x//./pm/.." = "/home/x"
  /\ normpath "../../a/../b/./c/.." = "../../b" /\ normpath "a/.." = "." /\ normpath "/../a" = "/a"
  /\ relpath "/w" "p/q/r.py" "p/d/e" = Ok "../../q/r.py"
  /\ relpath "/w" "/a/x/c" "/a/b/c" = Ok "../../x/c" /\ relpath "/w" "p/." "./p" = Ok "."
  /\ config_section_name "/w" "p/d/" = "d" /\ config_section_name "/w" "p/d/.." = "p".
Proof. vm_compute. repeat split; reflexivity. Qed.

Example C89_ex_section_path :
  place "/w" "./defaults/../defaults/a/f.py" = place "/w" "defaults" ++ add_ext_last ["a"; "f"]
  /\ from_filepath "/w" "defaults" "./defaults/../defaults/a/f.py" = Ok (mk_sp "a.f")
  /\ from_filepath "/w" "defaults" "defaults" = Ok (mk_sp ".").
Proof. vm_compute. repeat split; reflexivity. Qed.

Print Assumptions C89_absolute_path.
Print Assumptions C89_same_place.
Print Assumptions C89_one_place_one_path_refuted.
Print Assumptions C89_normal_path.
Print Assumptions C89_normal_form.
Print Assumptions C89_relative_path.
Print Assumptions C89_section_path_of_file.
Print Assumptions C89_file_of_section_path.
Print Assumptions C89_file_outside.
Print Assumptions C89_frame_of_file_outside.
Print Assumptions C89_dict_file_frame_refuted.
Print Assumptions C89_own_section_path_refuted.
Print Assumptions C89_outside_leads_back_refuted.
Print Assumptions C89_section_name.
Print Assumptions C89_file_name.
