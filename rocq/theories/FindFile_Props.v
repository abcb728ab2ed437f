(** C80: finding the file of a module without importing it. *)
From Verif Require Import FindFile_Spec FindFile_Proofs FuncArgs_Props.
Local Open Scope string_scope.
Local Open Scope list_scope.

(** Python's import gives one spec at most, the library one outcome: what follows compares them. *)
Theorem C80_python_gives_one : forall builtin listing sys_path mods parts s t,
  importable builtin listing sys_path mods parts s -> importable builtin listing sys_path mods parts t -> t = s.
Proof. intros. eapply importable_det; eassumption. Qed.
(** What Python would import is found, without importing anything ... *)
Theorem C80_found : forall builtin listing sys_path mods parts s, importable builtin listing sys_path mods parts s ->
  ~ nested_namespace builtin listing sys_path mods parts -> find_spec builtin listing sys_path mods parts = Ok (Some s).
Proof. exact found. Qed.
(** ... unless there is a package without __init__ file in a package that has not been imported, which always raises KeyError. *)
Theorem C80_nested : forall builtin listing sys_path mods parts, nested_namespace builtin listing sys_path mods parts ->
  find_spec builtin listing sys_path mods parts = Raise KeyError.
Proof. exact nested_raises. Qed.
(** Nothing else is found, unless a module that is no package is on the way. *)
Theorem C80_only : forall builtin listing sys_path mods parts s, find_spec builtin listing sys_path mods parts = Ok (Some s) ->
  importable builtin listing sys_path mods parts s \/ through_module builtin listing sys_path mods parts.
Proof. exact only. Qed.
(** Without such modules and packages the search gives exactly what Python imports. *)
Theorem C80_exact : forall builtin listing sys_path mods parts s, ~ through_module builtin listing sys_path mods parts -> ~ nested_namespace builtin listing sys_path mods parts ->
  (find_spec builtin listing sys_path mods parts = Ok (Some s) <-> importable builtin listing sys_path mods parts s).
Proof.
  intros b l p m parts s T N. split; [|intros I; now apply found].
  intros F. destruct (only b l p m parts s F) as [I|I]; [assumption|contradiction].
Qed.
(** Below a module that is no package Python finds nothing; the library takes the module of this name in sys.path. *)
Theorem C80_below_module : forall builtin listing sys_path mods up x p s, importable builtin listing sys_path mods up p ->
  ~ nested_namespace builtin listing sys_path mods up -> s_locations p = None -> unloaded mods (up ++ [x]) ->
  first_found listing x sys_path s -> namespace s = false -> builtin (join "." (up ++ [x])) = false ->
  find_spec builtin listing sys_path mods (up ++ [x]) = Ok (Some s) /\ (forall t, ~ importable builtin listing sys_path mods (up ++ [x]) t).
Proof.
  intros b l sp m up x p s I N L U F Ns B. assert (Nu := importable_nn b l sp m up p I). split.
  - rewrite (below_module b l sp m up x p); [|assumption..|now apply found|assumption]. now apply bootstrap_top_solid.
  - now apply (module_blocks b l sp m up x p).
Qed.
(** What is not there is not found, and what would be below it raises AttributeError. *)
Theorem C80_missing : forall builtin listing sys_path mods up x p dirs, importable builtin listing sys_path mods up p ->
  ~ nested_namespace builtin listing sys_path mods up -> s_locations p = Some dirs -> (forall s, ~ first_found listing x dirs s) -> unloaded mods (up ++ [x]) ->
  find_spec builtin listing sys_path mods (up ++ [x]) = Ok None.
Proof. exact missing. Qed.
Theorem C80_missing_top : forall builtin listing sys_path mods x, dget x mods = None -> builtin x = false -> (forall s, ~ first_found listing x sys_path s) ->
  find_spec builtin listing sys_path mods [x] = Ok None.
Proof. exact missing_top. Qed.
Theorem C80_below_missing : forall builtin listing sys_path mods up rest, up <> [] -> rest <> [] -> find_spec builtin listing sys_path mods up = Ok None ->
  (forall mid post, rest = mid ++ post -> mid <> [] -> unloaded mods (up ++ mid)) -> find_spec builtin listing sys_path mods (up ++ rest) = Raise AttributeError.
Proof. exact below_missing. Qed.
(** The file: what a spec gives, and the exceptions that can come. *)
Theorem C80_file : forall builtin listing sys_path mods name, match find_spec builtin listing sys_path mods (split dot name) with
  | Ok (Some s) => (forall f, s_file s = Some f -> get_filepath builtin listing sys_path mods name = Ok f) /\ (s_file s = None -> get_filepath builtin listing sys_path mods name = Raise ValueError)
  | Ok None => get_filepath builtin listing sys_path mods name = Raise AttributeError
  | Raise e => get_filepath builtin listing sys_path mods name = Raise e
  end.
Proof.
  intros b l sp m name. unfold get_filepath. destruct (find_spec b l sp m (split dot name)) as [[s|]|e]; try reflexivity.
  destruct (s_file s); split; intros; congruence.
Qed.
Theorem C80_exceptions : forall builtin listing sys_path mods name e, get_filepath builtin listing sys_path mods name = Raise e ->
  e = KeyError \/ e = ValueError \/ e = AttributeError.
Proof.
  intros b l sp m name e. unfold get_filepath. destruct (find_spec b l sp m (split dot name)) as [[s|]|e'] eqn:E.
  - destruct (s_file s); [discriminate|intros [= <-]; tauto].
  - intros [= <-]; tauto.
  - intros [= <-]. eapply exceptions; eassumption.
Qed.
(** A module that is loaded counts as it was loaded, wherever its file would be found now. *)
Theorem C80_loaded : forall builtin listing sys_path mods parts i, parts <> [] -> dget (join "." parts) mods = Some i ->
  find_spec builtin listing sys_path mods parts = match i with MNone => Ok None | MNoSpec => Raise ValueError | MSpec s => Ok (Some s) end.
Proof. exact find_loaded. Qed.
(** Together with C63: the signature of an item is read from the files Python would import its definition from. *)
Theorem C80_definition : forall builtin listing sys_path mods read set_list is_builtin_type py m name m2 d,
  (forall m src, py m = Ok src -> py_source builtin listing sys_path mods read m src) ->
  stands_for py m name m2 d -> clear_files (lib_file_of builtin listing sys_path mods read) ->
  exists k f, py m2 = Ok f /\ forall fuel j n, k <= fuel -> imports_as j n m name ->
    extract_args set_list is_builtin_type fuel (lib_file_of builtin listing sys_path mods read) n j = read_def set_list is_builtin_type f m2 d.
Proof. exact lib_finds. Qed.
(** And what is read is in the only definition of its name in a file that Python would import, or that is found through a module. *)
Theorem C80_read_from : forall builtin listing sys_path mods read set_list is_builtin_type fuel n i a l,
  extract_args set_list is_builtin_type fuel (lib_file_of builtin listing sys_path mods read) n i = Ok (a, l) ->
  exists m s f src name d, s_file s = Some f /\ read f = Ok src /\ flat_map (defs_in name) (src_body src) = [d] /\ read_def set_list is_builtin_type src m d = Ok (a, l) /\
    (importable builtin listing sys_path mods (split dot m) s \/ through_module builtin listing sys_path mods (split dot m)).
Proof.
  intros b l sp mods read sl bt fuel n i a im E. apply C63_only_definitions in E. destruct E as (m & src & name & d & F & D & R).
  apply lib_file_only in F. destruct F as (s & f & F & S & Rd). exists m, s, f, src, name, d. repeat split; try assumption. now apply only.
Qed.

(* ------------------------------------------------------------------ *)
(** * Examples *)

Example C80_example : ff_get ff_mods "pkg" = Ok "/app/pkg/__init__.py" /\ ff_get ff_mods "pkg.inner" = Ok "/app/pkg/inner.py" /\ ff_get ff_mods "tool" = Ok "/app/tool.py" /\
  ff_get ff_mods "data.top" = Ok "/app/data/top.py" /\ ff_get ff_mods "data" = Raise ValueError /\ ff_get ff_mods "sys" = Raise ValueError /\
  ff_get ff_mods "__main__" = Raise ValueError /\ ff_get ff_mods "none" = Raise AttributeError /\ ff_get ff_mods "none.at.all" = Raise AttributeError /\
  ff_get [("tool", MSpec (Spec (Some "/old/tool.py") None))] "tool" = Ok "/old/tool.py" /\ ff_get [("tool", MNone)] "tool" = Raise AttributeError /\
  extract_args ex_set ex_builtin 5 ff_lib "go" (ObjImp ["go"] "pkg" []) = Ok (one_arg (a_ "x"), []).
Proof. repeat split. Qed.
Example C80_importable : importable ff_builtin ff_listing ff_path ff_mods ["pkg"; "inner"] (Spec (Some "/app/pkg/inner.py") None) /\
  ~ nested_namespace ff_builtin ff_listing ff_path ff_mods ["pkg"; "inner"] /\ ~ through_module ff_builtin ff_listing ff_path ff_mods ["pkg"; "inner"].
Proof.
  split; [exact ff_inner|]. split.
  - intros N. apply nested_raises in N. discriminate N.
  - intros (up & x & rest & p & E & I & L & U). destruct up as [|a [|b [|c up]]].
    + now apply importable_nn in I.
    + injection E as <- <- <-. apply (importable_det _ _ _ _ _ _ ff_pkg) in I. subst p. discriminate L.
    + discriminate E.
    + discriminate E.
Qed.
(** A module of a package without __init__ file in a package can be imported; the library raises KeyError as long as it has not been. *)
Theorem C80_importable_is_found_refuted : exists builtin listing sys_path mods s, importable builtin listing sys_path mods ["pkg"; "files"; "low"] s /\ s_file s = Some "/app/pkg/files/low.py" /\
  get_filepath builtin listing sys_path mods "pkg.files.low" = Raise KeyError /\
  get_filepath builtin listing sys_path [("pkg", MSpec (Spec (Some "/app/pkg/__init__.py") (Some ["/app/pkg"])))] "pkg.files.low" = Ok "/app/pkg/files/low.py".
Proof. exists ff_builtin, ff_listing, ff_path, ff_mods, (Spec (Some "/app/pkg/files/low.py") None). split; [exact ff_low|]. repeat split. Qed.
(** [import pkg.inner.tool] raises in Python; the library finds the file of the module tool. *)
Theorem C80_found_is_importable_refuted : exists builtin listing sys_path mods, get_filepath builtin listing sys_path mods "pkg.inner.tool" = Ok "/app/tool.py" /\
  forall s, ~ importable builtin listing sys_path mods ["pkg"; "inner"; "tool"] s.
Proof.
  exists ff_builtin, ff_listing, ff_path, ff_mods. split; [reflexivity|].
  eapply (module_blocks ff_builtin ff_listing ff_path ff_mods ["pkg"; "inner"] "tool" _); [discriminate|reflexivity|exact ff_inner|reflexivity].
Qed.
(** So the config of [from pkg.inner.tool import run] is that of another function. *)
Theorem C80_wrong_definition_refuted : exists builtin listing sys_path mods read, (forall s, ~ importable builtin listing sys_path mods ["pkg"; "inner"; "tool"] s) /\
  exists a, extract_args ex_set ex_builtin 1 (lib_file_of builtin listing sys_path mods read) "run" (ObjImp ["run"] "pkg.inner.tool" []) = Ok (a, []) /\ map arg_name (a_args a) = ["other"].
Proof.
  exists ff_builtin, ff_listing, ff_path, ff_mods, ff_read. split.
  - eapply (module_blocks ff_builtin ff_listing ff_path ff_mods ["pkg"; "inner"] "tool" _); [discriminate|reflexivity|exact ff_inner|reflexivity].
  - exists (one_arg (a_ "other")). split; reflexivity.
Qed.

Print Assumptions C80_python_gives_one.
Print Assumptions C80_found.
Print Assumptions C80_nested.
Print Assumptions C80_only.
Print Assumptions C80_exact.
Print Assumptions C80_below_module.
Print Assumptions C80_missing.
Print Assumptions C80_missing_top.
Print Assumptions C80_below_missing.
Print Assumptions C80_file.
Print Assumptions C80_exceptions.
Print Assumptions C80_loaded.
Print Assumptions C80_definition.
Print Assumptions C80_read_from.
Print Assumptions C80_importable_is_found_refuted.
Print Assumptions C80_found_is_importable_refuted.
Print Assumptions C80_wrong_definition_refuted.
