(** C68: the import written for an object. *)
From Verif Require Import SectionPath_Proofs Names_Model Names_Spec Names_Proofs.
Local Open Scope string_scope.
Local Open Scope list_scope.

(** The module found is the first one that has the object under any name. *)
Theorem C68_module_found : forall mods o n, dwf mods -> (find_module mods o = Ok n <-> first_with mods o n).
Proof. exact find_module_iff. Qed.
Theorem C68_not_found : forall mods o e, dwf mods ->
  (find_module mods o = Raise e <-> e = LibExn "CouldNotDetermineModuleForObjectException" /\ forall n m, In (n, m) mods -> considered n -> ~ in_mod o m).
Proof.
  intros mods o e W. rewrite <- (find_module_none mods o W). split.
  - intros E. split; [now apply find_module_raise in E|now exists e].
  - intros (-> & e' & E). rewrite E. f_equal. now apply find_module_raise in E.
Qed.
(** The other two searches agree with it. *)
Theorem C68_imported_obj : forall mods o, is_imported_obj mods o = true <-> exists n, find_module mods o = Ok n.
Proof.
  intros mods o. unfold is_imported_obj, find_module. generalize (dkeys mods) as l. induction l as [|x l IH]; cbn [existsb get_module_imported_from]; [split; [discriminate|intros (n & [=])]|].
  destruct (should_skip_module name_skip x); cbn [negb andb orb]; [exact IH|]. destruct (dget x mods) as [m|]; [|exact IH]. destruct (obj_in_module o m); cbn [orb]; [split; [now exists x|reflexivity]|exact IH].
Qed.
Theorem C68_imported_name : forall mods x, is_imported_name mods x = true <-> is_imported_from mods x <> [].
Proof.
  intros mods x. unfold is_imported_name, is_imported_from. generalize (dkeys mods) as l. induction l as [|y l IH]; cbn [existsb filter]; [split; congruence|].
  destruct (negb (should_skip_module name_skip y) && _); cbn [orb]; [split; [discriminate|reflexivity]|exact IH].
Qed.
Theorem C68_imported_from : forall mods x n, dwf mods -> (In n (is_imported_from mods x) <-> considered n /\ exists m, In (n, m) mods /\ In x (map fst m)).
Proof.
  intros mods x n W. unfold is_imported_from, considered. rewrite filter_In, andb_true_iff, negb_true_iff. split.
  - intros (K & S & H). split; [exact S|]. destruct (dget n mods) as [m|] eqn:E; [|discriminate]. exists m. split; [now apply dget_Some_In|]. unfold name_in_module in H. apply existsb_exists in H as (y & I & E2). apply String.eqb_eq in E2. now subst y.
  - intros (S & m & I & H). split; [exact (in_map fst _ _ I)|]. split; [exact S|]. rewrite (In_dget n m mods W I). unfold name_in_module. apply existsb_exists. exists x. split; [exact H|apply String.eqb_refl].
Qed.

(** Only modules whose path ends in six.moves are left out. *)
Theorem C68_considered : forall n, considered n <-> sp_endswith (mk_sp n) (mk_sp "six.moves") = false.
Proof. intros n. unfold considered, should_skip_module, name_skip. cbn [existsb]. rewrite orb_false_r. reflexivity. Qed.

(** What create writes gives the object again exactly if the module found has the object under the name it was defined with. *)
Theorem C68_import_gives_object : forall oname mods o n x, mods_ok mods -> import_for oname mods o = Ok (n, x) ->
  first_with mods o n /\ oname o = Some x /\ forall m, In (n, m) mods -> (import_from mods (n, x) = Ok (IObj o) <-> In (x, Some o) m).
Proof.
  intros oname mods o n x [W N] H. unfold import_for in H. destruct (find_module mods o) as [n'|] eqn:E; [|discriminate]. destruct (oname o) as [x'|] eqn:Ex; [|discriminate]. injection H as -> ->.
  split; [now apply find_module_iff|]. split; [reflexivity|]. intros m I. unfold import_from. rewrite (In_dget n m mods W I). split.
  - destruct (dget x m) as [[o'|]|] eqn:E2.
    + intros [= ->]. now apply dget_Some_In.
    + destruct (dmem (n ++ "." ++ x)%string mods); discriminate.
    + destruct (dmem (n ++ "." ++ x)%string mods); discriminate.
  - intros I2. now rewrite (nodup_dget m x (Some o) (N n m I) I2).
Qed.
(** It does if nobody imports the object under another name. *)
Theorem C68_import_gives_object_without_aliases : forall oname mods o n x, mods_ok mods -> import_for oname mods o = Ok (n, x) ->
  (forall n' m k, In (n', m) mods -> In (k, Some o) m -> In (x, Some o) m) -> import_from mods (n, x) = Ok (IObj o).
Proof.
  intros oname mods o n x W H A. destruct (C68_import_gives_object oname mods o n x W H) as ((b & m & a & E & C & (k & Hk) & _) & _ & F).
  assert (I : In (n, m) mods) by (rewrite E; apply in_app_iff; right; now left). apply (F m I). now apply (A n m k).
Qed.
(** In another process it gives what the module has there under the name. *)
Theorem C68_import_in_another_process : forall oname mods mods2 o n x m, import_for oname mods o = Ok (n, x) -> dget n mods2 = Some m ->
  (import_from mods2 (n, x) = Ok (IObj o) <-> dget x m = Some (Some o)).
Proof.
  intros oname mods mods2 o n x m _ E. unfold import_from. rewrite E. destruct (dget x m) as [[o'|]|].
  - split; [now intros [= ->]|now intros [= ->]].
  - split; [destruct (dmem _ mods2); discriminate|discriminate].
  - split; [destruct (dmem _ mods2); discriminate|discriminate].
Qed.
(** An alias in a module imported earlier: the import fails, or silently gives another object. *)
Theorem C68_alias_refuted : exists oname mods o m lib, mods_ok mods /\ import_for oname mods o = Ok m /\ dget "pkg.lib" mods = Some lib /\ In ("f", Some o) lib /\ oname o = Some "f" /\
  import_from mods m = Raise (LibExn "ImportError").
Proof.
  exists nx_name, nx_alias, 0, ("pkg.user", "f"), nx_lib. split; [split; [repeat constructor; cbn; intuition discriminate|]|].
  - intros n m [[= <- <-]|[[= <- <-]|[[= <- <-]|[]]]]; repeat constructor; cbn; intuition discriminate.
  - split; [reflexivity|]. split; [reflexivity|]. split; [right; now left|]. split; reflexivity.
Qed.
Theorem C68_other_object_refuted : exists oname mods o o' m lib, mods_ok mods /\ import_for oname mods o = Ok m /\ dget "pkg.lib" mods = Some lib /\ In ("f", Some o) lib /\ oname o = Some "f" /\
  import_from mods m = Ok (IObj o') /\ o' <> o.
Proof.
  exists nx_name, nx_other, 0, 1, ("pkg.user", "f"), nx_lib. split; [split; [repeat constructor; cbn; intuition discriminate|]|].
  - intros n m [[= <- <-]|[[= <- <-]|[[= <- <-]|[]]]]; repeat constructor; cbn; intuition discriminate.
  - split; [reflexivity|]. split; [reflexivity|]. split; [right; now left|]. split; [reflexivity|]. split; [reflexivity|discriminate].
Qed.
(** A function that the script imports itself is written as an import from the script, which no other script can load. *)
Theorem C68_works_in_another_process_refuted : exists oname mods mods2 o m lib, mods_ok mods /\ mods_ok mods2 /\ import_for oname mods o = Ok m /\
  dget "pkg.lib" mods = Some lib /\ dget "pkg.lib" mods2 = Some lib /\ In ("f", Some o) lib /\ oname o = Some "f" /\
  import_from mods m = Ok (IObj o) /\ import_from mods2 m = Raise (LibExn "ImportError").
Proof.
  exists nx_name, nx_mods, nx_mods2, 0, ("__main__", "f"), nx_lib. split; [|split].
  1, 2: split; [repeat constructor; cbn; intuition discriminate|]; intros n m [[= <- <-]|[[= <- <-]|[[= <- <-]|[]]]]; repeat constructor; cbn; intuition discriminate.
  split; [reflexivity|]. split; [reflexivity|]. split; [reflexivity|]. split; [right; now left|]. split; [reflexivity|]. split; reflexivity.
Qed.

(** The name of an object in a module is the first one, if all attributes of the module can be read. *)
Theorem C68_variable_name : forall o m k, variable_name o m = Ok k <->
  (forall x, ~ In (x, None) m) /\ exists a b, m = a ++ (k, Some o) :: b /\ forall k', ~ In (k', Some o) a.
Proof.
  intros o m k. unfold variable_name. destruct (keys_and_values m) as [l|e] eqn:E.
  - assert (Em := proj1 (keys_and_values_Ok m l) E). rewrite key_matching_Ok. split.
    + intros (a & b & -> & N). split; [intros x Hx; rewrite Em in Hx; apply in_map_iff in Hx as ([? ?] & [=] & _)|]. rewrite map_app in Em. exists (map (fun kv => (fst kv, Some (snd kv))) a), (map (fun kv => (fst kv, Some (snd kv))) b). split; [exact Em|].
      intros k' Hk. apply in_map_iff in Hk as ([y v] & [= -> ->] & I). now apply (N k').
    + intros (_ & a & b & H & N). rewrite Em in H. apply map_eq_app in H as (a' & b' & -> & <- & H). apply map_eq_cons in H as ([y v] & c & -> & H & _). cbn in H. injection H as -> ->. exists a', c. split; [reflexivity|].
      intros k' I. apply (N k'). apply (in_map (fun kv => (fst kv, Some (snd kv)))) in I. exact I.
  - apply keys_and_values_Raise in E as (-> & x & H). split; [discriminate|]. intros (F & _). exfalso. now apply (F x).
Qed.
(** An object that is not in the module has no name there. *)
Theorem C68_no_variable_name : forall o m, (forall x, ~ In (x, None) m) -> (forall k, ~ In (k, Some o) m) -> variable_name o m = Raise ValueError.
Proof.
  intros o m A B. unfold variable_name. destruct (keys_and_values m) as [l|e] eqn:E; [|apply keys_and_values_Raise in E as (_ & x & H); now apply A in H].
  apply keys_and_values_Ok in E. assert (N : forall k, ~ In (k, o) l) by (intros k I; apply (B k); rewrite E; exact (in_map (fun kv => (fst kv, Some (snd kv))) _ _ I)).
  clear -N. induction l as [|[k v] l IH]; [reflexivity|]. cbn [key_matching]. destruct (Nat.eqb_spec o v) as [->|_]; [exfalso; apply (N k); now left|]. apply IH. intros k' I. apply (N k'). now right.
Qed.
(** In a process where the module can not be found the import that was written raises. *)
Theorem C68_module_gone : forall oname mods mods2 o n x, import_for oname mods o = Ok (n, x) -> dget n mods2 = None -> import_from mods2 (n, x) = Raise (LibExn "ModuleNotFoundError").
Proof. intros oname mods mods2 o n x _ H. unfold import_from. now rewrite H. Qed.
Theorem C68_variable_name_of_found : forall mods o n m, dwf mods -> find_module mods o = Ok n -> dget n mods = Some m ->
  (exists k, variable_name o m = Ok k /\ In (k, Some o) m) \/ (variable_name o m = Raise AttributeError /\ exists x, In (x, None) m).
Proof.
  intros mods o n m W H G. apply (find_module_iff _ _ _ W) in H as (b & m' & a & -> & C & (k & I) & _). rewrite (dget_here _ _ _ _ W) in G. injection G as ->.
  destruct (variable_name o m) as [k'|e] eqn:E.
  - left. exists k'. split; [reflexivity|]. apply C68_variable_name in E as (_ & a' & b' & -> & _). apply in_app_iff. right. now left.
  - right. unfold variable_name in E. destruct (keys_and_values m) as [l|e'] eqn:El.
    + apply keys_and_values_Ok in El. exfalso. destruct (key_matching_in o l) as (k' & K); [|congruence]. rewrite El in I. apply in_map_iff in I as ([y v] & [= -> ->] & I). now exists k.
    + injection E as ->. apply keys_and_values_Raise in El as (-> & X). auto.
Qed.
Theorem C68_found_object_has_a_name_refuted : exists mods o n m, mods_ok mods /\ find_module mods o = Ok n /\ dget n mods = Some m /\ variable_name o m = Raise AttributeError.
Proof.
  exists nx_broken, 0, "pkg.lib". eexists. split; [split; [repeat constructor; cbn; intuition discriminate|]|].
  - intros n m [[= <- <-]|[[= <- <-]|[]]]; repeat constructor; cbn; intuition discriminate.
  - split; [reflexivity|]. split; reflexivity.
Qed.
(** A name that is no attribute of the module is looked for among its submodules. *)
Theorem C68_imported_submodule : forall (mods : pmods) m md x n, dget m mods = Some md -> (forall o, dget x md <> Some (Some o)) ->
  (import_from mods (m, x) = Ok (IModule n) <-> n = (m ++ "." ++ x)%string /\ In n (dkeys mods)) /\
  (import_from mods (m, x) = Raise (LibExn "ImportError") <-> ~ In (m ++ "." ++ x)%string (dkeys mods)).
Proof.
  intros mods m md x n M X. assert (E : import_from mods (m, x) = if dmem (m ++ "." ++ x)%string mods then Ok (IModule (m ++ "." ++ x)%string) else Raise (LibExn "ImportError")).
  { unfold import_from. rewrite M. destruct (dget x md) as [[o|]|]; [now exfalso; apply (X o)|reflexivity|reflexivity]. }
  rewrite E. destruct (dmem (m ++ "." ++ x)%string mods) eqn:D.
  - apply dmem_In in D. split; [|split; [discriminate|now intros H]]. split; [intros H; injection H as <-; auto|now intros [-> _]].
  - apply dmem_false in D. split; [|now split]. split; [discriminate|]. intros [-> H]. now exfalso.
Qed.
Example C68_submodule_example : let mods := [("pkg", [("f", Some 0)]); ("pkg.lib", [])] in import_from mods ("pkg", "lib") = Ok (IModule "pkg.lib") /\ import_from mods ("pkg", "g") = Raise (LibExn "ImportError").
Proof. split; reflexivity. Qed.
Example C68_example : import_for nx_name nx_mods 0 = Ok ("__main__", "f") /\ import_for nx_name nx_mods2 0 = Ok ("pkg.lib", "f") /\
  import_from nx_mods2 ("pkg.lib", "f") = Ok (IObj 0) /\ import_for nx_name nx_mods 7 = Raise (LibExn "CouldNotDetermineModuleForObjectException").
Proof. repeat split; reflexivity. Qed.

Print Assumptions C68_imported_submodule.
Print Assumptions C68_module_found.
Print Assumptions C68_not_found.
Print Assumptions C68_imported_obj.
Print Assumptions C68_imported_name.
Print Assumptions C68_imported_from.
Print Assumptions C68_import_gives_object.
Print Assumptions C68_import_gives_object_without_aliases.
Print Assumptions C68_import_in_another_process.
Print Assumptions C68_alias_refuted.
Print Assumptions C68_other_object_refuted.
Print Assumptions C68_works_in_another_process_refuted.
Print Assumptions C68_variable_name.
Print Assumptions C68_variable_name_of_found.
Print Assumptions C68_found_object_has_a_name_refuted.
Print Assumptions C68_considered.
Print Assumptions C68_no_variable_name.
Print Assumptions C68_module_gone.
