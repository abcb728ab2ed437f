From Verif Require Import FindFile_Spec FuncArgs_Proofs.
Local Open Scope string_scope.
Local Open Scope list_scope.

Section Proofs.
Variable builtin : string -> bool.
Variable listing : string -> string -> there.
Variable sys_path : list string.
Variable mods : dict minfo.
Notation path_entries := (path_entries listing).
Notation bootstrap_find := (bootstrap_find builtin listing sys_path mods).
Notation find_spec := (find_spec builtin listing sys_path mods).
Notation find_rev := (find_rev builtin listing sys_path mods).
Notation first_found := (first_found listing).
Notation importable := (importable builtin listing sys_path mods).
Notation nested_namespace := (nested_namespace builtin listing sys_path mods).
Notation unloaded := (unloaded mods).
Notation solid := (solid listing).

Definition is_dir (x d : string) : bool := match listing d x with Directory => true | _ => false end.

Lemma str_app_assoc a b c : ((a ++ b) ++ c = a ++ (b ++ c))%string.
Proof. induction a; cbn; congruence. Qed.
Lemma in_dir_suffix d x s : (in_dir d x ++ s = d ++ "/" ++ x ++ s)%string.
Proof. unfold in_dir. now rewrite str_app_assoc. Qed.
Lemma in_dir_init d x s : (in_dir (in_dir d x) "__init__" ++ s = d ++ "/" ++ x ++ "/__init__" ++ s)%string.
Proof. unfold in_dir. now rewrite !str_app_assoc. Qed.

(** the loop over the directories, with what has been collected before *)
Lemma path_entries_loose x dirs portions : (forall d, In d dirs -> ~ solid d x) ->
  path_entries x dirs portions = match portions ++ map (fun d => in_dir d x) (filter (is_dir x) dirs) with
                                 | [] => None | l => Some (Spec None (Some l)) end.
Proof.
  revert portions. induction dirs as [|d dirs IH]; intros portions H; cbn.
  - rewrite app_nil_r. now destruct portions.
  - assert (Hd := H d (or_introl eq_refl)). unfold solid, FindFile_Spec.solid in Hd. unfold is_dir at 1.
    destruct (listing d x) eqn:E; try tauto.
    + apply IH. intros d' I. apply H. now right.
    + rewrite IH by (intros d' I; apply H; now right). cbn. now rewrite <- app_assoc.
Qed.
Lemma path_entries_skip x pre d post portions : (forall d', In d' pre -> ~ solid d' x) -> solid d x ->
  path_entries x (pre ++ d :: post) portions = path_entries x [d] [].
Proof.
  revert portions. induction pre as [|e pre IH]; intros portions H S; cbn.
  - unfold solid, FindFile_Spec.solid in S. destruct (listing d x); tauto || reflexivity.
  - assert (He := H e (or_introl eq_refl)). unfold solid, FindFile_Spec.solid in He. destruct (listing e x) eqn:E; try tauto.
    + rewrite IH; [reflexivity|intros d' I; apply H; now right|assumption].
    + rewrite IH; [reflexivity|intros d' I; apply H; now right|assumption].
Qed.

Lemma first_found_entries x dirs s : first_found x dirs s -> path_entries x dirs [] = Some s.
Proof.
  intros [pre d post suffix -> H E|pre d post suffix -> H E|H [d [I E]]].
  - rewrite path_entries_skip by (assumption || (unfold solid, FindFile_Spec.solid; now rewrite E)). cbn. rewrite E. now rewrite in_dir_suffix.
  - rewrite path_entries_skip by (assumption || (unfold solid, FindFile_Spec.solid; now rewrite E)). cbn. rewrite E. now rewrite in_dir_init.
  - rewrite path_entries_loose by assumption. cbn [app].
    change (filter (fun d0 => match listing d0 x with Directory => true | _ => false end) dirs) with (filter (is_dir x) dirs).
    change (fun d0 => (d0 ++ "/" ++ x)%string) with (fun d0 => in_dir d0 x).
    assert (F : In d (filter (is_dir x) dirs)) by (apply filter_In; split; [assumption|unfold is_dir; now rewrite E]).
    destruct (filter (is_dir x) dirs); [destruct F|reflexivity].
Qed.

Lemma solid_dec x dirs : (forall d, In d dirs -> ~ solid d x) \/
  exists pre d post, dirs = pre ++ d :: post /\ (forall d', In d' pre -> ~ solid d' x) /\ solid d x.
Proof.
  induction dirs as [|d dirs IH]; [left; intros d []|].
  destruct (listing d x) eqn:E.
  3,4: right; exists [], d, dirs; repeat split; [intros ? []|unfold solid, FindFile_Spec.solid; now rewrite E].
  all: assert (N : ~ solid d x) by (unfold solid, FindFile_Spec.solid; rewrite E; tauto);
    (destruct IH as [H|(pre & d' & post & -> & H & S)];
     [left; intros d1 [<-|I]; auto|right; exists (d :: pre), d', post; repeat split; [|assumption]; intros d1 [<-|I]; auto]).
Qed.
Lemma entries_first_found x dirs s : path_entries x dirs [] = Some s -> first_found x dirs s.
Proof.
  intros P. destruct (solid_dec x dirs) as [H|(pre & d & post & -> & H & S)].
  - assert (P' := P). rewrite path_entries_loose in P by assumption. cbn [app] in P.
    destruct (map (fun d => in_dir d x) (filter (is_dir x) dirs)) eqn:E; [discriminate|].
    injection P as <-. rewrite <- E. apply found_directories; [assumption|].
    destruct (filter (is_dir x) dirs) as [|d l0] eqn:F; [discriminate|].
    assert (I : In d (filter (is_dir x) dirs)) by (rewrite F; now left). apply filter_In in I. destruct I as [I D].
    exists d. split; [assumption|]. unfold is_dir in D. destruct (listing d x); discriminate || reflexivity.
  - rewrite path_entries_skip in P by assumption. cbn in P. unfold solid, FindFile_Spec.solid in S.
    destruct (listing d x) eqn:E; try tauto; injection P as <-.
    + rewrite in_dir_suffix. eapply found_module; eauto.
    + rewrite in_dir_init. eapply found_package; eauto.
Qed.

Lemma found_shape x dirs s : first_found x dirs s -> s_file s = None -> namespace s = true.
Proof. intros [? ? ? ? ? ? ?|? ? ? ? ? ? ?|? ?]; cbn; congruence || reflexivity. Qed.

Lemma find_rev_eq x up : find_rev (x :: up) =
  match dget (join "." (rev up ++ [x])) mods with
  | Some MNone => Ok None
  | Some MNoSpec => Raise ValueError
  | Some (MSpec s) => Ok (Some s)
  | None => match up with
            | [] => bootstrap_find x [] None
            | _ => match find_rev up with
                   | Raise e => Raise e
                   | Ok None => Raise AttributeError
                   | Ok (Some p) => bootstrap_find x up (s_locations p)
                   end
            end
  end.
Proof. reflexivity. Qed.
Lemma find_top x : find_spec [x] = match dget x mods with
  | Some MNone => Ok None | Some MNoSpec => Raise ValueError | Some (MSpec s) => Ok (Some s) | None => bootstrap_find x [] None end.
Proof. unfold FindFile_Model.find_spec. cbn [rev app]. rewrite find_rev_eq. cbn [rev app join]. reflexivity. Qed.
Lemma find_below up x : up <> [] -> find_spec (up ++ [x]) =
  match dget (join "." (up ++ [x])) mods with
  | Some MNone => Ok None
  | Some MNoSpec => Raise ValueError
  | Some (MSpec s) => Ok (Some s)
  | None => match find_spec up with
            | Raise e => Raise e
            | Ok None => Raise AttributeError
            | Ok (Some p) => bootstrap_find x (rev up) (s_locations p)
            end
  end.
Proof.
  intros N. unfold FindFile_Model.find_spec. rewrite rev_app_distr. cbn [rev app]. rewrite find_rev_eq. rewrite rev_involutive.
  destruct (rev up) eqn:E; [|reflexivity]. apply (f_equal (@rev string)) in E. rewrite rev_involutive in E. contradiction.
Qed.
Lemma find_loaded parts i : parts <> [] -> dget (join "." parts) mods = Some i ->
  find_spec parts = match i with MNone => Ok None | MNoSpec => Raise ValueError | MSpec s => Ok (Some s) end.
Proof.
  intros N D. destruct (exists_last N) as (up & x & ->). destruct up as [|y up].
  - cbn [app join] in *. rewrite find_top, D. reflexivity.
  - rewrite find_below by discriminate. rewrite D. reflexivity.
Qed.

Lemma bootstrap_solid x up dirs path s : path_entries x dirs [] = Some s -> namespace s = false ->
  dirs = match path with None => sys_path | Some l => l end ->
  match path with None => builtin (full_name (x :: up)) | Some _ => false end = false -> bootstrap_find x up path = Ok (Some s).
Proof. intros P N -> B. unfold FindFile_Model.bootstrap_find. now rewrite B, P, N. Qed.

Lemma full_name_rev up : full_name (rev up) = join "." up.
Proof. unfold full_name. now rewrite rev_involutive. Qed.
Lemma nested_up up x : unloaded (up ++ [x]) -> nested_namespace up -> nested_namespace (up ++ [x]).
Proof.
  intros U (u & y & rest & s & -> & Nu & Uu & I & Ns & H). exists u, y, (rest ++ [x]), s.
  split; [now rewrite <- app_assoc|]. split; [assumption|]. split; [assumption|]. split; [assumption|]. split; [assumption|].
  intros mid post E. destruct post as [|z post] using rev_ind.
  - rewrite app_nil_r in E. subst mid. change (u ++ y :: rest ++ [x]) with (u ++ (y :: rest) ++ [x]). rewrite app_assoc. exact U.
  - rewrite app_assoc in E. apply app_inj_tail in E. destruct E as [E _]. eapply H; eauto.
Qed.
Lemma unnested up x : unloaded (up ++ [x]) -> ~ nested_namespace (up ++ [x]) -> ~ nested_namespace up.
Proof. intros U N H. apply N. now apply nested_up. Qed.

Lemma loc_ns s ls : s_locations s = Some ls -> s_file s = None -> namespace s = true.
Proof. unfold namespace. now intros -> ->. Qed.

(** a loaded module is imported as what it was loaded as *)
Lemma importable_loaded parts s i : importable parts s -> dget (join "." parts) mods = Some i -> i = MSpec s.
Proof. intros I D. inversion I as [? ? Np1 D1|? D1|? ? D1|? ? ? ? ? ? D1]; subst; try (cbn [join] in D); congruence. Qed.

Lemma found parts s : importable parts s -> ~ nested_namespace parts -> find_spec parts = Ok (Some s).
Proof.
  intros I. induction I as [parts s Np D|x D B|x s D B F|up x p dirs s Nu D I IH L F]; intros N.
  - now apply (find_loaded parts (MSpec s)).
  - rewrite find_top, D. unfold FindFile_Model.bootstrap_find. change (full_name [x]) with x. now rewrite B.
  - rewrite find_top, D. apply first_found_entries in F. unfold FindFile_Model.bootstrap_find. change (full_name [x]) with x. rewrite B, F.
    cbn. now destruct (namespace s).
  - rewrite find_below by assumption. rewrite D. rewrite IH by now apply (unnested up x).
    rewrite L. assert (F' := F). apply first_found_entries in F'. unfold FindFile_Model.bootstrap_find. rewrite F'.
    destruct (namespace s) eqn:Ns; [|reflexivity]. unfold namespace_path. destruct (rev up) eqn:E; [reflexivity|]. rewrite <- E, full_name_rev.
    destruct (dget (join "." up) mods) as [i|] eqn:Du.
    + rewrite (importable_loaded up p i) by assumption. now rewrite L.
    + exfalso. apply N. exists up, x, [], s. repeat split; try assumption.
      * eapply imp_below; eauto.
      * intros mid post Em. destruct mid; [|discriminate]. exact D.
Qed.

(** below a module that has not been loaded and raises, everything not loaded raises *)
Lemma raises_below up rest e : up <> [] -> find_spec up = Raise e -> (forall mid post, rest = mid ++ post -> unloaded (up ++ mid)) ->
  find_spec (up ++ rest) = Raise e.
Proof.
  intros Nu F. induction rest as [|x rest IH] using rev_ind; intros H; [now rewrite app_nil_r|].
  rewrite app_assoc, find_below.
  - rewrite <- app_assoc. rewrite (H (rest ++ [x]) []) by now rewrite app_nil_r. rewrite IH; [reflexivity|].
    intros mid post ->. apply (H mid (post ++ [x])). now rewrite app_assoc.
  - intros E. apply app_eq_nil in E. tauto.
Qed.

Lemma importable_dec_prefix up x s : up <> [] -> unloaded (up ++ [x]) -> importable (up ++ [x]) s ->
  exists p dirs, importable up p /\ s_locations p = Some dirs /\ first_found x dirs s.
Proof.
  intros Nu U I. inversion I as [? ? Np1 D1|y D1 B1 E1|y ? D1 B1 F1 E1|u y p dirs ? N1 D1 I1 L1 F1 E1]; subst.
  - unfold FindFile_Spec.unloaded in U. congruence.
  - destruct up as [|? [|? ?]]; discriminate || contradiction.
  - destruct up as [|? [|? ?]]; discriminate || contradiction.
  - apply app_inj_tail in E1. destruct E1 as [-> ->]. eauto.
Qed.

Lemma found_or_key parts s : importable parts s -> find_spec parts = Ok (Some s) \/ find_spec parts = Raise KeyError.
Proof.
  intros I. induction I as [parts s Np D|x D B|x s D B F|up x p dirs s Nu D I IH L F].
  - left. now apply (find_loaded parts (MSpec s)).
  - left. rewrite find_top, D. unfold FindFile_Model.bootstrap_find. change (full_name [x]) with x. now rewrite B.
  - left. rewrite find_top, D. apply first_found_entries in F. unfold FindFile_Model.bootstrap_find. change (full_name [x]) with x. rewrite B, F.
    cbn. now destruct (namespace s).
  - rewrite find_below by assumption. rewrite D. destruct IH as [->| ->]; [|now right].
    rewrite L. assert (F' := F). apply first_found_entries in F'. unfold FindFile_Model.bootstrap_find. rewrite F'.
    destruct (namespace s) eqn:Ns; [|now left]. unfold namespace_path. destruct (rev up) eqn:E; [now left|]. rewrite <- E, full_name_rev.
    destruct (dget (join "." up) mods) as [i|] eqn:Du; [|now right].
    rewrite (importable_loaded up p i) by assumption. rewrite L. now left.
Qed.

Lemma nested_raises_here up x s : up <> [] -> unloaded up -> unloaded (up ++ [x]) -> importable (up ++ [x]) s -> namespace s = true ->
  find_spec (up ++ [x]) = Raise KeyError.
Proof.
  intros Nu Uu Ux I Ns. destruct (importable_dec_prefix up x s Nu Ux I) as (p & dirs & Ip & L & F). rewrite find_below by assumption.
  unfold FindFile_Spec.unloaded in *. rewrite Ux. destruct (found_or_key up p Ip) as [->| ->]; [|reflexivity].
  rewrite L. apply first_found_entries in F. unfold FindFile_Model.bootstrap_find. rewrite F, Ns. unfold namespace_path.
  destruct (rev up) eqn:E; [apply (f_equal (@rev string)) in E; rewrite rev_involutive in E; contradiction|].
  rewrite <- E, full_name_rev, Uu. reflexivity.
Qed.
Lemma nested_raises parts : nested_namespace parts -> find_spec parts = Raise KeyError.
Proof.
  intros (up & x & rest & s & -> & Nu & Uu & I & Ns & H). change (up ++ x :: rest) with (up ++ [x] ++ rest). rewrite app_assoc.
  apply raises_below.
  - destruct up; discriminate.
  - apply (nested_raises_here up x s); auto. apply (H [] rest). reflexivity.
  - intros mid post E. rewrite <- app_assoc. apply (H mid post E).
Qed.

(** found without import: an ancestor is no package *)
Lemma only parts s : find_spec parts = Ok (Some s) -> importable parts s \/
  through_module builtin listing sys_path mods parts.
Proof.
  revert s. induction parts as [|x up IH] using rev_ind; [discriminate|]. intros s.
  destruct up as [|y up].
  - cbn [app]. rewrite find_top. destruct (dget x mods) as [[| |s']|] eqn:D; try discriminate.
    + intros [= <-]. left. apply imp_loaded; [discriminate|exact D].
    + unfold FindFile_Model.bootstrap_find. change (full_name [x]) with x. destruct (builtin x) eqn:B.
      * intros [= <-]. left. now apply imp_builtin.
      * destruct (path_entries x sys_path []) eqn:P; [|discriminate]. intros E.
        assert (s0 = s) by (cbn in E; destruct (namespace s0); congruence). subst s0.
        left. apply imp_top; [assumption..|]. now apply entries_first_found.
  - rewrite find_below by discriminate. destruct (dget (join "." ((y :: up) ++ [x])) mods) as [[| |s']|] eqn:D; try discriminate.
    + intros [= <-]. left. apply imp_loaded; [discriminate|exact D].
    + destruct (find_spec (y :: up)) as [[p|]|e] eqn:E; try discriminate. destruct (IH p eq_refl) as [I|(u & z & rest & q & -> & Iq & Lq & Uq)].
      * destruct (s_locations p) as [dirs|] eqn:L.
        -- unfold FindFile_Model.bootstrap_find. destruct (path_entries x dirs []) as [s0|] eqn:P; [|discriminate]. intros H.
           assert (s0 = s).
           { destruct (namespace s0); [|congruence]. unfold namespace_path in H. destruct (rev (y :: up)) as [|r rs]; [congruence|].
             destruct (dget (full_name (r :: rs)) mods) as [[| |q]|]; try discriminate. destruct (s_locations q); congruence. }
           subst s0. left. eapply imp_below; eauto; [discriminate|]. now apply entries_first_found.
        -- intros _. right. exists (y :: up), x, [], p. repeat split; assumption.
      * intros _. right. exists u, z, (rest ++ [x]), q. repeat split; try assumption. now rewrite <- app_assoc.
Qed.

(** below a module that is no package: a search in sys.path *)
Lemma below_module up x p : up <> [] -> unloaded (up ++ [x]) -> find_spec up = Ok (Some p) -> s_locations p = None ->
  find_spec (up ++ [x]) = bootstrap_find x (rev up) None.
Proof. intros Nu U F L. rewrite find_below by assumption. unfold FindFile_Spec.unloaded in U. now rewrite U, F, L. Qed.

Lemma bootstrap_top_solid up x s : first_found x sys_path s -> namespace s = false -> builtin (join "." (up ++ [x])) = false ->
  bootstrap_find x (rev up) None = Ok (Some s).
Proof.
  intros F N B. unfold FindFile_Model.bootstrap_find, full_name. cbn [rev]. rewrite rev_involutive, B.
  apply first_found_entries in F. now rewrite F, N.
Qed.

Lemma not_found x dirs : (forall s, ~ first_found x dirs s) -> path_entries x dirs [] = None.
Proof. intros H. destruct (path_entries x dirs []) eqn:E; [|reflexivity]. apply entries_first_found in E. now apply H in E. Qed.

(** the exceptions *)
Lemma exceptions parts e : find_spec parts = Raise e -> e = KeyError \/ e = ValueError \/ e = AttributeError.
Proof.
  revert e. induction parts as [|x up IH] using rev_ind; [discriminate|]. intros e.
  destruct up as [|y up].
  - cbn [app]. rewrite find_top. destruct (dget x mods) as [[| |s']|] eqn:D; try discriminate; [intros [= <-]; tauto|].
    unfold FindFile_Model.bootstrap_find. destruct (builtin _); [discriminate|]. destruct (path_entries x sys_path []); [|discriminate].
    destruct (namespace s); discriminate.
  - rewrite find_below by discriminate. destruct (dget (join "." ((y :: up) ++ [x])) mods) as [[| |s']|] eqn:D; try discriminate; [intros [= <-]; tauto|].
    destruct (find_spec (y :: up)) as [[p|]|e'] eqn:E; [|intros [= <-]; tauto|intros [= <-]; now apply IH].
    unfold FindFile_Model.bootstrap_find. destruct (match s_locations p with None => _ | Some _ => false end); [discriminate|].
    destruct (path_entries _ _ _) as [s|]; [|discriminate]. destruct (namespace s); [|discriminate]. unfold namespace_path.
    destruct (rev (y :: up)) as [|r rs]; [discriminate|]. destruct (dget (full_name (r :: rs)) mods) as [[| |q]|]; [intros [= <-]; tauto..| |intros [= <-]; tauto].
    destruct (s_locations q); [discriminate|intros [= <-]; tauto].
Qed.

Lemma importable_det parts s : importable parts s -> forall t, importable parts t -> t = s.
Proof.
  intros I. induction I as [parts s Np D|x D B|x s D B F|up x p dirs s Nu D I IH L F]; intros t J.
  - assert (M := importable_loaded parts t _ J D). congruence.
  - inversion J as [? ? N1 D1|? D1 B1|? ? D1 B1 F1|up' ? ? ? ? N1 D1 I1 L1 F1 E1]; subst; cbn [join] in *; try congruence.
    destruct up' as [|? [|? ?]]; discriminate || contradiction.
  - inversion J as [? ? N1 D1|? D1 B1|? ? D1 B1 F1|up' ? ? ? ? N1 D1 I1 L1 F1 E1]; subst; cbn [join] in *; try congruence.
    + apply first_found_entries in F, F1. congruence.
    + destruct up' as [|? [|? ?]]; discriminate || contradiction.
  - destruct (importable_dec_prefix up x t Nu D J) as (q & dirs' & Iq & Lq & Fq). apply IH in Iq. subst q.
    assert (dirs' = dirs) by congruence. subst dirs'. apply first_found_entries in F, Fq. congruence.
Qed.
Lemma module_blocks up x p : up <> [] -> unloaded (up ++ [x]) -> importable up p -> s_locations p = None -> forall s, ~ importable (up ++ [x]) s.
Proof.
  intros Nu U I L s J. destruct (importable_dec_prefix up x s Nu U J) as (q & dirs & Iq & Lq & _).
  apply (importable_det up p I) in Iq. congruence.
Qed.

Lemma importable_nn parts s : importable parts s -> parts <> [].
Proof. intros I. inversion I; subst; try assumption; try discriminate. destruct up; discriminate. Qed.

Lemma missing up x p dirs : importable up p -> ~ nested_namespace up -> s_locations p = Some dirs -> (forall s, ~ first_found x dirs s) ->
  unloaded (up ++ [x]) -> find_spec (up ++ [x]) = Ok None.
Proof.
  intros I N L H U. rewrite find_below by (eapply importable_nn; eassumption). unfold FindFile_Spec.unloaded in U. rewrite U, (found up p I N), L.
  unfold FindFile_Model.bootstrap_find. now rewrite not_found.
Qed.
Lemma missing_top x : dget x mods = None -> builtin x = false -> (forall s, ~ first_found x sys_path s) -> find_spec [x] = Ok None.
Proof.
  intros D B H. rewrite find_top, D. unfold FindFile_Model.bootstrap_find. change (full_name [x]) with x. rewrite B. now rewrite not_found.
Qed.
Lemma below_missing up rest : up <> [] -> rest <> [] -> find_spec up = Ok None -> (forall mid post, rest = mid ++ post -> mid <> [] -> unloaded (up ++ mid)) ->
  find_spec (up ++ rest) = Raise AttributeError.
Proof.
  intros Nu Nr F H. destruct rest as [|x rest]; [contradiction|]. change (up ++ x :: rest) with (up ++ [x] ++ rest). rewrite app_assoc.
  apply raises_below.
  - destruct up; discriminate.
  - rewrite find_below by assumption. rewrite (H [x] rest); [|reflexivity|discriminate]. now rewrite F.
  - intros mid post ->. rewrite <- app_assoc. apply (H ([x] ++ mid) post); [reflexivity|discriminate].
Qed.
End Proofs.

(** what a name stands for depends only on the files on the way *)
Lemma stands_for_mono (f g : string -> res source) : (forall m src, f m = Ok src -> g m = Ok src) ->
  forall m name m2 d, stands_for f m name m2 d -> stands_for g m name m2 d.
Proof. intros H m name m2 d S. induction S; [eapply stands_here|eapply stands_there]; eauto. Qed.

Section Sources.
Variable builtin : string -> bool.
Variable listing : string -> string -> there.
Variable sys_path : list string.
Variable mods : dict minfo.
Variable read : string -> res source.

Lemma lib_reads m src : py_source builtin listing sys_path mods read m src -> lib_file_of builtin listing sys_path mods read m = Ok src.
Proof.
  intros (s & f & I & F & R & N). unfold lib_file_of, get_filepath. now rewrite (found builtin listing sys_path mods _ s I N), F.
Qed.
Lemma stands_reads (py : string -> res source) m name m2 d : stands_for py m name m2 d -> exists f, py m2 = Ok f.
Proof. intros S. induction S; eauto. Qed.

Lemma lib_finds sl bt (py : string -> res source) m name m2 d : (forall m src, py m = Ok src -> py_source builtin listing sys_path mods read m src) ->
  stands_for py m name m2 d -> clear_files (lib_file_of builtin listing sys_path mods read) ->
  exists k f, py m2 = Ok f /\ forall fuel j n, k <= fuel -> imports_as j n m name ->
    extract_args sl bt fuel (lib_file_of builtin listing sys_path mods read) n j = read_def sl bt f m2 d.
Proof.
  intros H S C. assert (G : forall m src, py m = Ok src -> lib_file_of builtin listing sys_path mods read m = Ok src)
    by (intros m0 src E; apply lib_reads; now apply H).
  destruct (stands_reads py m name m2 d S) as [f E]. apply (stands_for_mono _ _ G) in S.
  destruct (extract_finds sl bt _ m name m2 d S C) as (k & f' & E' & R). apply G in E as E1. assert (f' = f) by congruence. subst f'. eauto.
Qed.

Lemma lib_file_only m src : lib_file_of builtin listing sys_path mods read m = Ok src -> exists s f, find_spec builtin listing sys_path mods (split dot m) = Ok (Some s) /\
  s_file s = Some f /\ read f = Ok src.
Proof.
  unfold lib_file_of, get_filepath. destruct (find_spec _ _ _ _ (split dot m)) as [[s|]|e]; try discriminate.
  destruct (s_file s) as [f|] eqn:F; [|discriminate]. intros R. now exists s, f.
Qed.
End Sources.

Lemma ff_files_ok : ff_lib "pkg" = Ok (ff_source [] [ObjImp ["run"] "pkg.inner" [("run", "go")]]) /\
  ff_lib "pkg.inner" = Ok (ff_source [SDef "run" (one_arg (a_ "x"))] []) /\ ff_lib "tool" = Ok (ff_source [SDef "run" (one_arg (a_ "other"))] []).
Proof. repeat split. Qed.
Lemma not_solid d x : match ff_listing d x with Nothing | Directory => True | _ => False end -> ~ solid ff_listing d x.
Proof. unfold solid. now destruct (ff_listing d x). Qed.
Lemma ff_pkg : importable ff_builtin ff_listing ff_path ff_mods ["pkg"] (Spec (Some "/app/pkg/__init__.py") (Some ["/app/pkg"])).
Proof. apply imp_top; [reflexivity..|]. apply (found_package ff_listing "pkg" ff_path [] "/app" ["/lib"] ".py"); [reflexivity|intros ? []|reflexivity]. Qed.
Lemma ff_inner : importable ff_builtin ff_listing ff_path ff_mods ["pkg"; "inner"] (Spec (Some "/app/pkg/inner.py") None).
Proof.
  eapply (imp_below _ _ _ _ ["pkg"] "inner" _ ["/app/pkg"] _); [discriminate|reflexivity|exact ff_pkg|reflexivity|].
  apply (found_module ff_listing "inner" ["/app/pkg"] [] "/app/pkg" [] ".py"); [reflexivity|intros ? []|reflexivity].
Qed.
Lemma ff_files : importable ff_builtin ff_listing ff_path ff_mods ["pkg"; "files"] (Spec None (Some ["/app/pkg/files"])).
Proof.
  eapply (imp_below _ _ _ _ ["pkg"] "files" _ ["/app/pkg"] _); [discriminate|reflexivity|exact ff_pkg|reflexivity|].
  apply (found_directories ff_listing "files" ["/app/pkg"]); [intros d [<-|[]]; apply not_solid; exact I|exists "/app/pkg"; split; [now left|reflexivity]].
Qed.
Lemma ff_low : importable ff_builtin ff_listing ff_path ff_mods ["pkg"; "files"; "low"] (Spec (Some "/app/pkg/files/low.py") None).
Proof.
  eapply (imp_below _ _ _ _ ["pkg"; "files"] "low" _ ["/app/pkg/files"] _); [discriminate|reflexivity|exact ff_files|reflexivity|].
  apply (found_module ff_listing "low" ["/app/pkg/files"] [] "/app/pkg/files" [] ".py"); [reflexivity|intros ? []|reflexivity].
Qed.
Lemma ff_tool : importable ff_builtin ff_listing ff_path ff_mods ["tool"] (Spec (Some "/app/tool.py") None).
Proof. apply imp_top; [reflexivity..|]. apply (found_module ff_listing "tool" ff_path [] "/app" ["/lib"] ".py"); [reflexivity|intros ? []|reflexivity]. Qed.
