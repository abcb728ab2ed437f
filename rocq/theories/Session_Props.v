(** C102: what a session with a manager leaves behind, and what loading again undoes. *)
From Verif Require Import Session_Spec Session_Proofs SessionText_Proofs ExecEx_Spec ExecRunEx_Proofs Project_Proofs ProjectWalk_Proofs Setup_Proofs Setup_Props SetupEx_Proofs CreateEx_Proofs.
Local Open Scope string_scope.
Local Open Scope list_scope.

(** After a load, operations and further loads in any number and order change no file but config files, and those no more than writing
    them again does; the manager keeps its items. A load at the end of all this succeeds and gives the manager as the first load gave
    it: the same configuration, nothing loaded, nothing called. [R] tells which other texts writing again may give. *)
Theorem C102_loading_undoes_a_session : forall parse view inst cfg config_dir s u f p i next l p1 (R : string -> string -> Prop),
  Forall (@dwf cval) (su_classes s) -> su_config_folder s <> "pipeline_dict.py" ->
  wf f -> acceptable parse view inst f (su_folder s) (su_name s) (su_classes s) i -> tidy_items i ->
  (forall x, R x x) -> rewriting cfg R (defaults_of s) i f ->
  let near := alike R (config_file (defaults_of s) i) (final f l) in
  (forall h, near h -> config_dir h = config_dir (final f l)) ->
  pm_load parse view inst cfg config_dir s next f p = (l, p1, Ok tt) ->
  exists c, p1 = fresh_manager i c next /\
  forall ops, undisturbed ops -> let '(f', p') := session parse view inst cfg config_dir s u (final f l, p1) ops in
    near f' /\ p_items p' = Some i /\
    forall next' q, exists l', pm_load parse view inst cfg config_dir s next' f' q = (l', fresh_manager i c next', Ok tt) /\ near (final f' l').
Proof.
  intros parse view inst cfg config_dir s u f p i next l p1 R W NP Wf A T Rr I near C H.
  destruct (Session_Proofs.loaded parse view inst cfg config_dir s W NP f p i next l p1 Wf A H) as (Es & Wl & Al & c & Ec & ->). exists c. split; [reflexivity|]. intros ops U.
  pose proof (settled_first parse view inst s R i f l Wl Al) as S.
  destruct (session_settled parse view inst cfg config_dir s u W NP R i f l c T Rr Wf Es I C Ec ops U (final f l) (fresh_manager i c next) S eq_refl) as (f' & p' & E & S' & Hi & _); [eexists; reflexivity|].
  rewrite E. split; [apply S'|]. split; [exact Hi|]. intros next' q. destruct (load_again parse view inst cfg config_dir s W NP R i f l c T Rr Wf Es I C Ec f' q next' S') as (l' & E' & S2). exists l'. split; [exact E'|apply S2].
Qed.

(** Whatever was done in one process, in a new one the same operations give the same again: the same calls with the same arguments and
    the same objects and configs. *)
Theorem C102_a_new_process_repeats : forall parse view inst cfg config_dir s u f i l p1 (R : string -> string -> Prop),
  Forall (@dwf cval) (su_classes s) -> su_config_folder s <> "pipeline_dict.py" ->
  wf f -> acceptable parse view inst f (su_folder s) (su_name s) (su_classes s) i -> tidy_items i ->
  (forall x, R x x) -> rewriting cfg R (defaults_of s) i f ->
  (forall h, alike R (config_file (defaults_of s) i) (final f l) h -> config_dir h = config_dir (final f l)) ->
  pm_load parse view inst cfg config_dir s 0 f new_pm = (l, p1, Ok tt) ->
  forall ops ops', undisturbed ops -> undisturbed ops' ->
  let f' := fst (session parse view inst cfg config_dir s u (final f l, p1) ops) in
  snd (session parse view inst cfg config_dir s u (f', new_pm) (SLoad :: ops')) = snd (session parse view inst cfg config_dir s u (final f l, p1) ops').
Proof.
  intros parse view inst cfg config_dir s u f i l p1 R W NP Wf A T Rr I C H ops ops' U U' f'. subst f'.
  destruct (Session_Proofs.loaded parse view inst cfg config_dir s W NP f new_pm i 0 l p1 Wf A H) as (Es & Wl & Al & c & Ec & ->).
  pose proof (settled_first parse view inst s R i f l Wl Al) as S.
  destruct (session_settled parse view inst cfg config_dir s u W NP R i f l c T Rr Wf Es I C Ec ops U (final f l) (fresh_manager i c 0) S eq_refl) as (f' & p' & E & S' & Hi & _); [eexists; reflexivity|].
  rewrite E. cbn [fst]. destruct (load_again parse view inst cfg config_dir s W NP R i f l c T Rr Wf Es I C Ec f' new_pm 0 S') as (l' & E' & S2).
  change (SLoad :: ops') with ([SLoad] ++ ops'). rewrite session_app. unfold session at 2. cbn [fold_left session_step]. change (next_of new_pm) with 0. rewrite E'.
  rewrite (see_fresh config_dir s); [|rewrite C; [exact Ec|apply S2]].
  now apply (session_alike parse view inst cfg config_dir s u W NP R i f l c T Rr Wf Es I C Ec).
Qed.

(** If writing a config file again does not change it at all, no file changes. *)
Theorem C102_files_that_settle : forall parse view inst cfg config_dir s u f p i next l p1,
  Forall (@dwf cval) (su_classes s) -> su_config_folder s <> "pipeline_dict.py" -> settles cfg -> sees_files config_dir ->
  wf f -> acceptable parse view inst f (su_folder s) (su_name s) (su_classes s) i -> tidy_items i ->
  pm_load parse view inst cfg config_dir s next f p = (l, p1, Ok tt) ->
  exists c, p1 = fresh_manager i c next /\
  forall ops, undisturbed ops -> let '(f', p') := session parse view inst cfg config_dir s u (final f l, p1) ops in
    same_files f' (final f l) /\ p_items p' = Some i /\
    forall next' q, exists l', pm_load parse view inst cfg config_dir s next' f' q = (l', fresh_manager i c next', Ok tt) /\ same_files (final f' l') (final f l).
Proof.
  intros parse view inst cfg config_dir s u f p i next l p1 W NP I C Wf A T H.
  assert (K : forall h, alike eq (config_file (defaults_of s) i) (final f l) h -> same_files h (final f l)).
  { intros h Ah q. destruct (Ah q) as [E|(_ & a & b & Ea & Eb & E)]; [exact E|]. congruence. }
  destruct (C102_loading_undoes_a_session parse view inst cfg config_dir s u f p i next l p1 eq W NP Wf A T (fun x => eq_refl)) as (c & Ep & G); [|intros h Ah; apply C, K, Ah|exact H|].
  - intros g q n t a _ E b <-. exists a. split; [exact (I _ _ _ _ _ E)|reflexivity].
  - exists c. split; [exact Ep|]. intros ops U. specialize (G ops U). destruct (session _ _ _ _ _ _ _ _ ops) as [f' p']. destruct G as (G1 & G2 & G3). split; [apply K, G1|]. split; [exact G2|].
    intros next' q. destruct (G3 next' q) as (l' & E' & G4). exists l'. split; [exact E'|apply K, G4].
Qed.

(** With the files the library writes: the config files change by newlines at their ends at most. *)
Theorem C102_files_of_the_library : forall parse view inst cfg s u f p i next l p1 astor item_for exec names depth,
  let config_dir := fun g => scan exec names g (defaults_of s) depth [] in
  Forall (@dwf cval) (su_classes s) -> su_config_folder s <> "pipeline_dict.py" ->
  wf f -> acceptable parse view inst f (su_folder s) (su_name s) (su_classes s) i -> tidy_items i ->
  (forall g q n t, file_of (defaults_of s) i g q n t -> maintained (item_for g n t) (content f q) /\
     forall old, cfg g n t old = scaffold (astor g n t) (item_for g n t) old) ->
  ignores_newlines exec ->
  pm_load parse view inst cfg config_dir s next f p = (l, p1, Ok tt) ->
  exists c, p1 = fresh_manager i c next /\
  forall ops, undisturbed ops -> let '(f', p') := session parse view inst cfg config_dir s u (final f l, p1) ops in
    alike trimmed (config_file (defaults_of s) i) (final f l) f' /\ p_items p' = Some i /\
    forall next' q, exists l', pm_load parse view inst cfg config_dir s next' f' q = (l', fresh_manager i c next', Ok tt) /\
      alike trimmed (config_file (defaults_of s) i) (final f l) (final f' l').
Proof.
  intros parse view inst cfg s u f p i next l p1 astor item_for exec names depth config_dir W NP Wf A T M X H.
  apply (C102_loading_undoes_a_session parse view inst cfg config_dir s u f p i next l p1 trimmed W NP Wf A T); [now left| | |exact H].
  - intros g q n t a F E b Hb. destruct (M g q n t F) as [Mt Sc]. rewrite Sc in E |- *. now apply (trimmed_again (astor g n t) (item_for g n t) (content f q)).
  - intros h Ah. unfold config_dir. now apply (scan_alike exec names (defaults_of s) (config_file (defaults_of s) i)).
Qed.
(** Changes of files by others do nothing to the manager by themselves: what is configured, loaded and called stays as it is, and from
    then on the changed files are those that are read. *)
Theorem C102_edits_change_the_files_only : forall parse view inst cfg config_dir s u f p g,
  let '(f', p') := session_step parse view inst cfg config_dir s u (f, p) (SEdit g) in
  f' = g f /\ p_items p' = p_items p /\
  match p_runner p, p_runner p' with
  | None, None => True
  | Some (i, r), Some (i', r') => i' = i /\ (forall q, see (r_cms r') q = see (r_cms r) q) /\ r_loaded r' = r_loaded r /\ r_next r' = r_next r /\ r_calls r' = r_calls r /\
      cs_trace (r_cms r') = cs_trace (r_cms r) /\ cs_disk (r_cms r') = config_dir (g f)
  | _, _ => False
  end.
Proof.
  intros parse view inst cfg config_dir s u f p g. cbn [session_step]. unfold notice. destruct (p_runner p) as [[i r]|] eqn:E; [|now rewrite E]. cbn [p_runner p_items r_cms r_loaded r_next r_calls cs_trace cs_disk]. repeat split; reflexivity.
Qed.
(** Objects that are made after a load are new ones, whatever follows: none of them is an object from before. *)
Theorem C102_loads_make_new_objects : forall parse view inst cfg config_dir s u f p i r l p1 ops i' r' x o, p_runner p = Some (i, r) ->
  pm_load parse view inst cfg config_dir s (next_of p) f p = (l, p1, Ok tt) ->
  p_runner (snd (session parse view inst cfg config_dir s u (f, p) (SLoad :: ops))) = Some (i', r') -> dget x (r_loaded r') = Some o ->
  r_next r <= lobj_id o.
Proof.
  intros parse view inst cfg config_dir s u f p i r l p1 ops i' r' x o Hp L. unfold session. cbn [fold_left session_step]. rewrite L. intros H G.
  pose proof (session_from_number parse view inst cfg config_dir s u (r_next r) ops (final f l) (notice config_dir (final f l) p1)) as K. unfold session in K. unfold from_number at 2 in K. rewrite H in K. apply K with (x := x); [|exact G].
  unfold pm_load in L. destruct (create_registrars _ _ _ _ _ _ _ _) as [l1 [i1|e]]; [|discriminate]. destruct (runner_load _ _ _) as [r1|e] eqn:Q; [|discriminate]. injection L as <- <-. unfold runner_load in Q. destruct (cm_load _ _) as [c|]; [|discriminate]. injection Q as <-.
  unfold from_number, notice, next_of. rewrite Hp. cbn. split; [apply le_n|discriminate].
Qed.
Example C102_ex_new_objects : let p := snd (se_session [se_run]) in let q := snd (se_session [se_run; SLoad; se_run]) in
  option_map (fun ir => map (fun xo => (fst xo, lobj_id (snd xo))) (r_loaded (snd ir))) (p_runner p) = Some [("run.a", 0)] /\
  option_map (fun ir => map (fun xo => (fst xo, lobj_id (snd xo))) (r_loaded (snd ir))) (p_runner q) = Some [("run.a", 1)].
Proof. vm_compute. split; reflexivity. Qed.

(** Before a load succeeds there is nothing to operate on: operations leave the manager as it is, and only others change files. *)
Theorem C102_before_loading : forall parse view inst cfg config_dir s u ops f p, no_load ops -> p_runner p = None ->
  session parse view inst cfg config_dir s u (f, p) ops = (edited f ops, p).
Proof.
  intros parse view inst cfg config_dir s u ops. induction ops as [|op ops IH]; intros f p N H; [reflexivity|].
  assert (N' : no_load ops) by (intro I; apply N; now right). unfold session in *. cbn [fold_left]. destruct op as [op| |g]; cbn [session_step edited].
  - rewrite H. now apply IH.
  - exfalso. apply N. now left.
  - unfold notice. rewrite H. now apply IH.
Qed.
Example C102_ex_before : let ops := [se_run; se_edit "x = 9"; se_update true] in no_load ops /\ p_runner new_pm = None /\
  edited ex_disk ops ["proj"; "defaults"; "run"; "a.py"] = Some (File "x = 9").
Proof. split; [|split; reflexivity]. intros [E|[E|[E|[]]]]; discriminate. Qed.

(** Executing plain files makes no difference between them. *)
Theorem C102_executing_ignores_newlines : forall py initial other, ignores_newlines other -> ignores_newlines (exec_text py initial other).
Proof. intros py initial other H rel a b E. unfold exec_text. rewrite (program_trimmed a b E). destruct (program a); [reflexivity|now apply H]. Qed.

(** Files do change: that of a new function loses its last newline when it is written again. *)
Theorem C102_sessions_change_no_file_refuted :
  fst (fresh_session [SLoad]) ["proj"; "defaults"; "run"; "a.py"] <> fst (fresh_session []) ["proj"; "defaults"; "run"; "a.py"].
Proof. vm_compute. discriminate. Qed.

(** If others change files in between: after a load that succeeds, only the files it found count, and how many objects had been made;
    what was done before, with whatever manager, does not. *)
Theorem C102_only_the_files_count : forall parse view inst cfg config_dir s u fp fp' before before' after,
  let a := session parse view inst cfg config_dir s u fp before in let b := session parse view inst cfg config_dir s u fp' before' in
  fst a = fst b -> next_of (snd a) = next_of (snd b) -> snd (pm_load parse view inst cfg config_dir s (next_of (snd a)) (fst a) (snd a)) = Ok tt ->
  session parse view inst cfg config_dir s u fp (before ++ SLoad :: after) = session parse view inst cfg config_dir s u fp' (before' ++ SLoad :: after).
Proof.
  intros parse view inst cfg config_dir s u fp fp' before before' after a b E N H.
  rewrite !session_app. fold a b. destruct a as [f p], b as [f' p']. cbn [fst snd] in *. subst f'. unfold session. cbn [fold_left session_step]. rewrite <- N in *.
  pose proof (C71_history_irrelevant parse view inst cfg config_dir s (next_of p) f p p') as K.
  destruct (pm_load parse view inst cfg config_dir s (next_of p) f p) as [[l q] o]. destruct (pm_load parse view inst cfg config_dir s (next_of p) f p') as [[l' q'] o'].
  cbn [fst snd] in *. destruct K as (<- & <- & K). now rewrite (K H).
Qed.

(** A load that fails leaves the runner with its configs, loaded objects and calls; it may write config files, which the runner then
    sees like those written by others. *)
Theorem C102_a_load_that_fails : forall parse view inst cfg config_dir s u f p l p' e,
  pm_load parse view inst cfg config_dir s (next_of p) f p = (l, p', Raise e) ->
  let q := snd (session parse view inst cfg config_dir s u (f, p) [SLoad]) in
  p_runner q = p_runner (snd (session parse view inst cfg config_dir s u (f, p) [SEdit (fun f => final f l)])).
Proof.
  intros parse view inst cfg config_dir s u f p l p' e H. cbn. rewrite H. cbn [snd]. pose proof (C71_runner_kept _ _ _ _ _ _ _ _ _ _ _ _ H) as K. unfold notice. rewrite K. destruct (p_runner p) as [[i r]|] eqn:P; [reflexivity|]. now rewrite K, P.
Qed.

(** Changes of files: seen by an item that has not been used yet, otherwise from the next load on. *)
Theorem C102_changed_files :
  last_call (snd (se_session [se_edit "x = 7; y = 7"; se_run])) = Some [("x", VInt 7); ("y", VInt 2)] /\
  last_call (snd (se_session [se_run; se_edit "x = 7; y = 7"; se_run])) = Some [("x", VInt 1); ("y", VInt 2)] /\
  last_call (snd (se_session [se_run; se_update true; se_edit "x = 7; y = 7"; SLoad; se_run])) = Some [("x", VInt 7); ("y", VInt 2)].
Proof. repeat split; vm_compute; reflexivity. Qed.

(** Persistent updates are remembered for refreshes only: a load forgets them, like the others. *)
Theorem C102_persistent_updates_survive_a_load_refuted :
  last_call (snd (se_session [se_run])) = Some [("x", VInt 1); ("y", VInt 2)] /\
  last_call (snd (se_session [se_update true; se_run])) = Some [("x", VInt 5); ("y", VInt 2)] /\
  last_call (snd (se_session [se_run; se_update true; SOp (RRefresh "run.a"); se_run])) = Some [("x", VInt 5); ("y", VInt 2)] /\
  last_call (snd (se_session [se_update true; se_run; SLoad; se_run])) = Some [("x", VInt 1); ("y", VInt 2)].
Proof. repeat split; vm_compute; reflexivity. Qed.

(** Folders with finitely many names and levels can be described like this. *)
Theorem C102_folders_described : forall exec names base depth, sees_files (fun f => scan exec names f base depth []).
Proof. intros exec names base depth f g E. now apply scan_same. Qed.

Example C102_premises : Forall (@dwf cval) (su_classes (ex_setup [])) /\ settles ex_cfg /\ sees_files ex_config /\ wf ex_disk /\
  acceptable ex_parse ex_view ex_inst ex_disk ["proj"] "proj" [] ex_items /\ tidy_items ex_items /\ snd (ex_load [] ex_disk new_pm) = Ok tt.
Proof.
  split; [constructor|]. split; [intros g n t old x E; exact eq_refl|]. split; [intros f g E; now apply scan_same|].
  split; [exact ex_wf|]. split; [exact cr_ok|]. split; [exact ex_tidy|vm_compute; reflexivity].
Qed.

Example C102_premises_library : wf fresh_disk /\ acceptable ex_parse ex_view ex_inst fresh_disk ["proj"] "proj" [] ex_items /\
  (forall g q n t, file_of ["proj"; "defaults"] ex_items g q n t -> maintained xy_item (content fresh_disk q) /\ forall old, fresh_cfg g n t old = scaffold ex_astor xy_item old) /\
  ignores_newlines fresh_exec /\ snd (fresh_load new_pm) = Ok tt.
Proof.
  split; [exact fresh_wf|]. split; [|split; [|split]].
  - apply checked_iff; [constructor|vm_compute; reflexivity].
  - intros g q n t F. split; [|reflexivity]. split; [exact xy_item_ok|]. split; [intros j [<-|[<-|[]]]; reflexivity|].
    apply all_items in F. cbn in F. repeat (destruct F as [F|F]; [try discriminate; injection F as <- <- <- <-; exact I|]). destruct F.
  - now apply C102_executing_ignores_newlines.
  - vm_compute. reflexivity.
Qed.

Print Assumptions C102_loading_undoes_a_session.
Print Assumptions C102_before_loading.
Print Assumptions C102_a_new_process_repeats.
Print Assumptions C102_files_that_settle.
Print Assumptions C102_files_of_the_library.
Print Assumptions C102_executing_ignores_newlines.
Print Assumptions C102_sessions_change_no_file_refuted.
Print Assumptions C102_only_the_files_count.
Print Assumptions C102_a_load_that_fails.
Print Assumptions C102_changed_files.
Print Assumptions C102_persistent_updates_survive_a_load_refuted.
Print Assumptions C102_folders_described.
Print Assumptions C102_edits_change_the_files_only.
Print Assumptions C102_loads_make_new_objects.
