(** Proofs for the examples of creating entries. *)
From Verif Require Export CreateEx_Spec Create_Proofs Setup_Proofs SetupEx_Proofs ProjectWalk_Proofs ProjectEx_Proofs ConfigLoad_Proofs SetupFiles_Proofs.
Local Open Scope string_scope.
Local Open Scope list_scope.


Lemma cr_pm_eq : cr_pm = PM (Some ex_items) (Some (ex_items, cr_r)).
Proof. vm_compute. reflexivity. Qed.
Lemma cr_ok : acceptable ex_parse ex_view ex_inst ex_disk ["proj"] "proj" [] ex_items.
Proof. apply checked_iff; [constructor|]. vm_compute. reflexivity. Qed.
Lemma cr_placed : placed (ex_setup []) ["run"] (Some cr_b) (general_place (ex_setup []) ["run"] "b").
Proof. apply PlacedGeneral. intros c []. Qed.
Lemma cr_usable : usable_path (["run"] ++ ["b"]).
Proof. repeat split; try (vm_compute; reflexivity); try discriminate; repeat constructor. Qed.
Lemma cr_created : snd (cr_create true [] ["run"] (Some "b") ex_disk cr_pm) = Ok tt.
Proof. vm_compute. reflexivity. Qed.

Lemma cr_entered d d' text : entered ex_parse cr_save ex_disk (general_place (ex_setup []) ["run"] "b") d d' text ->
  d = [("run", PList [PName "a"])] /\ d' = [("run", PList [PName "a"; PName "b"])] /\ text = "pipeline_dict = {""run"": [a,b,],}".
Proof.
  intros (H1 & H2 & H3 & _). vm_compute in H1. injection H1 as <-. vm_compute in H2. injection H2 as <-. vm_compute in H3. injection H3 as <-. now repeat split.
Qed.
Lemma cr_says d d' text : entered ex_parse cr_save ex_disk (general_place (ex_setup []) ["run"] "b") d d' text ->
  pd_wf (PDict d) /\ says ex_parse ex_view (file_text ex_disk (pipeline_file (su_folder (ex_setup [])))) text d d' "b" (snd cr_b).
Proof.
  intros H. apply cr_entered in H as (-> & -> & ->). split; [cbn; repeat split; repeat constructor; intros []|]. split; [vm_compute; reflexivity|]. split; [|reflexivity]. intros v [<-|[]]. reflexivity.
Qed.

Definition cr_table : list (path * node) := (["proj"; "defaults"; "run"; "b.py"], File "x = 1") :: ex_table "pipeline_dict = {""run"": [a,b,],}" "y = 2".
Lemma same_put p n f g : same f g -> same (put p n f) (put p n g).
Proof. intros S q. unfold put. destruct (path_eqb p q); [reflexivity|apply S]. Qed.
Lemma cr_final l p' : cr_create true [] ["run"] (Some "b") ex_disk cr_pm = (l, p', Ok tt) -> same (final ex_disk l) (fs_of cr_table).
Proof.
  intros H. destruct (created ex_parse ex_inst ex_cfg cr_config cr_save ex_user true (ex_setup []) ["run"] "b" (snd cr_b) ex_disk cr_pm ex_items l p' ex_wf cr_placed) as (c' & cc & f1 & l2 & ri & r & r' & text & R & G & _ & Ef & W & O & -> & _ & _ & _ & d & d' & E).
  - repeat split; try (vm_compute; reflexivity); try discriminate; repeat constructor.
  - now rewrite cr_pm_eq.
  - exact H.
  - apply cr_entered in E as (_ & _ & ->). clear H. vm_compute in R. injection R as <-. vm_compute in G. injection G as <-. rewrite output_files_acts in O. destruct (run_ok ex_cfg _ f1 l2 W O) as [Ru _]. set (g := final f1 l2) in *. clearbody g. clear O W l2.
    change (coll_acts true _ _) with ([AMk ["proj"; "defaults"; "run"]; ANew ["proj"; "defaults"; "run"; "section.py"] newline; AUpd true ["proj"; "defaults"; "run"; "a.py"] "a" (TFunc (Fn "a" ["x"; "y"]))] ++ [AUpd true ["proj"; "defaults"; "run"; "b.py"] "b" (snd cr_b)]) in Ru.
    destruct (runs_split ex_cfg f1 _ _ g Ru) as (fm & R1 & R2). clear Ru.
    assert (W1 : wf f1) by (rewrite Ef; change (wf (fs_of ((["proj"; "pipeline_dict.py"], File "pipeline_dict = {""run"": [a,b,],}") :: ex_table "pipeline_dict = {'run': [a]}" "y = 2"))); apply table_wf; vm_compute; reflexivity).
    assert (S1 : same fm f1).
    { apply (nothing_to_do ex_cfg _ _ _ R1 W1). intros a Ha. rewrite Ef. repeat (destruct Ha as [<-|Ha]; [vm_compute; split; [discriminate|try exact I; reflexivity]|]). destruct Ha. }
    inversion R2 as [|? ? f3 ? ? _ D R3]; subst. cbn [done] in D. destruct D as (s & Es & D). inversion R3; subst.
    intros q. rewrite (D q). transitivity (put ["proj"; "defaults"; "run"; "b.py"] (File s) (put (pipeline_file ["proj"]) (File "pipeline_dict = {""run"": [a,b,],}") ex_disk) q).
    + now apply same_put.
    + unfold content in Es. rewrite (S1 _) in Es. vm_compute in Es. injection Es as <-. unfold ex_disk, cr_table, ex_table. cbn [fs_of]. unfold put, pipeline_file. cbn [app]. repeat match goal with |- context [path_eqb ?a q] => destruct (path_eqb a q) eqn:?; try reflexivity end; exfalso; repeat match goal with K : path_eqb _ q = true |- _ => apply path_eqb_eq in K end; congruence.
Qed.

Lemma cr_mirrors f : same f (fs_of cr_table) -> mirrors ex_exec f ["proj"; "defaults"] (cr_config f).
Proof.
  intros S. apply scan_mirrors.
  - apply (same_wf f (fs_of cr_table) S). apply table_wf. vm_compute. reflexivity.
  - unfold cr_names. repeat constructor; cbn; intuition discriminate.
  - intros p. rewrite (S (["proj"; "defaults"] ++ p)). apply table_bounded. vm_compute. reflexivity.
  - rewrite (S ["proj"; "defaults"]). reflexivity.
Qed.
Lemma cr_new_tidy : tidy true (i_general cr_new).
Proof.
  constructor; [repeat constructor; intros []|intros _ [H|[]]; discriminate|].
  intros c [[= <-]|[]]. constructor; [repeat constructor; [intros [H|[]]; discriminate|intros []]|intros _ [H|[H|[]]]; discriminate|]. intros c [H|[H|[]]]; discriminate.
Qed.
Lemma cr_pm_wf : cms_wf (r_cms cr_r).
Proof.
  assert (L : cm_load "defaults" (cr_config (left_in ex_disk (cr_load [] ex_disk new_pm))) = Ok (r_cms cr_r)) by (vm_compute; reflexivity).
  assert (M : mirrors ex_exec (left_in ex_disk (cr_load [] ex_disk new_pm)) ["proj"; "defaults"] (cr_config (left_in ex_disk (cr_load [] ex_disk new_pm)))).
  { assert (S : same (left_in ex_disk (cr_load [] ex_disk new_pm)) ex_disk).
    { assert (E : fst (fst (cr_load [] ex_disk new_pm)) = fst (fst (ex_load [] ex_disk new_pm))) by (unfold cr_load, ex_load, pm_load; destruct (create_registrars _ _ _ _ _ _ _ _ _) as [l [i|e]]; [destruct (runner_load _ (cr_config _) _), (runner_load _ (ex_config _) _); reflexivity|reflexivity]).
      unfold left_in. rewrite E. destruct ex_loads as (l & r & H & S). rewrite H. exact S. }
    apply scan_mirrors.
    - apply (same_wf _ ex_disk S). exact ex_wf.
    - unfold cr_names. repeat constructor; cbn; intuition discriminate.
    - intros p. rewrite (S (["proj"; "defaults"] ++ p)). apply table_bounded. vm_compute. reflexivity.
    - rewrite (S ["proj"; "defaults"]). reflexivity. }
  apply (cm_load_wf "defaults" _ _ (proj1 M)); [|exact L]. exact (mirrors_wf ex_exec _ _ _ M ex_exec_wf).
Qed.
Lemma cr_run_usable : usable_path ["run"].
Proof. repeat split; try (vm_compute; reflexivity); try discriminate; repeat constructor. Qed.
