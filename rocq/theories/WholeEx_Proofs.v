(** The project of the example. *)
From Verif Require Import Setup_Spec SetupEx_Spec Setup_Proofs SetupFiles_Proofs SetupLoad_Proofs SetupEx_Proofs Project_Proofs ProjectWalk_Proofs ProjectEx_Proofs.
From Verif Require Import Exec_Model Exec_Spec ExecEx_Spec ExecEx_Proofs ExecRun_Proofs FuncArgs_Proofs ItemLoad_Proofs WholeEx_Spec.
Local Open Scope string_scope.
Local Open Scope list_scope.

Lemma w_wf : wf w_disk.
Proof. apply table_wf. vm_compute. reflexivity. Qed.

(** all paths there may be afterwards *)
Definition w_paths : list (path * node) := ((["proj"; "defaults"; "section.py"], Dir) :: (["proj"; "defaults"; "run"; "a.py"], Dir) :: w_table).

Definition w_loaded (y : expr) : Prop := exists l r, w_load y new_pm = (l, PM (Some ex_items) (Some (ex_items, r)), Ok tt) /\
  mirrors w_exec (final w_disk l) ["proj"; "defaults"] (w_config (final w_disk l)) /\
  final w_disk l ["proj"; "defaults"; "run"; "a"] = None /\
  (forall k rel, k <> "z" -> In rel (section_files ["run"]) -> dget k (values_of w_exec (final w_disk l) ["proj"; "defaults"] rel) = None) /\
  exists text own, final w_disk l ["proj"; "defaults"; "run"; "a.py"] = Some (File text) /\ w_exec ["run"; "a.py"] text = Ok own.

Lemma w_loads y : snd (w_load y new_pm) = Ok tt -> final w_disk (fst (fst (w_load y new_pm))) ["proj"; "defaults"; "run"; "a"] = None ->
  (forall k rel, k <> "z" -> In rel (section_files ["run"]) -> dget k (values_of w_exec (final w_disk (fst (fst (w_load y new_pm)))) ["proj"; "defaults"] rel) = None) ->
  p_items (snd (fst (w_load y new_pm))) = Some ex_items ->
  (exists text own, final w_disk (fst (fst (w_load y new_pm))) ["proj"; "defaults"; "run"; "a.py"] = Some (File text) /\ w_exec ["run"; "a.py"] text = Ok own) -> w_loaded y.
Proof.
  intros H A B K T. unfold w_loaded.
  destruct (w_load y new_pm) as [[l p'] o] eqn:E. cbn [fst snd] in *. subst o. unfold w_load in E.
  destruct (load_ok _ _ _ _ _ _ _ _ _ _ _ E) as (i & r & c & Ei & Ec & Es & _ & _). rewrite Ei in K. cbn in K. injection K as ->. subst p'.
  exists l, r. split; [reflexivity|]. split; [|auto].
  rewrite scaffold_all_acts in Es. destruct (run_ok (w_cfg y) _ _ _ w_wf Es) as [R W].
  apply scan_mirrors.
  - exact W.
  - unfold ex_names. repeat constructor; cbn; intuition discriminate.
  - intros p Hp. assert (G : forall q, final w_disk l q <> None -> fs_of w_paths q <> None).
    { intros q Hq K. apply Hq. assert (Nq : forall q', In q' (map fst w_paths) -> q <> q') by (intros q' Hq' ->; cbn in Hq'; repeat (destruct Hq' as [<-|Hq']; [vm_compute in K; discriminate|]); destruct Hq').
      rewrite (runs_untouched (w_cfg y) _ _ _ q R).
      - destruct (w_disk q) eqn:F; [|reflexivity]. exfalso. assert (F' : w_disk q <> None) by congruence. apply fs_of_in in F'. apply (Nq q); [|reflexivity]. right. right. exact F'.
      - intros a Ha. cbn in Ha.
        repeat (destruct Ha as [<-|Ha]; [cbn [Project_Spec.touches]; first [intros ->; eapply Nq; [|reflexivity]; cbn; tauto | intros [t Et]; cbn in Et; repeat (destruct q as [|? q]; [eapply Nq; [|reflexivity]; cbn; tauto|cbn in Et; try discriminate; injection Et as <- Et]); destruct q; discriminate]|]); destruct Ha. }
    apply (table_bounded w_paths ["proj"; "defaults"] ex_names 2); [vm_compute; reflexivity|]. apply G. exact Hp.
  - assert (D : w_disk ["proj"; "defaults"] = Some Dir) by reflexivity.
    destruct (runs_unwritten (w_cfg y) _ _ _ ["proj"; "defaults"] R) as [F|[F _]]; [|rewrite F; exact D|rewrite D in F; discriminate].
    intros Hw. vm_compute in Hw. repeat (destruct Hw as [Hw|Hw]; [discriminate|]). destruct Hw.
Qed.

Ltac w_loaded_tac := apply w_loads; [vm_compute; reflexivity|vm_compute; reflexivity| |vm_compute; reflexivity|do 2 eexists; split; vm_compute; reflexivity];
  intros k rel Nz [<-|[<-|[]]];
  match goal with |- dget k ?d = None => let d' := eval vm_compute in d in change d with d' end; cbn [dget];
  try reflexivity; destruct (String.eqb_spec k "z"); [contradiction|reflexivity].
Lemma w_loaded_name : w_loaded (Name "x0").
Proof. w_loaded_tac. Qed.
Lemma w_loaded_number : w_loaded (Other "2" []).
Proof. w_loaded_tac. Qed.

Lemma w_as_written y : as_written w_import w_getattr (w_files y) w_made.
Proof.
  intros m f. unfold w_files. destruct (String.eqb_spec m "pkg") as [->|N]; [intros [= <-]|destruct (String.eqb_spec m "pkg.inner") as [->|N2]; [intros [= <-]|discriminate]].
  - exists (AModule "pkg"). split; [reflexivity|]. split; [intros name d D; cbn in D; discriminate D|]. intros name m' x M' o _ B EM Eo. apply bound_to_in in B. destruct B as [B|[]]. injection B as <- <- <-.
    injection EM as <-. exact Eo.
  - exists (AModule "pkg.inner"). split; [reflexivity|]. split.
    + intros name d. cbn [w_inner src_body flat_map defs_in app]. destruct (String.eqb_spec "a" name) as [<-|]; [reflexivity|discriminate].
    + intros name m' x M' o _ B EM Eo. apply bound_to_in in B. destruct B as [B|[]]. injection B as <- <- <-. discriminate EM.
Qed.
Lemma w_clear_files y : clear_files (w_files y).
Proof.
  intros m f n t E. unfold w_files in E. destruct (String.eqb m "pkg"); [injection E as <-|destruct (String.eqb m "pkg.inner"); [injection E as <-|discriminate]]; intros B; apply (clear_b_spec _ n t); try exact B;
  (split; [|split; [reflexivity|split; [reflexivity|apply nodup_b; reflexivity]]]); intros i [<-|[]]; first [exists [("a", None)]; now split; [right; eexists; reflexivity|apply one_way_nodup, nodup_b; reflexivity]|exists [("x0", None)]]; (split; [right; eexists; reflexivity|apply one_way_nodup, nodup_b; reflexivity]).
Qed.
Lemma w_stands y : stands_for (w_files y) "pkg" "a" "pkg.inner" ("a", w_def y).
Proof. eapply stands_there; [reflexivity..|]. eapply stands_here; reflexivity. Qed.
Lemma w_clear : clear_for (w_imports w_dict) "a" /\ bound_to (w_imports w_dict) "a" = Some ("pkg", Some "a").
Proof.
  assert (E : w_imports w_dict = [ObjImp ["a"] "pkg" []]) by (vm_compute; reflexivity). rewrite E. split; [|reflexivity].
  apply (clear_b_spec _ "a" ("pkg", Some "a")); [|reflexivity].
  split; [|split; [reflexivity|split; [reflexivity|apply nodup_b; reflexivity]]]. intros i [<-|[]]. exists [("a", None)]; (split; [right; eexists; reflexivity|apply one_way_nodup, nodup_b; reflexivity]).
Qed.
Lemma w_printable y : y = Name "x0" \/ y = Other "2" [] -> printable mini w_meaning w_prints w_shows (w_def y).
Proof.
  intros [-> | ->] k e [H|[H|[]]]; injection H as <- <-; (split; [eapply value_ok_by; [vm_compute; reflexivity|vm_compute; reflexivity|vm_compute; reflexivity|reflexivity]|]);
  intros a Pa; vm_compute in Pa; injection Pa as <-; eexists; split; try reflexivity.
Qed.
