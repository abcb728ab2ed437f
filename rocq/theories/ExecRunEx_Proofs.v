(** The project with a new function. *)
From Verif Require Import Setup_Spec SetupEx_Spec Setup_Proofs SetupFiles_Proofs SetupLoad_Proofs SetupEx_Proofs Project_Proofs ProjectWalk_Proofs ProjectEx_Proofs.
From Verif Require Import Exec_Model Exec_Spec ExecEx_Spec ExecEx_Proofs ExecRun_Proofs ExecRunEx_Spec.
Local Open Scope string_scope.
Local Open Scope list_scope.

Lemma xy_item_ok : item_ok xy_item.
Proof.
  item_ok_tac.
  - intros x v [H|[H|[]]]; injection H as <- <-; (eapply value_ok_by; [vm_compute; reflexivity|vm_compute; reflexivity|vm_compute; reflexivity|reflexivity]).
  - intros p [[<-|[]]|[<-|[]]]; (split; [reflexivity|]; right; split; [discriminate|]; repeat constructor).
  - now left.
Qed.
Lemma fresh_wf : wf fresh_disk.
Proof. apply table_wf. vm_compute. reflexivity. Qed.

(** all paths there may be afterwards *)
Definition fresh_paths : list (path * node) := ((["proj"; "defaults"; "section.py"], Dir) :: (["proj"; "defaults"; "run"; "a.py"], Dir) :: fresh_table).

Lemma fresh_loads : exists l r, fresh_load new_pm = (l, PM (Some ex_items) (Some (ex_items, r)), Ok tt) /\
  mirrors fresh_exec (final fresh_disk l) ["proj"; "defaults"] (fresh_config (final fresh_disk l)) /\
  final fresh_disk l ["proj"; "defaults"; "run"; "a"] = None /\
  (forall rel, In rel (section_files ["run"]) -> dget "x" (values_of fresh_exec (final fresh_disk l) ["proj"; "defaults"] rel) = None).
Proof.
  assert (H : snd (fresh_load new_pm) = Ok tt) by (vm_compute; reflexivity).
  assert (A : final fresh_disk (fst (fst (fresh_load new_pm))) ["proj"; "defaults"; "run"; "a"] = None) by (vm_compute; reflexivity).
  assert (B : forall rel, In rel (section_files ["run"]) -> dget "x" (values_of fresh_exec (final fresh_disk (fst (fst (fresh_load new_pm)))) ["proj"; "defaults"] rel) = None)
    by (intros rel [<-|[<-|[]]]; vm_compute; reflexivity).
  assert (K : p_items (snd (fst (fresh_load new_pm))) = Some ex_items) by (vm_compute; reflexivity).
  destruct (fresh_load new_pm) as [[l p'] o] eqn:E. cbn [fst snd] in *. subst o. unfold fresh_load in E.
  destruct (load_ok _ _ _ _ _ _ _ _ _ _ _ E) as (i & r & c & Ei & Ec & Es & _ & _). rewrite Ei in K. cbn in K. injection K as ->. subst p'.
  exists l, r. split; [reflexivity|]. split; [|auto].
  rewrite scaffold_all_acts in Es. destruct (run_ok fresh_cfg _ _ _ fresh_wf Es) as [R W].
  apply scan_mirrors.
  - exact W.
  - unfold ex_names. repeat constructor; cbn; intuition discriminate.
  - intros p Hp. assert (G : forall q, final fresh_disk l q <> None -> fs_of fresh_paths q <> None).
    { intros q Hq K. apply Hq. assert (Nq : forall q', In q' (map fst fresh_paths) -> q <> q') by (intros q' Hq' ->; cbn in Hq'; repeat (destruct Hq' as [<-|Hq']; [vm_compute in K; discriminate|]); destruct Hq').
      rewrite (runs_untouched fresh_cfg _ _ _ q R).
      - destruct (fresh_disk q) eqn:F; [|reflexivity]. exfalso. assert (F' : fresh_disk q <> None) by congruence. apply fs_of_in in F'. apply (Nq q); [|reflexivity]. right. right. exact F'.
      - intros a Ha. cbn in Ha.
        repeat (destruct Ha as [<-|Ha]; [cbn [Project_Spec.touches]; first [intros ->; eapply Nq; [|reflexivity]; cbn; tauto | intros [t Et]; cbn in Et; repeat (destruct q as [|? q]; [eapply Nq; [|reflexivity]; cbn; tauto|cbn in Et; try discriminate; injection Et as <- Et]); destruct q; discriminate]|]); destruct Ha. }
    apply (table_bounded fresh_paths ["proj"; "defaults"] ex_names 2); [vm_compute; reflexivity|]. apply G. exact Hp.
  - assert (D : fresh_disk ["proj"; "defaults"] = Some Dir) by reflexivity.
    destruct (runs_unwritten fresh_cfg _ _ _ ["proj"; "defaults"] R) as [F|[F _]]; [|rewrite F; exact D|rewrite D in F; discriminate].
    intros Hw. vm_compute in Hw. repeat (destruct Hw as [Hw|Hw]; [discriminate|]). destruct Hw.
Qed.
