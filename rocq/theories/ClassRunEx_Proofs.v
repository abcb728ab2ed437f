(** The project with a class dict. *)
From Verif Require Import Setup_Spec SetupEx_Spec Setup_Proofs SetupFiles_Proofs SetupLoad_Proofs SetupEx_Proofs Project_Proofs ProjectWalk_Proofs ProjectEx_Proofs.
From Verif Require Import Exec_Model Exec_Spec ExecEx_Spec ExecEx_Proofs ExecRun_Proofs ClassRunEx_Spec.
Local Open Scope string_scope.
Local Open Scope list_scope.

Lemma k_item_ok : item_ok (named k_item "name" (k_name "a")).
Proof.
  item_ok_tac.
  - intros x v [H|[H|[]]]; injection H as <- <-; (eapply value_ok_by; [vm_compute; reflexivity|vm_compute; reflexivity|vm_compute; reflexivity|reflexivity]).
  - intros p [[]|[<-|[]]]; (split; [reflexivity|]; right; split; [discriminate|]; repeat constructor).
  - now left.
Qed.
Lemma k_wf t : wf (k_disk t).
Proof. apply table_wf. vm_compute. reflexivity. Qed.
Lemma k_tidy : tidy_items k_items.
Proof.
  split; [repeat constructor; intros []|]. split.
  - intros r [<-|[]]. split; [|split; [discriminate|intros []]]. constructor; [repeat constructor; intros []|discriminate|].
    intros c [[= <-]|[]]. constructor; [repeat constructor; cbn; intuition discriminate|discriminate|]. intros c [H|[H|[]]]; discriminate.
  - constructor; [constructor|intros _ []|intros c []].
Qed.
Lemma k_plain : plain_item "defaults" "ks" ["s"; "a"].
Proof. repeat split; try (repeat constructor; discriminate); try discriminate; vm_compute; repeat constructor; try discriminate. Qed.

Ltac k_in := cbn; repeat (first [left; reflexivity|right]).
Definition k_paths (t : string) : list (path * node) :=
  ((["proj"; "defaults"; "section.py"], Dir) :: (["proj"; "defaults"; "ks"; "s"; "a.py"], Dir) :: (["proj"; "defaults"; "ks"; "s"; "b.py"], Dir) :: k_table t).

Lemma k_loads : exists l r, k_load "z = 1" new_pm = (l, PM (Some k_items) (Some (k_items, r)), Ok tt) /\
  mirrors k_exec (final (k_disk "z = 1") l) ["proj"; "defaults"] (k_config (final (k_disk "z = 1") l)) /\
  final (k_disk "z = 1") l ["proj"; "defaults"; "ks"; "s"; "a"] = None /\
  (forall rel, In rel (section_files ["ks"; "s"]) -> dget "name" (values_of k_exec (final (k_disk "z = 1") l) ["proj"; "defaults"] rel) = None).
Proof.
  assert (H : snd (k_load "z = 1" new_pm) = Ok tt) by (vm_compute; reflexivity).
  assert (A : final (k_disk "z = 1") (fst (fst (k_load "z = 1" new_pm))) ["proj"; "defaults"; "ks"; "s"; "a"] = None) by (vm_compute; reflexivity).
  assert (B : forall rel, In rel (section_files ["ks"; "s"]) -> dget "name" (values_of k_exec (final (k_disk "z = 1") (fst (fst (k_load "z = 1" new_pm)))) ["proj"; "defaults"] rel) = None)
    by (intros rel [<-|[<-|[<-|[]]]]; vm_compute; reflexivity).
  assert (K : p_items (snd (fst (k_load "z = 1" new_pm))) = Some k_items) by (vm_compute; reflexivity).
  destruct (k_load "z = 1" new_pm) as [[l p'] o] eqn:E. cbn [fst snd] in *. subst o. unfold k_load in E.
  destruct (load_ok _ _ _ _ _ _ _ _ _ _ _ E) as (i & r & c & Ei & Ec & Es & _ & _). rewrite Ei in K. cbn in K. injection K as ->. subst p'.
  exists l, r. split; [reflexivity|]. split; [|auto].
  rewrite scaffold_all_acts in Es. destruct (run_ok k_cfg _ _ _ (k_wf "z = 1") Es) as [R W].
  apply scan_mirrors.
  - exact W.
  - unfold k_names. repeat constructor; cbn; intuition discriminate.
  - intros p Hp. assert (G : forall q, final (k_disk "z = 1") l q <> None -> fs_of (k_paths "z = 1") q <> None).
    { intros q Hq K. apply Hq. assert (Nq : forall q', In q' (map fst (k_paths "z = 1")) -> q <> q') by (intros q' Hq' ->; cbn in Hq'; repeat (destruct Hq' as [<-|Hq']; [vm_compute in K; discriminate|]); destruct Hq').
      rewrite (runs_untouched k_cfg _ _ _ q R).
      - destruct (k_disk "z = 1" q) eqn:F; [|reflexivity]. exfalso. assert (F' : k_disk "z = 1" q <> None) by congruence. apply fs_of_in in F'. apply (Nq q); [|reflexivity]. right. right. right. exact F'.
      - intros a Ha. cbn in Ha. clear - Ha Nq.
        repeat (destruct Ha as [<-|Ha]; [cbn [Project_Spec.touches]; first [intros ->; eapply Nq; [|reflexivity]; k_in | intros [t Et]; cbn in Et; repeat (destruct q as [|? q]; [eapply Nq; [|reflexivity]; k_in|cbn in Et; try discriminate; injection Et as <- Et]); destruct q; discriminate]|]); destruct Ha. }
    apply (table_bounded (k_paths "z = 1") ["proj"; "defaults"] k_names 3); [vm_compute; reflexivity|]. apply G. exact Hp.
  - assert (D : k_disk "z = 1" ["proj"; "defaults"] = Some Dir) by reflexivity.
    destruct (runs_unwritten k_cfg _ _ _ ["proj"; "defaults"] R) as [F|[F _]]; [|rewrite F; exact D|rewrite D in F; discriminate].
    intros Hw. vm_compute in Hw. repeat (destruct Hw as [Hw|Hw]; [discriminate|]). destruct Hw.
Qed.
