(** A concrete config folder used by the examples of C10-C17 and later files, and a decision procedure for the
    well-formedness conditions. *)
From Verif Require Import ConfigTree_Model ConfigTree_Spec ConfigTree_Proofs ConfigOps_Proofs ConfigLoad_Proofs.
Local Open Scope list_scope.

Fixpoint nodupb (l : list string) : bool :=
  match l with [] => true | x :: r => negb (mem x r) && nodupb r end.
Lemma nodupb_ok l : nodupb l = true -> NoDup l.
Proof.
  induction l as [|x r IH]; cbn; [constructor|]. rewrite andb_true_iff, negb_true_iff. intros [H1 H2].
  constructor; [|now apply IH]. intro H. apply mem_In in H. congruence.
Qed.

Fixpoint dir_check (d : dir) : bool :=
  match d with
  | Dir files subs =>
      nodupb (dkeys files) && nodupb (dkeys subs) &&
      forallb (fun f => match snd f with Ok c => nodupb (dkeys c) | Raise _ => true end) files &&
      (fix go (l : list (string * dir)) : bool := match l with [] => true | (_, d') :: r => dir_check d' && go r end) subs
  end.

Definition dir_checks : list (string * dir) -> bool :=
  fix go (l : list (string * dir)) : bool := match l with [] => true | (_, d') :: r => dir_check d' && go r end.

Lemma dir_check_inv files subs : dir_check (Dir files subs) = true ->
  dwf files /\ dwf subs /\ (forall f c, In (f, Ok c) files -> dwf c) /\ dir_checks subs = true.
Proof.
  cbn [dir_check]. rewrite !andb_true_iff. intros [[[H1 H2] H3] H4].
  split; [now apply nodupb_ok|]. split; [now apply nodupb_ok|]. split; [|exact H4].
  intros f c Hin. rewrite forallb_forall in H3. specialize (H3 _ Hin). cbn in H3. now apply nodupb_ok.
Qed.

Lemma dir_checks_In l n d : dir_checks l = true -> In (n, d) l -> dir_check d = true.
Proof.
  induction l as [|[m e] l IH]; cbn; [easy|]. rewrite andb_true_iff. intros [H1 H2] [H|H]; [now injection H as <- <-|auto].
Qed.

Lemma dir_check_ok : forall d, dir_check d = true -> dir_ok d.
Proof.
  fix IH 1. intros [files subs] H. destruct (dir_check_inv _ _ H) as (H1 & H2 & _ & H4).
  constructor; [exact H1|exact H2|]. clear H H1 H2. revert H4. induction subs as [|[m e] subs IHs]; intros H4 n d Hin; [destruct Hin|].
  cbn in H4. apply andb_true_iff in H4 as [Ha Hb]. destruct Hin as [E|Hin].
  - injection E as _ E. subst d. apply IH. exact Ha.
  - eapply IHs; eassumption.
Qed.

Lemma dir_check_wf folders : forall d, dir_check d = true -> forall f content, read_file d (folders, f) = Ok content -> dwf content.
Proof.
  unfold read_file. cbn [fst snd]. induction folders as [|x rest IH]; intros [files subs] H f content Hr;
    destruct (dir_check_inv _ _ H) as (_ & _ & H3 & H4); cbn [find_dir dir_files dir_subs] in Hr.
  - destruct (dget f files) as [r|] eqn:E; [|discriminate]. subst r. apply dget_Some_In in E. eapply H3; exact E.
  - destruct (dget x subs) as [d'|] eqn:E; [|discriminate]. apply dget_Some_In in E.
    eapply IH; [|exact Hr]. eapply dir_checks_In; eassumption.
Qed.

Lemma load_wf_check base disk st : dir_check disk = true -> cm_load base disk = Ok st -> cms_wf st.
Proof.
  intros H. apply cm_load_wf; [now apply dir_check_ok|]. intros [folders f] content. now apply dir_check_wf.
Qed.

(** project-wide section.py, a/section.py, a/b/section.py, items a/b/f.py, a/g.py, e.py (empty), a folder to
    be skipped, and section s with an item of the same name *)
Definition ex_disk : dir :=
  Dir [("section.py", Ok [("p", VInt 1); ("k", VInt 1); ("z", VInt 1)]); ("e.py", Ok []); ("x.py", Ok [])]
      [("a", Dir [("section.py", Ok [("k", VInt 2); ("z", VInt 2)]); ("g.py", Ok [("k", VInt 7)])]
                 [("b", Dir [("section.py", Ok [("k", VInt 3)]); ("f.py", Ok [("k", VInt 0); ("own", VInt 9)])] [])]);
       ("_skip", Dir [("h.py", Ok [])] []);
       ("x", Dir [("y.py", Ok [("n", VInt 4)])] []);
       ("s", Dir [("section.py", Ok [("c", VInt 5)]); ("s.py", Ok [("c", VInt 6)])] [])]%string.
Definition no_st : cms := CMS (Sec "" None [] []) empty_config (Dir [] []) [].
Definition ex_st : cms := match cm_load "base" ex_disk with Ok st => st | Raise _ => no_st end.
Lemma ex_loaded : cm_load "base" ex_disk = Ok ex_st. Proof. reflexivity. Qed.
Lemma ex_st_wf : cms_wf ex_st.
Proof. exact (load_wf_check "base" ex_disk ex_st eq_refl ex_loaded). Qed.
