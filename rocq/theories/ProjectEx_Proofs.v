(** Examples of projects. *)
From Verif Require Import PySource_Model FileStr_Model.
From Verif Require Export Project_Model Project_Spec Project_Proofs ProjectWalk_Proofs.
Local Open Scope string_scope.
Local Open Scope list_scope.

Lemma ran (m : P unit) f : snd (m f) = Ok tt -> m f = (fst (m f), Ok tt).
Proof. intros H. destruct (m f) as [l r]. cbn in *. now rewrite H. Qed.

(** an empty disk with one folder *)
Definition disk : fs := fun q => if path_eqb [] q then Some Dir else if path_eqb ["home"] q then Some Dir else None.
Lemma path_eqb_neq p q : p <> q -> path_eqb p q = false.
Proof. intros H. unfold path_eqb. destruct (list_eq_dec string_dec p q); [contradiction|reflexivity]. Qed.
Lemma disk_wf : wf disk.
Proof.
  split; [reflexivity|]. intros [|a p] x H; [reflexivity|]. exfalso. apply H. unfold disk. rewrite !path_eqb_neq; [reflexivity| |discriminate]. destruct p; discriminate.
Qed.
(** a project with one function of one argument, for which a value has been set *)
Definition one_items : items := Items [] (Coll "project" [EItem "f" TOther]).
Definition one_cfg (_ : bool) (_ : string) (_ : thing) (c : option string) : res string :=
  scaffold (fun _ _ => Value None ["OLD"]) (function_item [] [("k", Value None ["None"])]) c.
Definition one_disk (t : string) : fs := fun q =>
  if path_eqb [] q then Some Dir else if path_eqb ["d"] q then Some Dir else if path_eqb ["d"; "section.py"] q then Some (File newline) else if path_eqb ["d"; "f.py"] q then Some (File t) else None.
Lemma one_disk_wf t : wf (one_disk t).
Proof.
  split; [reflexivity|]. unfold one_disk. intros [|a p] x H; [reflexivity|]. destruct (list_eq_dec string_dec (a :: p) ["d"]) as [->|N]; [reflexivity|].
  exfalso. apply H. assert (E : forall y, ["d"; y] <> (a :: p) ++ [x]).
  { intros y E. apply N. destruct p as [|b [|c p]]; cbn in E; [congruence|discriminate|discriminate]. }
  rewrite !path_eqb_neq; [reflexivity|apply E|apply E|destruct p; discriminate|discriminate].
Qed.
Lemma one_left t s u : one_cfg true "f" TOther (Some t) = Ok s -> begins u s -> In (put ["d"; "f.py"] (File u) (one_disk t)) (crash_states (scaffold_all one_cfg ["d"] one_items) (one_disk t)).
Proof.
  intros Hs Hu. assert (E : crash_states (scaffold_all one_cfg ["d"] one_items) (one_disk t) = crash_states (piter (run_act one_cfg) (all_acts ["d"] one_items)) (one_disk t)) by (unfold crash_states; now rewrite scaffold_all_acts). rewrite E.
  change (all_acts ["d"] one_items) with ([AMk ["d"]; ANew ["d"; "section.py"] newline] ++ AUpd true ["d"; "f.py"] "f" TOther :: []).
  apply (run_reaches one_cfg (one_disk t) [AMk ["d"]; ANew ["d"; "section.py"] newline] [] true ["d"; "f.py"] "f" TOther [] s u (one_disk_wf t)); [reflexivity| |exact Hs|exact Hu].
  split; [discriminate|]. split; [left; discriminate|]. now exists s.
Qed.
Lemma begins_by t s : startswith s t = true -> begins t s.
Proof.
  revert s. induction t as [|c t IH]; intros s H; [apply begins_nil|]. destruct s as [|d s]; [discriminate|]. cbn [startswith] in H. apply andb_prop in H. destruct H as [H1 H2]. apply Ascii.eqb_eq in H1. subst d. destruct (IH s H2) as [u ->]. now exists u.
Qed.
Definition user_file : string := ("k = 25" ++ newline)%string.
Definition ex_tree : items := Items [Reg "kls" (Coll "kls" [EColl (Coll "things" [EItem "one" TOther])])] (Coll "project" [EColl (Coll "sec" [EItem "f" TOther; EItem "g" TOther]); EItem "h" TOther]).
