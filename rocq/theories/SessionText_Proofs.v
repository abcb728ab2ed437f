(** Config files that are written again in a session. *)
From Verif Require Import Session_Spec Session_Proofs Project_Proofs PySource_Proofs FileStr_Proofs FileStrRead_Proofs FileStrOps_Proofs ExecText_Proofs.
Local Open Scope string_scope.
Local Open Scope list_scope.

(** * One newline less *)
Lemma lines_of_chop t : lines_of (chop t) = lines_of t \/ lines_of (chop t) = drop_last_empty (lines_of t).
Proof.
  unfold chop. destruct (endswith t nl) eqn:E; [|now left]. right. apply endswith_iff in E as [r ->]. pose proof (drop_last_app r nl) as K. change (String.length nl) with 1 in K. rewrite K.
  unfold lines_of. f_equal. unfold nl. rewrite split_app. cbn [split]. change (split nl_c "") with [""]. now rewrite drop_last_empty_snoc.
Qed.
Lemma tail_ok_whole a b : match b with [] => False | l :: _ => l <> "" end -> tail_ok b -> tail_ok (a ++ b).
Proof.
  unfold tail_ok. rewrite find_rev_app. intros N H. destruct (find _ (rev b)) eqn:E; [exact H|]. exfalso. destruct b as [|l b]; [exact N|].
  assert (K := find_none _ _ E l). cbn in K. rewrite in_app_iff in K. specialize (K (or_intror (or_introl eq_refl))). apply negb_false_iff in K. now apply String.eqb_eq in K.
Qed.
Lemma tail_ok_text t : body t <> [] -> tail_ok (body t) -> tail_ok (lines_of t).
Proof.
  intros N H. rewrite <- body_app. apply tail_ok_whole; [|exact H]. pose proof (split_lines_body (lines_of t)) as F. fold (body t) in F. destruct (body t) as [|l b]; [now apply N|]. intros ->. vm_compute in F. discriminate.
Qed.
Lemma program_chop t : tail_ok (lines_of t) -> tail_ok (lines_of (chop t)) /\ program (chop t) = program t.
Proof.
  intros H. unfold program. destruct (lines_of_chop t) as [-> | ->]; [auto|]. split; [now apply tail_ok_drop|].
  destruct (drop_last_empty_cases (lines_of t)) as [(m & E & Em) | [-> _]]; [|reflexivity]. rewrite Em. destruct (program_lines m) as [p|] eqn:P.
  - rewrite E. symmetry. rewrite (program_app_some m [""] p [] P eq_refl). now rewrite app_nil_r.
  - destruct (program_lines (lines_of t)) as [p|] eqn:Q; [|reflexivity]. apply program_drop_empty in Q; [|exact H]. rewrite Em in Q. congruence.
Qed.
Lemma program_chops k : forall t, tail_ok (lines_of t) -> program (chops k t) = program t.
Proof. induction k as [|k IH]; intros t H; [reflexivity|]. cbn [chops]. destruct (program_chop t H) as [H' E]. now rewrite IH. Qed.
Lemma program_trimmed a b : trimmed a b -> program b = program a.
Proof. intros [-> | (N & T & k & ->)]; [reflexivity|]. apply program_chops. now apply tail_ok_text. Qed.

(** * Writing again *)
Lemma again_last astor it n : forall t, again astor it (S n) t = match again astor it n t with Ok x => scaffold astor it (Some x) | Raise e => Raise e end.
Proof.
  induction n as [|n IH]; intros t.
  - cbn [again]. destruct (scaffold astor it (Some t)); reflexivity.
  - change (again astor it (S (S n)) t) with (match scaffold astor it (Some t) with Ok x => again astor it (S n) x | Raise e => Raise e end).
    change (again astor it (S n) t) with (match scaffold astor it (Some t) with Ok x => again astor it n x | Raise e => Raise e end). destruct (scaffold astor it (Some t)); [apply IH|reflexivity].
Qed.
Lemma trimmed_again astor it old a : maintained it old -> scaffold astor it old = Ok a ->
  forall b, trimmed a b -> exists c, scaffold astor it (Some b) = Ok c /\ trimmed a c.
Proof.
  intros (Hit & S2 & Ho) Ea b Hb.
  assert (St : exists f, start old f /\ below f [] /\ survive (l_imports f)).
  { destruct old as [t|]; [|exists not_existing; split; [reflexivity|split; [exists []; auto|intros i []]]]. destruct Ho as (f & Sf & Nb & S1). exists f. split; [exact Sf|]. split; [|exact S1].
    destruct (start_facts (Some t) f Sf) as (bst & bi & F & _). exists bst. split; [apply (bf_parse _ _ _ F)|]. apply Nb. destruct Sf as (L & _). destruct (load_file_inv t f L) as (_ & _ & _ & _ & _ & <-). apply (bf_parse _ _ _ F). }
  destruct St as (f & Sf & Bf & S1). rewrite (start_scaffold astor it old f Hit Sf) in Ea. injection Ea as <-.
  pose proof (fun n => again_chops astor it old f n Hit Sf Bf S1 S2) as A. set (a := rewritten it f) in *.
  destruct (start_reading it old f Hit Sf) as (f1 & bst1 & bi1 & es & L & F & _ & T & _). fold a in L. destruct (load_file_inv _ _ L) as (_ & _ & _ & _ & _ & B). rewrite B in T.
  assert (D : body a = [] /\ b = a \/ body a <> [] /\ exists k, b = chops k a).
  { destruct Hb as [-> | (N & _ & k & ->)]; [|right; split; [exact N|now exists k]]. destruct (body a); [now left|right; split; [discriminate|now exists 0]]. }
  destruct D as [[N ->]|[N [k ->]]].
  - exists a. split; [|now left]. pose proof (A 1) as A1. rewrite N in A1. cbn [again] in A1. destruct (scaffold astor it (Some a)); congruence.
  - exists (chops (S k) a). assert (Ak : forall n, again astor it n a = Ok (chops n a)) by (intros n; rewrite A; destruct (body a); [now destruct N|reflexivity]).
    pose proof (again_last astor it k a) as K. rewrite !Ak in K. split; [now symmetry|]. right. split; [exact N|]. split; [exact T|now exists (S k)].
Qed.

(** * Describing folders *)
Lemma scan_alike exec names base P g h : ignores_newlines exec -> alike trimmed P g h -> forall depth rel, scan exec names h base depth rel = scan exec names g base depth rel.
Proof.
  intros X A. assert (Fl : forall rel n, match h (base ++ rel ++ [n]) with Some (File s) => Some (exec (rel ++ [n]) s) | _ => None end = match g (base ++ rel ++ [n]) with Some (File s) => Some (exec (rel ++ [n]) s) | _ => None end).
  { intros rel n. destruct (A (base ++ rel ++ [n])) as [->|(_ & a & b & -> & -> & H)]; [reflexivity|]. now rewrite (X _ _ _ H). }
  induction depth as [|k IH]; intros rel; cbn [scan]; f_equal; apply picks_ext; intros n; try apply Fl.
  destruct (A (base ++ rel ++ [n])) as [->|(_ & a & b & -> & -> & H)]; [|reflexivity]. destruct (g (base ++ rel ++ [n])) as [[|x]|]; [now rewrite IH|reflexivity|reflexivity].
Qed.
