From Verif Require Import Hidden_Spec ConfigLoad_Proofs.
Local Open Scope string_scope.
Local Open Scope list_scope.

Lemma hidden_visible x : hidden x = negb (visible x).
Proof. destruct x as [|c x]; [reflexivity|]. unfold hidden, visible. cbn [startswith]. rewrite Bool.negb_involutive.
  rewrite (Ascii.eqb_sym "_"), (Ascii.eqb_sym ".") || idtac. 
  destruct (Ascii.eqb c "_"), (Ascii.eqb c "."); cbn; now destruct x. Qed.

Definition visible_subs : list (string * dir) -> list (string * dir) :=
  fix go (l : list (string * dir)) : list (string * dir) :=
      match l with
      | [] => []
      | (n, d') :: rest => if visible n then (n, visible_part d') :: go rest else go rest
      end.
Lemma visible_part_eq files subs : visible_part (Dir files subs) = Dir files (visible_subs subs).
Proof. reflexivity. Qed.

Lemma visible_subs_cons n d' rest : visible_subs ((n, d') :: rest) =
  if visible n then (n, visible_part d') :: visible_subs rest else visible_subs rest.
Proof. reflexivity. Qed.

(** the subsections of a folder decide together with the files *)
Lemma from_files_subs name rel files subs subs' : sub_sections rel subs = sub_sections rel subs' ->
  from_files name rel (Dir files subs) = from_files name rel (Dir files subs').
Proof.
  intro E. change (from_files name rel (Dir files subs)) with
    (match (if mem "section.py" (filter (fun f => endswith f ".py") (map fst files))
        then match read_file (Dir files subs) ([], "section.py") with
             | Ok content => Ok (Some (loaded_config name (rel, "section.py") content))
             | Raise ValueError => Ok None
             | Raise e => Raise e
             end
        else Ok None) with
     | Raise e => Raise e
     | Ok cfg => match sub_sections rel subs with
                 | Raise e => Raise e
                 | Ok secs => Ok (Sec name cfg [] (map (fun f => NFile (rel, f) (strip_py f))
                     (filter (fun f => negb (String.eqb f "section.py")) (filter (fun f => endswith f ".py") (map fst files))) ++ secs))
                 end
     end).
  rewrite E. reflexivity.
Qed.

Lemma from_files_visible : forall d name rel, from_files name rel d = from_files name rel (visible_part d).
Proof.
  fix IH 1. intros [files subs] name rel. rewrite visible_part_eq. apply from_files_subs.
  induction subs as [|[n d'] subs IHs]; [reflexivity|].
  rewrite visible_subs_cons, sub_sections_cons, hidden_visible.
  destruct (visible n) eqn:V; cbn [negb]; [|exact IHs].
  rewrite sub_sections_cons, hidden_visible, V. cbn [negb]. rewrite <- (IH d' n (rel ++ [n])).
  rewrite <- IHs. reflexivity.
Qed.

Definition subs_errors : list (string * dir) -> list exn :=
  fix go (l : list (string * dir)) : list exn :=
      match l with
      | [] => []
      | (n, d') :: rest => (if visible n then section_errors d' else []) ++ go rest
      end.
Lemma section_errors_eq files subs : section_errors (Dir files subs) = section_error (Dir files subs) ++ subs_errors subs.
Proof. reflexivity. Qed.
Lemma subs_errors_cons n d' rest : subs_errors ((n, d') :: rest) = (if visible n then section_errors d' else []) ++ subs_errors rest.
Proof. reflexivity. Qed.

Definition outcome {A} (r : res A) (l : list exn) : Prop :=
  match l with [] => exists x, r = Ok x | e :: _ => r = Raise e end.

Lemma section_config_outcome name rel files subs :
  outcome (if mem "section.py" (filter (fun f => endswith f ".py") (map fst files))
        then match read_file (Dir files subs) ([], "section.py") with
             | Ok content => Ok (Some (loaded_config name (rel, "section.py") content))
             | Raise ValueError => Ok None
             | Raise e => Raise e
             end
        else Ok None) (section_error (Dir files subs)).
Proof.
  unfold section_error. cbn [dir_files]. destruct (mem "section.py" _) eqn:Em.
  - unfold read_file. cbn [find_dir fst snd dir_files]. cbv beta iota.
    destruct (dget "section.py" files) as [[content|e]|] eqn:D; [eexists; reflexivity| |].
    + destruct e; try reflexivity. eexists; reflexivity.
    + exfalso. apply mem_In, filter_In in Em as [Em _]. change (In "section.py" (dkeys files)) in Em.
      apply In_dkeys_dget in Em as (x & Em). congruence.
  - destruct (dget "section.py" files) as [r|] eqn:D; [|eexists; reflexivity].
    exfalso. assert (X : mem "section.py" (filter (fun f => endswith f ".py") (map fst files)) = true); [|congruence].
    apply mem_In. apply filter_In. split; [|reflexivity]. change (In "section.py" (dkeys files)).
    apply In_dkeys_dget. eauto.
Qed.

Lemma from_files_outcome : forall d name rel, outcome (from_files name rel d) (section_errors d).
Proof.
  fix IH 1. intros [files subs] name rel. rewrite section_errors_eq.
  change (from_files name rel (Dir files subs)) with
    (match (if mem "section.py" (filter (fun f => endswith f ".py") (map fst files))
        then match read_file (Dir files subs) ([], "section.py") with
             | Ok content => Ok (Some (loaded_config name (rel, "section.py") content))
             | Raise ValueError => Ok None
             | Raise e => Raise e
             end
        else Ok None) with
     | Raise e => Raise e
     | Ok cfg => match sub_sections rel subs with
                 | Raise e => Raise e
                 | Ok secs => Ok (Sec name cfg [] (map (fun f => NFile (rel, f) (strip_py f))
                     (filter (fun f => negb (String.eqb f "section.py")) (filter (fun f => endswith f ".py") (map fst files))) ++ secs))
                 end
     end).
  assert (S : outcome (sub_sections rel subs) (subs_errors subs)).
  { induction subs as [|[n d'] subs IHs]; [eexists; reflexivity|].
    rewrite sub_sections_cons, subs_errors_cons, hidden_visible.
    destruct (visible n); cbn [negb]; [|exact IHs]. specialize (IH d' n (rel ++ [n])).
    destruct (section_errors d') as [|e l]; cbn [app outcome] in *.
    - destruct IH as (s & ->). destruct (subs_errors subs) as [|e l]; cbn [outcome] in *.
      + destruct IHs as (l' & ->). eexists; reflexivity.
      + now rewrite IHs.
    - now rewrite IH. }
  pose proof (section_config_outcome name rel files subs) as C.
  destruct (section_error (Dir files subs)) as [|e l]; cbn [app outcome] in *.
  - destruct C as (c & ->). destruct (subs_errors subs) as [|e l]; cbn [outcome] in *.
    + destruct S as (x & ->). eexists; reflexivity.
    + now rewrite S.
  - now rewrite C.
Qed.
