(** Proofs about sessions. *)
From Verif Require Export Session_Spec.
From Verif Require Import Setup_Proofs Project_Proofs Project_Props Setup_Props Create_Proofs Runner_Proofs.
Local Open Scope string_scope.
Local Open Scope list_scope.

Lemma item_at_long base c p n t : item_at base c p n t -> List.length base < List.length p.
Proof. intros H. induction H as [base c n t H|base c c' p n t H I IH]; rewrite app_length in *; cbn in *; lia. Qed.
Lemma section_at_below base c p : section_at base c p -> exists r, p = base ++ r.
Proof. intros H. induction H as [base c|base c c' p H I [r IH]]; [exists []; now rewrite app_nil_r|]. exists (coll_name c' :: r). rewrite IH. now rewrite <- app_assoc. Qed.
Lemma file_of_long d i g p n t : file_of d i g p n t -> List.length d < List.length p.
Proof. intros [r p' n' t' H I|p' n' t' I]; apply item_at_long in I; [rewrite app_length in I; cbn in I|]; lia. Qed.
Lemma folder_of_below d i g p : folder_of d i g p -> exists r, p = d ++ r.
Proof. intros [r p' H I|p' I]; apply section_at_below in I; destruct I as [w ->]; [exists (reg_name r :: w); now rewrite <- app_assoc|now exists w]. Qed.

Section Session.
Variable parse : bool -> string -> res (dict pd).
Variable view : string -> pd -> res (string * thing).
Variable inst : ccfg -> pd -> res (string * thing).
Variable cfg : bool -> string -> thing -> option string -> res string.
Variable config_dir : fs -> ConfigTree_Model.dir.
Variable s : setup.
Variable u : user.
Hypothesis W : Forall (@dwf cval) (su_classes s).
Hypothesis NP : su_config_folder s <> "pipeline_dict.py".
Notation load := (pm_load parse view inst cfg config_dir s).
Notation ok := (fun f i => acceptable parse view inst f (su_folder s) (su_name s) (su_classes s) i).

Lemma acceptable_after f i l : wf f -> ok f i -> scaffold_all cfg (defaults_of s) i f = (l, Ok tt) -> ok (final f l) i.
Proof.
  intros Wf (d & A1 & A2 & A3 & A4) E.
  assert (In (final f l) (crash_states (scaffold_all cfg (defaults_of s) i) f)) as H.
  { unfold crash_states. rewrite E. cbn [fst]. destruct (final_in f l) as [[-> _]|H]; [now left|now right]. }
  assert (F : forall q x, List.length q <= List.length (defaults_of s) -> f q = Some (File x) -> final f l q = Some (File x)).
  { intros q x L Q. apply (C61_nothing_removed cfg (defaults_of s) i f (final f l) q Wf H); [exact Q|]. intros g n t K. apply file_of_long in K. lia. }
  assert (N : f (pipeline_file (su_folder s)) = None -> final f l (pipeline_file (su_folder s)) = None).
  { intros Q. rewrite <- Q. apply (C61_nothing_else_touched cfg (defaults_of s) i f (final f l) _ Wf H).
    - intros g p K P. apply folder_of_below in K. destruct K as [r ->]. destruct P as [k K]. unfold defaults_of, pipeline_file in K. rewrite <- !app_assoc in K. apply app_inv_head in K. cbn in K. injection K as K _. now apply NP.
    - intros b K Q'. apply folder_of_below in K. destruct K as [r ->]. apply (f_equal (@List.length _)) in Q'. unfold defaults_of, pipeline_file in Q'. rewrite !app_length in Q'. cbn in Q'. lia.
    - intros g n t K. apply file_of_long in K. destruct (lengths s "") as [_ L]. lia. }
  exists d. split; [|split; [|split; [|exact A4]]].
  - destruct A1 as [[Q ->]|(text & Q & P)]; [left; split; [now apply N|reflexivity]|]. right. exists text. split; [|exact P]. apply F; [apply (lengths s "")|exact Q].
  - apply (Forall2_change (good_class parse inst f (su_folder s))); [|exact A2]. intros c r _ G. apply (good_class_same parse inst f); [|exact G]. intros n x _ Q. apply F; [apply lengths|exact Q].
  - unfold file_text in *. destruct A1 as [[Q ->]|(text & Q & P)]; [rewrite (N Q); now rewrite Q in A3|]. rewrite Q in A3. now rewrite (F _ _ (proj2 (lengths s "")) Q).
Qed.

Lemma loaded f p i next l p1 : wf f -> ok f i -> load next f p = (l, p1, Ok tt) ->
  scaffold_all cfg (defaults_of s) i f = (l, Ok tt) /\ wf (final f l) /\ ok (final f l) i /\
  exists c, cm_load (su_config_folder s) (config_dir (final f l)) = Ok c /\ p1 = fresh_manager i c next.
Proof.
  intros Wf A H. rewrite (C70_accepted parse view inst cfg config_dir s next f p i W A) in H. destruct (scaffold_all cfg (defaults_of s) i f) as [l1 [[]|e]] eqn:E; [|discriminate].
  destruct (cm_load _ _) as [c|e] eqn:Ec; [|discriminate]. injection H as <- <-. split; [reflexivity|]. split; [rewrite scaffold_all_acts in E; now apply (run_ok cfg _ f l1 Wf E)|].
  split; [now apply acceptable_after|now exists c].
Qed.

Notation after_ops := (session parse view inst cfg config_dir s u).
Notation see := (notice config_dir).
Lemma see_fresh f i c next : cm_load (su_config_folder s) (config_dir f) = Ok c -> see f (fresh_manager i c next) = fresh_manager i c next.
Proof. unfold cm_load. destruct (from_files_at _ _ _) as [t|e]; [|discriminate]. intros E. injection E as <-. reflexivity. Qed.

(** Files like those after a load. *)
Section Settled.
Variable R : string -> string -> Prop.
Variable i : items.
Variable f0 : fs.
Variable l0 : list fs.
Variable c : cms.
Hypothesis T : tidy_items i.
Hypothesis Rr : forall x, R x x.
Hypothesis W0 : wf f0.
Hypothesis E0 : scaffold_all cfg (defaults_of s) i f0 = (l0, Ok tt).
Hypothesis I : rewriting cfg R (defaults_of s) i f0.
Notation near := (alike R (config_file (defaults_of s) i) (final f0 l0)).
Hypothesis C : forall h, near h -> config_dir h = config_dir (final f0 l0).
Hypothesis Ec : cm_load (su_config_folder s) (config_dir (final f0 l0)) = Ok c.

Definition settled (f : fs) : Prop := wf f /\ near f /\ ok f i.
Lemma load_again f p next : settled f -> exists l, load next f p = (l, fresh_manager i c next, Ok tt) /\ settled (final f l).
Proof.
  intros (Wf & S & A). destruct (C61_again_alike cfg (defaults_of s) i f0 l0 R W0 T E0 Rr I f Wf S) as (l & E & S2).
  exists l. split.
  - rewrite (C70_accepted parse view inst cfg config_dir s next _ p i W A), E. now rewrite (C _ S2), Ec.
  - split; [rewrite scaffold_all_acts in E; now apply (run_ok cfg _ _ l Wf E)|]. split; [exact S2|now apply acceptable_after].
Qed.
Lemma session_settled ops : undisturbed ops ->
  forall f p, settled f -> p_items p = Some i -> (exists r, p_runner p = Some (i, r)) ->
  exists f' p', after_ops (f, p) ops = (f', p') /\ settled f' /\ p_items p' = Some i /\ exists r, p_runner p' = Some (i, r).
Proof.
  induction ops as [|op ops IH]; intros U f p S Hi Hr; [now exists f, p|].
  assert (U' : undisturbed ops) by (intros g X; apply (U g); now right).
  unfold session. cbn [fold_left]. change (fold_left ?g ops ?x) with (after_ops x ops). destruct op as [op| |g].
  - cbn [session_step]. destruct Hr as [r Hr]. rewrite Hr. apply IH; [exact U'|exact S|exact Hi|]. eexists. reflexivity.
  - cbn [session_step]. destruct (load_again f p (next_of p) S) as (l & E & S'). rewrite E. rewrite see_fresh; [|rewrite (C (final f l)); [exact Ec|apply S']].
    apply IH; [exact U'|exact S'|reflexivity|]. eexists. reflexivity.
  - exfalso. apply (U g). now left.
Qed.
Lemma session_alike ops : undisturbed ops -> forall f g p, settled f -> settled g -> snd (after_ops (f, p) ops) = snd (after_ops (g, p) ops).
Proof.
  induction ops as [|op ops IH]; intros U f g p Sf Sg; [reflexivity|].
  assert (U' : undisturbed ops) by (intros h X; apply (U h); now right).
  unfold session. cbn [fold_left]. change (fold_left ?g ops ?x) with (after_ops x ops). destruct op as [op| |h].
  - cbn [session_step]. destruct (p_runner p) as [[j r]|]; now apply IH.
  - cbn [session_step]. destruct (load_again f p (next_of p) Sf) as (l & E & S'). destruct (load_again g p (next_of p) Sg) as (l' & E' & S''). rewrite E, E'.
    rewrite !see_fresh; [now apply IH| |]; rewrite C; [exact Ec|apply S''|exact Ec|apply S'].
  - exfalso. apply (U h). now left.
Qed.
Lemma settled_first : wf (final f0 l0) -> ok (final f0 l0) i -> settled (final f0 l0).
Proof. intros Wf A. split; [exact Wf|]. split; [intros q; now left|exact A]. Qed.
End Settled.
Lemma session_app a b fp : after_ops fp (a ++ b) = after_ops (after_ops fp a) b.
Proof. unfold session. apply fold_left_app. Qed.

(** the runner's objects have numbers from [n] on *)
Definition from_number (n : nat) (p : pm) : Prop :=
  match p_runner p with Some (_, r) => n <= r_next r /\ forall x o, dget x (r_loaded r) = Some o -> n <= lobj_id o | None => n = 0 end.
Lemma step_from_number n op f p : from_number n p -> from_number n (snd (session_step parse view inst cfg config_dir s u (f, p) op)).
Proof.
  intros H. assert (S : forall g q, from_number n q -> from_number n (see g q)).
  { intros g q. unfold from_number, notice. destruct (p_runner q) as [[i r]|] eqn:E; [|now rewrite E]. auto. }
  destruct op as [op| |g]; cbn [session_step].
  - destruct (p_runner p) as [[i r]|] eqn:E; [|exact H]. unfold from_number in *. rewrite E in H. cbn [snd p_runner]. destruct H as [A B].
    destruct (steps_next r _ (rop_steps (su_config_folder s) i u r op)) as (C & _ & D). split; [lia|]. intros x o G. destruct (D x o G) as [K|(o0 & K & Sm)]; [lia|]. rewrite (same_object_id _ _ Sm). exact (B x o0 K).
  - destruct (load (next_of p) f p) as [[l p'] o] eqn:E. cbn [snd]. apply S. unfold pm_load in E. destruct (create_registrars _ _ _ _ _ _ _ _) as [l1 [i|e]]; [|now injection E as <- <- <-].
    destruct (runner_load _ _ _) as [r|e] eqn:Q; injection E as <- <- <-; [|exact H]. unfold runner_load in Q. destruct (cm_load _ _) as [c|]; [|discriminate]. injection Q as <-. unfold from_number, next_of in *. cbn. split; [|discriminate]. destruct (p_runner p) as [[i0 r]|]; [apply H|lia].
  - now apply S.
Qed.
Lemma session_from_number n ops : forall f p, from_number n p -> from_number n (snd (after_ops (f, p) ops)).
Proof.
  unfold session. induction ops as [|op ops IH]; intros f p H; [exact H|]. cbn [fold_left]. pose proof (step_from_number n op f p H) as K. destruct (session_step _ _ _ _ _ _ _ (f, p) op) as [f1 p1]. now apply IH.
Qed.
End Session.

(** * Describing folders *)
Lemma picks_ext {A} names (g h : string -> option A) : (forall n, g n = h n) -> picks names g = picks names h.
Proof. intros E. unfold picks. induction names as [|n l IH]; [reflexivity|]. cbn. now rewrite E, IH. Qed.
Lemma scan_same exec names base f g : same_files f g -> forall depth rel, scan exec names f base depth rel = scan exec names g base depth rel.
Proof.
  intros E. induction depth as [|k IH]; intros rel; cbn [scan]; f_equal.
  - apply picks_ext. intros n. now rewrite E.
  - apply picks_ext. intros n. now rewrite E.
  - apply picks_ext. intros n. rewrite E. destruct (g (base ++ rel ++ [n])) as [[|x]|]; [now rewrite IH|reflexivity|reflexivity].
Qed.
