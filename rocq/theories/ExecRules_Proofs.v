(** The executor follows the rules. *)
From Verif Require Import Exec_Model Exec_Spec ExecRules_Spec Exec_Proofs.
Local Open Scope string_scope.
Local Open Scope list_scope.

Lemma seq_turn {A} (f : A -> dict mval -> outcome) (R : A -> dict mval -> outcome -> Prop) l : Forall (fun a => forall ns, R a ns (f a ns)) l -> forall ns, in_turn R l ns (seq f l ns).
Proof.
  induction 1 as [|a l Ha _ IH]; intros ns; [constructor|]. change (in_turn R (a :: l) ns (match f a ns with (ns', None) => seq f l ns' | r => r end)).
  specialize (Ha ns). destruct (f a ns) as [ns' [e|]]; [now apply turn_fails|]. eapply turn_next; eauto.
Qed.
Lemma turn_seq {A} (f : A -> dict mval -> outcome) (R : A -> dict mval -> outcome -> Prop) l : Forall (fun a => forall ns o, R a ns o -> f a ns = o) l -> forall ns o, in_turn R l ns o -> seq f l ns = o.
Proof.
  intros F ns o T. revert F. induction T as [ns|a l ns ns' o Ha T IH|a l ns ns' e Ha]; intros F; [reflexivity| |].
  - inversion F as [|? ? F1 F2]; subst. change (match f a ns with (ns', None) => seq f l ns' | r => r end = o). rewrite (F1 _ _ Ha). now apply IH.
  - inversion F as [|? ? F1 F2]; subst. change (match f a ns with (ns', None) => seq f l ns' | r => r end = (ns', Some e)). now rewrite (F1 _ _ Ha).
Qed.

Section Rules.
Variable py : python.

Definition go_tuple : list tgt -> list mval -> dict mval -> outcome :=
  fix go (l : list tgt) (vs : list mval) (ns : dict mval) : outcome :=
    match l, vs with
    | t' :: l', v' :: vs' => match assign py t' v' ns with (ns', None) => go l' vs' ns' | r => r end
    | _, _ => (ns, None)
    end.
Lemma go_seq l : forall vs ns, go_tuple l vs ns = seq (fun q => assign py (fst q) (snd q)) (combine l vs) ns.
Proof.
  induction l as [|t l IH]; intros [|v vs] ns; try reflexivity. cbn [go_tuple combine].
  change (match assign py t v ns with (ns', None) => go_tuple l vs ns' | r => r end = match assign py t v ns with (ns', None) => seq (fun q => assign py (fst q) (snd q)) (combine l vs) ns' | r => r end).
  destruct (assign py t v ns) as [ns' [e|]]; [reflexivity|apply IH].
Qed.
Lemma Forall_combine {A B} (P : A -> Prop) (l : list A) : Forall P l -> forall vs : list B, Forall (fun q => P (fst q)) (combine l vs).
Proof. induction 1 as [|a l Ha _ IH]; intros [|v vs]; constructor; auto. Qed.

Lemma assign_binds t : forall v ns, binds py t v ns (assign py t v ns).
Proof.
  induction t as [x|e a|e i|l IH] using tgt_ind2; intros v ns; try constructor.
  cbn [assign]. destruct (py_iter py v) as [vs|e] eqn:E; [|now apply b_no_sequence]. destruct (Nat.eqb_spec (List.length vs) (List.length l)) as [L|L]; [|now apply (b_wrong_number py l v ns vs)].
  fold (go_tuple l vs ns). rewrite go_seq. apply (b_tuple py l v ns vs _ E L).
  apply (seq_turn (fun q : tgt * mval => assign py (fst q) (snd q))). apply Forall_forall. intros [t w] Hq ns'. apply in_combine_l in Hq. rewrite Forall_forall in IH. now apply IH.
Qed.
Lemma binds_assign t : forall v ns o, binds py t v ns o -> assign py t v ns = o.
Proof.
  induction t as [x|e a|e i|l IH] using tgt_ind2; intros v ns o B; inversion B as [| | |? ? ? ? E|? ? ? vs E L|? ? ? vs ? E L T]; subst; try reflexivity; cbn [assign]; rewrite E; [reflexivity| |].
  - now rewrite (proj2 (Nat.eqb_neq _ _) L).
  - rewrite (proj2 (Nat.eqb_eq _ _) L). fold (go_tuple l vs ns). rewrite go_seq. revert T. apply turn_seq. apply Forall_forall. intros [t w] Hq ns' o'. apply in_combine_l in Hq. rewrite Forall_forall in IH. now apply IH.
Qed.

Lemma alias_rule a ns : imports_alias py a ns (import_alias py a ns).
Proof. unfold import_alias. destruct a as [m n]. cbn [fst snd]. destruct (py_import py m) as [e|] eqn:E; [now apply ia_fails|]. destruct n; now constructor. Qed.
Lemma alias_rule' a ns o : imports_alias py a ns o -> import_alias py a ns = o.
Proof. intros I. unfold import_alias. inversion I as [? ? ? E|? ? ? E|? ? E]; subst; cbn [fst snd]; now rewrite E. Qed.
Lemma from_rule dots m a ns : imports_from py dots m a ns (from_alias py dots m a ns).
Proof.
  unfold from_alias, bind_name. destruct (String.eqb_spec (fst a) "*") as [E|N].
  - destruct a as [x n]. cbn [fst] in E. subst x. destruct (py_star py dots m) eqn:E; now constructor.
  - fold (from_name a). destruct (py_from py dots m (fst a)) eqn:E; now constructor.
Qed.
Lemma from_rule' dots m a ns o : imports_from py dots m a ns o -> from_alias py dots m a ns = o.
Proof.
  intros I. unfold from_alias, bind_name. inversion I as [? ? ? E|? ? ? E|? ? ? N E|? ? ? N E]; subst; cbn [fst].
  - change (String.eqb "*" "*") with true. cbv iota. now rewrite E.
  - change (String.eqb "*" "*") with true. cbv iota. now rewrite E.
  - rewrite (proj2 (String.eqb_neq _ _) N), E. reflexivity.
  - rewrite (proj2 (String.eqb_neq _ _) N), E. reflexivity.
Qed.

Definition step (t : tgt) (body : list pstmt) (v : mval) (ns : dict mval) : outcome :=
  match assign py t v ns with (ns', None) => seq (run py) body ns' | r => r end.

Lemma run_rule s : forall ns, executes py s ns (run py s ns).
Proof.
  induction s as [al|dots m al|ts e|t ann e|x op|x|e|f body _|c body _|e a b IHa IHb|t e body IH|a b IHa IHb] using pstmt_ind2; intros ns; cbn [run].
  - apply x_import. apply seq_turn. apply Forall_forall. intros q _ n. apply alias_rule.
  - apply x_from. apply seq_turn. apply Forall_forall. intros q _ n. apply from_rule.
  - destruct (py_eval py ns e) as [v|ex] eqn:E; [|now apply x_assign_fails]. apply (x_assign py ts e ns v _ E). apply (seq_turn (fun t => assign py t v) (fun t => binds py t v)). apply Forall_forall. intros q _ n. apply assign_binds.
  - destruct e as [e|].
    + destruct (py_eval py ns e) as [v|ex] eqn:E; [|now apply x_ann_value_fails]. pose proof (assign_binds t v ns) as B. destruct (assign py t v ns) as [ns' [ex|]]; [now apply (x_ann_target_fails py t ann e ns v)|].
      destruct (py_eval py ns' ann) as [w|ex] eqn:Ea; [now apply (x_ann py t ann e ns v ns' w)|now apply (x_ann_fails py t ann e ns v ns' ex)].
    + destruct (py_eval py ns ann) as [v|ex] eqn:E; [now apply (x_declare py t ann ns v)|now apply x_declare_fails].
  - destruct (dget x ns) as [v|] eqn:E; [|now apply x_aug_unbound]. unfold bind_name. destruct (py_aug py ns v op) as [w|ex] eqn:Ew; [now apply (x_aug py x op ns v)|now apply (x_aug_fails py x op ns v)].
  - unfold dmem. destruct (dget x ns) as [v|] eqn:E; [now apply (x_del py x ns v)|now apply x_del_unbound].
  - destruct (py_eval py ns e) as [v|ex] eqn:E; [now apply (x_expr py e ns v)|now apply x_expr_fails].
  - unfold bind_name. destruct (py_def py ns f body) eqn:E; now constructor.
  - unfold bind_name. destruct (py_class py ns c body) eqn:E; now constructor.
  - destruct (py_eval py ns e) as [v|ex] eqn:E; [|now apply x_if_fails]. destruct (py_truth py v) as [[|]|ex] eqn:Et.
    + apply (x_then py e a b ns v _ E Et). now apply seq_turn.
    + apply (x_else py e a b ns v _ E Et). now apply seq_turn.
    + now apply (x_no_truth py e a b ns v).
  - destruct (py_eval py ns e) as [v|ex] eqn:E; [|now apply x_for_fails]. destruct (py_iter py v) as [vs|ex] eqn:Ev; [|now apply (x_no_sequence py t e body ns v)].
    apply (x_for py t e body ns v vs _ E Ev). apply (seq_turn (step t body)). apply Forall_forall. intros w _ n. unfold step. pose proof (assign_binds t w n) as B.
    destruct (assign py t w n) as [n' [ex|]]; [now apply fol_fails|]. apply (fol_both _ _ n n' _ B). now apply seq_turn.
  - pose proof (seq_turn (run py) (executes py) a IHa ns) as T. destruct (seq (run py) a ns) as [ns' [ex|]]; [|now apply x_try].
    destruct (caught ex) eqn:C.
    + apply (x_except py a b ns ns' ex); [exact T|now intros ->|now intros ->|now apply seq_turn].
    + apply x_not_caught; [exact T|]. destruct ex; try discriminate C; auto.
Qed.

Ltac use_rules :=
  repeat match goal with B : binds _ _ _ _ _ |- _ => apply binds_assign in B end;
  repeat match goal with H : ?l = ?r |- context [?l] => rewrite H end.

Lemma rule_run s : forall ns o, executes py s ns o -> run py s ns = o.
Proof.
  induction s as [al|dots m al|ts e|t ann e|x op|x|e|f body _|c body _|e a b IHa IHb|t e body IH|a b IHa IHb] using pstmt_ind2; intros ns o X;
    cbn [run]; inversion X; clear X; subst; use_rules; unfold bind_name; use_rules; try reflexivity.
  - match goal with T : in_turn _ _ _ _ |- _ => revert T end. apply turn_seq. apply Forall_forall. intros q _ n o'. apply alias_rule'.
  - match goal with T : in_turn _ _ _ _ |- _ => revert T end. apply turn_seq. apply Forall_forall. intros q _ n o'. apply from_rule'.
  - match goal with T : in_turn _ _ _ _ |- _ => revert T end. apply turn_seq. apply Forall_forall. intros q _ n o'. apply binds_assign.
  - unfold dmem. use_rules. reflexivity.
  - unfold dmem. use_rules. reflexivity.
  - match goal with T : in_turn _ _ _ _ |- _ => revert T end. now apply turn_seq.
  - match goal with T : in_turn _ _ _ _ |- _ => revert T end. now apply turn_seq.
  - match goal with T : in_turn _ _ _ _ |- _ => revert T end. apply (turn_seq (step t body)). apply Forall_forall. intros w _ n o' F. unfold step.
    inversion F as [? n' ? B T|? ? ? B]; subst; apply binds_assign in B; rewrite B; [|reflexivity]. revert T. now apply turn_seq.
  - match goal with T : in_turn _ _ _ _ |- _ => apply (turn_seq (run py)) in T; [now rewrite T|exact IHa] end.
  - match goal with T : in_turn _ a _ _, T' : in_turn _ b _ _ |- _ => apply (turn_seq (run py)) in T; [rewrite T|exact IHa]; apply (turn_seq (run py)) in T'; [|exact IHb] end.
    destruct ex; try reflexivity; try assumption; congruence.
  - match goal with T : in_turn _ a _ _ |- _ => apply (turn_seq (run py)) in T; [rewrite T|exact IHa] end. match goal with K : _ \/ _ |- _ => destruct K; subst; reflexivity end.
Qed.
End Rules.

Lemma run_executes py s ns o : run py s ns = o <-> executes py s ns o.
Proof. split; [intros <-; apply run_rule|apply rule_run]. Qed.
Lemma runs_execute py p ns o : seq (run py) p ns = o <-> in_turn (executes py) p ns o.
Proof.
  split; [intros <-; apply seq_turn|apply turn_seq]; apply Forall_forall; intros s _ n; [apply run_rule|apply rule_run].
Qed.
