(** Proofs about projects and their files. *)
From Verif Require Export Project_Spec.
From Coq Require Import Lia.
Local Open Scope string_scope.
Local Open Scope list_scope.

Lemma path_eqb_eq p q : path_eqb p q = true <-> p = q.
Proof. unfold path_eqb. destruct (list_eq_dec string_dec p q); split; congruence. Qed.
Lemma put_eq p n f : put p n f p = Some n.
Proof. unfold put. now rewrite (proj2 (path_eqb_eq p p) eq_refl). Qed.
Lemma put_neq p n f q : q <> p -> put p n f q = f q.
Proof. intros H. unfold put. destruct (path_eqb p q) eqn:E; [apply path_eqb_eq in E; congruence|reflexivity]. Qed.

Lemma begins_nil s : begins "" s.
Proof. now exists s. Qed.
Lemma prefixes_spec t s : In t (prefixes s) <-> begins t s.
Proof.
  revert t. induction s as [|c s IH]; intros t; cbn [prefixes].
  - split; [intros [<-|[]]; now exists ""|]. intros [u Hu]. destruct t; [now left|discriminate].
  - split.
    + intros [<-|H]; [apply begins_nil|]. apply in_map_iff in H. destruct H as (t' & <- & H). apply IH in H. destruct H as [u ->]. now exists u.
    + intros [u Hu]. destruct t as [|c' t]; [now left|]. cbn in Hu. injection Hu as -> ->. right. apply in_map. apply IH. now exists u.
Qed.
Lemma last_map {A B} (h : A -> B) l d : l <> [] -> last (map h l) (h d) = h (last l d).
Proof. induction l as [|a l IH]; [congruence|]. intros _. destruct l as [|b l]; [reflexivity|]. change (last (map h (b :: l)) (h d) = h (last (b :: l) d)). now apply IH. Qed.
Lemma last_default {A} (l : list A) d d' : l <> [] -> last l d = last l d'.
Proof. induction l as [|a l IH]; [congruence|]. intros _. destruct l; [reflexivity|]. now apply IH. Qed.
Lemma prefixes_ne s : prefixes s <> [].
Proof. destruct s; discriminate. Qed.
Lemma prefixes_last s d : last (prefixes s) d = s.
Proof.
  revert d. induction s as [|c s IH]; intros d; [reflexivity|]. cbn [prefixes].
  assert (E : last (map (String c) (prefixes s)) (String c "") = String c s) by (rewrite last_map by apply prefixes_ne; now rewrite IH).
  destruct (map (String c) (prefixes s)) as [|y l] eqn:Em; [pose proof (prefixes_ne s); destruct (prefixes s); [congruence|discriminate]|].
  change (last (y :: l) d = String c s). rewrite <- E. now apply last_default.
Qed.

Lemma final_app f l l' : final f (l ++ l') = final (final f l) l'.
Proof.
  unfold final. revert f. induction l as [|a l IH]; intros f; [reflexivity|]. destruct l as [|b l]; cbn [app].
  - destruct l' as [|b l']; [reflexivity|]. change (last (b :: l') f = last (b :: l') a). apply last_default. discriminate.
  - change (last ((b :: l) ++ l') f = last l' (last (b :: l) f)). apply IH.
Qed.
Lemma final_map {B} (h : B -> fs) f l d : l <> [] -> final f (map h l) = h (last l d).
Proof. intros H. unfold final. rewrite (last_default _ f (h d)); [now apply last_map|]. destruct l; [congruence|discriminate]. Qed.
Lemma final_in f l : final f l = f /\ l = [] \/ In (final f l) l.
Proof.
  unfold final. induction l as [|a l IH] using rev_ind; [now left|]. right. rewrite last_last. apply in_app_iff. right. now left.
Qed.

Lemma pbind_ok {A B} (m : P A) (k : A -> P B) f l a : m f = (l, Ok a) -> pbind m k f = (l ++ fst (k a (final f l)), snd (k a (final f l))).
Proof. intros E. unfold pbind. rewrite E. now destruct (k a (final f l)). Qed.
Lemma pbind_raise {A B} (m : P A) (k : A -> P B) f l e : m f = (l, Raise e) -> pbind m k f = (l, Raise e).
Proof. intros E. unfold pbind. now rewrite E. Qed.
Lemma pbind_pfs {B} (k : fs -> P B) f : pbind pfs k f = k f f.
Proof. unfold pbind, pfs. cbn. now destruct (k f f). Qed.
Lemma pbind_pret {A B} (a : A) (k : A -> P B) f : pbind (pret a) k f = k a f.
Proof. unfold pbind, pret. cbn. now destruct (k a f). Qed.
Lemma pbind_ext {A B} (m m' : P A) (k k' : A -> P B) f : m f = m' f -> (forall a g, k a g = k' a g) -> pbind m k f = pbind m' k' f.
Proof. intros E H. unfold pbind. rewrite E. destruct (m' f) as [l [a|e]]; [|reflexivity]. now rewrite H. Qed.
Lemma pbind_assoc {A B C} (m : P A) (k : A -> P B) (h : B -> P C) f : pbind (pbind m k) h f = pbind m (fun a => pbind (k a) h) f.
Proof.
  unfold pbind. destruct (m f) as [l [a|e]]; [|reflexivity]. destruct (k a (final f l)) as [l' [b|e]]; [|reflexivity].
  rewrite final_app. destruct (h b _) as [l'' r]. now rewrite app_assoc.
Qed.
Lemma piter_app {A} (k : A -> P unit) l l' f : piter k (l ++ l') f = pbind (piter k l) (fun _ => piter k l') f.
Proof.
  revert f. induction l as [|a l IH]; intros f; [symmetry; apply (pbind_pret tt)|]. cbn [app piter]. rewrite pbind_assoc. apply pbind_ext; [reflexivity|]. intros. apply IH.
Qed.
Lemma piter_flat {A B} (k : B -> P unit) (h : A -> list B) l f : piter (fun a => piter k (h a)) l f = piter k (flat_map h l) f.
Proof.
  revert f. induction l as [|a l IH]; intros f; [reflexivity|]. cbn [piter flat_map]. rewrite piter_app. apply pbind_ext; [reflexivity|]. intros. apply IH.
Qed.
Lemma piter_map {A B} (k : B -> P unit) (h : A -> B) l f : piter (fun a => k (h a)) l f = piter k (map h l) f.
Proof. revert f. induction l as [|a l IH]; intros f; [reflexivity|]. cbn [piter map]. apply pbind_ext; [reflexivity|]. intros. apply IH. Qed.
Lemma piter_ext {A} (k k' : A -> P unit) l f : (forall a g, k a g = k' a g) -> piter k l f = piter k' l f.
Proof. intros H. revert f. induction l as [|a l IH]; intros f; [reflexivity|]. cbn [piter]. apply pbind_ext; [apply H|]. intros. apply IH. Qed.

(* ------------------------------------------------------------------ *)
(** * The library's functions as lists of actions *)

Section ActProofs.
Variable cfg : bool -> string -> thing -> option string -> res string.
Notation run := (piter (run_act cfg)).

Lemma create_project_acts folder logs names f : create_project folder logs names f = run (project_acts folder logs names) f.
Proof.
  unfold create_project, project_acts. cbn [piter run_act]. apply pbind_ext; [reflexivity|]. intros _ g. destruct logs as [l|].
  - cbn [app piter run_act]. apply pbind_ext; [reflexivity|]. intros _ h. apply pbind_ext; [reflexivity|]. intros _ h'. exact (piter_map (run_act cfg) (fun n => ANew (dict_file folder n) class_text) names h').
  - rewrite pbind_pret. cbn [app piter run_act]. apply pbind_ext; [reflexivity|]. intros _ h'. exact (piter_map (run_act cfg) (fun n => ANew (dict_file folder n) class_text) names h').
Qed.

Fixpoint output_files_acts g base c f {struct c} : output_files cfg g base c f = run (coll_acts g base c) f.
Proof.
  destruct c as [cn l]. cbn [output_files coll_acts piter]. cbn [run_act]. apply pbind_ext; [reflexivity|]. intros _ f1. rewrite piter_app.
  apply pbind_ext.
  { destruct g; [|reflexivity]. cbn [piter run_act]. unfold pbind. change (String "010" "") with newline. destruct (ensure_file (base ++ ["section.py"]) newline f1) as [l1 [[]|e]]; [|reflexivity]. cbn. now rewrite app_nil_r. }
  intros _ f2. revert f2. induction l as [|e l IH]; intros f2; [reflexivity|]. destruct e as [n t|c'].
  - cbn [piter]. apply pbind_ext; [reflexivity|]. intros _ f3. apply IH.
  - rewrite piter_app. apply pbind_ext; [apply output_files_acts|]. intros _ f3. apply IH.
Qed.
Lemma scaffold_all_acts defaults i f : scaffold_all cfg defaults i f = run (all_acts defaults i) f.
Proof.
  unfold scaffold_all, all_acts. rewrite piter_app. apply pbind_ext.
  - rewrite <- piter_flat. apply piter_ext. intros r g. apply output_files_acts.
  - intros _ g. apply output_files_acts.
Qed.

(* ------------------------------------------------------------------ *)
(** * Folders *)

Lemma prefix_firstn q p : firstn (length q) p = q <-> prefix q p.
Proof.
  split; [intros H; exists (skipn (length q) p); rewrite <- H at 1; symmetry; apply firstn_skipn|]. intros [r ->]. rewrite firstn_app, Nat.sub_diag, firstn_O, app_nil_r. apply firstn_all.
Qed.
Lemma prefixb_spec q p : prefixb q p = true <-> prefix q p.
Proof. unfold prefixb. rewrite <- prefix_firstn. destruct (list_eq_dec _ _ _); split; congruence. Qed.
Lemma prefix_snoc q p x : prefix q (p ++ [x]) <-> q = p ++ [x] \/ prefix q p.
Proof.
  split.
  - intros [r Hr]. destruct r as [|y r _] using rev_ind; [left; now rewrite app_nil_r in Hr|]. right. rewrite app_assoc in Hr. apply app_inj_tail in Hr. exists r. tauto.
  - intros [->|[r ->]]; [exists []; now rewrite app_nil_r|]. exists (r ++ [x]). now rewrite app_assoc.
Qed.
Lemma prefix_refl p : prefix p p.
Proof. exists []. now rewrite app_nil_r. Qed.
Lemma prefix_trans p q r : prefix p q -> prefix q r -> prefix p r.
Proof. intros [a ->] [b ->]. exists (a ++ b). now rewrite app_assoc. Qed.

Lemma wf_up f p q : wf f -> f (p ++ q) <> None -> q <> [] -> f p = Some Dir.
Proof.
  intros W. induction q as [|x q IH] using rev_ind; [congruence|]. intros H _. rewrite app_assoc in H. apply (proj2 W) in H. destruct q as [|y q]; [now rewrite app_nil_r in H|]. apply IH; [congruence|discriminate].
Qed.
Lemma exists_reachable f p : wf f -> f p <> None -> reachable f p.
Proof. intros W H q r -> Hr s E. rewrite (wf_up f q r W H Hr) in E. discriminate. Qed.

Lemma adds_wf f p st : wf f -> reachable f p -> (forall s, f p <> Some (File s)) -> adds f p st -> wf st.
Proof.
  intros W R R' A. split; [now rewrite A, (proj1 W)|]. intros q x H. rewrite A in *. destruct (f (q ++ [x])) as [n|] eqn:E.
  - now rewrite (proj2 W q x) by congruence.
  - destruct (prefixb (q ++ [x]) p) eqn:Ep; [|congruence]. apply prefixb_spec in Ep. assert (prefix q p) by (destruct Ep as [r ->]; exists ([x] ++ r); now rewrite app_assoc).
    destruct (f q) as [[|s]|] eqn:Eq; [reflexivity| |now rewrite (proj2 (prefixb_spec q p) H0)]. exfalso. destruct Ep as [r ->]. apply (R q ([x] ++ r)) with s; [now rewrite app_assoc|discriminate|exact Eq].
Qed.

Lemma parent_snoc p x : parent (p ++ [x]) = p.
Proof. apply removelast_last. Qed.

Lemma file_above f pre p : wf f -> p <> [] -> (forall s, f pre = Some (File s) -> makedirs_below pre p f = ([], Raise OSError)).
Proof.
  intros W Hp s E. assert (N : forall x, f (pre ++ [x]) = None). { intros x. destruct (f (pre ++ [x])) eqn:Ex; [|reflexivity]. rewrite (proj2 W pre x) in E by congruence. discriminate. }
  assert (M : forall x, mkdir (pre ++ [x]) f = ([], Raise OSError)) by (intros x; unfold mkdir; now rewrite N, parent_snoc, E).
  destruct p as [|x [|y p]]; [congruence|apply M|]. cbn [makedirs_below]. rewrite pbind_pfs. unfold exists_. rewrite N. now rewrite (pbind_raise _ _ _ _ _ (M x)).
Qed.

Lemma makedirs_spec p : forall f pre, p <> [] -> wf f -> f pre = Some Dir -> f (pre ++ p) = None ->
  (reachable f (pre ++ p) -> exists l, makedirs_below pre p f = (l, Ok tt) /\ (forall st, In st l -> exists r, r <> [] /\ prefix (pre ++ r) (pre ++ p) /\ adds f (pre ++ r) st) /\ l <> [] /\ adds f (pre ++ p) (final f l)) /\
  (~ reachable f (pre ++ p) -> makedirs_below pre p f = ([], Raise OSError)).
Proof.
  induction p as [|x p IH]; intros f pre Hp W Hpre Hn; [congruence|].
  assert (Above : forall q s, prefix q pre -> f q <> Some (File s)). { intros q s [r ->] E. destruct r as [|y r]; [rewrite app_nil_r in *; congruence|]. rewrite (wf_up f q (y :: r) W) in E; [discriminate|congruence|discriminate]. }
  assert (Mk : f (pre ++ [x]) = None -> mkdir (pre ++ [x]) f = ([put (pre ++ [x]) Dir f], Ok tt) /\ adds f (pre ++ [x]) (put (pre ++ [x]) Dir f)).
  { intros E. split; [unfold mkdir; now rewrite E, parent_snoc, Hpre|]. intros q. destruct (list_eq_dec string_dec q (pre ++ [x])) as [->|Hq].
    - rewrite put_eq, E. now rewrite (proj2 (prefixb_spec _ _) (prefix_refl _)).
    - rewrite put_neq by exact Hq. destruct (f q) eqn:Eq; [reflexivity|]. destruct (prefixb q (pre ++ [x])) eqn:Ep; [|reflexivity]. apply prefixb_spec, prefix_snoc in Ep. destruct Ep as [->|[r ->]]; [congruence|].
      exfalso. destruct r as [|y r]; [rewrite app_nil_r in Hpre; congruence|]. rewrite (wf_up f q (y :: r) W) in Eq; [discriminate|congruence|discriminate]. }
  destruct p as [|y p].
  - cbn [makedirs_below]. destruct (Mk Hn) as [M A]. rewrite M. split; [|intros H; exfalso; apply H; intros q r E Hr s; apply Above].
    + intros _. eexists. split; [reflexivity|]. split; [|split; [discriminate|exact A]]. intros st [<-|[]]. exists [x]. split; [discriminate|]. split; [apply prefix_refl|exact A].
    + destruct r as [|z r _] using rev_ind; [congruence|]. rewrite app_assoc in E. apply app_inj_tail in E. exists r. tauto.
  - assert (EE : pre ++ x :: y :: p = (pre ++ [x]) ++ y :: p) by now rewrite <- app_assoc. rewrite EE in *. assert (ME : makedirs_below pre (x :: y :: p) f = pbind pfs (fun g => pbind (if exists_ g (pre ++ [x]) then pret tt else mkdir (pre ++ [x])) (fun _ => makedirs_below (pre ++ [x]) (y :: p))) f) by reflexivity. rewrite ME. clear ME. rewrite pbind_pfs. unfold exists_. destruct (f (pre ++ [x])) as [[|s]|] eqn:Ex.
    + rewrite pbind_pret. destruct (IH f (pre ++ [x]) ltac:(discriminate) W Ex Hn) as [I1 I2]. split; [|exact I2]. intros R. destruct (I1 R) as (l & El & Hl & Hne & Hf). exists l. split; [exact El|]. split; [|now split].
      intros st Hst. destruct (Hl st Hst) as (r & Hr & P1 & P2). exists (x :: r). split; [discriminate|]. assert (E2 : pre ++ x :: r = (pre ++ [x]) ++ r) by now rewrite <- app_assoc. rewrite E2. now split.
    + rewrite pbind_pret. split; [|intros _; exact (file_above f (pre ++ [x]) (y :: p) W ltac:(discriminate) s Ex)]. intros R. exfalso. now apply (R (pre ++ [x]) (y :: p) eq_refl ltac:(discriminate) s).
    + destruct (Mk eq_refl) as [M A]. rewrite (pbind_ok _ _ _ _ _ M). cbn [final last]. change (final f [put (pre ++ [x]) Dir f]) with (put (pre ++ [x]) Dir f). set (f1 := put (pre ++ [x]) Dir f) in *.
      assert (Below : forall r, f ((pre ++ [x]) ++ r) = None). { intros r. destruct r as [|z r]; [now rewrite app_nil_r|]. destruct (f ((pre ++ [x]) ++ z :: r)) eqn:E2; [|reflexivity]. rewrite (wf_up f (pre ++ [x]) (z :: r) W) in Ex; [discriminate|congruence|discriminate]. }
      assert (R0 : reachable f ((pre ++ [x]) ++ y :: p)).
      { intros q r E Hr s. destruct (prefixb q pre) eqn:Eq; [apply prefixb_spec in Eq; now apply Above|]. assert (prefix (pre ++ [x]) q).
        { rewrite <- EE in E. clear - E Eq. revert q E Eq. induction pre as [|a pre IH]; intros q E Eq.
          - destruct q as [|b q]; [exfalso; assert (prefixb [] [] = true) by (now apply prefixb_spec, prefix_refl); congruence|]. cbn in E. injection E as <- E. exists q. reflexivity.
          - destruct q as [|b q]; [exfalso; assert (prefixb [] (a :: pre) = true) by (apply prefixb_spec; now exists (a :: pre)); congruence|]. cbn in E. injection E as <- E. destruct (IH q E) as [u ->]; [|now exists u].
            destruct (prefixb q pre) eqn:E2; [|reflexivity]. exfalso. apply prefixb_spec in E2. destruct E2 as [u ->]. assert (prefixb (a :: q) (a :: q ++ u) = true) by (apply prefixb_spec; now exists u). congruence. }
        destruct H as [u ->]. rewrite Below. discriminate. }
      assert (W1 : wf f1). { apply (adds_wf f (pre ++ [x])); [exact W| |intros s; congruence|exact A]. intros q r E Hr s. apply Above. destruct r as [|z r _] using rev_ind; [congruence|]. rewrite app_assoc in E. apply app_inj_tail in E. exists r. tauto. }
      assert (R1 : reachable f1 ((pre ++ [x]) ++ y :: p)). { intros q r E Hr s. rewrite A. destruct (f q) as [n|] eqn:Eq; [rewrite <- Eq; now apply (R0 q r E Hr)|]. destruct (prefixb _ _); discriminate. }
      assert (N1 : f1 ((pre ++ [x]) ++ y :: p) = None). { unfold f1. rewrite put_neq; [apply Below|]. intros E. rewrite <- (app_nil_r (pre ++ [x])) in E at 2. apply app_inv_head in E. discriminate. }
      destruct (IH f1 (pre ++ [x]) ltac:(discriminate) W1 (put_eq _ _ _) N1) as [I1 _]. destruct (I1 R1) as (l & El & Hl & Hne & Hf). split; [|intros H; now destruct H].
      intros _. rewrite El. cbn [fst snd].
      assert (T : forall r st, adds f1 ((pre ++ [x]) ++ r) st -> adds f ((pre ++ [x]) ++ r) st).
      { intros r st H q. rewrite H. destruct (list_eq_dec string_dec q (pre ++ [x])) as [->|Hq]; [|unfold f1; now rewrite put_neq].
        unfold f1. rewrite put_eq, Ex. now rewrite (proj2 (prefixb_spec _ _) (ex_intro _ r eq_refl)). }
      eexists. split; [reflexivity|]. split; [|split; [discriminate|]].
      * intros st [<-|Hst]; [exists [x]; split; [discriminate|]; split; [now exists (y :: p)|exact A]|]. destruct (Hl st Hst) as (r & Hr & P1 & P2). exists (x :: r). split; [discriminate|].
        assert (E2 : pre ++ x :: r = (pre ++ [x]) ++ r) by now rewrite <- app_assoc. rewrite E2. split; [exact P1|]. now apply T.
      * rewrite final_app. apply T. exact Hf.
Qed.

Lemma parent_app p x : parent (p ++ [x]) = p.
Proof. apply removelast_last. Qed.
Lemma put_file_wf f p t st : wf f -> f p <> Some Dir -> (f p <> None \/ f (parent p) = Some Dir) -> same st (put p (File t) f) -> wf st.
Proof.
  intros W Hd Hp S. destruct p as [|x b _] using rev_ind; [rewrite (proj1 W) in Hd; congruence|]. rewrite parent_app in Hp.
  assert (Hb : f b = Some Dir) by (destruct Hp as [Hp|Hp]; [now apply (proj2 W) in Hp|exact Hp]). split.
  - rewrite S, put_neq; [apply (proj1 W)|]. now destruct b.
  - intros q y. rewrite !S. destruct (list_eq_dec string_dec (q ++ [y]) (b ++ [x])) as [E|E].
    + intros _. apply app_inj_tail in E. destruct E as [-> _]. rewrite put_neq; [exact Hb|]. intros E. apply (f_equal (@length string)) in E. rewrite app_length in E. cbn in E. lia.
    + rewrite put_neq by exact E. intros H. apply (proj2 W) in H. rewrite put_neq; [exact H|congruence].
Qed.

Lemma write_spec f p s : wf f -> f p <> Some Dir -> (f p <> None \/ f (parent p) = Some Dir) ->
  write p s f = (map (fun t => put p (File t) f) (prefixes s), Ok tt).
Proof. intros W H1 H2. unfold write. destruct (f p) as [[|c]|]; [congruence|reflexivity|]. destruct H2 as [H2|H2]; [congruence|now rewrite H2]. Qed.
Lemma write_fails f p s : f p = Some Dir \/ f p = None /\ f (parent p) <> Some Dir -> write p s f = ([], Raise OSError).
Proof. unfold write. intros [->|[-> H]]; [reflexivity|]. destruct (f (parent p)) as [[|c]|]; congruence. Qed.

Lemma run_act_spec f a : wf f ->
  (can cfg f a -> exists l, run_act cfg a f = (l, Ok tt) /\ done cfg f a (final f l) /\ wf (final f l) /\ forall st, In st l -> during cfg f a st /\ wf st) /\
  (~ can cfg f a -> exists e, run_act cfg a f = ([], Raise e)).
Proof.
  intros W. destruct a as [p|p s|g p n t]; cbn [run_act can done during].
  - unfold ensure_dir. rewrite pbind_pfs. unfold exists_. destruct (f p) as [nd|] eqn:E.
    + split; [|intros H; destruct H; apply exists_reachable; congruence]. intros R. exists []. split; [reflexivity|]. split; [|split; [exact W|intros st []]].
      intros q. cbn. destruct (f q) as [nq|] eqn:Eq; [reflexivity|]. destruct (prefixb q p) eqn:Ep; [|reflexivity]. apply prefixb_spec in Ep. destruct Ep as [r ->]. exfalso.
      destruct r as [|x r]; [rewrite app_nil_r in E; congruence|]. rewrite (wf_up f q (x :: r) W) in Eq; [discriminate|congruence|discriminate].
    + destruct p as [|x p]; [rewrite (proj1 W) in E; discriminate|]. destruct (makedirs_spec (x :: p) f [] ltac:(discriminate) W (proj1 W) E) as [H1 H2]. cbn [app] in *. split.
      * intros R. destruct (H1 R) as (l & El & Hl & _ & Hf). exists l. split; [exact El|].
        assert (WW : forall r st, prefix r (x :: p) -> adds f r st -> wf st).
        { intros r st [u Hu] A. apply (adds_wf f r); auto.
          - intros q v -> Hv. apply (R q (v ++ u)); [now rewrite Hu, app_assoc|now destruct v].
          - intros s. destruct u as [|y u]; [rewrite app_nil_r in Hu; congruence|]. apply (R r (y :: u) Hu). discriminate. }
        split; [exact Hf|]. split; [apply (WW (x :: p)); [apply prefix_refl|exact Hf]|]. intros st Hst. destruct (Hl st Hst) as (r & _ & P1 & P2). split; [now exists r|now apply (WW r)].
      * intros R. exists OSError. now apply H2.
  - unfold ensure_file. rewrite pbind_pfs. unfold exists_. destruct (f p) as [nd|] eqn:E.
    + split; [|intros H; exfalso; apply H; left; congruence]. intros _. exists []. split; [reflexivity|]. split; [intros q; reflexivity|]. split; [exact W|intros st []].
    + split.
      * intros C. assert (C' : f p <> None \/ f (parent p) = Some Dir) by (destruct C; [congruence|now right]). assert (D : f p <> Some Dir) by congruence.
        rewrite (write_spec f p s W D C'). eexists. split; [reflexivity|]. rewrite (final_map _ f (prefixes s) ""), prefixes_last by apply prefixes_ne. split; [intros q; reflexivity|].
        split; [now apply (put_file_wf f p s)|]. intros st Hst. apply in_map_iff in Hst. destruct Hst as (u & <- & Hu). apply prefixes_spec in Hu. split; [|now apply (put_file_wf f p u)]. split; [reflexivity|]. exists u. split; [exact Hu|intros q; reflexivity].
      * intros C. exists OSError. apply write_fails. right. split; [exact E|]. intros H. apply C. now right.
  - unfold pbind, read_if_exists, content. destruct (f p) as [[|c]|] eqn:E; cbn [final last app].
    + split; [intros [C _]; congruence|]. intros _. now exists OSError.
    + cbn [fst snd final last]. destruct (cfg g n t (Some c)) as [s|e] eqn:Ec.
      * split; [|intros C; exfalso; apply C; split; [discriminate|]; split; [left; discriminate|now exists s]]. intros _.
        assert (D : f p <> Some Dir) by congruence. assert (C' : f p <> None \/ f (parent p) = Some Dir) by (left; congruence).
        rewrite (write_spec f p s W D C'). eexists. split; [reflexivity|]. rewrite (final_map _ f (prefixes s) ""), prefixes_last by apply prefixes_ne. split; [exists s; split; [reflexivity|intros q; reflexivity]|].
        split; [now apply (put_file_wf f p s)|]. intros st Hst. apply in_map_iff in Hst. destruct Hst as (u & <- & Hu). apply prefixes_spec in Hu. split; [|now apply (put_file_wf f p u)]. exists s, u. split; [reflexivity|]. split; [exact Hu|intros q; reflexivity].
      * split; [intros (_ & _ & s & Hs); congruence|]. intros _. exists e. reflexivity.
    + cbn [fst snd final last]. destruct (cfg g n t None) as [s|e] eqn:Ec.
      * split.
        -- intros (_ & C & _). assert (D : f p <> Some Dir) by congruence. assert (C1 : f p <> None \/ f (parent p) = Some Dir) by (destruct C; [congruence|now right]). clear C. rename C1 into C.
           rewrite (write_spec f p s W D C). eexists. split; [reflexivity|]. rewrite (final_map _ f (prefixes s) ""), prefixes_last by apply prefixes_ne. split; [exists s; split; [reflexivity|intros q; reflexivity]|].
           split; [now apply (put_file_wf f p s)|]. intros st Hst. apply in_map_iff in Hst. destruct Hst as (u & <- & Hu). apply prefixes_spec in Hu. split; [|now apply (put_file_wf f p u)]. exists s, u. split; [reflexivity|]. split; [exact Hu|intros q; reflexivity].
        -- intros C. exists OSError. rewrite write_fails; [reflexivity|]. right. split; [exact E|]. intros H. apply C. split; [discriminate|]. split; [now right|now exists s].
      * split; [intros (_ & _ & s & Hs); congruence|]. intros _. exists e. reflexivity.
Qed.

Lemma runs_app f l1 g l2 h : runs cfg f l1 g -> runs cfg g l2 h -> runs cfg f (l1 ++ l2) h.
Proof. induction 1 as [f|f a f1 l g C D R IH]; intros H; [exact H|]. cbn. apply (runs_cons cfg f a f1); auto. Qed.

Lemma act_can f a l : wf f -> run_act cfg a f = (l, Ok tt) -> can cfg f a.
Proof.
  intros W E. destruct (run_act_spec f a W) as [_ S2].
  destruct a as [p|p s|g p n t]; cbn.
      - intros q r Hq Hr s Hs. destruct S2 as [e He]; [|rewrite E in He; discriminate]. intros C. now apply (C q r Hq Hr s).
      - destruct (f p) eqn:Ep; [left; discriminate|]. right. destruct (f (parent p)) as [[|c]|] eqn:Epp; [reflexivity| |]; (destruct S2 as [e He]; [cbn; rewrite Ep, Epp; intros [C|C]; congruence|rewrite E in He; discriminate]).
      - destruct (f p) as [[|c]|] eqn:Ep.
        + destruct S2 as [e He]; [cbn; intros [C _]; congruence|rewrite E in He; discriminate].
        + split; [discriminate|]. split; [left; discriminate|]. destruct (cfg g n t (content f p)) as [s|e] eqn:Ec; [now exists s|]. destruct S2 as [e' He]; [cbn; intros (_ & _ & s & C); congruence|rewrite E in He; discriminate].
        + split; [discriminate|]. split.
          * right. destruct (f (parent p)) as [[|c]|] eqn:Epp; [reflexivity| |]; (destruct S2 as [e He]; [cbn; rewrite Ep, Epp; intros (_ & [C|C] & _); congruence|rewrite E in He; discriminate]).
          * destruct (cfg g n t (content f p)) as [s|e] eqn:Ec; [now exists s|]. destruct S2 as [e' He]; [cbn; intros (_ & _ & s & C); congruence|rewrite E in He; discriminate].
Qed.

(** what running a list of actions does *)
Lemma run_ok acts : forall f l, wf f -> run acts f = (l, Ok tt) -> runs cfg f acts (final f l) /\ wf (final f l).
Proof.
  induction acts as [|a acts IH]; intros f l W H; cbn [piter] in H.
  - injection H as <-. split; [apply runs_nil|exact W].
  - destruct (run_act cfg a f) as [l1 [[]|e]] eqn:E; [|rewrite (pbind_raise _ _ _ _ _ E) in H; discriminate]. rewrite (pbind_ok _ _ _ _ _ E) in H. destruct (run acts (final f l1)) as [l2 r2] eqn:E2. cbn in H. injection H as <- ->.
    destruct (run_act_spec f a W) as [S1 S2]. pose proof (act_can f a l1 W E) as C.
    destruct (S1 C) as (l' & E' & D & W' & _). rewrite E in E'. injection E' as <-. rewrite final_app. destruct (IH _ _ W' E2) as [R W2]. split; [|exact W2]. now apply (runs_cons cfg f a (final f l1)).
Qed.

Lemma run_crash acts : forall f st, wf f -> In st (crash_states (run acts) f) ->
  wf st /\ exists l1 l2 f1, acts = l1 ++ l2 /\ runs cfg f l1 f1 /\ wf f1 /\ (st = f1 \/ exists a l3, l2 = a :: l3 /\ can cfg f1 a /\ during cfg f1 a st).
Proof.
  induction acts as [|a acts IH]; intros f st W H.
  - destruct H as [<-|[]]. split; [exact W|]. exists [], [], f. split; [reflexivity|]. split; [apply runs_nil|]. split; [exact W|now left].
  - destruct H as [<-|H]; [split; [exact W|]; exists [], (a :: acts), f; split; [reflexivity|]; split; [apply runs_nil|]; split; [exact W|now left]|]. cbn [piter] in H.
    destruct (run_act cfg a f) as [l1 [[]|e]] eqn:E.
    + rewrite (pbind_ok _ _ _ _ _ E) in H. cbn [fst] in H. pose proof (act_can f a l1 W E) as C. destruct (run_act_spec f a W) as [S1 _]. destruct (S1 C) as (l' & E' & D & W' & Hl). rewrite E in E'. injection E' as <-.
      apply in_app_or in H. destruct H as [H|H].
      * destruct (Hl st H) as [Hd Hw]. split; [exact Hw|]. exists [], (a :: acts), f. split; [reflexivity|]. split; [apply runs_nil|]. split; [exact W|]. right. exists a, acts. auto.
      * destruct (IH (final f l1) st W') as (Hw & k1 & k2 & f1 & -> & R & W1 & Hk); [right; exact H|]. split; [exact Hw|]. exists (a :: k1), k2, f1. split; [reflexivity|]. split; [now apply (runs_cons cfg f a (final f l1))|]. auto.
    + rewrite (pbind_raise _ _ _ _ _ E) in H. cbn [fst] in H. destruct (run_act_spec f a W) as [S1 S2]. exfalso. assert (NC : ~ can cfg f a). { intros C. destruct (S1 C) as (l' & E' & _). rewrite E in E'. discriminate. }
      destruct (S2 NC) as [e' E']. rewrite E in E'. injection E' as -> _. destruct H.
Qed.
Lemma run_raise acts : forall f l e, wf f -> run acts f = (l, Raise e) ->
  exists l1 a l2, acts = l1 ++ a :: l2 /\ runs cfg f l1 (final f l) /\ wf (final f l) /\ ~ can cfg (final f l) a.
Proof.
  induction acts as [|a acts IH]; intros f l e W H; cbn [piter] in H; [discriminate|]. destruct (run_act cfg a f) as [l1 [[]|e1]] eqn:E.
  - rewrite (pbind_ok _ _ _ _ _ E) in H. pose proof (act_can f a l1 W E) as C. destruct (run_act_spec f a W) as [S1 _]. destruct (S1 C) as (l' & E' & D & W' & Hl). rewrite E in E'. injection E' as <-.
    destruct (run acts (final f l1)) as [l2 r2] eqn:E2. cbn in H. injection H as <- ->. destruct (IH _ _ _ W' E2) as (k1 & b & k2 & -> & R & W2 & N). rewrite final_app. exists (a :: k1), b, k2. split; [reflexivity|]. split; [now apply (runs_cons cfg f a (final f l1))|]. auto.
  - rewrite (pbind_raise _ _ _ _ _ E) in H. injection H as <- ->. destruct (run_act_spec f a W) as [S1 S2]. assert (NC : ~ can cfg f a). { intros C. destruct (S1 C) as (l' & E' & _). rewrite E in E'. discriminate. }
    destruct (S2 NC) as [e' E']. rewrite E in E'. injection E' as -> _. exists [], a, acts. split; [reflexivity|]. split; [apply runs_nil|]. split; [exact W|exact NC].
Qed.

(* ------------------------------------------------------------------ *)
(** * What is left *)

Definition no_upd (l : list act) : Prop := forall g p n t, ~ In (AUpd g p n t) l.
Lemma runs_made l : forall f g, no_upd l -> runs cfg f l g -> forall q, g q = match f q with Some n => Some n | None => made l q end.
Proof.
  intros f g N R. induction R as [f|f a f1 l g C D R IH]; intros q; [now destruct (f q)|]. rewrite IH by (intros g' p n t H; apply (N g' p n t); now right). destruct a as [p|p s|g' p n t]; cbn [done made] in *.
  - rewrite D. destruct (f q); [reflexivity|]. unfold prefixb. destruct (list_eq_dec string_dec (firstn (length q) p) q); reflexivity.
  - rewrite D. destruct (f p) eqn:E.
    + destruct (f q) eqn:Eq; [reflexivity|]. destruct (path_eqb p q) eqn:Ep; [apply path_eqb_eq in Ep; congruence|reflexivity].
    + unfold put. destruct (path_eqb p q) eqn:Ep; [apply path_eqb_eq in Ep; subst; now rewrite E|reflexivity].
  - exfalso. apply (N g' p n t). now left.
Qed.

Lemma project_no_upd folder logs names : no_upd (project_acts folder logs names).
Proof.
  intros g p n t [H|H]; [discriminate|]. apply in_app_or in H. destruct H as [H|[H|H]]; [destruct logs; [destruct H as [H|[]]; discriminate|destruct H]|discriminate|]. apply in_map_iff in H. destruct H as (x & H & _). discriminate.
Qed.

(** an action that is still possible when folders have been added *)
Lemma can_mk_after f p g q : reachable f q -> adds f p g -> reachable g q.
Proof. intros R A q' r E Hr s. rewrite A. destruct (f q') as [nd|] eqn:Eq; [rewrite <- Eq; now apply (R q' r)|]. destruct (prefixb q' p); discriminate. Qed.

Lemma run_new_files l : forall f, wf f -> (forall a, In a l -> exists p s, a = ANew p s /\ f (parent p) = Some Dir /\ p <> []) ->
  exists states, run l f = (states, Ok tt).
Proof.
  induction l as [|a l IH]; intros f W H; [now exists []|]. destruct (H a (or_introl eq_refl)) as (p & s & -> & Hp & Hne). cbn [piter].
  destruct (run_act_spec f (ANew p s) W) as [S1 _]. destruct (S1 (or_intror Hp)) as (l1 & E1 & D & W1 & _). rewrite (pbind_ok _ _ _ _ _ E1). destruct (IH (final f l1) W1) as [l2 E2].
  - intros a Ha. destruct (H a (or_intror Ha)) as (p' & s' & -> & Hp' & Hne'). exists p', s'. split; [reflexivity|]. split; [|exact Hne']. rewrite D. destruct (f p) eqn:E; [exact Hp'|]. rewrite put_neq; [exact Hp'|]. intros E'. rewrite <- E' in E. congruence.
  - rewrite E2. now eexists.
Qed.

Lemma create_project_ok folder logs names f : wf f ->
  (snd (create_project folder logs names f) = Ok tt <-> reachable f (folder ++ ["defaults"]) /\ match logs with Some l => reachable f l | None => True end).
Proof.
  intros W. rewrite create_project_acts. unfold project_acts. cbn [piter].
  destruct (run_act_spec f (AMk (folder ++ ["defaults"])) W) as [S1 S2]. destruct (run_act cfg (AMk (folder ++ ["defaults"])) f) as [l1 [[]|e]] eqn:E1.
  2: { rewrite (pbind_raise _ _ _ _ _ E1). split; [discriminate|]. intros [R _]. destruct (S1 R) as (l & E & _). discriminate. }
  pose proof (act_can f _ l1 W E1) as C. destruct (S1 C) as (l' & E' & D & W1 & _). injection E' as <-. rewrite (pbind_ok _ _ _ _ _ E1). cbn [snd]. cbn [done] in D. set (f1 := final f l1) in *.
  assert (Hfold : f1 folder = Some Dir). { rewrite D. destruct (f folder) as [[|s]|] eqn:E; [reflexivity| |].
    - exfalso. apply (C folder ["defaults"] eq_refl ltac:(discriminate) s E).
    - now rewrite (proj2 (prefixb_spec _ _) (ex_intro _ ["defaults"] eq_refl)). }
  assert (F : forall g, wf g -> g folder = Some Dir -> exists l, run (ANew (folder ++ ["pipeline_dict.py"]) pipeline_text :: map (fun n => ANew (dict_file folder n) class_text) names) g = (l, Ok tt)).
  { intros g Wg Hg. apply run_new_files; [exact Wg|]. intros a [<-|Ha].
    - do 2 eexists. split; [reflexivity|]. rewrite parent_app. split; [exact Hg|]. destruct folder; discriminate.
    - apply in_map_iff in Ha. destruct Ha as (n & <- & _). do 2 eexists. split; [reflexivity|]. unfold dict_file. rewrite parent_app. split; [exact Hg|]. destruct folder; discriminate. }
  destruct logs as [lp|].
  - cbn [app piter]. destruct (run_act_spec f1 (AMk lp) W1) as [T1 T2]. destruct (run_act cfg (AMk lp) f1) as [l2 [[]|e]] eqn:E2.
    + pose proof (act_can f1 _ l2 W1 E2) as C2. destruct (T1 C2) as (l' & E' & D2 & W2 & _). injection E' as <-. rewrite (pbind_ok _ _ _ _ _ E2). cbn [snd]. split; [intros _|intros _].
      * split; [exact C|]. intros q r Eq Hr s Hs. apply (C2 q r Eq Hr s). rewrite D, Hs. reflexivity.
      * destruct (F (final f1 l2) W2) as [l3 E3]; [|cbn [piter] in E3; now rewrite E3]. cbn [done] in D2. now rewrite D2, Hfold.
    + rewrite (pbind_raise _ _ _ _ _ E2). split; [discriminate|]. intros [_ R]. destruct (T1 (can_mk_after f _ f1 lp R D)) as (l & E & _). discriminate.
  - cbn [app]. destruct (F f1 W1 Hfold) as [l3 E3]. rewrite E3. split; auto.
Qed.

Lemma quiet_again l f g : wf f -> no_upd l -> runs cfg f l g -> wf g -> run l g = ([], Ok tt).
Proof.
  intros W N R Wg. assert (H : forall a, In a l -> g (act_path a) <> None).
  { intros a Ha. rewrite (runs_made l f g N R). destruct (f (act_path a)) eqn:E; [discriminate|]. clear R E. induction l as [|b l IH]; [destruct Ha|]. assert (N' : no_upd l) by (intros g' p n t H; apply (N g' p n t); now right). destruct Ha as [->|Ha].
    - destruct a as [p|p s|g' p n t]; cbn [made act_path]; [|now rewrite (proj2 (path_eqb_eq p p) eq_refl)|exfalso; apply (N g' p n t); now left]. destruct (list_eq_dec _ _ _) as [E|E]; [discriminate|]. destruct E. apply firstn_all.
    - destruct b as [p|p s|g' p n t]; cbn [made]; [destruct (list_eq_dec _ _ _); [discriminate|]; now apply IH|destruct (path_eqb p _); [discriminate|now apply IH]|now apply IH]. }
  clear R W Wg. induction l as [|a l IH]; [reflexivity|]. cbn [piter]. assert (E : run_act cfg a g = ([], Ok tt)).
  { destruct a as [p|p s|g' p n t]; cbn [run_act]; [| |exfalso; apply (N g' p n t); now left].
    - unfold ensure_dir. rewrite pbind_pfs. unfold exists_. pose proof (H _ (or_introl eq_refl)) as Hp. cbn in Hp. now destruct (g p).
    - unfold ensure_file. rewrite pbind_pfs. unfold exists_. pose proof (H _ (or_introl eq_refl)) as Hp. cbn in Hp. now destruct (g p). }
  rewrite (pbind_ok _ _ _ _ _ E). cbn [final last app]. rewrite IH; [reflexivity| |]; [intros g' p n t Hin; apply (N g' p n t); now right|]. intros b Hb. apply H. now right.
Qed.

End ActProofs.
