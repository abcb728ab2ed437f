(** Proofs for C28: the cases of an iterative run. *)
From Verif Require Import Iterate_Model Iterate_Spec.
From Coq Require Import Lia Sorting.Sorted.
Local Open Scope list_scope.

Fixpoint index_product (counts : list nat) : list (list nat) :=
  match counts with
  | [] => [[]]
  | n :: rest => flat_map (fun i => map (cons i) (index_product rest)) (seq 0 n)
  end.

Lemma selects_nil {A} idx (chosen : list A) : selects idx [] chosen <-> idx = [] /\ chosen = [].
Proof.
  split.
  - intros (H1 & H2 & _). destruct idx, chosen; try discriminate. auto.
  - intros [-> ->]. split; [reflexivity|]. split; [reflexivity|]. intros [|j] l H; discriminate.
Qed.
Lemma selects_cons {A} idx (l : list A) ls chosen : selects idx (l :: ls) chosen <->
  exists i idx' a chosen', idx = i :: idx' /\ chosen = a :: chosen' /\ nth_error l i = Some a /\ selects idx' ls chosen'.
Proof.
  split.
  - intros (H1 & H2 & H3). destruct idx as [|i idx]; [discriminate|]. destruct chosen as [|a chosen]; [discriminate|].
    exists i, idx, a, chosen. split; [reflexivity|]. split; [reflexivity|].
    destruct (H3 0 l eq_refl) as (i' & a' & [= <-] & [= <-] & H). split; [exact H|].
    split; [now injection H1|]. split; [now injection H2|]. intros j k Hj. exact (H3 (S j) k Hj).
  - intros (i & idx' & a & chosen' & -> & -> & H & H1 & H2 & H3). split; [cbn; congruence|]. split; [cbn; congruence|].
    intros [|j] k Hj; [injection Hj as <-; exists i, a; auto|]. exact (H3 j k Hj).
Qed.

Lemma forall2_flat_map {A B C D} (R : C -> D -> Prop) (f : A -> list C) (g : B -> list D) l l' :
  Forall2 (fun a b => Forall2 R (f a) (g b)) l l' -> Forall2 R (flat_map f l) (flat_map g l').
Proof. induction 1; cbn; [constructor|]. now apply Forall2_app. Qed.

Lemma forall2_impl_in {A B} (R R' : A -> B -> Prop) l l' : (forall a b, R a b -> R' a b) -> Forall2 R l l' -> Forall2 R' l l'.
Proof. intros H F. induction F; constructor; auto. Qed.

Lemma forall2_seq {A} (l : list A) n : Forall2 (fun i a => exists j, i = n + j /\ nth_error l j = Some a) (seq n (length l)) l.
Proof.
  revert n. induction l as [|a l IH]; intro n; cbn [length seq]; [constructor|]. constructor.
  - exists 0. split; [lia|reflexivity].
  - eapply forall2_impl_in; [|apply (IH (S n))]. intros i b (j & -> & H). exists (S j). split; [lia|exact H].
Qed.
Lemma product_selects {A} (ls : list (list A)) :
  Forall2 (fun idx c => selects idx ls c) (index_product (map (@length A) ls)) (product ls).
Proof.
  induction ls as [|l ls IH]; cbn [map index_product product].
  - constructor; [|constructor]. now apply selects_nil.
  - apply forall2_flat_map. eapply forall2_impl_in; [|apply (forall2_seq l 0)]. intros i a (j & -> & H). cbn.
    clear -IH H. induction IH; cbn [map]; constructor; [|assumption].
    apply selects_cons. do 4 eexists. eauto.
Qed.

Lemma index_complete {A} (ls : list (list A)) idx c : selects idx ls c -> In idx (index_product (map (@length A) ls)).
Proof.
  revert idx c. induction ls as [|l ls IH]; intros idx c H; cbn [map index_product].
  - apply selects_nil in H as [-> _]. now left.
  - apply selects_cons in H as (i & idx' & a & c' & -> & -> & Hi & H). apply in_flat_map. exists i. split.
    + apply in_seq. assert (i < length l) by (apply nth_error_Some; congruence). lia.
    + apply in_map. eapply IH; eassumption.
Qed.

Lemma sorted_app {A} (R : A -> A -> Prop) l l' : StronglySorted R l -> StronglySorted R l' ->
  (forall a b, In a l -> In b l' -> R a b) -> StronglySorted R (l ++ l').
Proof.
  induction 1 as [|a l Hl IH Ha]; intros Hl' H; [exact Hl'|]. cbn. constructor.
  - apply IH; [exact Hl'|]. intros; apply H; [now right|assumption].
  - apply Forall_app. split; [exact Ha|]. apply Forall_forall. intros b Hb. apply H; [now left|exact Hb].
Qed.

Lemma index_sorted counts : StronglySorted lex_before (index_product counts).
Proof.
  induction counts as [|n counts IH]; cbn [index_product]; [constructor; constructor|].
  generalize 0 as m. induction n as [|n IHn]; intro m; cbn [seq flat_map]; [constructor|]. apply sorted_app.
  - clear IHn. induction IH as [|x l Hs IHl Hf]; cbn [map]; constructor; [assumption|]. rewrite Forall_map.
    eapply Forall_impl; [|exact Hf]. intros y Hy. now constructor.
  - apply IHn.
  - intros a b Ha Hb. apply in_map_iff in Ha as (x & <- & _). apply in_flat_map in Hb as (j & Hj & Hb).
    apply in_map_iff in Hb as (y & <- & _). apply in_seq in Hj. constructor. lia.
Qed.

Lemma product_length {A} (ls : list (list A)) : length (product ls) = fold_right Nat.mul 1 (map (@length A) ls).
Proof.
  induction ls as [|l ls IH]; [reflexivity|]. cbn [product map fold_right]. rewrite <- IH. clear IH.
  induction l as [|a l IHl]; [reflexivity|]. cbn [flat_map length]. rewrite app_length, map_length, IHl. lia.
Qed.

(* ------------------------------------------------------------------ *)
(** * Grouping by path *)

Lemma filter_app' {A} (p : A -> bool) l l' : filter p (l ++ l') = filter p l ++ filter p l'.
Proof. induction l; cbn; [reflexivity|]. destruct (p a); cbn; congruence. Qed.

Lemma first_seen_In l x : In x (first_seen l) <-> In x l.
Proof.
  induction l as [|y l IH]; [easy|]. cbn [first_seen In]. rewrite filter_In, IH.
  destruct (String.eqb y x) eqn:E; [apply String.eqb_eq in E; tauto|]. cbn. apply String.eqb_neq in E. tauto.
Qed.
Lemma first_seen_NoDup l : NoDup (first_seen l).
Proof.
  induction l as [|y l IH]; [constructor|]. cbn [first_seen]. constructor.
  - rewrite filter_In, String.eqb_refl. cbn. intros [_ H]; discriminate.
  - now apply NoDup_filter.
Qed.
Lemma first_seen_snoc l x : first_seen (l ++ [x]) = if in_dec string_dec x l then first_seen l else first_seen l ++ [x].
Proof.
  induction l as [|y l IH]; [reflexivity|]. cbn [app first_seen]. rewrite IH.
  destruct (in_dec string_dec x (y :: l)) as [H|H]; destruct (in_dec string_dec x l) as [H'|H'].
  - reflexivity.
  - destruct H as [->|H]; [|contradiction]. rewrite filter_app'. cbn. rewrite String.eqb_refl. cbn. now rewrite app_nil_r.
  - exfalso. apply H. now right.
  - rewrite filter_app'. cbn. destruct (String.eqb y x) eqn:E; [|reflexivity].
    apply String.eqb_eq in E. subst. exfalso. apply H. now left.
Qed.

Definition grouped (updates : list conf) : dict (list conf) :=
  map (fun p => (p, filter (fun c => String.eqb p (fst c)) updates)) (first_seen (map fst updates)).

Lemma dget_grouped (f : string -> list conf) l p : dget p (map (fun p => (p, f p)) l) = if in_dec string_dec p l then Some (f p) else None.
Proof.
  induction l as [|q l IH]; [reflexivity|]. cbn [map dget]. destruct (String.eqb p q) eqn:E.
  - apply String.eqb_eq in E. subst q. destruct (in_dec string_dec p (p :: l)) as [|N]; [reflexivity|]. exfalso. apply N. now left.
  - apply String.eqb_neq in E. rewrite IH. destruct (in_dec string_dec p l), (in_dec string_dec p (q :: l)); try reflexivity.
    + exfalso. apply n. now right.
    + destruct i; [congruence|contradiction].
Qed.

Lemma dset_map (f g : string -> list conf) l p : NoDup l -> In p l -> (forall q, q <> p -> g q = f q) ->
  dset p (g p) (map (fun q => (q, f q)) l) = map (fun q => (q, g q)) l.
Proof.
  induction l as [|q l IH]; [easy|]. intros N Hin Hf. inversion N; subst. cbn [map dset].
  destruct (String.eqb p q) eqn:E.
  - apply String.eqb_eq in E. subst q. f_equal. apply map_ext_in. intros q Hq. f_equal. symmetry. apply Hf. intros ->. contradiction.
  - apply String.eqb_neq in E. rewrite (Hf q) by congruence. f_equal. apply IH; [assumption| |assumption]. destruct Hin; congruence.
Qed.
Lemma dset_new_map (g : string -> list conf) l p : ~ In p l ->
  dset p (g p) (map (fun q => (q, g q)) l) = map (fun q => (q, g q)) (l ++ [p]).
Proof.
  induction l as [|q l IH]; intro H; [reflexivity|]. cbn [map dset app]. destruct (String.eqb p q) eqn:E.
  - apply String.eqb_eq in E. subst. exfalso. apply H. now left.
  - f_equal. apply IH. intro. apply H. now right.
Qed.

Lemma configs_grouped updates : configs_by_section_path updates = grouped updates.
Proof.
  unfold configs_by_section_path. induction updates as [|c updates IH] using rev_ind; [reflexivity|].
  rewrite fold_left_app. cbn [fold_left]. rewrite IH. unfold add_to_group, grouped.
  rewrite dget_grouped. rewrite map_app. cbn [map]. rewrite first_seen_snoc.
  set (p := fst c). set (l := first_seen (map fst updates)).
  set (f := fun q => filter (fun c0 : conf => String.eqb q (fst c0)) updates).
  set (g := fun q => filter (fun c0 : conf => String.eqb q (fst c0)) (updates ++ [c])).
  assert (Hg : forall q, q <> p -> g q = f q).
  { intros q Hq. unfold g, f. rewrite filter_app'. cbn. fold p. destruct (String.eqb q p) eqn:E; [apply String.eqb_eq in E; congruence|].
    apply app_nil_r. }
  assert (Hp : g p = f p ++ [c]).
  { unfold g, f. rewrite filter_app'. cbn. fold p. now rewrite String.eqb_refl. }
  assert (HI : In p l <-> In p (map fst updates)) by apply first_seen_In.
  unfold conf in *. destruct (in_dec string_dec p l) as [H|H]; destruct (in_dec string_dec p (map fst updates)) as [H'|H']; try tauto.
  - change (dset p (f p ++ [c]) (map (fun q => (q, f q)) l) = map (fun q => (q, g q)) l). rewrite <- Hp.
    apply dset_map; [apply first_seen_NoDup|exact H|exact Hg].
  - change (dset p ([] ++ [c]) (map (fun q => (q, f q)) l) = map (fun q => (q, g q)) (l ++ [p])).
    assert (Hf : f p = []).
    { unfold f. clear -H'. induction updates as [|d updates IH]; [reflexivity|]. cbn [filter]. cbn [map In] in H'.
      destruct (String.eqb p (fst d)) eqn:E; [apply String.eqb_eq in E; exfalso; apply H'; left; congruence|]. apply IH. tauto. }
    replace (map (fun q => (q, f q)) l) with (map (fun q => (q, g q)) l).
    + replace ([] ++ [c]) with (g p) by (rewrite Hp, Hf; reflexivity). now apply dset_new_map.
    + apply map_ext_in. intros q Hq. f_equal. apply Hg. congruence.
Qed.

Lemma product_choices updates : get_config_product updates = product (choices updates).
Proof. unfold get_config_product. rewrite configs_grouped. unfold grouped, choices, dvals. now rewrite map_map. Qed.

(** every case has one entry per path, in the order of first appearance, taken from the updates *)
Lemma product_In {A} (ls : list (list A)) c : In c (product ls) <-> Forall2 (fun a l => In a l) c ls.
Proof.
  revert c. induction ls as [|l ls IH]; intro c; cbn [product].
  - split; [intros [<-|[]]; constructor|]. intro H. inversion H. now left.
  - rewrite in_flat_map. split.
    + intros (a & Ha & H). apply in_map_iff in H as (c' & <- & H). constructor; [exact Ha|]. now apply IH.
    + intro H. inversion H as [|a x c' y Ha Hc]; subst. exists a. split; [exact Ha|]. apply in_map. now apply IH.
Qed.

Lemma case_paths updates c : In c (get_config_product updates) -> map fst c = first_seen (map fst updates).
Proof.
  rewrite product_choices. intro H. apply product_In in H. revert H. unfold choices. generalize (first_seen (map fst updates)). intro l.
  revert c. induction l as [|p l IH]; intros c H; inversion H as [|a x c' y Ha Hc]; subst; [reflexivity|].
  cbn [map]. apply filter_In in Ha as [_ E]. apply String.eqb_eq in E. rewrite <- E. f_equal. now apply IH.
Qed.
Lemma case_entries updates c q : In c (get_config_product updates) -> In q c -> In q updates.
Proof.
  rewrite product_choices. intro H. apply product_In in H. revert H. unfold choices. generalize (first_seen (map fst updates)). intro l.
  revert c. induction l as [|p l IH]; intros c H; inversion H as [|a x c' y Ha Hc]; subst; [intros []|].
  intros [<-|Hq]; [now apply filter_In in Ha|]. eapply IH; eassumption.
Qed.
Lemma product_nonempty updates : get_config_product updates <> [].
Proof.
  rewrite product_choices. intro H. assert (L : length (product (choices updates)) = 0) by (now rewrite H).
  rewrite product_length in L. assert (P : Forall (fun n => n <> 0) (map (@length conf) (choices updates))).
  { unfold choices. rewrite map_map, Forall_map. apply Forall_forall. intros p Hp. apply first_seen_In, in_map_iff in Hp as (c & <- & Hc).
    intro X. assert (Y : In c (filter (fun c0 => String.eqb (fst c) (fst c0)) updates)) by (apply filter_In; split; [exact Hc|apply String.eqb_refl]).
    apply length_zero_iff_nil in X. rewrite X in Y. destruct Y. }
  clear H. induction P; cbn in L; [discriminate|]. apply Nat.eq_mul_0 in L as [L|L]; tauto.
Qed.
