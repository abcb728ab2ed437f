(** Proofs about containers of import statements. *)
From Verif Require Import PySource_Model PySource_Spec PySource_Proofs.
Local Open Scope string_scope.
Local Open Scope list_scope.

Lemma smem_In x l : smem x l = true <-> In x l.
Proof.
  unfold smem. rewrite existsb_exists. split.
  - intros (y & Hy & E). apply String.eqb_eq in E. now subst.
  - intro H. exists x. split; [exact H|]. apply String.eqb_refl.
Qed.
Lemma rmem_In q l : rmem q l = true <-> In q l.
Proof.
  unfold rmem. rewrite existsb_exists. split.
  - intros ((a & b) & Hy & E). apply andb_prop in E as [E1 E2]. apply String.eqb_eq in E1, E2. destruct q. cbn in *. now subst.
  - intro H. exists q. split; [exact H|]. now rewrite !String.eqb_refl.
Qed.
Lemma renames_of_In al x n : In (x, n) (renames_of al) <-> In (x, Some n) al.
Proof.
  unfold renames_of. rewrite in_flat_map. split.
  - intros ((y & [m|]) & H & K); cbn in K; [|easy]. destruct K as [K|[]]. injection K as -> ->. exact H.
  - intro H. exists (x, Some n). split; [exact H|]. now left.
Qed.

Lemma within_parts item i : within item i = true <->
  module_of item = module_of i /\ incl (originals item) (originals i) /\
  incl (match item with ModImp _ r | ObjImp _ _ r => r end) (match i with ModImp _ r | ObjImp _ _ r => r end).
Proof.
  assert (F1 : forall a b, forallb (fun m => smem m b) a = true <-> incl a b)
    by (intros a b; rewrite forallb_forall; split; intros H x Hx; apply smem_In; auto).
  assert (F2 : forall a b, forallb (fun q => rmem q b) a = true <-> incl a b)
    by (intros a b; rewrite forallb_forall; split; intros H x Hx; apply rmem_In; auto).
  destruct item as [ms r|os m r], i as [ms' r'|os' m' r']; cbn [within module_of originals].
  - rewrite andb_true_iff, F1, F2. tauto.
  - split; [discriminate|intros [K _]; discriminate].
  - split; [discriminate|intros [K _]; discriminate].
  - rewrite !andb_true_iff, F1, F2, String.eqb_eq. split; [intros ((-> & H1) & H2); auto|intros (K & H1 & H2); injection K as ->; auto].
Qed.

Lemma says_originals i al : says i al -> originals i = map fst al.
Proof. now intros [-> | [m ->]]. Qed.
Lemma says_aliases i al : says i al -> aliases_of i = settled al.
Proof. intros [-> | [m ->]]; [apply aliases_of_import|apply aliases_of_from]. Qed.
Lemma says_renames i al : says i al -> match i with ModImp _ r | ObjImp _ _ r => r end = renames_of al.
Proof. now intros [-> | [m ->]]. Qed.
Lemma read_says i : read_imp i -> exists al, says i al.
Proof. intros [(al & _ & ->) | (al & m & _ & _ & ->)]; exists al; [left; reflexivity|right; eauto]. Qed.

Lemma within_refl i : within i i = true.
Proof. apply within_parts. split; [reflexivity|]. split; apply incl_refl. Qed.

Lemma within_aliases item i al' al : says item al' -> says i al -> one_way al' -> one_way al ->
  (forall x, In (x, None) al' -> ~ hides i x) -> within item i = true -> incl (bindings item) (bindings i).
Proof.
  intros S1 S2 O1 O2 Hh W. apply within_parts in W as (Hm & H1 & H2). rewrite (says_originals _ _ S1), (says_originals _ _ S2) in H1.
  rewrite (says_renames _ _ S1), (says_renames _ _ S2) in H2. unfold bindings. rewrite Hm, (says_aliases _ _ S1), (says_aliases _ _ S2).
  rewrite (settled_one_way _ O1), (settled_one_way _ O2). intros b Hb. apply in_flat_map in Hb as ([x o] & Ha & Hb). apply in_flat_map.
  exists (x, o). split; [|exact Hb]. destruct o as [n|].
  - apply renames_of_In, H2, renames_of_In, Ha.
  - assert (Hx : In x (map fst al)) by (apply H1; apply in_map_iff; exists (x, None); auto).
    specialize (Hh x Ha). unfold hides in Hh. rewrite (says_originals _ _ S2), (says_aliases _ _ S2), (settled_one_way _ O2) in Hh.
    destruct (in_dec (fun a b : alias => ltac:(decide equality; [decide equality; apply string_dec|apply string_dec])) (x, None) al) as [K|K]; [exact K|].
    exfalso. apply Hh. now split.
Qed.

Lemma add_if_missing_eq l p : add_if_missing l p = if contained (fst p) (map fst l) then l else if snd p then p :: l else l ++ [p].
Proof. reflexivity. Qed.

(* ------------------------------------------------------------------ *)
(** * Looking up a name *)

Lemma mentions_iff i n : mentions i n <-> import_of n i <> None.
Proof.
  unfold mentions. destruct i as [ms r|os m r]; cbn [originals new_names import_of].
  - destruct (smem n ms) eqn:E; [apply smem_In in E; split; [discriminate|auto]|]. destruct (smem n (map snd r)) eqn:E2.
    + apply smem_In in E2. split; [discriminate|auto].
    + split; [|easy]. rewrite <- !smem_In, E, E2. now intros [|].
  - destruct (smem n os) eqn:E; [apply smem_In in E; split; [discriminate|auto]|]. destruct (smem n (map snd r)) eqn:E2.
    + apply smem_In in E2. split; [discriminate|auto].
    + split; [|easy]. rewrite <- !smem_In, E, E2. now intros [|].
Qed.

Lemma get_import_ok n l j : get_import_for_name n l = Ok j <->
  exists pre i post, l = pre ++ i :: post /\ (forall k, In k pre -> ~ mentions k n) /\ import_of n i = Some j.
Proof.
  induction l as [|i l IH]; cbn [get_import_for_name].
  - split; [discriminate|]. intros (pre & i & post & H & _). now destruct pre.
  - destruct (import_of n i) as [j'|] eqn:E.
    + split.
      * intros [= ->]. exists [], i, l. split; [reflexivity|]. split; [easy|exact E].
      * intros (pre & i' & post & H & Hp & E'). destruct pre as [|k pre]; cbn in H; injection H as <- H.
        -- congruence.
        -- exfalso. apply (Hp i); [now left|]. apply mentions_iff. congruence.
    + rewrite IH. split.
      * intros (pre & i' & post & -> & Hp & E'). exists (i :: pre), i', post. split; [reflexivity|]. split; [|exact E'].
        intros k [<- | Hk]; [|now apply Hp]. rewrite mentions_iff. congruence.
      * intros (pre & i' & post & H & Hp & E'). destruct pre as [|k pre]; cbn in H; injection H as <- H; [congruence|].
        exists pre, i', post. split; [exact H|]. split; [|exact E']. intros k' Hk. apply Hp. now right.
Qed.

Lemma get_import_raises n l e : get_import_for_name n l = Raise e <->
  e = LibExn "NoImportMatchingNameException" /\ forall i, In i l -> ~ mentions i n.
Proof.
  induction l as [|i l IH]; cbn [get_import_for_name].
  - split; [intros [= <-]; split; [reflexivity|easy]|now intros [-> _]].
  - destruct (import_of n i) as [j|] eqn:E.
    + split; [discriminate|]. intros [_ H]. exfalso. apply (H i); [now left|]. apply mentions_iff. congruence.
    + rewrite IH. split; intros [-> H]; (split; [reflexivity|]).
      * intros k [<- | Hk]; [rewrite mentions_iff; congruence|now apply H].
      * intros k Hk. apply H. now right.
Qed.

Lemma reverse_name_snoc r x n : reverse_name (r ++ [(x, n)]) n = x.
Proof. unfold reverse_name. rewrite fold_left_app. cbn [fold_left fst snd]. now rewrite dget_dset_eq. Qed.
Lemma last_rename (n : string) (r : list (string * string)) : In n (map snd r) -> exists pre x post, r = pre ++ (x, n) :: post /\ ~ In n (map snd post).
Proof.
  induction r as [|[x m] r IH] using rev_ind; [easy|]. rewrite map_app, in_app_iff. intro H.
  destruct (string_dec m n) as [->|N].
  - exists r, x, []. split; [reflexivity|easy].
  - destruct H as [H|[H|[]]]; [|cbn in H; congruence]. destruct (IH H) as (pre & y & post & -> & Hp). exists pre, y, (post ++ [(x, m)]).
    split; [now rewrite <- app_assoc|]. rewrite map_app, in_app_iff. intros [K|[K|[]]]; [now apply Hp|cbn in K; congruence].
Qed.

Lemma filter_none {A} (f : A -> bool) l : (forall x, In x l -> f x = false) -> filter f l = [].
Proof. induction l as [|x l IH]; [reflexivity|]. intro H. cbn. rewrite (H x) by now left. apply IH. intros y Hy. apply H. now right. Qed.

Lemma filter_last_rename (pre : list (string * string)) x n post : ~ In n (map snd post) ->
  filter (fun q => String.eqb (snd q) n) (pre ++ (x, n) :: post) = filter (fun q => String.eqb (snd q) n) pre ++ [(x, n)].
Proof.
  intro H. rewrite filter_app. cbn [filter snd]. rewrite String.eqb_refl. rewrite (filter_none _ post); [reflexivity|].
  intros [y m] Hy. cbn. apply String.eqb_neq. intros ->. apply H. apply in_map_iff. exists (y, n). auto.
Qed.

(** what is returned, for a name standing in the statement as an original name, and for one that does not *)
Lemma import_of_original n i : In n (originals i) -> exists j, import_of n i = Some j /\ module_of j = module_of i /\ aliases_of j = [(n, None)].
Proof.
  intro H. destruct i as [ms r|os m r]; cbn [originals import_of] in *; apply smem_In in H; rewrite H; eexists; split; try reflexivity; split; reflexivity.
Qed.
Lemma import_of_new n i : ~ In n (originals i) -> In n (new_names i) ->
  exists j pre x post, import_of n i = Some j /\ module_of j = module_of i /\ aliases_of j = [(x, Some n)] /\
    match i with ModImp _ r | ObjImp _ _ r => r end = pre ++ (x, n) :: post /\ ~ In n (map snd post).
Proof.
  intros H1 H2. destruct i as [ms r|os m r]; cbn [originals new_names import_of] in *.
  - assert (E1 : smem n ms = false) by (destruct (smem n ms) eqn:E; [apply smem_In in E; contradiction|reflexivity]).
    destruct (last_rename n r H2) as (pre & x & post & E & Hp). apply smem_In in H2. rewrite E1, H2. cbv zeta.
    eexists. exists pre, x, post. split; [reflexivity|]. split; [reflexivity|]. split; [|split; assumption].
    rewrite E, (filter_last_rename pre x n post Hp), reverse_name_snoc. cbn [aliases_of map]. rewrite dget_item_map_snoc.
    cbn [fst snd]. now rewrite String.eqb_refl.
  - assert (E1 : smem n os = false) by (destruct (smem n os) eqn:E; [apply smem_In in E; contradiction|reflexivity]).
    destruct (last_rename n r H2) as (pre & x & post & E & Hp). apply smem_In in H2. rewrite E1, H2. cbv zeta.
    eexists. exists pre, x, post. split; [reflexivity|]. split; [reflexivity|]. split; [|split; assumption].
    rewrite E, (filter_last_rename pre x n post Hp), reverse_name_snoc. cbn [aliases_of map]. rewrite dget_item_map_snoc.
    cbn [fst snd]. now rewrite String.eqb_refl.
Qed.

(** the import returned is one of the aliases of the statement *)
Lemma import_of_alias n i j al : says i al -> one_way al -> ~ hides i n -> import_of n i = Some j ->
  module_of j = module_of i /\ exists a, aliases_of j = [a] /\ In a al /\ (a = (n, None) \/ snd a = Some n).
Proof.
  intros S O Hh H. destruct (in_dec string_dec n (originals i)) as [Ho|Ho].
  - destruct (import_of_original n i Ho) as (j' & E & Hm & Ha). rewrite E in H. injection H as <-. split; [exact Hm|].
    exists (n, None). split; [exact Ha|]. split; [|now left]. unfold hides in Hh. rewrite (says_aliases _ _ S), (settled_one_way _ O) in Hh.
    destruct (in_dec (fun a b : alias => ltac:(decide equality; [decide equality; apply string_dec|apply string_dec])) (n, None) al) as [K|K]; [exact K|].
    exfalso. apply Hh. split; assumption.
  - assert (Hn : In n (new_names i)).
    { assert (M : mentions i n) by (apply mentions_iff; congruence). destruct M; [contradiction|assumption]. }
    destruct (import_of_new n i Ho Hn) as (j' & pre & x & post & E & Hm & Ha & Hr & _). rewrite E in H. injection H as <-. split; [exact Hm|].
    exists (x, Some n). split; [exact Ha|]. split; [|now right]. rewrite (says_renames _ _ S) in Hr. apply renames_of_In. rewrite Hr.
    apply in_app_iff. right. now left.
Qed.

Lemma fold_last_binding n l acc b : (forall c : binding, In c l -> fst c = n -> c = b) -> fst b = n ->
  (In b l \/ acc = Some (snd b)) ->
  fold_left (fun acc (b : binding) => if String.eqb (fst b) n then Some (snd b) else acc) l acc = Some (snd b).
Proof.
  revert acc. induction l as [|c l IH]; intros acc H Hb K; cbn [fold_left].
  - destruct K as [[]|K]; exact K.
  - destruct (String.eqb (fst c) n) eqn:E.
    + apply String.eqb_eq in E. rewrite (H c (or_introl eq_refl) E). apply IH; [intros d Hd; apply H; now right|exact Hb|now right].
    + apply IH; [intros d Hd; apply H; now right|exact Hb|]. destruct K as [[->|K]|K]; auto. apply String.eqb_neq in E. contradiction.
Qed.
