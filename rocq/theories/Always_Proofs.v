(** Proofs about what config files always get. *)
From Verif Require Import PySource_Model PySource_Spec PySource_Proofs Imports_Proofs FileStr_Model FileStr_Spec FileStr_Proofs FileStrRead_Proofs FileStrOps_Proofs Always_Spec.
Local Open Scope string_scope.
Local Open Scope list_scope.

(* ------------------------------------------------------------------ *)
(** * One statement in a string *)

Lemma assigns_skip l1 l2 : (forall s, In s l1 -> assigns s = false) -> assigns_of (l1 ++ l2) = assigns_of l2.
Proof.
  induction l1 as [|s l1 IH]; intros H; [reflexivity|]. cbn [app assigns_of]. pose proof (H s (or_introl eq_refl)) as Hs.
  destruct s; try discriminate; apply IH; intros t Ht; apply H; now right.
Qed.
Lemma imports_skip l1 l2 : (forall s, In s l1 -> imports_something s = false) -> imports_of (l1 ++ l2) = imports_of l2.
Proof.
  induction l1 as [|s l1 IH]; intros H; [reflexivity|]. cbn [app imports_of]. pose proof (H s (or_introl eq_refl)) as Hs.
  destruct s; try discriminate; apply IH; intros t Ht; apply H; now right.
Qed.
(** the first with a property *)
Lemma first_with {A} (p : A -> bool) l : (forall x, In x l -> p x = false) \/ exists l1 x l2, l = l1 ++ x :: l2 /\ p x = true /\ forall y, In y l1 -> p y = false.
Proof.
  induction l as [|x l IH]; [left; intros x []|]. destruct (p x) eqn:E; [right; exists [], x, l; split; [reflexivity|split; [exact E|intros y []]]|].
  destruct IH as [H|(l1 & y & l2 & -> & Hy & H)]; [left; intros y [<-|Hy]; auto|]. right. exists (x :: l1), y, l2. split; [reflexivity|]. split; [exact Hy|]. intros z [<-|Hz]; auto.
Qed.
Lemma assigns_none st : assigns_of st = Ok [] <-> forall s, In s st -> assigns s = false.
Proof.
  split.
  - intros H. destruct (first_with assigns st) as [N|(l1 & x & l2 & -> & Hx & N)]; [exact N|]. exfalso. rewrite assigns_skip in H by exact N.
    destruct x; try discriminate. cbn [assigns_of] in H. destruct (assigns_of l2); discriminate.
  - intros H. rewrite <- (app_nil_r st). now rewrite assigns_skip.
Qed.
Lemma imports_none st : imports_of st = Ok [] <-> forall s, In s st -> imports_something s = false.
Proof.
  split.
  - intros H. destruct (first_with imports_something st) as [N|(l1 & x & l2 & -> & Hx & N)]; [exact N|]. exfalso. rewrite imports_skip in H by exact N.
    destruct x; try discriminate. cbn [imports_of] in H. destruct (imports_of l2); discriminate.
  - intros H. rewrite <- (app_nil_r st). now rewrite imports_skip.
Qed.
Lemma assigns_one st a : assigns_of st = Ok [a] <-> only_one assigns (SAssign a) st.
Proof.
  split.
  - intros H. destruct (first_with assigns st) as [N|(l1 & x & l2 & -> & Hx & N)]; [apply assigns_none in N; congruence|]. rewrite assigns_skip in H by exact N.
    destruct x; try discriminate. cbn [assigns_of] in H. destruct (assigns_of l2) as [al|] eqn:E; [|discriminate]. injection H as <- ->. exists l1, l2. split; [reflexivity|]. split; [reflexivity|].
    intros y Hy. apply in_app_iff in Hy. destruct Hy as [Hy|Hy]; [auto|]. now apply (proj1 (assigns_none l2) E).
  - intros (l1 & l2 & -> & _ & N). rewrite assigns_skip by (intros s Hs; apply N, in_app_iff; now left). cbn [assigns_of].
    assert (E : assigns_of l2 = Ok []) by (apply assigns_none; intros s Hs; apply N, in_app_iff; now right). now rewrite E.
Qed.
Lemma imports_one st i : imports_of st = Ok [i] <-> only_one imports_something (SImport i) st.
Proof.
  split.
  - intros H. destruct (first_with imports_something st) as [N|(l1 & x & l2 & -> & Hx & N)]; [apply imports_none in N; congruence|]. rewrite imports_skip in H by exact N.
    destruct x; try discriminate. cbn [imports_of] in H. destruct (imports_of l2) as [al|] eqn:E; [|discriminate]. injection H as <- ->. exists l1, l2. split; [reflexivity|]. split; [reflexivity|].
    intros y Hy. apply in_app_iff in Hy. destruct Hy as [Hy|Hy]; [auto|]. now apply (proj1 (imports_none l2) E).
  - intros (l1 & l2 & -> & _ & N). rewrite imports_skip by (intros s Hs; apply N, in_app_iff; now left). cbn [imports_of].
    assert (E : imports_of l2 = Ok []) by (apply imports_none; intros s Hs; apply N, in_app_iff; now right). now rewrite E.
Qed.

(* ------------------------------------------------------------------ *)
(** * Values of the strings *)
Section Astor.
Variable print_value : option (list tok) -> list string.
Variable print_ann : list tok -> string.

Lemma end_values_app al bl : forall d, end_values print_value print_ann d (al ++ bl) =
  match end_values print_value print_ann d al with Ok d' => end_values print_value print_ann d' bl | Raise e => Raise e end.
Proof. induction al as [|a al IH]; intros d; cbn [app end_values]; [reflexivity|]. destruct (default_of a); [apply IH|reflexivity]. Qed.

Lemma add_assign_wf d a : dwf d -> dwf (add_assign print_value print_ann d a).
Proof. intros H. unfold add_assign. destruct (a_target a); auto. now apply dset_wf. Qed.
Lemma end_values_wf al : forall d d', dwf d -> end_values print_value print_ann d al = Ok d' -> dwf d'.
Proof.
  induction al as [|a al IH]; intros d d' W H; cbn [end_values] in H; [injection H as <-; exact W|]. destruct (default_of a); [|discriminate]. eapply IH; [|exact H]. now apply add_assign_wf.
Qed.

Lemma last_for_snoc x al a : last_for x (al ++ [a]) = match varname a with Some y => if String.eqb y x then Some a else last_for x al | None => last_for x al end.
Proof. unfold last_for. rewrite rev_app_distr. cbn [rev app find]. destruct (varname a) as [y|]; [destruct (String.eqb y x)|]; reflexivity. Qed.
Lemma last_ann_snoc x al a : last_ann x (al ++ [a]) = match varname a, a_ann a with Some y, Some t => if String.eqb y x then Some t else last_ann x al | _, _ => last_ann x al end.
Proof.
  unfold last_ann. rewrite filter_app. cbn [filter]. destruct (a_ann a) as [t|] eqn:Ea; [|rewrite app_nil_r; destruct (varname a); reflexivity].
  rewrite last_for_snoc. destruct (varname a) as [y|]; [|reflexivity]. destruct (String.eqb y x); [now rewrite Ea|reflexivity].
Qed.

(** the value of a name: that of the last string assigning it; its annotation: that of the last one annotating it *)
Lemma end_values_get al : forall d x, end_values print_value print_ann [] al = Ok d ->
  dget x d = match last_for x al with Some a => Some (Value (option_map print_ann (last_ann x al)) (print_value (a_value a))) | None => None end.
Proof.
  induction al as [|a al IH] using rev_ind; intros d x H; [injection H as <-; reflexivity|]. rewrite end_values_app in H.
  destruct (end_values print_value print_ann [] al) as [d0|] eqn:E; [|discriminate]. cbn [end_values] in H. destruct (default_of a) eqn:D; [|discriminate]. injection H as <-.
  rewrite last_for_snoc, last_ann_snoc. unfold add_assign, varname. destruct (a_target a) as [y| |] eqn:T; try now apply IH.
  destruct (String.eqb_spec y x) as [->|N].
  - rewrite dget_dset_eq. f_equal. f_equal. destruct (a_ann a) as [t|]; [reflexivity|]. rewrite (IH d0 x eq_refl).
    destruct (last_for x al) as [b|] eqn:L; [reflexivity|]. unfold last_ann. destruct (last_for x (filter _ al)) as [b|] eqn:L2; [|reflexivity]. exfalso.
    unfold last_for in L, L2. apply find_some in L2. destruct L2 as [I2 P2]. apply in_rev, filter_In in I2. pose proof (find_none _ _ L b ltac:(rewrite <- in_rev; tauto)) as Q. cbv beta in Q. congruence.
  - rewrite dget_dset_neq by congruence. rewrite (IH d0 x eq_refl). destruct (a_ann a); reflexivity.
Qed.
Lemma end_values_keys al : forall d d' x, end_values print_value print_ann d al = Ok d' -> In x (dkeys d') <-> In x (dkeys d) \/ In x (names_of al).
Proof.
  induction al as [|a al IH]; intros d d' x H; cbn [end_values] in H; [injection H as <-; cbn; tauto|]. destruct (default_of a); [|discriminate].
  rewrite (IH _ _ x H). cbn [names_of flat_map]. rewrite in_app_iff. unfold add_assign, varname. destruct (a_target a) as [y| |]; cbn [In]; [|tauto|tauto]. rewrite In_dkeys_dset. intuition.
Qed.
(** when the strings can be turned into values *)
Lemma end_values_ok al : forall d, (exists d', end_values print_value print_ann d al = Ok d') <-> forall a, In a al -> exists r, default_of a = Ok r.
Proof.
  induction al as [|a al IH]; intros d; cbn [end_values]; [split; [intros _ a []|eauto]|]. destruct (default_of a) as [r|e] eqn:D.
  - rewrite IH. split; [intros H b [<-|Hb]; eauto|]. intros H b Hb. apply H. now right.
  - split; [now intros (d' & H)|]. intros H. destruct (H a (or_introl eq_refl)) as [r Hr]. congruence.
Qed.
End Astor.

(* ------------------------------------------------------------------ *)
(** * DataPipeline *)

Lemma dfilter_ddel_in {A} p k (d : dict A) : p k = true -> dfilter p (ddel k d) = ddel k (dfilter p d).
Proof.
  intros H. unfold dfilter. induction d as [|[x v] d IH]; [reflexivity|]. cbn [ddel filter fst]. destruct (String.eqb_spec k x) as [<-|N].
  - rewrite H. cbn [ddel]. now rewrite String.eqb_refl.
  - cbn [filter fst]. destruct (p x); [|exact IH]. cbn [ddel]. apply String.eqb_neq in N. rewrite N. now rewrite IH.
Qed.
Lemma dfilter_ddel_out {A} p k (d : dict A) : p k = false -> dfilter p (ddel k d) = dfilter p d.
Proof.
  intros H. unfold dfilter. induction d as [|[x v] d IH]; [reflexivity|]. cbn [ddel filter fst]. destruct (String.eqb_spec k x) as [<-|N].
  - now rewrite H.
  - cbn [filter fst]. destruct (p x); [now rewrite IH|exact IH].
Qed.
Lemma dget_dfilter_in {A} p k (d : dict A) : p k = true -> dget k (dfilter p d) = dget k d.
Proof.
  intros H. unfold dfilter. induction d as [|[x v] d IH]; [reflexivity|]. cbn [filter fst dget]. destruct (String.eqb_spec k x) as [<-|N].
  - rewrite H. cbn [dget]. now rewrite String.eqb_refl.
  - destruct (p x); [|exact IH]. cbn [dget]. apply String.eqb_neq in N. now rewrite N.
Qed.
Lemma cleanup_filter p n (c d : dict value) : dfilter p c = dfilter p d -> dfilter p (with_cleanup n c) = dfilter p (with_cleanup n d).
Proof.
  intros E. destruct (p cleanup) eqn:P.
  - assert (G : dget cleanup c = dget cleanup d) by (rewrite <- (dget_dfilter_in p cleanup c P), <- (dget_dfilter_in p cleanup d P); now rewrite E).
    unfold with_cleanup. rewrite G. destruct (String.eqb n "DataPipeline"); [|exact E]. destruct (dget cleanup d) as [v|].
    + destruct (is_none v); [|exact E]. rewrite !dfilter_app, !dfilter_ddel_in by exact P. now rewrite E.
    + rewrite !dfilter_app. now rewrite E.
  - assert (K : forall e, dfilter p (with_cleanup n e) = dfilter p e); [|now rewrite !K]. intros e. unfold with_cleanup.
    destruct (String.eqb n "DataPipeline"); [|reflexivity].
    assert (Z : forall v : value, dfilter p [(cleanup, v)] = []) by (intros v; unfold dfilter; cbn [filter fst]; now rewrite P).
    destruct (dget cleanup e) as [v|]; [destruct (is_none v); [|reflexivity]|]; rewrite dfilter_app, Z, app_nil_r; [now apply dfilter_ddel_out|reflexivity].
Qed.

Lemma annotate_nil q : annotate [] q = q.
Proof. destruct q as [x [[a|] src]]; reflexivity. Qed.
Lemma new_assigns_values al (c : dict value) : new_assigns al (map (fun q => WValue (fst q) (snd q)) c) = map (fun q => WValue (fst q) (snd q)) (dfilter (fun x => negb (contains_varname al x)) c).
Proof.
  unfold new_assigns, dfilter. induction c as [|[x v] c IH]; [reflexivity|]. cbn [map filter wname fst snd]. destruct (negb (contains_varname al x)); cbn [map fst snd]; now rewrite IH.
Qed.
(** without strings at the end, only what the file does not assign matters *)
Lemma save_text_ext it it2 c d f : i_imports it = i_imports it2 -> i_always_imports it = i_always_imports it2 -> i_begin it = i_begin it2 -> i_end it = [] -> i_end it2 = [] ->
  dfilter (fun x => negb (contains_varname (l_assigns f) x)) c = dfilter (fun x => negb (contains_varname (l_assigns f) x)) d -> save_text it c f = save_text it2 d f.
Proof.
  intros E1 E2 E3 E4 E5 E. unfold save_text. rewrite E1, E2, E3, E4, E5. cbn [dfilter filter]. rewrite !dupdate_nil_r.
  assert (M : forall l : dict value, map (annotate []) l = l) by (intros l; rewrite <- (map_id l) at 2; apply map_ext, annotate_nil). rewrite !M.
  unfold file_str. now rewrite !new_assigns_values, E.
Qed.

Lemma scaffold_named_eq astor n it content : i_end it = [] -> scaffold_named astor n it content = scaffold astor (cleaned n it) content.
Proof.
  intros He. destruct content as [t|]; cbn [scaffold_named scaffold].
  - destruct (load_file t) as [f|e] eqn:L; [|reflexivity]. f_equal. apply save_text_ext; try reflexivity; try exact He.
    destruct (load_file_inv t f L) as (st & _ & _ & _ & C & B).
    assert (X : forall d, dfilter (fun x => negb (contains_varname (l_assigns f) x)) (dupdate d (map (fun q => (fst q, astor (fst q) (snd q))) (l_config f))) = dfilter (fun x => negb (contains_varname (l_assigns f) x)) d).
    { intros d. apply dfilter_dupdate_out. intros k Hk. rewrite astor_keys in Hk. apply negb_false_iff. now apply (default_dict_dmem _ _ k C). }
    cbn [cleaned i_defaults]. rewrite X. apply cleanup_filter. apply X.
  - f_equal. 
Qed.

Lemma assign_from_str_ok s a : assign_from_str s = Ok a <-> exists st, parse s = Ok st /\ only_one assigns (SAssign a) st.
Proof.
  unfold assign_from_str. destruct (parse s) as [st|e]; [|split; [discriminate|intros (st & H & _); discriminate]]. split.
  - intros H. exists st. split; [reflexivity|]. apply assigns_one. destruct (assigns_of st) as [[|b [|c r]]|e]; try discriminate. congruence.
  - intros (st' & [= <-] & H). apply assigns_one in H. now rewrite H.
Qed.
Lemma import_from_str_ok s i : import_from_str s = Ok i <-> exists st, parse s = Ok st /\ only_one imports_something (SImport i) st.
Proof.
  unfold import_from_str. destruct (parse s) as [st|e]; [|split; [discriminate|intros (st & H & _); discriminate]]. split.
  - intros H. exists st. split; [reflexivity|]. apply imports_one. destruct (imports_of st) as [[|b [|c r]]|e]; try discriminate. congruence.
  - intros (st' & [= <-] & H). apply imports_one in H. now rewrite H.
Qed.

Lemma firsts_snoc l x : firsts (l ++ [x]) = if existsb (String.eqb x) (firsts l) then firsts l else firsts l ++ [x].
Proof. unfold firsts. now rewrite fold_left_app. Qed.
Lemma names_of_app al bl : names_of (al ++ bl) = names_of al ++ names_of bl.
Proof. apply flat_map_app. Qed.
Lemma dkeys_dset {A} k (v : A) d : dkeys (dset k v d) = if existsb (String.eqb k) (dkeys d) then dkeys d else dkeys d ++ [k].
Proof.
  induction d as [|[x w] d IH]; [reflexivity|]. cbn [dset dkeys map fst existsb]. destruct (String.eqb_spec k x) as [->|N]; [reflexivity|]. cbn [orb map fst]. fold (dkeys (dset k v d)). rewrite IH. fold (dkeys d). destruct (existsb (String.eqb k) (dkeys d)); reflexivity.
Qed.
Lemma end_values_order pv' pa' al : forall d, end_values pv' pa' [] al = Ok d -> dkeys d = firsts (names_of al).
Proof.
  induction al as [|a al IH] using rev_ind; intros d H; [injection H as <-; reflexivity|]. rewrite end_values_app in H. destruct (end_values pv' pa' [] al) as [d'|e] eqn:E; [|discriminate].
  cbn [end_values] in H. destruct (default_of a); [|discriminate]. injection H as <-. rewrite names_of_app. unfold names_of at 2, add_assign, varname. cbn [flat_map]. rewrite app_nil_r.
  destruct (a_target a) as [y| |]; [|rewrite app_nil_r; now apply IH|rewrite app_nil_r; now apply IH]. rewrite firsts_snoc, dkeys_dset. now rewrite (IH d' eq_refl).
Qed.

Lemma res_list_ok {A B} (f : A -> res B) l bs : res_list f l = Ok bs <-> Forall2 (fun a b => f a = Ok b) l bs.
Proof.
  revert bs. induction l as [|a l IH]; intros bs; cbn [res_list].
  - split; [intros [= <-]; constructor|intros H; inversion H; reflexivity].
  - split.
    + destruct (f a) as [b|e] eqn:E; [|discriminate]. destruct (res_list f l) as [r|e] eqn:R; [|discriminate]. intros [= <-]. constructor; [exact E|]. now apply IH.
    + intros H. inversion H as [|a' b l' r Hab Hr]; subst. rewrite Hab. apply IH in Hr. now rewrite Hr.
Qed.
Lemma is_none_iff v : is_none v = true <-> v_src v = ["None"].
Proof.
  unfold is_none. destruct (v_src v) as [|l [|l' r]]; [split; discriminate| |split; discriminate]. rewrite String.eqb_eq. split; [now intros ->|intros [= ->]; reflexivity].
Qed.

(** * The order of the imports *)
Lemma covered_iff i l : contained i l = true <-> covered i l.
Proof.
  unfold contained. rewrite existsb_exists. split; intros (j & Hj & W); exists j; (split; [exact Hj|]); now apply within_parts.
Qed.
Lemma not_covered i l : ~ covered i l -> contained i l = false.
Proof. intro H. destruct (contained i l) eqn:E; [|reflexivity]. now apply covered_iff in E. Qed.
Lemma strings_last imports defaults is al : (forall l1 i l2, is = l1 ++ i :: l2 -> ~ covered i (imports ++ l1)) ->
  map fst (item_imports (class_item imports defaults (Some is) al)) = imports ++ is.
Proof.
  unfold item_imports, class_item. cbn [i_imports i_always_imports]. intro H.
  assert (G : forall l : list pimp, (forall l1 i l2, is = l1 ++ i :: l2 -> ~ covered i (map fst l ++ l1)) ->
    map fst (fold_left add_if_missing (map (fun i => (i, false)) is) l) = map fst l ++ is).
  { clear. induction is as [|i is IH]; intros l H; [now rewrite app_nil_r|]. cbn [map fold_left]. rewrite add_if_missing_eq. cbn [fst snd].
    rewrite (not_covered i (map fst l)); [|specialize (H [] i is eq_refl); now rewrite app_nil_r in H].
    rewrite IH; [rewrite map_app; cbn [map fst]; now rewrite <- app_assoc|]. intros l1 j l2 ->. specialize (H (i :: l1) j l2 eq_refl).
    rewrite map_app. cbn [map fst]. now rewrite <- app_assoc. }
  rewrite G; rewrite map_map; cbn [fst]; rewrite map_id; [reflexivity|exact H].
Qed.
Lemma kept_in_imports (l new : list pimp) : (forall i, In i (map fst l) -> In i (map fst (fold_left add_if_missing new l))) .
Proof.
  intros i H. apply in_map_iff in H as (p & <- & H). apply in_map. now apply (fold_add_incl new l).
Qed.
Lemma covered_by_more i l l' : (forall j, In j l -> covered j l') -> covered i l -> covered i l'.
Proof.
  intros H (j & Hj & E1 & E2 & E3). destruct (H j Hj) as (j' & Hj' & F1 & F2 & F3). exists j'. split; [exact Hj'|]. split; [congruence|].
  split; intros x Hx; auto.
Qed.
Lemma string_left_out imports defaults is i al : covered i (imports ++ is) ->
  map fst (item_imports (class_item imports defaults (Some (is ++ [i])) al)) = map fst (item_imports (class_item imports defaults (Some is) al)).
Proof.
  unfold item_imports, class_item. cbn [i_imports i_always_imports]. intro H. rewrite map_app, fold_left_app. cbn [map fold_left]. rewrite add_if_missing_eq. cbn [fst snd].
  match goal with |- context [contained i ?l] => assert (C : contained i l = true); [|now rewrite C] end.
  apply covered_iff. revert H. apply covered_by_more. intros j Hj. apply covered_iff. apply in_app_or in Hj as [Hj|Hj].
  - apply covered_iff. exists j. split; [|split; [reflexivity|split; apply incl_refl]]. apply kept_in_imports. rewrite map_map. cbn [fst]. now rewrite map_id.
  - apply (fold_add_contained _ _ (j, false)). apply in_map_iff. now exists j.
Qed.
Lemma selector_before imports defaults al : ~ covered (ObjImp ["Selector"] "pyfileconf" []) imports ->
  map fst (item_imports (class_item imports defaults None al)) = ObjImp ["Selector"] "pyfileconf" [] :: imports.
Proof.
  unfold item_imports, class_item. cbn [i_imports i_always_imports fold_left]. intro H. rewrite add_if_missing_eq. cbn [fst snd selector_import].
  assert (Em : map fst (map (fun i : imp => (i, false)) imports) = imports) by (rewrite map_map; cbn [fst]; apply map_id).
  rewrite not_covered; [|now rewrite Em]. cbn [map fst selector_import]. f_equal. exact Em.
Qed.
