(** Proofs about reading config files after they were written. *)
From Verif Require Import PySource_Model PySource_Spec PySource_Proofs Imports_Proofs FileStr_Model FileStr_Spec FileStr_Proofs.
Local Open Scope string_scope.
Local Open Scope list_scope.

Notation no_nl := (fun l => has_char nl_c l = false).

(* ------------------------------------------------------------------ *)
(** * The imports *)

Lemma name_no_nl x : all_chars word_char x = true -> has_char nl_c x = false.
Proof.
  induction x as [|c x IH]; [reflexivity|]. cbn [all_chars has_char]. rewrite andb_true_iff. intros [H1 H2]. rewrite (IH H2), orb_false_r.
  destruct c as [[] [] [] [] [] [] [] []]; vm_compute in H1 |- *; congruence.
Qed.
Lemma dotted_no_nl n : dotted_name n -> has_char nl_c n = false.
Proof.
  intro H. rewrite <- (join_split "." n). unfold dotted_name in H. revert H. generalize (split "." n) as l. intro l.
  induction l as [|p [|q l] IH]; intro H; [reflexivity| |].
  - cbn in H. rewrite andb_true_r in H. cbn [join]. now apply name_no_nl, is_name_chars.
  - cbn [forallb] in H. apply andb_prop in H as [Hp H]. rewrite join_cons, !has_char_app. rewrite IH by exact H.
    destruct (is_name_chars p Hp) as [Hc _]. now rewrite (name_no_nl p Hc).
Qed.
Lemma alias_no_nl a : has_char nl_c (fst a) = false -> name_alias a -> has_char nl_c (print_alias a) = false.
Proof.
  destruct a as [n [b|]]; unfold print_alias, name_alias; cbn [fst snd]; intros H1 H2; [|exact H1].
  rewrite !has_char_app, H1. destruct (is_name_chars b H2) as [Hc _]. now rewrite (name_no_nl b Hc).
Qed.
Lemma join_no_nl l : Forall no_nl l -> has_char nl_c (join ", " l) = false.
Proof.
  induction 1 as [|x l Hx _ IH]; [reflexivity|]. destruct l as [|y l]; [exact Hx|]. rewrite join_cons, !has_char_app, Hx, IH. reflexivity.
Qed.
Lemma module_aliases_no_nl al : module_aliases_ok al -> Forall no_nl (map print_alias al).
Proof. intros [_ H]. apply Forall_map. eapply Forall_impl; [|exact H]. intros a [H1 H2]. apply alias_no_nl; [now apply dotted_no_nl|exact H2]. Qed.
Lemma object_aliases_no_nl al : object_aliases_ok al -> Forall no_nl (map print_alias al).
Proof.
  intros [-> | [_ H]]; [repeat constructor|]. apply Forall_map. eapply Forall_impl; [|exact H]. intros a [H1 H2].
  apply alias_no_nl; [now apply name_no_nl, is_name_chars|exact H2].
Qed.

Lemma print_imp_no_nl i : imp_ok i -> has_char nl_c (print_imp i) = false.
Proof.
  rewrite print_imp_text. destruct i as [ms r|os m r]; unfold imp_ok.
  - intro H. unfold import_text. rewrite has_char_app. rewrite join_no_nl by now apply module_aliases_no_nl. reflexivity.
  - intros [Hm H]. unfold from_text. rewrite !has_char_app.
    rewrite join_no_nl by now apply object_aliases_no_nl. rewrite (dotted_no_nl m Hm). reflexivity.
Qed.
Lemma print_imp_header i : header_line (print_imp i) = true.
Proof.
  unfold header_line. apply orb_true_iff. left. apply contains_iff. destruct i as [ms r|os m r]; unfold print_imp.
  - exists "", (String " " (join ", " (renamed ms r))). reflexivity.
  - exists ("from " ++ m ++ " ")%string, (String " " (join ", " (renamed os r))). now rewrite !app_assoc_s.
Qed.

Definition import_stmts (is : list imp) : list stmt := match is with [] => [SOther] | _ => map (fun i => SImport (normal i)) is end.

Lemma parse_import_lines is : Forall imp_ok is -> parse_lines (import_lines is) = Ok (import_stmts is).
Proof.
  intro H. assert (P : parse_lines (map print_imp is) = Ok (map (fun i => SImport (normal i)) is)).
  { induction H as [|i is Hi _ IH]; [reflexivity|]. cbn [map]. rewrite (parse_lines_cons _ _ _ (parse_print_imp i Hi)), IH. reflexivity. }
  destruct is; [reflexivity|exact P].
Qed.
Lemma import_stmts_imports is : imports_of (import_stmts is) = Ok (map normal is).
Proof.
  assert (P : imports_of (map (fun i => SImport (normal i)) is) = Ok (map normal is)).
  { induction is as [|i is IH]; [reflexivity|]. cbn [map imports_of]. now rewrite IH. }
  destruct is; [reflexivity|exact P].
Qed.
Lemma import_stmts_assigns is : assigns_of (import_stmts is) = Ok [].
Proof.
  assert (P : assigns_of (map (fun i => SImport (normal i)) is) = Ok []).
  { induction is as [|i is IH]; [reflexivity|]. cbn [map assigns_of]. exact IH. }
  destruct is; [reflexivity|exact P].
Qed.
Lemma import_lines_nl is : Forall imp_ok is -> Forall no_nl (import_lines is).
Proof.
  intro H. assert (P : Forall no_nl (map print_imp is)) by (apply Forall_map; eapply Forall_impl; [|exact H]; intros i Hi; now apply print_imp_no_nl).
  destruct is; [repeat constructor|exact P].
Qed.
Lemma import_lines_header is : Forall (fun l => header_line l = true) (import_lines is).
Proof.
  assert (P : Forall (fun l => header_line l = true) (map print_imp is)) by (apply Forall_map, Forall_forall; intros i _; apply print_imp_header).
  destruct is; [repeat constructor|exact P].
Qed.
Lemma import_lines_ne is : import_lines is <> [].
Proof. destruct is; discriminate. Qed.

Lemma combine_imports_from existing (new : list pimp) : forall i, In i (combine_imports existing new) -> In i existing \/ In i (map fst new).
Proof.
  unfold combine_imports. assert (K : forall (l : list pimp) i, In i (map fst (fold_left add_if_missing new l)) -> In i (map fst l) \/ In i (map fst new)).
  { induction new as [|p new IH]; intros l i H; [now left|]. cbn [fold_left] in H. apply IH in H as [H|H]; [|right; now right].
    rewrite add_if_missing_eq in H. destruct (contained _ _); [now left|]. destruct (snd p).
    - destruct H as [<-|H]; [right; now left|now left].
    - rewrite map_app, in_app_iff in H. destruct H as [H|[<-|[]]]; [now left|right; now left]. }
  intros i H. apply K in H as [H|H]; [|now right]. left. rewrite map_map in H. cbn in H. now rewrite map_id in H.
Qed.

Lemma fold_add_from (l new : list pimp) p : In p (fold_left add_if_missing new l) -> In p l \/ In p new.
Proof.
  revert l. induction new as [|q new IH]; intros l H; [now left|]. cbn [fold_left] in H. apply IH in H as [H|H]; [|right; now right].
  rewrite add_if_missing_eq in H. destruct (contained _ _); [now left|]. destruct (snd q).
  - destruct H as [<-|H]; [right; now left|now left].
  - rewrite in_app_iff in H. destruct H as [H|[<-|[]]]; [now left|right; now left].
Qed.


Lemma item_imports_from it p : In p (item_imports it) -> In p (i_imports it) \/ In p (i_always_imports it).
Proof. apply fold_add_from. Qed.

Lemma combine_imports_ok it existing : item_ok it -> Forall imp_ok existing -> Forall imp_ok (combine_imports existing (item_imports it)).
Proof.
  intros (_ & _ & _ & Hi & _) He. apply Forall_forall. intros i H. apply combine_imports_from in H as [H|H].
  - rewrite Forall_forall in He. now apply He.
  - apply in_map_iff in H as (p & <- & H). apply Hi. now apply item_imports_from.
Qed.

(* ------------------------------------------------------------------ *)
(** * The values *)

Lemma parse_assign_lines_blank x v : value_ok x v -> is_whitespace_line (hd "" (assign_lines x v)) = false.
Proof.
  intros (_ & _ & a & P & _). destruct (assign_lines x v) as [|l r] eqn:E; [now apply assign_lines_ne in E|]. cbn [hd].
  destruct (is_whitespace_line l) eqn:W; [|reflexivity]. apply parse_blank_line in P as (_ & ys & _ & K); [discriminate|exact W].
Qed.

Lemma parse_lines_for d : Forall (fun q => value_ok (fst q) (snd q)) d ->
  exists es, parse_lines (lines_for d) = Ok (map SAssign es) /\
    Forall2 (fun q a => parse_lines (assign_lines (fst q) (snd q)) = Ok [SAssign a] /\ a_target a = TgName (fst q)) d es.
Proof.
  induction 1 as [|[x v] d (H1 & H2 & a & P & T) _ (es & IH1 & IH2)]; [exists []; split; [reflexivity|constructor]|].
  exists (a :: es). split; [|constructor; auto]. cbn [lines_for flat_map]. fold (lines_for d). cbn [fst snd] in *.
  rewrite (parse_lines_app _ _ _ P), IH1. reflexivity.
Qed.
Lemma lines_for_nl d : Forall (fun q => value_ok (fst q) (snd q)) d -> Forall no_nl (lines_for d).
Proof. induction 1 as [|[x v] d (H1 & _) _ IH]; [constructor|]. cbn [lines_for flat_map]. apply Forall_app. split; assumption. Qed.
Lemma lines_for_tail d : Forall (fun q => value_ok (fst q) (snd q)) d -> tail_ok (lines_for d).
Proof. induction 1 as [|[x v] d (_ & H1 & _) _ IH]; [exact I|]. cbn [lines_for flat_map]. apply tail_ok_app; assumption. Qed.

Lemma brought_ok it : item_ok it -> Forall (fun q => value_ok (fst q) (snd q)) (brought it).
Proof. intros (_ & _ & Hv & _). apply Forall_forall. intros [x v] H. now apply Hv. Qed.
Lemma missing_ok it al : item_ok it -> Forall (fun q => value_ok (fst q) (snd q)) (missing it al).
Proof.
  intro H. apply brought_ok in H. rewrite Forall_forall in *. intros q Hq. apply H. now apply filter_In in Hq.
Qed.

Lemma map_SAssign_assigns es : assigns_of (map SAssign es) = Ok es.
Proof. induction es as [|a es IH]; [reflexivity|]. cbn [map assigns_of]. now rewrite IH. Qed.
Lemma map_SAssign_imports es : imports_of (map SAssign es) = Ok [].
Proof. induction es as [|a es IH]; [reflexivity|]. exact IH. Qed.

(* ------------------------------------------------------------------ *)
(** * The selector *)


Lemma missing_begin_cases it al : item_ok it ->
  missing_begin it al = [selector_assign] \/ missing_begin it al = [].
Proof.
  intros (_ & _ & _ & _ & H). unfold missing_begin. destruct H as [-> | [-> _]]; [|now right]. cbn [filter].
  destruct (negb _); auto.
Qed.
Lemma begin_text it al : item_ok it ->
  print_wassigns (map (fun q => WText (fst q) (snd q)) (missing_begin it al)) = join nl (map snd (missing_begin it al)) /\
  (map snd (missing_begin it al) = [] \/ join nl (map snd (missing_begin it al)) <> "").
Proof. intro H. destruct (missing_begin_cases it al H) as [-> | ->]; (split; [reflexivity|]); [right; discriminate|now left]. Qed.

Lemma parse_begin it al : item_ok it -> exists es, parse_lines (map snd (missing_begin it al)) = Ok (map SAssign es) /\
  es = map (fun _ => selector_asgn) (missing_begin it al).
Proof. intro H. destruct (missing_begin_cases it al H) as [-> | ->]; eexists; (split; [|reflexivity]); vm_compute; reflexivity. Qed.

(* ------------------------------------------------------------------ *)
(** * Defaults *)

Definition plain (a : asgn) : Prop := exists d, default_of a = Ok d.

Lemma default_dict_plain al : forall acc d, default_dict acc al = Ok d -> Forall plain al.
Proof.
  induction al as [|a al IH]; intros acc d H; [constructor|]. cbn [default_dict] in H. destruct (default_of a) as [e|] eqn:E; [|discriminate].
  constructor; [eexists; exact E|]. now apply IH in H.
Qed.
Lemma plain_default_dict al : Forall plain al -> forall acc, exists d, default_dict acc al = Ok d.
Proof.
  induction 1 as [|a al [e E] _ IH]; intro acc; [eexists; reflexivity|]. cbn [default_dict]. rewrite E. apply IH.
Qed.
Lemma default_dict_app a : forall b acc d1, default_dict acc a = Ok d1 -> default_dict acc (a ++ b) = default_dict d1 b.
Proof.
  induction a as [|x a IH]; intros b acc d1 H; cbn [app default_dict] in *; [now injection H as <-|].
  destruct (default_of x); [|discriminate]. now apply IH.
Qed.

Lemma default_of_shape a e : default_of a = Ok e -> (exists x, varname a = Some x /\ e = [(x, a_value a)]) \/ varname a = None /\ e = [].
Proof.
  unfold default_of, varname. destruct (a_target a) as [x| |]; [|destruct (a_ann a)|]; intros [= <-]; eauto.
Qed.

Lemma default_dict_other al x : contains_varname al x = false -> forall acc d, default_dict acc al = Ok d -> dget x d = dget x acc.
Proof.
  induction al as [|a al IH]; intros H acc d E; cbn [default_dict] in E; [now injection E as <-|].
  cbn [contains_varname existsb] in H. apply orb_false_iff in H as [H1 H2]. fold (contains_varname al x) in H2.
  destruct (default_of a) as [e|] eqn:Ea; [|discriminate]. rewrite (IH H2 _ _ E). destruct (default_of_shape a e Ea) as [(y & Hy & ->) | [_ ->]].
  - rewrite Hy in H1. cbn. apply dget_dset_neq. intros ->. now rewrite String.eqb_refl in H1.
  - reflexivity.
Qed.
Lemma default_dict_same al x : contains_varname al x = true -> forall acc acc' d d', default_dict acc al = Ok d -> default_dict acc' al = Ok d' ->
  dget x d = dget x d'.
Proof.
  induction al as [|a al IH]; intros H acc acc' d d' E E'; [discriminate|]. cbn [default_dict] in E, E'.
  destruct (default_of a) as [e|] eqn:Ea; [|discriminate]. cbn [contains_varname existsb] in H. fold (contains_varname al x) in H.
  destruct (contains_varname al x) eqn:C; [now apply (IH eq_refl _ _ _ _ E E')|]. rewrite orb_false_r in H.
  rewrite (default_dict_other al x C _ _ E), (default_dict_other al x C _ _ E').
  destruct (default_of_shape a e Ea) as [(y & Hy & ->) | [Hn _]]; [|rewrite Hn in H; discriminate].
  rewrite Hy in H. apply String.eqb_eq in H. subst y. cbn. now rewrite !dget_dset_eq.
Qed.

Lemma contains_varname_app a b x : contains_varname (a ++ b) x = contains_varname a x || contains_varname b x.
Proof. apply existsb_app. Qed.

Lemma contains_varname_values (d : dict value) es x :
  Forall2 (fun q a => parse_lines (assign_lines (fst q) (snd q)) = Ok [SAssign a] /\ a_target a = TgName (fst q)) d es ->
  contains_varname es x = dmem x d.
Proof.
  induction 1 as [|[y v] a d es [_ T] _ IH]; [reflexivity|]. cbn [contains_varname existsb]. fold (contains_varname es x). rewrite IH.
  unfold varname. cbn [fst] in T. rewrite T. unfold dmem. cbn [dget]. rewrite String.eqb_sym. now destruct (String.eqb x y).
Qed.
Lemma values_plain (d : dict value) es :
  Forall2 (fun q a => parse_lines (assign_lines (fst q) (snd q)) = Ok [SAssign a] /\ a_target a = TgName (fst q)) d es -> Forall plain es.
Proof. induction 1 as [|q a d es [_ T] _ IH]; constructor; auto. unfold plain, default_of. rewrite T. eauto. Qed.

(* ------------------------------------------------------------------ *)
(** * Reading what was written *)

(** the lines of the settings after writing *)
Definition out_body (bl body : list string) (new : dict value) : list string :=
  match new with [] => drop_last_empty (bl ++ body) | _ => bl ++ body ++ lines_for new end.

Definition first_ok (b : list string) : Prop := match b with [] => True | l :: _ => header_line l = false end.

Lemma first_ok_drop b : first_ok b -> first_ok (drop_last_empty b) /\ (b <> [] -> drop_last_empty b <> []).
Proof.
  intro H. destruct (drop_last_empty_cases b) as [(m & -> & ->) | [-> _]]; [|auto]. destruct m as [|l m]; [vm_compute in H; discriminate|].
  split; [exact H|discriminate].
Qed.

Lemma out_lines_split is bl body new :
  Forall imp_ok is -> Forall no_nl bl -> Forall no_nl body -> Forall no_nl (lines_for new) -> first_ok (bl ++ body ++ lines_for new) ->
  let out := join nl (out_lines is bl body new) in
  lines_of out = (import_lines is ++ (match bl ++ body ++ lines_for new with [] => [] | _ => [""] end)) ++ out_body bl body new /\
  split_lines (lines_of out) = (import_lines is ++ (match bl ++ body ++ lines_for new with [] => [] | _ => [""] end), out_body bl body new).
Proof.
  intros Hi Hbl Hb Hn Hf out.
  assert (L : lines_of out = (import_lines is ++ (match bl ++ body ++ lines_for new with [] => [] | _ => [""] end)) ++ out_body bl body new).
  { unfold out. rewrite lines_of_join.
    - unfold out_lines, out_body, tail_lines. destruct new as [|q new].
      + cbn [lines_for flat_map] in *. rewrite !app_nil_r in *. destruct (bl ++ body) as [|l ls] eqn:E.
        * rewrite app_nil_r, drop_last_empty_app by discriminate. cbn. now rewrite !app_nil_r.
        * rewrite drop_last_empty_app by discriminate. reflexivity.
      + destruct (bl ++ body ++ lines_for (q :: new)) as [|l ls] eqn:E.
        * apply app_eq_nil in E as [_ E]. apply app_eq_nil in E as [_ E]. apply lines_for_nil in E. discriminate.
        * rewrite <- E. rewrite !app_assoc. rewrite drop_last_empty_snoc. now rewrite <- !app_assoc.
    - unfold out_lines. pose proof (import_lines_ne is) as N. destruct (import_lines is); [easy|discriminate].
    - unfold out_lines. rewrite !Forall_app. split; [split; [now apply import_lines_nl|repeat constructor]|].
      split; [exact Hbl|]. split; [exact Hb|]. unfold tail_lines. destruct new; [constructor|]. apply Forall_app. split; [exact Hn|repeat constructor]. }
  split; [exact L|]. rewrite L. apply split_lines_eq.
  - apply Forall_app. split; [apply import_lines_header|]. destruct (bl ++ body ++ lines_for new); [constructor|repeat constructor].
  - change (first_ok (out_body bl body new)). unfold out_body. destruct new as [|q new].
    + cbn [lines_for flat_map] in Hf. rewrite !app_nil_r in Hf. now apply first_ok_drop.
    + exact Hf.
Qed.

Lemma first_ok_app a b : first_ok a -> first_ok b -> first_ok (a ++ b).
Proof. destruct a; auto. Qed.

(** the first line of the settings written never counts as an import line *)
Lemma out_first_ok it f bst bi : item_ok it -> body_facts f bst bi ->
  first_ok (map snd (missing_begin it (l_assigns f)) ++ l_body f ++ lines_for (missing it (l_assigns f))).
Proof.
  intros Hit F. destruct (missing_begin_cases it (l_assigns f) Hit) as [E | E]; rewrite E; [reflexivity|]. cbn [map app].
  pose proof (bf_first _ _ _ F) as Hf. fold (first_ok (l_body f)) in Hf. destruct (l_body f) as [|l b] eqn:Eb; [|exact Hf]. cbn [app].
  assert (Al : l_assigns f = []).
  { pose proof (bf_parse _ _ _ F) as P. rewrite Eb in P. cbn in P. injection P as P. pose proof (bf_assigns _ _ _ F) as A. rewrite <- P in A. cbn in A. congruence. }
  pose proof Hit as (_ & _ & _ & _ & [Hs | [Hs Hc]]).
  - exfalso. unfold missing_begin in E. rewrite Hs, Al in E. discriminate.
  - pose proof (missing_ok it (l_assigns f) Hit) as Hv. destruct (missing it (l_assigns f)) as [|[x v] m] eqn:Em; [exact I|].
    cbn [lines_for flat_map fst snd]. inversion Hv as [|? ? Hv1 _]; subst. cbn [fst snd] in Hv1. pose proof (parse_assign_lines_blank x v Hv1) as Hw.
    assert (Hin : In (x, v) (brought it)).
    { assert (K : In (x, v) (missing it (l_assigns f))) by (rewrite Em; now left). unfold missing, dfilter in K. now apply filter_In in K. }
    specialize (Hc x v Hin). destruct (assign_lines x v) as [|l r] eqn:Ea; [now apply assign_lines_ne in Ea|]. cbn [app first_ok hd] in *.
    unfold header_line. now rewrite Hc, Hw.
Qed.

(** The file after writing. *)
Lemma reading_after it f bst bi :
  item_ok it -> body_facts f bst bi -> tail_ok (l_body f) -> Forall imp_ok (l_imports f) ->
  let is := combine_imports (l_imports f) (item_imports it) in
  let bl := map snd (missing_begin it (l_assigns f)) in
  let new := missing it (l_assigns f) in
  let out := join nl (out_lines is bl (l_body f) new) in
  exists f' bst' es,
    load_file out = Ok f' /\ body_facts f' bst' bi /\ tail_ok (l_body f') /\
    l_imports f' = map normal is ++ bi /\
    l_assigns f' = map (fun _ => selector_asgn) (missing_begin it (l_assigns f)) ++ l_assigns f ++ es /\
    Forall2 (fun q a => parse_lines (assign_lines (fst q) (snd q)) = Ok [SAssign a] /\ a_target a = TgName (fst q)) new es /\
    l_body f' = out_body bl (l_body f) new /\
    header out = import_lines is ++ (match bl ++ l_body f ++ lines_for new with [] => [] | _ => [""] end).
Proof.
  intros Hit F T Hi is bl new out. pose proof (combine_imports_ok it _ Hit Hi) as His. fold is in His.
  pose proof (out_first_ok it f bst bi Hit F) as Hf. fold bl new in Hf. pose proof (missing_ok it (l_assigns f) Hit) as Hv. fold new in Hv.
  assert (Nbl : Forall no_nl bl) by (unfold bl; destruct (missing_begin_cases it (l_assigns f) Hit) as [-> | ->]; repeat constructor).
  assert (Tbl : tail_ok bl) by (unfold bl; destruct (missing_begin_cases it (l_assigns f) Hit) as [-> | ->]; reflexivity).
  destruct (out_lines_split is bl (l_body f) new His Nbl (bf_nl _ _ _ F) (lines_for_nl new Hv) Hf) as [L S]. fold out in L, S.
  destruct (parse_lines_for new Hv) as (es & Pe & Fe). destruct (parse_begin it (l_assigns f) Hit) as (bs & Pb & Ebs). fold bl in Pb.
  (* the statements of the new settings *)
  assert (B : exists bst', parse_lines (out_body bl (l_body f) new) = Ok bst' /\ imports_of bst' = Ok bi /\ assigns_of bst' = Ok (bs ++ l_assigns f ++ es)).
  { assert (P1 : parse_lines (bl ++ l_body f) = Ok (map SAssign bs ++ bst)) by (rewrite (parse_lines_app _ _ _ Pb), (bf_parse _ _ _ F); reflexivity).
    assert (I1 : imports_of (map SAssign bs ++ bst) = Ok bi) by (apply (imports_of_app _ _ [] bi); [apply map_SAssign_imports|apply (bf_imports _ _ _ F)]).
    assert (A1 : assigns_of (map SAssign bs ++ bst) = Ok (bs ++ l_assigns f)) by (apply assigns_of_app; [apply map_SAssign_assigns|apply (bf_assigns _ _ _ F)]).
    unfold out_body. destruct new as [|q new'].
    - inversion Fe; subst es. rewrite app_nil_r. destruct (parse_drop_empty _ _ P1 (tail_ok_app _ _ Tbl T)) as (st' & P2 & [-> | E]); [eauto|].
      exists st'. split; [exact P2|]. rewrite E in I1, A1. apply imports_of_app_inv in I1 as (x & y & Ix & Iy & Exy). apply assigns_of_app_inv in A1 as (x2 & y2 & Ax & Ay & Exy2).
      cbn in Iy, Ay. injection Iy as <-. injection Ay as <-. rewrite app_nil_r in Exy, Exy2. subst x x2. auto.
    - exists ((map SAssign bs ++ bst) ++ map SAssign es). split; [rewrite app_assoc, (parse_lines_app _ _ _ P1), Pe; reflexivity|]. split.
      + rewrite <- (app_nil_r bi). apply imports_of_app; [exact I1|apply map_SAssign_imports].
      + rewrite app_assoc. apply assigns_of_app; [exact A1|apply map_SAssign_assigns]. }
  destruct B as (bst' & Pb' & Ib' & Ab').
  set (hl := match bl ++ l_body f ++ lines_for new with [] => [] | _ => [""] end) in *.
  assert (Ph : exists hs, parse_lines (import_lines is ++ hl) = Ok (import_stmts is ++ hs) /\ imports_of hs = Ok [] /\ assigns_of hs = Ok []).
  { pose proof (parse_import_lines is His) as Pi. unfold hl. destruct (bl ++ l_body f ++ lines_for new).
    - exists []. rewrite !app_nil_r. auto.
    - exists [SOther]. rewrite (parse_lines_app _ _ _ Pi). auto. }
  destruct Ph as (hs & Ph & Ih & Ah).
  assert (Po : parse out = Ok ((import_stmts is ++ hs) ++ bst')) by (unfold parse; rewrite L, (parse_lines_app _ _ _ Ph), Pb'; reflexivity).
  assert (Io : imports_of ((import_stmts is ++ hs) ++ bst') = Ok (map normal is ++ bi)).
  { apply imports_of_app; [|exact Ib']. rewrite <- (app_nil_r (map normal is)). apply imports_of_app; [apply import_stmts_imports|exact Ih]. }
  assert (Ao : assigns_of ((import_stmts is ++ hs) ++ bst') = Ok (bs ++ l_assigns f ++ es)).
  { apply (assigns_of_app _ _ []); [|exact Ab']. apply (assigns_of_app _ _ [] []); [apply import_stmts_assigns|exact Ah]. }
  assert (Pl : Forall plain (bs ++ l_assigns f ++ es)).
  { rewrite !Forall_app. split; [|split; [apply (default_dict_plain _ _ _ (bf_config _ _ _ F))|apply (values_plain _ _ Fe)]].
    subst bs. destruct (missing_begin_cases it (l_assigns f) Hit) as [-> | ->]; repeat constructor. eexists. reflexivity. }
  destruct (plain_default_dict _ Pl []) as (d' & D').
  exists (Loaded (map normal is ++ bi) (bs ++ l_assigns f ++ es) (out_body bl (l_body f) new) d'), bst', es. cbn [l_imports l_assigns l_body l_config].
  split; [unfold load_file; rewrite Po, Io, Ao, D', S; reflexivity|].
  assert (Hob : Forall no_nl (out_body bl (l_body f) new)).
  { unfold out_body. destruct new as [|q new'] eqn:En; [apply drop_last_empty_Forall, Forall_app; split; [exact Nbl|apply (bf_nl _ _ _ F)]|].
    rewrite !Forall_app. split; [exact Nbl|]. split; [apply (bf_nl _ _ _ F)|]. now apply lines_for_nl. }
  split.
  { constructor; cbn [l_imports l_assigns l_body l_config]; auto. pose proof (split_lines_body (lines_of out)) as K. rewrite S in K. exact K. }
  split.
  { unfold out_body. destruct new as [|q new'] eqn:En; [apply tail_ok_drop, tail_ok_app; assumption|]. apply tail_ok_app; [exact Tbl|]. apply tail_ok_app; [exact T|]. now apply lines_for_tail. }
  split; [reflexivity|]. split; [now rewrite Ebs|]. split; [exact Fe|]. split; [reflexivity|]. unfold header. now rewrite S.
Qed.
