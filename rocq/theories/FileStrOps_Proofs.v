(** Proofs about scaffolding config files: what is written, writing again, and the two kinds of collections. *)
From Verif Require Import PySource_Model PySource_Spec PySource_Proofs Imports_Proofs FileStr_Model FileStr_Spec FileStr_Proofs FileStrRead_Proofs.
Local Open Scope string_scope.
Local Open Scope list_scope.

(* ------------------------------------------------------------------ *)
(** * What is written *)

(** the text a file is rewritten with *)
Definition rewritten (it : item) (f : loaded) : string :=
  join nl (out_lines (combine_imports (l_imports f) (item_imports it)) (map snd (missing_begin it (l_assigns f))) (l_body f) (missing it (l_assigns f))).

Lemma first_ok_join b : first_ok b -> b = [] \/ join nl b <> "".
Proof.
  destruct b as [|l b]; intro H; [now left|]. right. destruct b as [|l2 b].
  - cbn [join]. intros ->. vm_compute in H. discriminate.
  - apply join_nil_iff_ne. discriminate.
Qed.

Lemma save_text_eq it f X :
  item_ok it -> first_ok (l_body f) -> (forall k, In k (dkeys X) -> contains_varname (l_assigns f) k = true) ->
  save_text it (dupdate (i_defaults it) X) f = rewritten it f.
Proof.
  intros Hit Hf HX. unfold save_text. fold (item_imports it). pose proof Hit as (W1 & W2 & _). destruct (begin_text it (l_assigns f) Hit) as [B1 B2].
  rewrite (file_str_lines f (item_imports it) (i_begin it) _ (map snd (missing_begin it (l_assigns f)))).
  - unfold rewritten. do 2 f_equal. exact (config_missing it (l_assigns f) X W1 W2 HX).
  - now apply first_ok_join.
  - exact B1.
  - exact B2.
Qed.

Lemma scaffold_eq astor it t f : item_ok it -> load_file t = Ok f -> scaffold astor it (Some t) = Ok (rewritten it f).
Proof.
  intros Hit H. unfold scaffold. rewrite H. f_equal. destruct (load_file_inv t f H) as (st & _ & _ & _ & C & B).
  apply save_text_eq; [exact Hit| |].
  - rewrite B. apply split_lines_body.
  - intros k Hk. rewrite astor_keys in Hk. now apply (default_dict_dmem _ _ k C).
Qed.
Lemma scaffold_new astor it : item_ok it -> scaffold astor it None = Ok (rewritten it not_existing).
Proof. intro Hit. unfold scaffold. f_equal. rewrite <- (dupdate_nil_r (i_defaults it)) at 1. apply save_text_eq; [exact Hit|exact I|intros k []]. Qed.

(* ------------------------------------------------------------------ *)
(** * Imports stay there *)

Lemma contained_mono p l l' : incl l l' -> contained p l = true -> contained p l' = true.
Proof. unfold contained. rewrite !existsb_exists. intros H (i & Hi & W). exists i. auto. Qed.
Lemma within_trans a b c : within a b = true -> within b c = true -> within a c = true.
Proof.
  rewrite !within_parts. intros (H1 & H2 & H3) (K1 & K2 & K3). split; [congruence|]. split; eapply incl_tran; eassumption.
Qed.
Lemma add_incl l p : incl l (add_if_missing l p).
Proof. rewrite add_if_missing_eq. destruct (contained _ _); [apply incl_refl|]. destruct (snd p); [apply incl_tl, incl_refl|apply incl_appl, incl_refl]. Qed.
Lemma fold_add_incl new : forall l, incl l (fold_left add_if_missing new l).
Proof. induction new as [|p new IH]; intro l; [apply incl_refl|]. cbn [fold_left]. eapply incl_tran; [apply add_incl|apply IH]. Qed.
Lemma add_contained l p : contained (fst p) (map fst (add_if_missing l p)) = true.
Proof.
  rewrite add_if_missing_eq. destruct (contained (fst p) (map fst l)) eqn:E; [exact E|]. unfold contained. apply existsb_exists.
  exists (fst p). split; [|apply within_refl]. destruct (snd p); [now left|]. rewrite map_app. apply in_app_iff. right. now left.
Qed.
Lemma fold_add_contained new : forall l p, In p new -> contained (fst p) (map fst (fold_left add_if_missing new l)) = true.
Proof.
  induction new as [|q new IH]; intros l p []; cbn [fold_left]; [subst|now apply IH].
  eapply contained_mono; [|apply (add_contained l p)]. apply incl_map, fold_add_incl.
Qed.
Lemma fold_add_noop new : forall l, (forall p, In p new -> contained (fst p) (map fst l) = true) -> fold_left add_if_missing new l = l.
Proof.
  induction new as [|p new IH]; intros l H; [reflexivity|]. cbn [fold_left]. rewrite add_if_missing_eq, (H p) by now left. apply IH. intros q Hq. apply H. now right.
Qed.

Lemma map_fst_flag (l : list imp) (b : bool) : map fst (map (fun i => (i, b)) l) = l.
Proof. rewrite map_map. apply map_id. Qed.

Lemma combine_contains existing new (p : pimp) : In p new -> contained (fst p) (combine_imports existing new) = true.
Proof. apply fold_add_contained. Qed.
Lemma combine_noop existing new : (forall p, In p new -> contained (fst p) existing = true) -> combine_imports existing new = existing.
Proof. intro H. unfold combine_imports. rewrite fold_add_noop; [apply map_fst_flag|]. intros p Hp. rewrite map_fst_flag. now apply H. Qed.

(** specific classes: the imports of the file are part of those of the config *)
Section ClassImports.
Variable ex : list imp.
Let out (p : pimp) : bool := negb (contained (fst p) ex).

Lemma fold_add_skip new : forall l, incl ex (map fst l) -> fold_left add_if_missing new l = fold_left add_if_missing (filter out new) l.
Proof.
  induction new as [|p new IH]; intros l H; [reflexivity|]. cbn [fold_left filter]. unfold out at 1. destruct (contained (fst p) ex) eqn:E; cbn [negb].
  - rewrite add_if_missing_eq, (contained_mono _ ex (map fst l) H E). now apply IH.
  - cbn [fold_left]. apply IH. eapply incl_tran; [exact H|]. apply incl_map, add_incl.
Qed.

Lemma contained_out X Y (p : pimp) : filter out X = filter out Y -> contained (fst p) ex = false ->
  contained (fst p) (map fst X) = true -> contained (fst p) (map fst Y) = true.
Proof.
  intros E N H. unfold contained in H |- *. apply existsb_exists in H as (i & Hi & W). apply in_map_iff in Hi as (q & <- & Hq).
  assert (O : out q = true).
  { unfold out. destruct (contained (fst q) ex) eqn:C; [|reflexivity]. exfalso. apply existsb_exists in C as (e & He & We).
    assert (contained (fst p) ex = true); [|congruence]. apply existsb_exists. exists e. split; [exact He|]. now apply (within_trans _ (fst q)). }
  apply existsb_exists. exists (fst q). split; [|exact W]. apply in_map. assert (K : In q (filter out X)) by (apply filter_In; auto).
  rewrite E in K. now apply filter_In in K.
Qed.

Lemma fold_add_out always : forall X Y, incl ex (map fst X) -> filter out X = filter out Y ->
  filter out (fold_left add_if_missing always X) = filter out (fold_left add_if_missing always Y).
Proof.
  induction always as [|p always IH]; intros X Y HX E; [exact E|]. cbn [fold_left]. apply IH.
  - eapply incl_tran; [exact HX|]. apply incl_map, add_incl.
  - rewrite !add_if_missing_eq. destruct (contained (fst p) ex) eqn:C.
    + rewrite (contained_mono _ ex (map fst X) HX C). assert (O : out p = false) by (unfold out; now rewrite C).
      destruct (contained (fst p) (map fst Y)); [exact E|]. destruct (snd p); [cbn [filter]|rewrite filter_app; cbn [filter]]; rewrite O; rewrite ?app_nil_r; exact E.
    + assert (EC : contained (fst p) (map fst X) = contained (fst p) (map fst Y)).
      { apply eq_iff_eq_true. split; [now apply (contained_out X Y p)|now apply (contained_out Y X p)]. }
      rewrite EC. destruct (contained (fst p) (map fst Y)); [exact E|]. destruct (snd p); [cbn [filter]; now rewrite E|]. now rewrite !filter_app, E.
Qed.

Lemma class_imports always sig :
  combine_imports ex (fold_left add_if_missing always (map (fun i => (i, false)) ex ++ sig)) = combine_imports ex (fold_left add_if_missing always sig).
Proof.
  unfold combine_imports. f_equal. rewrite (fold_add_skip (fold_left add_if_missing always (map (fun i => (i, false)) ex ++ sig))) by (rewrite map_fst_flag; apply incl_refl).
  rewrite (fold_add_skip (fold_left add_if_missing always sig)) by (rewrite map_fst_flag; apply incl_refl). f_equal. apply fold_add_out.
  - rewrite map_app, map_fst_flag. apply incl_appl, incl_refl.
  - assert (Z : filter out (map (fun i => (i, false)) ex) = []); [|rewrite filter_app; exact (f_equal (fun z => z ++ filter out sig) Z)]. apply filter_none.
    intros p Hp. apply in_map_iff in Hp as (i & <- & Hi). unfold out. cbn [fst]. apply negb_false_iff. unfold contained. apply existsb_exists.
    exists i. split; [exact Hi|apply within_refl].
Qed.
End ClassImports.


Lemma file_str_imports f a b begin other : combine_imports (l_imports f) a = combine_imports (l_imports f) b ->
  file_str f a begin other = file_str f b begin other.
Proof. intro H. unfold file_str. now rewrite H. Qed.

Lemma scaffold_class_eq astor it k v c : item_ok (with_name it k v) -> scaffold_class it k v c = scaffold astor (with_name it k v) c.
Proof.
  intro Hit. destruct c as [t|]; [|reflexivity]. destruct (load_file t) as [f|e] eqn:E; [|unfold scaffold_class, scaffold; now rewrite E].
  rewrite (scaffold_eq astor _ t f Hit E). unfold scaffold_class. rewrite E. f_equal.
  destruct (load_file_inv t f E) as (_ & _ & _ & _ & _ & B).
  rewrite <- (save_text_eq (with_name it k v) f []); [|exact Hit|rewrite B; apply split_lines_body|intros q []].
  rewrite dupdate_nil_r. unfold save_text, with_name. cbn [i_imports i_defaults i_always_imports i_begin i_end].
  apply file_str_imports. apply class_imports.
Qed.

(* ------------------------------------------------------------------ *)
(** * Rewriting again *)

(** nothing to add *)
Definition complete (it : item) (f : loaded) : Prop :=
  missing it (l_assigns f) = [] /\ missing_begin it (l_assigns f) = [] /\
  (forall p, In p (item_imports it) -> contained (fst p) (l_imports f) = true) /\
  (forall i, In i (l_imports f) -> normal i = i).

Lemma map_normal_id l : (forall i, In i l -> normal i = i) -> map normal l = l.
Proof. induction l as [|i l IH]; intro H; [reflexivity|]. cbn [map]. rewrite (H i) by now left. f_equal. apply IH. intros j Hj. apply H. now right. Qed.

Lemma combine_survive existing new : (forall i, In i existing -> normal i = i) -> (forall p : pimp, In p new -> normal (fst p) = fst p) ->
  forall i, In i (combine_imports existing new) -> normal i = i.
Proof. intros H1 H2 i Hi. apply combine_imports_from in Hi as [Hi|Hi]; [now apply H1|]. apply in_map_iff in Hi as (p & <- & Hp). now apply H2. Qed.


Lemma survive_item_imports it : survive (imports_brought it) -> forall p, In p (item_imports it) -> normal (fst p) = fst p.
Proof. intros H p Hp. apply H. unfold imports_brought. apply in_map. apply in_app_iff. apply item_imports_from in Hp. tauto. Qed.

Lemma complete_after it f f' bst bi es :
  item_ok it -> body_facts f bst bi -> survive (l_imports f) -> survive (imports_brought it) -> survive bi ->
  l_imports f' = map normal (combine_imports (l_imports f) (item_imports it)) ++ bi ->
  l_assigns f' = map (fun _ => selector_asgn) (missing_begin it (l_assigns f)) ++ l_assigns f ++ es ->
  Forall2 (fun q a => parse_lines (assign_lines (fst q) (snd q)) = Ok [SAssign a] /\ a_target a = TgName (fst q)) (missing it (l_assigns f)) es ->
  complete it f'.
Proof.
  intros Hit F S1 S2 S3 Ei Ea Fe.
  assert (Sc : survive (combine_imports (l_imports f) (item_imports it))) by (intros i Hi; apply (combine_survive (l_imports f) (item_imports it) S1 (survive_item_imports it S2) i Hi)).
  rewrite (map_normal_id _ Sc) in Ei. split; [|split; [|split]].
  - unfold missing at 1, dfilter. apply filter_none. intros [x v] Hx. cbn [fst]. apply negb_false_iff. rewrite Ea, !contains_varname_app.
    rewrite (contains_varname_values (missing it (l_assigns f)) es x Fe). destruct (contains_varname (l_assigns f) x) eqn:C; [now rewrite orb_true_r|].
    assert (M : dmem x (missing it (l_assigns f)) = true).
    { apply dmem_In. unfold missing. apply In_dkeys_dfilter. split; [apply in_map_iff; exists (x, v); auto|]. now rewrite C. }
    rewrite M. now rewrite !orb_true_r.
  - unfold missing_begin at 1. apply filter_none. intros [x v] Hx. cbn [fst]. apply negb_false_iff. rewrite Ea, !contains_varname_app.
    destruct (contains_varname (l_assigns f) x) eqn:C; [now rewrite orb_true_r|].
    destruct Hit as (_ & _ & _ & _ & [Hb | [Hb _]]); [|rewrite Hb in Hx; destruct Hx]. unfold missing_begin. rewrite Hb in Hx |- *. destruct Hx as [Hx|[]].
    injection Hx as <- <-. cbn [filter selector_assign fst]. rewrite C. reflexivity.
  - intros p Hp. rewrite Ei. eapply contained_mono; [|apply (combine_contains (l_imports f) (item_imports it) p Hp)]. apply incl_appl, incl_refl.
  - intros i Hi. rewrite Ei in Hi. apply in_app_iff in Hi as [Hi|Hi]; [now apply Sc|now apply S3].
Qed.

Lemma rewritten_complete it f : complete it f -> rewritten it f = join nl ((import_lines (l_imports f) ++ [""]) ++ l_body f).
Proof.
  intros (H1 & H2 & H3 & _). unfold rewritten. rewrite H1, H2, (combine_noop _ _ H3). unfold out_lines, tail_lines. cbn [map app]. now rewrite app_nil_r.
Qed.

(** one more rewriting of a file that is complete *)
Lemma complete_step astor it t f bst bi :
  item_ok it -> load_file t = Ok f -> body_facts f bst bi -> tail_ok (l_body f) -> survive bi -> complete it f ->
  exists t' f' bst', scaffold astor it (Some t) = Ok t' /\ t' = join nl ((import_lines (l_imports f) ++ [""]) ++ l_body f) /\
    load_file t' = Ok f' /\ body_facts f' bst' bi /\ tail_ok (l_body f') /\ complete it f' /\
    l_imports f' = l_imports f ++ bi /\ l_assigns f' = l_assigns f /\ l_body f' = drop_last_empty (l_body f).
Proof.
  intros Hit Hl F T S C. exists (rewritten it f). destruct (reading_after it f bst bi Hit F T (load_imports_ok t f Hl)) as (f' & bst' & es & L & F' & T' & Ei & Ea & Fe & Eb & _).
  fold (rewritten it f) in L. pose proof C as (C1 & C2 & C3 & C4). rewrite C1 in Fe. inversion Fe. subst es. rewrite (combine_noop _ _ C3), (map_normal_id _ C4) in Ei. rewrite C2 in Ea. cbn [map app] in Ea. rewrite app_nil_r in Ea.
  rewrite C1, C2 in Eb. cbn [map app out_body] in Eb.
  exists f', bst'. split; [now apply scaffold_eq|]. split; [now apply rewritten_complete|]. split; [exact L|]. split; [exact F'|]. split; [exact T'|]. split; [|auto].
  split; [now rewrite Ea|]. split; [now rewrite Ea|]. split.
  - intros p Hp. rewrite Ei. eapply contained_mono; [|apply (C3 p Hp)]. apply incl_appl, incl_refl.
  - intros i Hi. rewrite Ei in Hi. apply in_app_iff in Hi as [Hi|Hi]; auto.
Qed.

Fixpoint drops (n : nat) (l : list string) : list string := match n with O => l | S m => drops m (drop_last_empty l) end.

Lemma complete_again astor it n : forall t f bst bi,
  item_ok it -> load_file t = Ok f -> body_facts f bst bi -> tail_ok (l_body f) -> survive bi -> complete it f ->
  exists t' f', again astor it (S n) t = Ok t' /\ t' = join nl ((import_lines (l_imports f ++ copies n bi) ++ [""]) ++ drops n (l_body f)) /\
    load_file t' = Ok f' /\ l_imports f' = l_imports f ++ copies (S n) bi /\ l_assigns f' = l_assigns f.
Proof.
  induction n as [|n IH]; intros t f bst bi Hit Hl F T S C; destruct (complete_step astor it t f bst bi Hit Hl F T S C) as (t' & f' & bst' & E & Et & L & F' & T' & C' & Ei & Ea & Eb).
  - exists t', f'. cbn [again copies drops]. rewrite E. rewrite !app_nil_r. auto.
  - destruct (IH t' f' bst' bi Hit L F' T' S C') as (t2 & f2 & E2 & Et2 & L2 & Ei2 & Ea2). exists t2, f2. change (again astor it (Datatypes.S (Datatypes.S n)) t) with (match scaffold astor it (Some t) with Ok t0 => again astor it (Datatypes.S n) t0 | Raise e => Raise e end).
    rewrite E. split; [exact E2|]. rewrite Ei, Eb in Et2. cbn [copies drops]. rewrite Ei, <- app_assoc in Ei2. rewrite <- (app_assoc (l_imports f)) in Et2. split; [exact Et2|]. split; [exact L2|]. split; [exact Ei2|congruence].
Qed.

(* ------------------------------------------------------------------ *)
(** * One newline less *)

Lemma endswith_snoc_nl s : endswith (s ++ nl) nl = true.
Proof. apply endswith_iff. exists s. reflexivity. Qed.
Lemma chop_snoc s : chop (s ++ nl) = s.
Proof. unfold chop. rewrite endswith_snoc_nl. apply (drop_last_app s nl). Qed.

Lemma join_snoc_empty l : l <> [] -> join nl (l ++ [""]) = (join nl l ++ nl)%string.
Proof. intro N. rewrite join_app by (auto; discriminate). cbn [join]. now rewrite app_nil_r_s. Qed.

Lemma join_last_nonempty l x : x <> "" -> has_char nl_c x = false -> endswith (join nl (l ++ [x])) nl = false.
Proof.
  intros N H. destruct (endswith (join nl (l ++ [x])) nl) eqn:E; [|reflexivity]. exfalso. apply endswith_iff in E as [r E].
  assert (X : exists r', x = (r' ++ nl)%string).
  { destruct l as [|y l]; [cbn in E; eauto|]. rewrite join_app in E by (try discriminate; destruct l; discriminate). change (join nl [x]) with x in E.
    revert E. generalize (join nl (y :: l)) as s. intros s E. rewrite <- app_assoc_s in E. set (p := (s ++ nl)%string) in E. clearbody p. clear - E N.
    revert r E. induction p as [|c p IH]; intros r E; [cbn in E; eauto|]. destruct r as [|d r]; cbn [append] in E.
    - exfalso. injection E as _ E. destruct p; [cbn in E; contradiction|discriminate].
    - injection E as _ E. now apply (IH r). }
  destruct X as [r' ->]. rewrite has_char_app in H. apply orb_false_iff in H as [_ H]. discriminate.
Qed.

Lemma chop_join a b : b <> [] -> b <> [""] -> Forall no_nl b -> chop (join nl (a ++ b)) = join nl (a ++ drop_last_empty b).
Proof.
  intros N N1 H. destruct (drop_last_empty_cases b) as [(m & -> & ->) | [-> K]].
  - assert (M : m <> []) by (intros ->; now apply N1). rewrite app_assoc, join_snoc_empty by (destruct a; [exact M|discriminate]). apply chop_snoc.
  - destruct b as [|x b] using rev_ind; [easy|]. clear IHb. rewrite app_assoc. unfold chop. rewrite join_last_nonempty; [reflexivity| |].
    + intros ->. now apply (K b).
    + apply Forall_app in H as [_ H]. now inversion H.
Qed.


Lemma chops_join n : forall a b, first_ok b -> b <> [] -> Forall no_nl b -> chops n (join nl (a ++ b)) = join nl (a ++ drops n b).
Proof.
  induction n as [|n IH]; intros a b Hf N H; [reflexivity|]. cbn [chops drops]. destruct (first_ok_drop b Hf) as [Hf' N'].
  rewrite chop_join; [|exact N|intros ->; vm_compute in Hf; discriminate|exact H].
  apply IH; [exact Hf'|now apply N'|now apply drop_last_empty_Forall].
Qed.
Lemma drops_nil n : drops n [] = [].
Proof. induction n; auto. Qed.

(* ------------------------------------------------------------------ *)
(** * From the first writing on *)

(** a file as it is, or none *)
Definition start (c : option string) (f : loaded) : Prop :=
  match c with Some t => supported t f | None => f = not_existing end.
Definition below (f : loaded) (bi : list imp) : Prop := exists bst, parse_lines (l_body f) = Ok bst /\ imports_of bst = Ok bi.

Lemma start_facts c f : start c f -> exists bst bi, body_facts f bst bi /\ tail_ok (l_body f) /\ Forall imp_ok (l_imports f) /\ below f bi.
Proof.
  destruct c as [t|]; cbn [start].
  - intros (L & H & T). destruct (load_body_facts t f L H) as (bst & bi & F & P). exists bst, bi. split; [exact F|].
    destruct (load_file_inv t f L) as (_ & _ & _ & _ & _ & B). split; [now rewrite B|]. split; [now apply (load_imports_ok t)|].
    exists bst. split; [apply (bf_parse _ _ _ F)|apply (bf_imports _ _ _ F)].
  - intros ->. exists [], []. split; [apply not_existing_facts|]. split; [exact I|]. split; [constructor|]. exists []. auto.
Qed.
Lemma below_unique f bi bi' : below f bi -> below f bi' -> bi = bi'.
Proof. intros (a & Ha & Ia) (b & Hb & Ib). congruence. Qed.

Lemma start_scaffold astor it c f : item_ok it -> start c f -> scaffold astor it c = Ok (rewritten it f).
Proof. intros Hit H. destruct c as [t|]; cbn [start] in H; [apply scaffold_eq; [exact Hit|apply H]|subst; now apply scaffold_new]. Qed.

Lemma start_reading it c f : item_ok it -> start c f -> exists f' bst' bi es,
  load_file (rewritten it f) = Ok f' /\ body_facts f' bst' bi /\ below f bi /\ tail_ok (l_body f') /\
  l_imports f' = map normal (combine_imports (l_imports f) (item_imports it)) ++ bi /\
  l_assigns f' = map (fun _ => selector_asgn) (missing_begin it (l_assigns f)) ++ l_assigns f ++ es /\
  read_from (missing it (l_assigns f)) es /\
  l_body f' = out_body (map snd (missing_begin it (l_assigns f))) (l_body f) (missing it (l_assigns f)) /\
  (forall x, contains_varname (l_assigns f) x = true -> dget x (l_config f') = dget x (l_config f)) /\
  (survive (l_imports f) -> survive (imports_brought it) -> survive bi -> complete it f').
Proof.
  intros Hit H. destruct (start_facts c f H) as (bst & bi & F & T & Hi & Hb).
  destruct (reading_after it f bst bi Hit F T Hi) as (f' & bst' & es & L & F' & T' & Ei & Ea & Fe & Eb & _). fold (rewritten it f) in L.
  exists f', bst', bi, es. split; [exact L|]. split; [exact F'|]. split; [exact Hb|]. split; [exact T'|]. split; [exact Ei|]. split; [exact Ea|]. split; [exact Fe|]. split; [exact Eb|]. split.
  - intros x Hx. pose proof (bf_config _ _ _ F') as D'. pose proof (bf_config _ _ _ F) as D. rewrite Ea in D'.
    assert (Es : contains_varname es x = false).
    { rewrite (contains_varname_values _ _ x Fe). apply dmem_false. unfold missing. rewrite In_dkeys_dfilter, Hx. intros [_ K]. discriminate. }
    set (bs := map (fun _ => selector_asgn) (missing_begin it (l_assigns f))) in *.
    assert (Pb : Forall plain bs) by (unfold bs; destruct (missing_begin_cases it (l_assigns f) Hit) as [-> | ->]; repeat constructor; eexists; reflexivity).
    destruct (plain_default_dict bs Pb []) as (d1 & D1). rewrite (default_dict_app bs _ _ _ D1) in D'.
    destruct (plain_default_dict (l_assigns f) (default_dict_plain _ _ _ D) d1) as (d2 & D2). rewrite (default_dict_app _ es _ _ D2) in D'.
    rewrite (default_dict_other es x Es _ _ D'). now apply (default_dict_same (l_assigns f) x Hx d1 [] d2 (l_config f)).
  - intros S1 S2 S3. now apply (complete_after it f f' bst bi es).
Qed.

Lemma again_after astor it c f bi n : item_ok it -> start c f -> below f bi -> survive (l_imports f) -> survive (imports_brought it) -> survive bi ->
  exists t' f', again astor it n (rewritten it f) = Ok t' /\ load_file t' = Ok f' /\
    l_imports f' = combine_imports (l_imports f) (item_imports it) ++ copies (S n) bi.
Proof.
  intros Hit H Hb S1 S2 S3. destruct (start_reading it c f Hit H) as (f1 & bst1 & bi1 & es & L & F & Hb1 & T & Ei & Ea & Fe & Eb & _ & C).
  assert (bi1 = bi) by (now apply (below_unique f)). subst bi1. specialize (C S1 S2 S3).
  assert (Sc : survive (combine_imports (l_imports f) (item_imports it))) by (intros i Hi; apply (combine_survive _ _ S1 (survive_item_imports it S2) i Hi)).
  rewrite (map_normal_id _ Sc) in Ei. destruct n as [|n].
  - exists (rewritten it f), f1. cbn [again copies]. rewrite app_nil_r. auto.
  - destruct (complete_again astor it n _ _ _ _ Hit L F T S3 C) as (t' & f' & E & _ & L' & Ei' & _). exists t', f'. split; [exact E|]. split; [exact L'|].
    rewrite Ei', Ei, <- app_assoc. reflexivity.
Qed.

Lemma first_ok_ne b x : first_ok b -> b <> [] -> first_ok (b ++ x).
Proof. destruct b; [easy|]. auto. Qed.

Lemma copies_nil n : copies n [] = [].
Proof. induction n; auto. Qed.

Lemma again_chops astor it c f n : item_ok it -> start c f -> below f [] -> survive (l_imports f) -> survive (imports_brought it) ->
  again astor it n (rewritten it f) = Ok (match body (rewritten it f) with [] => rewritten it f | _ => chops n (rewritten it f) end).
Proof.
  intros Hit H Hb S1 S2. destruct (start_reading it c f Hit H) as (f1 & bst1 & bi1 & es & L & F & Hb1 & T & Ei & Ea & Fe & Eb & _ & C).
  assert (bi1 = []) by (now apply (below_unique f)). subst bi1. assert (S3 : survive []) by (intros i []). specialize (C S1 S2 S3).
  assert (Sc : survive (combine_imports (l_imports f) (item_imports it))) by (intros i Hi; apply (combine_survive _ _ S1 (survive_item_imports it S2) i Hi)).
  rewrite (map_normal_id _ Sc), app_nil_r in Ei. destruct (load_file_inv _ _ L) as (_ & _ & _ & _ & _ & B). rewrite <- B.
  destruct n as [|n]; [cbn; now destruct (l_body f1)|]. destruct (complete_again astor it n _ _ _ _ Hit L F T S3 C) as (t' & f' & E & Et & _). rewrite E. f_equal. rewrite Et. rewrite copies_nil, app_nil_r, Ei.
  destruct (start_facts c f H) as (bst & bi & F0 & _ & _ & _). pose proof (out_first_ok it f bst bi Hit F0) as Hf.
  set (is := combine_imports (l_imports f) (item_imports it)) in *. set (bl := map snd (missing_begin it (l_assigns f))) in *. set (new := missing it (l_assigns f)) in *.
  assert (Er : rewritten it f = join nl (out_lines is bl (l_body f) new)) by reflexivity. rewrite Er. unfold out_lines, tail_lines, out_body in *.
  assert (Nbl : Forall no_nl bl) by (unfold bl; destruct (missing_begin_cases it (l_assigns f) Hit) as [-> | ->]; repeat constructor).
  destruct new as [|q new'] eqn:En.
  - cbn [lines_for flat_map] in Hf. rewrite app_nil_r in Hf |- *. destruct (bl ++ l_body f) as [|l ls] eqn:Eq.
    + rewrite Eb. change (drop_last_empty []) with (@nil string). rewrite drops_nil. now rewrite app_nil_r.
    + destruct (first_ok_drop _ Hf) as [_ N]. specialize (N ltac:(discriminate)). destruct (l_body f1) as [|y ys] eqn:Ey; [rewrite <- Eb in N; contradiction|].
      rewrite chops_join; [cbn [drops]; now rewrite <- Eb|exact Hf|discriminate|]. rewrite <- Eq. apply Forall_app. split; [exact Nbl|apply (bf_nl _ _ _ F0)].
  - destruct (l_body f1) as [|y ys] eqn:Ey.
    { exfalso. symmetry in Eb. apply app_eq_nil in Eb as [_ K]. apply app_eq_nil in K as [_ K]. apply lines_for_nil in K. discriminate. }
    assert (N : bl ++ l_body f ++ lines_for (q :: new') <> []) by (rewrite <- Eb; discriminate).
    rewrite !(app_assoc bl), (app_assoc (bl ++ l_body f)). rewrite <- (app_assoc bl). rewrite chops_join.
    + cbn [drops]. rewrite drop_last_empty_snoc. now rewrite <- Eb.
    + apply first_ok_ne; assumption.
    + intro K. apply app_eq_nil in K as [_ K]. discriminate.
    + rewrite !Forall_app. split; [|repeat constructor]. split; [exact Nbl|]. split; [apply (bf_nl _ _ _ F0)|]. apply lines_for_nl. rewrite <- En. now apply missing_ok.
Qed.

Lemma chops_S n s : chops (S n) s = chop (chops n s).
Proof. revert s. induction n as [|n IH]; intro s; [reflexivity|]. cbn [chops] in *. now rewrite IH. Qed.
Lemma chop_shorter s : chop s = s \/ String.length (chop s) < String.length s.
Proof.
  unfold chop. destruct (endswith s nl) eqn:E; [|now left]. right. apply endswith_iff in E as [r ->]. pose proof (drop_last_app r nl) as K. change (String.length nl) with 1 in K. rewrite K, length_app_s. cbn. lia.
Qed.
Lemma chops_fix n : forall s, String.length s <= n -> chop (chops n s) = chops n s.
Proof.
  induction n as [|n IH]; intros s H.
  - destruct s; [reflexivity|cbn in H; lia].
  - cbn [chops]. destruct (chop_shorter s) as [E|E].
    + rewrite E. clear - E. assert (K : forall m, chops m s = s) by (induction m as [|m IHm]; [reflexivity|]; cbn [chops]; now rewrite E). now rewrite K.
    + apply IH. lia.
Qed.

Lemma chop_chop it c f : item_ok it -> start c f ->
  (l_body f <> [] -> last (l_body f) "" <> "") ->
  (forall x v, In (x, v) (brought it) -> last (assign_lines x v) "" <> "") ->
  chop (chop (rewritten it f)) = chop (rewritten it f).
Proof.
  intros Hit H Hl Hv. destruct (start_facts c f H) as (bst & bi & F0 & _ & _ & _).
  set (is := combine_imports (l_imports f) (item_imports it)) in *. set (bl := map snd (missing_begin it (l_assigns f))) in *. set (new := missing it (l_assigns f)) in *.
  assert (Er : rewritten it f = join nl (out_lines is bl (l_body f) new)) by reflexivity. rewrite Er.
  assert (NE : forall l, l <> [] -> last l "" <> "" -> Forall no_nl l -> forall a, chop (join nl (a ++ l)) = join nl (a ++ l)).
  { intros l N Hlast Hn a. destruct l as [|x l] using rev_ind; [easy|]. clear IHl. rewrite last_last in Hlast. unfold chop. rewrite app_assoc, join_last_nonempty; [reflexivity|exact Hlast|].
    apply Forall_app in Hn as [_ Hn]. now inversion Hn. }
  assert (Nbl : Forall no_nl bl) by (unfold bl; destruct (missing_begin_cases it (l_assigns f) Hit) as [-> | ->]; repeat constructor).
  unfold out_lines, tail_lines. destruct new as [|q new'] eqn:En.
  - rewrite app_nil_r. destruct (l_body f) as [|l ls] eqn:Eb.
    + rewrite app_nil_r. unfold bl. destruct (missing_begin_cases it (l_assigns f) Hit) as [-> | ->].
      * cbn [map]. now rewrite !(NE [snd selector_assign]) by (try discriminate; repeat constructor).
      * cbn [map]. rewrite app_nil_r. rewrite join_snoc_empty by apply import_lines_ne. rewrite chop_snoc.
        destruct is as [|i is'] eqn:Ei; [reflexivity|]. 
        assert (His : Forall imp_ok is) by (apply combine_imports_ok; [exact Hit|]; destruct (start_facts c f H) as (_ & _ & _ & _ & K & _); exact K).
        apply (NE (import_lines (i :: is'))) with (a := []); [discriminate| |apply import_lines_nl; rewrite <- Ei; exact His].
        cbn [import_lines]. destruct (map print_imp (i :: is')) as [|p ps] eqn:Ep using rev_ind; [discriminate|]. rewrite last_last.
        assert (K : In p (map print_imp (i :: is'))) by (rewrite Ep; apply in_app_iff; right; now left). apply in_map_iff in K as (j & <- & _). destruct j; discriminate.
    + assert (Q : forall s, chop s = s -> chop (chop s) = chop s) by (intros s Hs; now rewrite Hs). apply Q. rewrite app_assoc.
      apply NE; [discriminate|apply Hl; discriminate|]. rewrite <- Eb. apply (bf_nl _ _ _ F0).
  - rewrite !app_assoc. rewrite join_snoc_empty by (intro K; apply app_eq_nil in K as [_ K]; apply lines_for_nil in K; discriminate). rewrite chop_snoc.
    apply NE.
    + intro K. apply lines_for_nil in K. discriminate.
    + destruct (q :: new') as [|[x v] d] eqn:Eq using rev_ind; [discriminate|]. unfold lines_for. rewrite flat_map_app. cbn [flat_map fst snd]. rewrite app_nil_r.
      assert (Hin : In (x, v) (missing it (l_assigns f))) by (fold new; rewrite En; apply in_app_iff; right; now left).
      assert (Hin' : In (x, v) (brought it)) by (unfold missing, dfilter in Hin; now apply filter_In in Hin).
      specialize (Hv x v Hin'). destruct (assign_lines x v) as [|a r] eqn:Ea using rev_ind; [now apply assign_lines_ne in Ea|]. rewrite last_last in Hv. now rewrite app_assoc, last_last.
    + apply lines_for_nl. rewrite <- En. now apply missing_ok.
Qed.
