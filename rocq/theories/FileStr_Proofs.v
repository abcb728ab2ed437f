(** Proofs about writing config files: the text written, and reading it again. *)
From Verif Require Import PySource_Model PySource_Spec PySource_Proofs Imports_Proofs FileStr_Model FileStr_Spec.
Local Open Scope string_scope.
Local Open Scope list_scope.

(* ------------------------------------------------------------------ *)
(** * Lines *)

Notation no_nl := (fun l => has_char nl_c l = false).

Lemma nl_eq : nl = String nl_c "".
Proof. reflexivity. Qed.

Definition nonempty (s : string) : bool := negb (String.eqb s "").

Lemma join_nil_iff_ne s l : l <> [] -> join nl (s :: l) <> "".
Proof. intros N. rewrite join_cons_ne by exact N. destruct s; discriminate. Qed.

Lemma join_groups gs : Forall (fun g => g = [] \/ join nl g <> "") gs ->
  join nl (filter nonempty (map (join nl) gs)) = join nl (concat gs) /\
  (filter nonempty (map (join nl) gs) = [] <-> concat gs = []).
Proof.
  induction 1 as [|g gs H _ [IH1 IH2]]; [split; [reflexivity|tauto]|]. cbn [map filter concat].
  destruct H as [-> | H].
  - cbn [join]. cbn [app]. unfold nonempty at 1. cbn. auto.
  - assert (E : nonempty (join nl g) = true) by (unfold nonempty; apply negb_true_iff, String.eqb_neq; exact H). rewrite E.
    assert (G : g <> []) by (intros ->; now apply H).
    split.
    + destruct (concat gs) as [|c cs] eqn:C.
      * rewrite app_nil_r. rewrite (proj2 IH2 eq_refl). reflexivity.
      * assert (N : filter nonempty (map (join nl) gs) <> []) by (intro K; apply IH2 in K; discriminate).
        rewrite join_cons_ne by exact N. rewrite IH1. now rewrite join_app by (auto; discriminate).
    + split; [discriminate|]. intro K. apply app_eq_nil in K as [K _]. contradiction.
Qed.

Lemma unlines_join l : l <> [] -> unlines l = join nl (l ++ [""]).
Proof.
  induction l as [|x l IH]; intro N; [easy|]. cbn [unlines fold_right]. fold (unlines l). destruct l as [|y l].
  - reflexivity.
  - rewrite IH by discriminate. cbn [app]. rewrite join_cons. reflexivity.
Qed.
Lemma unlines_app a b : unlines (a ++ b) = (unlines a ++ unlines b)%string.
Proof. induction a as [|x a IH]; [reflexivity|]. cbn [app unlines fold_right]. fold (unlines (a ++ b)) (unlines a). rewrite IH. now rewrite !app_assoc_s. Qed.

Lemma split_lines_nl s : Forall no_nl (split nl_c s).
Proof. apply split_parts_no_sep. Qed.

Lemma drop_last_empty_cases l : (exists m, l = m ++ [""] /\ drop_last_empty l = m) \/ drop_last_empty l = l /\ (forall m, l <> m ++ [""]).
Proof.
  destruct l as [|x l] using rev_ind; [right; split; [reflexivity|]; intros m K; now destruct m|]. clear IHl.
  unfold drop_last_empty. rewrite rev_app_distr. cbn [rev app]. destruct x as [|c x].
  - left. exists l. split; [reflexivity|]. apply rev_involutive.
  - right. split; [reflexivity|]. intros m K. apply app_inj_tail in K as [_ K]. discriminate.
Qed.
Lemma drop_last_empty_snoc l : drop_last_empty (l ++ [""]) = l.
Proof. unfold drop_last_empty. rewrite rev_app_distr. cbn [rev app]. apply rev_involutive. Qed.
Lemma drop_last_empty_app a b : b <> [] -> drop_last_empty (a ++ b) = a ++ drop_last_empty b.
Proof.
  intro N. destruct (drop_last_empty_cases b) as [(m & -> & E) | [E H]].
  - rewrite E, app_assoc. apply drop_last_empty_snoc.
  - rewrite E. destruct (drop_last_empty_cases (a ++ b)) as [(m & K & _) | [K _]]; [|exact K]. exfalso.
    destruct b as [|x b] using rev_ind; [easy|]. rewrite app_assoc in K. apply app_inj_tail in K as [_ ->]. now apply (H b).
Qed.
Lemma drop_last_empty_Forall (P : string -> Prop) l : Forall P l -> Forall P (drop_last_empty l).
Proof. intro H. destruct (drop_last_empty_cases l) as [(m & -> & ->) | [-> _]]; [|exact H]. now apply Forall_app in H. Qed.

Lemma lines_of_no_nl t : Forall no_nl (lines_of t).
Proof. apply drop_last_empty_Forall, split_lines_nl. Qed.

Lemma lines_of_join ls : ls <> [] -> Forall no_nl ls -> lines_of (join nl ls) = drop_last_empty ls.
Proof. intros N H. unfold lines_of. now rewrite nl_eq, split_join by assumption. Qed.

Lemma split_lines_app ls : fst (split_lines ls) ++ snd (split_lines ls) = ls.
Proof. induction ls as [|l ls IH]; [reflexivity|]. cbn [split_lines]. destruct (_ || _); [|reflexivity]. destruct (split_lines ls). cbn in *. now rewrite IH. Qed.

Definition header_line (l : string) : bool := contains l "import" || is_whitespace_line l.

Lemma split_lines_header ls : Forall (fun l => header_line l = true) (fst (split_lines ls)).
Proof.
  induction ls as [|l ls IH]; [constructor|]. cbn [split_lines]. fold (header_line l). destruct (header_line l) eqn:E; [|constructor].
  destruct (split_lines ls). constructor; assumption.
Qed.
Lemma split_lines_body ls : match snd (split_lines ls) with [] => True | l :: _ => header_line l = false end.
Proof.
  induction ls as [|l ls IH]; [exact I|]. cbn [split_lines]. fold (header_line l). destruct (header_line l) eqn:E; [|exact E].
  destruct (split_lines ls). exact IH.
Qed.
Lemma split_lines_eq h b : Forall (fun l => header_line l = true) h -> match b with [] => True | l :: _ => header_line l = false end ->
  split_lines (h ++ b) = (h, b).
Proof.
  intros H Hb. induction H as [|l h Hl _ IH]; cbn [app split_lines].
  - destruct b as [|l b]; [reflexivity|]. cbn [split_lines]. fold (header_line l). now rewrite Hb.
  - fold (header_line l). now rewrite Hl, IH.
Qed.

Lemma body_app t : header t ++ body t = lines_of t.
Proof. apply split_lines_app. Qed.
Lemma body_no_nl t : Forall no_nl (body t).
Proof. pose proof (lines_of_no_nl t) as H. rewrite <- body_app in H. now apply Forall_app in H. Qed.

(* ------------------------------------------------------------------ *)
(** * The text written *)

Definition sel_line : string := "s = Selector()".

Lemma assign_lines_ne x v : assign_lines x v <> [].
Proof. unfold assign_lines. destruct (v_src v); discriminate. Qed.
Lemma lines_for_nil d : lines_for d = [] <-> d = [].
Proof.
  split; [|now intros ->]. destruct d as [|[x v] d]; [reflexivity|]. cbn. intro K. apply app_eq_nil in K as [K _]. now apply assign_lines_ne in K.
Qed.

Lemma print_wvalues d : print_wassigns (map (fun q => WValue (fst q) (snd q)) d) = unlines (lines_for d).
Proof.
  induction d as [|[x v] d IH]; [reflexivity|]. cbn [map print_wassigns fold_right]. fold (print_wassigns (map (fun q => WValue (fst q) (snd q)) d)).
  rewrite IH. cbn [lines_for flat_map fst snd print_wassign]. fold (lines_for d). now rewrite unlines_app.
Qed.

Lemma new_assigns_values al (d : dict value) :
  new_assigns al (map (fun q => WValue (fst q) (snd q)) d) = map (fun q => WValue (fst q) (snd q)) (dfilter (fun x => negb (contains_varname al x)) d).
Proof.
  unfold new_assigns, dfilter. induction d as [|[x v] d IH]; [reflexivity|]. cbn [map filter wname fst snd].
  destruct (contains_varname al x); cbn [negb]; cbn [map]; now rewrite IH.
Qed.
Lemma new_assigns_texts al (d : list (string * string)) :
  new_assigns al (map (fun q => WText (fst q) (snd q)) d) = map (fun q => WText (fst q) (snd q)) (filter (fun q => negb (contains_varname al (fst q))) d).
Proof.
  unfold new_assigns. induction d as [|[x v] d IH]; [reflexivity|]. cbn [map filter wname fst snd].
  destruct (contains_varname al x); cbn [negb]; cbn [map]; now rewrite IH.
Qed.


Definition begin_lines (l : list (string * string)) : list string := map snd l.

Lemma file_str_lines f imports (bg : list (string * string)) (config : dict value) bl :
  (l_body f = [] \/ join nl (l_body f) <> "") ->
  print_wassigns (map (fun q => WText (fst q) (snd q)) (filter (fun q => negb (contains_varname (l_assigns f) (fst q))) bg)) = join nl bl ->
  (bl = [] \/ join nl bl <> "") ->
  file_str f imports (map (fun q => WText (fst q) (snd q)) bg) (map (fun q => WValue (fst q) (snd q)) config) =
  join nl (out_lines (combine_imports (l_imports f) imports) bl (l_body f) (dfilter (fun x => negb (contains_varname (l_assigns f) x)) config)).
Proof.
  intros Hbody Hb Hb'. unfold file_str. rewrite new_assigns_texts, new_assigns_values, Hb, print_wvalues.
  set (new := dfilter (fun x => negb (contains_varname (l_assigns f) x)) config). set (is := combine_imports (l_imports f) imports).
  assert (E1 : (print_imports is ++ nl)%string = join nl (import_lines is ++ [""])).
  { assert (I : import_lines is <> []) by (destruct is; discriminate). rewrite join_app by (auto; discriminate). cbn [join]. rewrite app_nil_r_s.
    unfold print_imports, import_lines. now destruct is. }
  assert (E2 : unlines (lines_for new) = join nl (tail_lines new)).
  { unfold tail_lines. destruct new as [|q new]; [reflexivity|]. apply unlines_join. intro K. apply lines_for_nil in K. discriminate. }
  rewrite E1, E2. cbv zeta. change (fun s : string => negb (String.eqb s "")) with nonempty.
  change [join nl (import_lines is ++ [""]); join nl bl; join nl (l_body f); join nl (tail_lines new)]
    with (map (join nl) [import_lines is ++ [""]; bl; l_body f; tail_lines new]).
  rewrite (proj1 (join_groups [import_lines is ++ [""]; bl; l_body f; tail_lines new] ltac:(
    constructor; [right|constructor; [exact Hb'|constructor; [exact Hbody|constructor; [|constructor]]]];
    [rewrite <- E1; destruct (print_imports is); discriminate|
     unfold tail_lines; destruct new as [|q new]; [now left|right]; rewrite join_app;
       [destruct (join nl (lines_for (q :: new))); discriminate|intro K; apply lines_for_nil in K; discriminate|discriminate]]))).
  unfold out_lines. cbn [concat]. now rewrite app_nil_r.
Qed.

(* ------------------------------------------------------------------ *)
(** * The settings written *)

Lemma dfilter_dset_out {A} (p : string -> bool) k (v : A) d : p k = false -> dfilter p (dset k v d) = dfilter p d.
Proof.
  intro H. unfold dfilter. induction d as [|[k' v'] d IH]; cbn [dset filter fst].
  - now rewrite H.
  - destruct (String.eqb k k') eqn:E; cbn [filter fst].
    + apply String.eqb_eq in E. subst k'. now rewrite H.
    + now rewrite IH.
Qed.
Lemma dfilter_dupdate_out {A} (p : string -> bool) (e : dict A) : forall d, (forall k, In k (dkeys e) -> p k = false) -> dfilter p (dupdate d e) = dfilter p d.
Proof.
  induction e as [|[k v] e IH]; intros d H; [reflexivity|]. rewrite dupdate_cons, IH by (intros q Hq; apply H; now right).
  apply dfilter_dset_out, H. now left.
Qed.
Lemma dfilter_app {A} (p : string -> bool) (a b : dict A) : dfilter p (a ++ b) = dfilter p a ++ dfilter p b.
Proof. apply filter_app. Qed.
Lemma dfilter_dfilter {A} (p q : string -> bool) (d : dict A) : dfilter p (dfilter q d) = dfilter (fun x => p x && q x) d.
Proof. unfold dfilter. induction d as [|[k v] d IH]; [reflexivity|]. cbn [filter fst]. destruct (q k); cbn [filter fst]; [rewrite andb_true_r, IH|rewrite andb_false_r, IH]; reflexivity. Qed.
Lemma dfilter_ext_in {A} (p q : string -> bool) (d : dict A) : (forall k, In k (dkeys d) -> p k = q k) -> dfilter p d = dfilter q d.
Proof. intro H. apply filter_ext_in. intros [k v] Hk. apply H. apply in_map_iff. exists (k, v). auto. Qed.
Lemma In_dkeys_dfilter {A} (p : string -> bool) (d : dict A) k : In k (dkeys (dfilter p d)) <-> In k (dkeys d) /\ p k = true.
Proof.
  unfold dkeys, dfilter. rewrite !in_map_iff. split.
  - intros ([k' v] & <- & H). apply filter_In in H as [H1 H2]. split; [exists (k', v); auto|exact H2].
  - intros [([k' v] & <- & H) Hp]. exists (k', v). split; [reflexivity|]. apply filter_In. auto.
Qed.
Lemma dmem_false_iff {A} k (d : dict A) : negb (dmem k d) = true <-> ~ In k (dkeys d).
Proof. rewrite negb_true_iff. apply dmem_false. Qed.

Lemma default_of_keys a d : default_of a = Ok d -> forall x, In x (dkeys d) <-> varname a = Some x.
Proof.
  unfold default_of, varname. destruct (a_target a) as [y| |]; [|destruct (a_ann a)|]; intros H x; try discriminate; injection H as <-; cbn.
  - split; [intros [->|[]]; reflexivity|intros [= ->]; now left].
  - split; [intros []|discriminate].
Qed.
Lemma default_dict_keys al : forall acc d, default_dict acc al = Ok d ->
  forall x, In x (dkeys d) <-> In x (dkeys acc) \/ contains_varname al x = true.
Proof.
  induction al as [|a al IH]; intros acc d H x; cbn [default_dict] in H.
  - injection H as <-. cbn. intuition discriminate.
  - destruct (default_of a) as [e|] eqn:E; [|discriminate]. rewrite (IH _ _ H x), In_dkeys_dupdate, (default_of_keys a e E x).
    cbn [contains_varname existsb]. fold (contains_varname al x). destruct (varname a) as [y|]; rewrite orb_true_iff.
    + rewrite String.eqb_eq. split; [intros [[|[= ->]]|]; auto|intros [|[->|]]; auto].
    + split; [intros [[|K]|]; auto; discriminate|intros [|[K|]]; auto; discriminate].
Qed.
Lemma default_dict_dmem al d x : default_dict [] al = Ok d -> (In x (dkeys d) <-> contains_varname al x = true).
Proof. intro H. rewrite (default_dict_keys al [] d H x). cbn. tauto. Qed.

Lemma astor_keys (astor : string -> option (list tok) -> value) (c : dict (option (list tok))) :
  dkeys (map (fun q => (fst q, astor (fst q) (snd q))) c) = dkeys c.
Proof. unfold dkeys. rewrite map_map. reflexivity. Qed.

Lemma NoDup_app_intro {A} (a b : list A) : NoDup a -> NoDup b -> (forall x, In x a -> In x b -> False) -> NoDup (a ++ b).
Proof.
  induction a as [|x a IH]; intros Ha Hb H; [exact Hb|]. inversion Ha as [|? ? N Ha']; subst. cbn [app]. constructor.
  - rewrite in_app_iff. intros [K|K]; [contradiction|]. apply (H x); [now left|exact K].
  - apply IH; auto. intros y Hy. apply H. now right.
Qed.

Lemma annotate_keys e d : dkeys (map (annotate e) d) = dkeys d.
Proof. unfold dkeys. rewrite map_map. reflexivity. Qed.
Lemma dfilter_annotate e p d : dfilter p (map (annotate e) d) = map (annotate e) (dfilter p d).
Proof. unfold dfilter. induction d as [|q d IH]; [reflexivity|]. cbn [map filter]. cbn [annotate fst]. destruct (p (fst q)); cbn [map]; now rewrite IH. Qed.

(** what is left to write of the config the file and the signature give *)
Lemma config_missing it al (X : dict value) :
  dwf (i_defaults it) -> dwf (i_end it) -> (forall k, In k (dkeys X) -> contains_varname al k = true) ->
  let config := dupdate (i_defaults it) X in
  dfilter (fun x => negb (contains_varname al x)) (dupdate (map (annotate (i_end it)) config) (dfilter (fun x => negb (dmem x config)) (i_end it))) = missing it al.
Proof.
  intros W1 W2 H config. set (p := fun x => negb (contains_varname al x)).
  assert (Wc : dwf config) by (apply dupdate_wf; exact W1).
  rewrite dict_of_id_aux.
  - rewrite dfilter_app. rewrite dfilter_annotate. unfold config at 1. rewrite dfilter_dupdate_out by (intros k Hk; unfold p; now rewrite (H k Hk)). rewrite <- dfilter_annotate.
    unfold missing, brought. fold p. rewrite dfilter_app. f_equal. rewrite !dfilter_dfilter. apply dfilter_ext_in. intros k Hk.
    destruct (p k) eqn:E; [|reflexivity]. cbn [andb]. apply eq_iff_eq_true. rewrite !dmem_false_iff. unfold config.
    rewrite In_dkeys_dupdate. split; [tauto|]. intros N [K|K]; [contradiction|]. unfold p in E. rewrite (H k K) in E. discriminate.
  - apply NoDup_app_intro.
    + fold (dkeys (map (annotate (i_end it)) config)). rewrite annotate_keys. exact Wc.
    + now apply dfilter_wf.
    + intros k Hk K. fold (dkeys (map (annotate (i_end it)) config)) in Hk. rewrite annotate_keys in Hk. apply In_dkeys_dfilter in K as [_ K]. now apply dmem_false_iff in K.
Qed.

(* ------------------------------------------------------------------ *)
(** * The end of the file *)

Lemma lex_backslash s : forall m d w l st, lex m d w s = Some (l, st, true) -> endswith s (String bs_c "") = true.
Proof.
  induction s as [s IH] using (well_founded_induction (Wf_nat.well_founded_ltof _ String.length)). intros m d w l st H.
  assert (Ends : forall c r, s = String c r -> endswith r (String bs_c "") = true -> endswith s (String bs_c "") = true).
  { intros c r -> K. cbn [endswith]. rewrite K. apply orb_true_r. }
  assert (IH1 : forall c r m d w l st, s = String c r -> lex m d w r = Some (l, st, true) -> endswith s (String bs_c "") = true).
  { intros c r m' d' w' l' st' E K. apply (Ends c r E). apply (IH r) with (m := m') (d := d') (w := w') (l := l') (st := st'); [|exact K].
    subst s. unfold Wf_nat.ltof. cbn. lia. }
  assert (IH2 : forall c c1 r m d w l st, s = String c (String c1 r) -> lex m d w r = Some (l, st, true) -> endswith s (String bs_c "") = true).
  { intros c c1 r m' d' w' l' st' E K. apply (Ends c _ E). cbn [endswith].
    rewrite (IH r) with (m := m') (d := d') (w := w') (l := l') (st := st'); [apply orb_true_r| |exact K]. subst s. unfold Wf_nat.ltof. cbn. lia. }
  assert (IH3 : forall c c1 c2 r m d w l st, s = String c (String c1 (String c2 r)) -> lex m d w r = Some (l, st, true) -> endswith s (String bs_c "") = true).
  { intros c c1 c2 r m' d' w' l' st' E K. apply (Ends c _ E). cbn [endswith].
    rewrite (IH r) with (m := m') (d := d') (w := w') (l := l') (st := st'); [rewrite !orb_true_r; reflexivity| |exact K]. subst s. unfold Wf_nat.ltof. cbn. lia. }
  assert (Bs : forall c, s = String c "" -> Ascii.eqb c bs_c = true -> endswith s (String bs_c "") = true).
  { intros c -> K. apply Ascii.eqb_eq in K. subst c. reflexivity. }
  destruct s as [|c r]; [destruct m; discriminate|]. cbn [lex] in H. destruct m as [|q|q].
  - destruct (word_char c); [eapply IH1; eauto|].
    match type of H with (match ?X with _ => _ end) = _ => destruct X as [[[l' st'] b']|] eqn:E; [|discriminate] end.
    assert (Eb : b' = true) by congruence. subst b'. clear H.
    destruct (blank_char c); [eapply IH1; eauto|]. destruct (Ascii.eqb c "#"); [discriminate|].
    destruct (quote_char c).
    { destruct r as [|c1 [|c2 r2]]; try (eapply IH1; eauto; fail). destruct (_ && _); [eapply IH3; eauto|eapply IH1; eauto]. }
    destruct (Ascii.eqb c bs_c) eqn:Eq. { destruct r; [|discriminate]. now apply (Bs c). }
    destruct (Nat.ltb _ _); [discriminate|]. destruct (open_char c).
    { destruct (lex Code (S d) "" r) as [[[l1 st1] b1]|] eqn:E1; [|discriminate]. assert (b1 = true) by congruence. subst. eapply IH1; eauto. }
    destruct (close_char c).
    { destruct d as [|d]; [discriminate|]. destruct (lex Code d "" r) as [[[l1 st1] b1]|] eqn:E1; [|discriminate]. assert (b1 = true) by congruence. subst. eapply IH1; eauto. }
    destruct (lex Code d "" r) as [[[l1 st1] b1]|] eqn:E1; [|discriminate]. assert (b1 = true) by congruence. subst. eapply IH1; eauto.
  - destruct (Ascii.eqb c bs_c) eqn:Eq.
    { destruct r as [|c1 r1]; [now apply (Bs c)|eapply IH2; eauto]. }
    destruct (Ascii.eqb c q); [|eapply IH1; eauto].
    destruct (lex Code d "" r) as [[[l1 st1] b1]|] eqn:E1; [|discriminate]. assert (b1 = true) by congruence. subst. eapply IH1; eauto.
  - destruct (Ascii.eqb c bs_c) eqn:Eq.
    { destruct r as [|c1 r1]; [now apply (Bs c)|eapply IH2; eauto]. }
    destruct (Ascii.eqb c q); [|eapply IH1; eauto]. destruct r as [|c1 [|c2 r2]]; try (eapply IH1; eauto; fail).
    destruct (_ && _); [|eapply IH1; eauto].
    destruct (lex Code d "" r2) as [[[l1 st1] b1]|] eqn:E1; [|discriminate]. assert (b1 = true) by congruence. subst. eapply IH3; eauto.
Qed.

Lemma lex_empty m d w l st b : lex m d w "" = Some (l, st, b) -> b = false.
Proof. destruct m; cbn; congruence. Qed.

Lemma logical_drop_empty m : forall o xs, logical o (m ++ [""]) = Some xs -> tail_ok (m ++ [""]) ->
  (m = [] -> o = None) -> exists ys, logical o m = Some ys /\ xs = ys ++ [[]].
Proof.
  induction m as [|l m IH]; intros o xs H T O.
  - rewrite (O eq_refl) in *. exists []. split; [reflexivity|]. cbn in H. now injection H as <-.
  - cbn [app logical] in H |- *. destruct (match o with None => (lstart, []) | Some x => x end) as [st cur].
    destruct (lex (ls_mode st) (ls_depth st) (ls_lit st) l) as [[[toks st'] bs]|] eqn:E; [|discriminate].
    destruct (goes_on st' bs) eqn:G.
    + destruct m as [|l2 m].
      * exfalso. cbn [app logical] in H. destruct st' as [md dp lit]. cbn [ls_mode ls_depth ls_lit goes_on] in *. destruct md as [|q|q]; [|discriminate|].
        -- cbn [lex] in H. destruct dp as [|dp]; [|discriminate]. assert (bs = true) by (destruct bs; [reflexivity|discriminate]). subst bs.
           pose proof (lex_backslash _ _ _ _ _ _ E) as B. unfold tail_ok in T. cbn [rev app find] in T. change (negb (String.eqb "" "")) with false in T.
           cbv iota in T. destruct l as [|c l]; [now apply lex_empty in E|]. change (negb (String.eqb (String c l) "")) with true in T. cbv iota in T. congruence.
        -- cbn [lex] in H. unfold goes_on in H. cbn [ls_mode ls_depth] in H. destruct dp; discriminate.
      * apply IH; [exact H| |discriminate]. unfold tail_ok in T |- *. cbn [app rev] in T |- *.
        assert (K : forall (f : string -> bool) a b x, find f (a ++ [b]) = Some x \/ find f (a ++ [b]) = None -> find f a = None \/ find f a = find f (a ++ [b])).
        { intros f a b x _. induction a as [|y a IHa]; [now left|]. cbn. destruct (f y); auto. }
        destruct (find _ ((rev (m ++ [""]) ++ [l2]) ++ [l])) as [x|] eqn:F.
        -- destruct (K (fun l => negb (String.eqb l "")) (rev (m ++ [""]) ++ [l2]) l x (or_introl F)) as [-> | ->]; [exact I|]. now rewrite F.
        -- destruct (K (fun l => negb (String.eqb l "")) (rev (m ++ [""]) ++ [l2]) l "" (or_intror F)) as [-> | ->]; [exact I|]. now rewrite F.
    + destruct (logical None (m ++ [""])) as [ls|] eqn:L; [|discriminate]. injection H as <-.
      assert (T' : tail_ok (m ++ [""])).
      { unfold tail_ok in T |- *. cbn [app rev] in T. assert (K : forall (f : string -> bool) a b, find f a = None \/ find f a = find f (a ++ [b])).
        { intros f a b. induction a as [|y a IHa]; [now left|]. cbn. destruct (f y); auto. }
        destruct (K (fun l => negb (String.eqb l "")) (rev (m ++ [""])) l) as [-> | ->]; [exact I|exact T]. }
      destruct (IH None ls L T' (fun _ => eq_refl)) as (ys & -> & ->). eauto.
Qed.

Lemma parse_drop_empty ls st : parse_lines ls = Ok st -> tail_ok ls ->
  exists st', parse_lines (drop_last_empty ls) = Ok st' /\ (st' = st \/ st = st' ++ [SOther]).
Proof.
  intros H T. destruct (drop_last_empty_cases ls) as [(m & -> & ->) | [-> _]]; [|eauto].
  unfold parse_lines in *. destruct (logical None (m ++ [""])) as [xs|] eqn:L; [|discriminate].
  destruct (logical_drop_empty m None xs L T (fun _ => eq_refl)) as (ys & -> & ->).
  destruct (res_list_app_inv _ _ _ _ H) as (a & b & Ha & Hb & ->). exists a. split; [exact Ha|]. right. cbn in Hb. now injection Hb as <-.
Qed.

Lemma find_rev_app (f : string -> bool) a b : find f (rev (a ++ b)) = match find f (rev b) with Some x => Some x | None => find f (rev a) end.
Proof. rewrite rev_app_distr. generalize (rev b) as l. intro l. induction l as [|x l IH]; [reflexivity|]. cbn. destruct (f x); auto. Qed.
Lemma tail_ok_app a b : tail_ok a -> tail_ok b -> tail_ok (a ++ b).
Proof. unfold tail_ok. rewrite find_rev_app. intros Ha Hb. destruct (find _ (rev b)); assumption. Qed.
Lemma tail_ok_drop l : tail_ok l -> tail_ok (drop_last_empty l).
Proof.
  destruct (drop_last_empty_cases l) as [(m & -> & ->) | [-> _]]; [|auto]. unfold tail_ok. rewrite find_rev_app. cbn [rev app find].
  change (negb (String.eqb "" "")) with false. cbv iota. auto.
Qed.

(* ------------------------------------------------------------------ *)
(** * What is read in the parts of the file *)

Lemma assigns_of_app a b x y : assigns_of a = Ok x -> assigns_of b = Ok y -> assigns_of (a ++ b) = Ok (x ++ y).
Proof.
  revert x. induction a as [|s a IH]; intros x Ha Hb; [cbn in *; injection Ha as <-; exact Hb|]. cbn [app assigns_of] in *.
  destruct s; try (now apply IH); [|discriminate]. destruct (assigns_of a) as [x'|]; [|discriminate]. injection Ha as <-.
  now rewrite (IH x' eq_refl Hb).
Qed.
Lemma imports_of_app a b x y : imports_of a = Ok x -> imports_of b = Ok y -> imports_of (a ++ b) = Ok (x ++ y).
Proof.
  revert x. induction a as [|s a IH]; intros x Ha Hb; [cbn in *; injection Ha as <-; exact Hb|]. cbn [app imports_of] in *.
  destruct s; try (now apply IH); [|discriminate]. destruct (imports_of a) as [x'|]; [|discriminate]. injection Ha as <-.
  now rewrite (IH x' eq_refl Hb).
Qed.
Lemma assigns_of_app_inv a b z : assigns_of (a ++ b) = Ok z -> exists x y, assigns_of a = Ok x /\ assigns_of b = Ok y /\ z = x ++ y.
Proof.
  revert z. induction a as [|s a IH]; intros z H; [exists [], z; auto|]. cbn [app assigns_of] in *.
  destruct s; try (now apply IH); [|discriminate]. destruct (assigns_of (a ++ b)) as [z'|]; [|discriminate]. injection H as <-.
  destruct (IH z' eq_refl) as (x & y & -> & Hb & ->). exists (a0 :: x), y. auto.
Qed.
Lemma imports_of_app_inv a b z : imports_of (a ++ b) = Ok z -> exists x y, imports_of a = Ok x /\ imports_of b = Ok y /\ z = x ++ y.
Proof.
  revert z. induction a as [|s a IH]; intros z H; [exists [], z; auto|]. cbn [app imports_of] in *.
  destruct s; try (now apply IH); [|discriminate]. destruct (imports_of (a ++ b)) as [z'|]; [|discriminate]. injection H as <-.
  destruct (IH z' eq_refl) as (x & y & -> & Hb & ->). exists (i :: x), y. auto.
Qed.

(** What the lines of the settings of a file hold. *)
Record body_facts (f : loaded) (bst : list stmt) (bi : list imp) : Prop := BodyFacts {
  bf_parse : parse_lines (l_body f) = Ok bst;
  bf_imports : imports_of bst = Ok bi;
  bf_assigns : assigns_of bst = Ok (l_assigns f);
  bf_config : default_dict [] (l_assigns f) = Ok (l_config f);
  bf_nl : Forall no_nl (l_body f);
  bf_first : match l_body f with [] => True | l :: _ => header_line l = false end }.

Lemma header_stmts h b st : Forall (fun l => is_whitespace_line l = true \/ exists i, parse_lines [l] = Ok [SImport i]) h ->
  parse_lines (h ++ b) = Ok st -> exists hs bst, st = hs ++ bst /\ parse_lines b = Ok bst /\ assigns_of hs = Ok [].
Proof.
  intro H. revert st. induction H as [|l h Hl _ IH]; intros st P; [exists [], st; auto|]. cbn [app] in P. destruct Hl as [Hl | [i Hi]].
  - apply parse_blank_line in P as (_ & ys & Py & ->); [|exact Hl]. destruct (IH ys Py) as (hs & bst & -> & Pb & Ha). exists (SOther :: hs), bst. auto.
  - rewrite (parse_lines_cons l _ _ Hi) in P. destruct (parse_lines (h ++ b)) as [ys|] eqn:E; [|discriminate]. injection P as <-.
    destruct (IH ys eq_refl) as (hs & bst & -> & Pb & Ha). exists (SImport i :: hs), bst. auto.
Qed.

Lemma load_file_inv t f : load_file t = Ok f -> exists st, parse t = Ok st /\ imports_of st = Ok (l_imports f) /\ assigns_of st = Ok (l_assigns f) /\
  default_dict [] (l_assigns f) = Ok (l_config f) /\ l_body f = body t.
Proof.
  unfold load_file. destruct (parse t) as [st|]; [|discriminate]. destruct (imports_of st) as [is|] eqn:E1; [|discriminate].
  destruct (assigns_of st) as [al|] eqn:E2; [|discriminate]. destruct (default_dict [] al) as [d|] eqn:E3; [|discriminate]. intros [= <-]. exists st. auto.
Qed.

Lemma load_body_facts t f : load_file t = Ok f -> header_ok t -> exists bst bi, body_facts f bst bi /\ parse_lines (body t) = Ok bst.
Proof.
  intros H Hh. destruct (load_file_inv t f H) as (st & P & I & A & C & B). unfold parse in P. rewrite <- body_app in P.
  destruct (header_stmts _ _ _ Hh P) as (hs & bst & -> & Pb & Ha). destruct (imports_of_app_inv _ _ _ I) as (hi & bi & _ & Hi & _).
  destruct (assigns_of_app_inv _ _ _ A) as (x & y & Hx & Hy & E). assert (x = []) by congruence. subst x. exists bst, bi. split; [|exact Pb].
  constructor; rewrite ?B; auto; [rewrite E; exact Hy|apply body_no_nl|apply split_lines_body].
Qed.

Lemma load_imports_ok t f : load_file t = Ok f -> Forall imp_ok (l_imports f).
Proof.
  intro H. destruct (load_file_inv t f H) as (st & P & I & _). apply Forall_forall. intros i Hi. apply read_imp_ok.
  apply (parse_lines_imports _ st i P). now apply (imports_of_in st (l_imports f)).
Qed.

Lemma not_existing_facts : body_facts not_existing [] [].
Proof. constructor; cbn; auto. Qed.

Lemma dotted_stops x t names : is_name x = true -> t <> TOp "." -> dotted (TWord x :: t :: names) = Some (x, t :: names).
Proof.
  intros N D. cbn [dotted]. rewrite N. destruct t as [v| |c]; try reflexivity.
  destruct (Ascii.ascii_dec c ".") as [-> | X]; [now exfalso|]. destruct c as [[] [] [] [] [] [] [] []]; try reflexivity. now exfalso.
Qed.
