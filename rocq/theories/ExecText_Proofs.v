(** The programs in the texts of config files. *)
From Verif Require Import Exec_Model Exec_Spec Exec_Proofs PySource_Proofs FileStr_Proofs FileStrRead_Proofs FileStrOps_Proofs.
From Coq Require Import Lia.
Local Open Scope string_scope.
Local Open Scope list_scope.

Lemma opt_list_app {A B} (f : A -> option B) a : forall b, opt_list f (a ++ b) =
  match opt_list f a with Some xs => match opt_list f b with Some ys => Some (xs ++ ys) | None => None end | None => None end.
Proof.
  induction a as [|x a IH]; intros b; cbn [app opt_list]; [now destruct (opt_list f b)|]. destruct (f x); [|reflexivity]. rewrite IH.
  destruct (opt_list f a); [|reflexivity]. now destruct (opt_list f b).
Qed.

Lemma program_app a b la : logical None a = Some la -> program_lines (a ++ b) =
  match program_lines a with Some xs => match program_lines b with Some ys => Some (xs ++ ys) | None => None end | None => None end.
Proof.
  intros L. unfold program_lines. rewrite (logical_app a None b la L), L. destruct (logical None b) as [lb|].
  - now rewrite filter_app, opt_list_app.
  - now destruct (opt_list _ _).
Qed.
Lemma program_logical ls p : program_lines ls = Some p -> exists la, logical None ls = Some la.
Proof. unfold program_lines. destruct (logical None ls); [eauto|discriminate]. Qed.
Lemma program_app_some a b xs ys : program_lines a = Some xs -> program_lines b = Some ys -> program_lines (a ++ b) = Some (xs ++ ys).
Proof. intros A B. destruct (program_logical a xs A) as [la L]. now rewrite (program_app a b la L), A, B. Qed.

(* ------------------------------------------------------------------ *)
(** * Statements and lines *)

Lemma plain_line_node ts s : plain_line ts = Some s -> is_blank ts = false /\ exists n, stmt_of ts = Ok n /\ nodes s = [n] /\ n <> SOther.
Proof.
  unfold plain_line, stmt_of. destruct (find_op ";" 0 ts); [discriminate|]. destruct ts as [|[w|w|c] rest]; try discriminate.
  intros H. split; [reflexivity|]. destruct (String.eqb w "import").
  { destruct (opt_list module_alias (split_commas rest)) as [al|]; [|discriminate]. injection H as <-. eexists. split; [reflexivity|]. split; [reflexivity|discriminate]. }
  destruct (String.eqb w "from").
  { cbv zeta in H |- *. destruct (dotted (skip_dots rest)) as [[m r]|].
    - destruct r as [|t names]; [discriminate|]. destruct (is_word "import" t); [|discriminate]. destruct (object_aliases names) as [al|]; [|discriminate]. injection H as <-.
      cbn [of_import_from]. eexists. split; [reflexivity|]. split; [reflexivity|discriminate].
    - destruct (Nat.ltb 0 _) eqn:E; [|discriminate]. apply Nat.ltb_lt in E. assert (E2 : Nat.ltb (List.length (skip_dots rest)) (List.length rest) = true) by (apply Nat.ltb_lt; lia). rewrite E2.
      destruct (skip_dots rest) as [|t names]; [discriminate|]. destruct (is_word "import" t); [|discriminate]. destruct (object_aliases names) as [al|]; [|discriminate]. injection H as <-.
      cbn [of_import_from]. eexists. split; [reflexivity|]. split; [reflexivity|discriminate]. }
  destruct (existsb (String.eqb w) keywords) eqn:K; [discriminate|].
  assert (C : existsb (String.eqb w) clause_keywords = false).
  { destruct (existsb (String.eqb w) clause_keywords) eqn:C; [|reflexivity]. exfalso. apply existsb_exists in C as (k & Hk & E). apply String.eqb_eq in E. subst k.
    assert (In w keywords) by (cbn in Hk |- *; tauto). assert (existsb (String.eqb w) keywords = true) by (apply existsb_exists; exists w; split; [assumption|apply String.eqb_refl]). congruence. }
  rewrite C. destruct (plain_stmt (TWord w :: rest)) as [n|]; [|discriminate]. exists n. split; [reflexivity|].
  destruct n as [| |[[x| |] [ann|] e]| |]; try discriminate.
  - injection H as <-. split; [reflexivity|discriminate].
  - destruct e as [e|]; [|discriminate]. injection H as <-. split; [reflexivity|discriminate].
Qed.

Lemma program_parse ls p : program_lines ls = Some p -> exists st, parse_lines ls = Ok st /\
  imports_of st = imports_of (flat_map nodes p) /\ assigns_of st = assigns_of (flat_map nodes p).
Proof.
  unfold program_lines, parse_lines. destruct (logical None ls) as [la|]; [|discriminate]. clear ls. revert p. induction la as [|ts la IH]; intros p H.
  - cbn in H. injection H as <-. exists []. auto.
  - cbn [filter] in H. destruct (is_blank ts) eqn:B; cbn [negb] in H.
    + destruct ts; [|discriminate]. destruct (IH p H) as (st & S & I & A). exists (SOther :: st). cbn [res_list]. rewrite S. split; [reflexivity|]. cbn. auto.
    + cbn [opt_list] in H. destruct (plain_line ts) as [s|] eqn:P; [|discriminate]. destruct (opt_list plain_line (filter (fun ts => negb (is_blank ts)) la)) as [q|] eqn:Q; [|discriminate].
      injection H as <-. destruct (IH q eq_refl) as (st & S & I & A). destruct (plain_line_node ts s P) as (_ & n & En & Nn & _). exists (n :: st). cbn [res_list]. rewrite En, S. split; [reflexivity|].
      cbn [flat_map]. rewrite Nn. cbn [app]. destruct n; cbn [imports_of assigns_of]; rewrite ?I, ?A; auto.
Qed.
Lemma program_load t p : program t = Some p -> load_file t =
  match register (Some p) with
  | Raise e => Raise e
  | Ok (is, al) => match default_dict [] al with Raise e => Raise e | Ok d => Ok (Loaded is al (body t) d) end
  end.
Proof.
  intros H. destruct (program_parse _ _ H) as (st & S & I & A). unfold load_file, parse. rewrite S. cbn [register]. rewrite I, A.
  destruct (imports_of (flat_map nodes p)); [|reflexivity]. destruct (assigns_of (flat_map nodes p)); reflexivity.
Qed.

(** one statement *)
Lemma program_one ls ts s : logical None ls = Some [ts] -> plain_line ts = Some s -> program_lines ls = Some [s].
Proof.
  intros L P. unfold program_lines. rewrite L. destruct (plain_line_node ts s P) as (B & _). cbn [filter]. rewrite B. cbn [negb opt_list]. now rewrite P.
Qed.
Lemma logical_one l toks : lex Code 0 "" l = Some (toks, LS Code 0 "", false) -> logical None [l] = Some [toks].
Proof. intros E. cbn [logical lstart ls_mode ls_depth ls_lit]. rewrite E. reflexivity. Qed.

Lemma program_import_text al : module_aliases_ok al -> program_lines [import_text al] = Some [PImport al].
Proof.
  intros [N H]. apply (program_one _ (TWord "import" :: aliases_toks al)).
  - apply logical_one. unfold import_text. change ("import " ++ ?x)%string with ("import" ++ String " " x)%string.
    rewrite lex_word_end by (try reflexivity; discriminate). rewrite lex_blank_char.
    rewrite <- (app_nil_r_s (join ", " (map print_alias al))). rewrite lex_aliases by (auto; reflexivity).
    rewrite lex_end. cbn [prepend]. now rewrite app_nil_r.
  - unfold plain_line. rewrite find_op_none by (cbn [forallb is_op negb andb]; now apply aliases_toks_plain).
    change (String.eqb "import" "import") with true. cbv iota. rewrite split_commas_aliases by exact N.
    rewrite opt_list_map; [reflexivity|]. eapply Forall_impl; [|exact H]. intros a Ha. now apply module_alias_toks.
Qed.
Lemma program_from_text n m al : dotted_name m -> object_aliases_ok al -> program_lines [from_text n m al] = Some [PFrom n (Some m) al].
Proof.
  intros Hm H. eapply program_one; [apply logical_one; now apply lex_from_text|]. unfold plain_line. rewrite find_op_none.
  - change (String.eqb "from" "import") with false. change (String.eqb "from" "from") with true. cbv iota zeta.
    destruct (dot_toks_head (split "." m) (split_nonempty _ _)) as (p & r & Hp).
    rewrite skip_dots_repeat by (rewrite Hp; reflexivity).
    rewrite dotted_toks; [|apply split_nonempty|exact Hm|reflexivity]. rewrite join_split. cbn [is_word].
    change (String.eqb "import" "import") with true. cbv iota. rewrite object_aliases_toks by exact H.
    do 2 f_equal. rewrite app_length, repeat_length. lia.
  - cbn [forallb is_op negb andb]. rewrite forallb_app. assert (R : forallb (fun t => negb (is_op ";" t)) (repeat (TOp ".") n) = true) by (induction n; cbn; auto).
    rewrite R, forallb_app, dot_toks_plain by reflexivity. cbn [forallb is_op negb andb]. apply objects_toks_plain; discriminate.
Qed.
Lemma program_print_imp i : imp_ok i -> program_lines [print_imp i] = Some [imp_stmt i].
Proof.
  intro H. rewrite print_imp_text. destruct i as [ms r|os m r].
  - apply program_import_text. exact H.
  - destruct H as [Hm H]. apply (program_from_text 0 m _ Hm H).
Qed.
Lemma program_import_lines is : Forall imp_ok is -> program_lines (import_lines is) = Some (map imp_stmt is).
Proof.
  intro H. assert (P : program_lines (map print_imp is) = Some (map imp_stmt is)).
  { induction H as [|i is Hi _ IH]; [reflexivity|]. cbn [map]. exact (program_app_some [_] _ _ _ (program_print_imp i Hi) IH). }
  destruct is; [reflexivity|exact P].
Qed.

(** a line with an assignment to a name begins with the name *)
Lemma find_eq_app ts b a : find_eq 0 None ts = Some (b, a) -> ts = b ++ TOp "=" :: a.
Proof. intros H. now apply find_eq_between in H. Qed.
Lemma find_op_app c ts : forall d b a, find_op c d ts = Some (b, a) -> ts = b ++ TOp c :: a.
Proof.
  induction ts as [|t ts IH]; intros d b a H; [discriminate|]. cbn [find_op] in H. destruct (is_op c t && Nat.eqb d 0) eqn:E.
  - injection H as <- <-. apply andb_true_iff in E as [E _]. destruct t; try discriminate. cbn in E. apply Ascii.eqb_eq in E. now subst.
  - destruct (find_op c (depth_after d t) ts) as [[b' a']|] eqn:F; [|discriminate]. injection H as <- <-. cbn. f_equal. eapply IH, F.
Qed.
Lemma target_of_name ts x : target_of ts = Some (TgName x) -> ts = [TWord x] /\ is_name x = true.
Proof.
  unfold target_of. destruct ts as [|t ts]; [discriminate|]. destruct t as [w|w|c].
  - destruct ts as [|t' ts].
    + destruct (is_name w) eqn:E; [|discriminate]. intros [= <-]. auto.
    + cbn [is_op]. destruct (find_op "," 0 _); [discriminate|]. destruct (rev _) as [|[a|a|b] [|t'' r]]; try discriminate; try (destruct (is_op "]" _); discriminate). destruct (is_op "." t''); discriminate.
  - cbn [is_op]. destruct (find_op "," 0 _); [discriminate|]. destruct (rev _) as [|[a|a|b] [|t'' r]]; try discriminate; try (destruct (is_op "]" _); discriminate). destruct (is_op "." t''); discriminate.
  - destruct (is_op "(" (TOp c)); [discriminate|]. destruct (find_op "," 0 _); [discriminate|]. destruct (rev _) as [|[a|a|b] [|t'' r]]; try discriminate; try (destruct (is_op "]" _); discriminate). destruct (is_op "." t''); discriminate.
Qed.
Lemma assign_of_name tg ann v a x : assign_of tg ann v = Ok (SAssign a) -> a_target a = TgName x -> tg = [TWord x] /\ is_name x = true /\ a = Asgn (TgName x) ann v.
Proof.
  unfold assign_of. destruct (target_of tg) as [t|] eqn:E; [|discriminate]. intros [= <-] T. cbn in T. subst t. apply target_of_name in E as [-> N]. auto.
Qed.
Lemma plain_stmt_name ts a x : PySource_Model.plain_stmt ts = Ok (SAssign a) -> a_target a = TgName x ->
  (exists r, ts = TWord x :: r) /\ is_name x = true /\ exists ann v, a = Asgn (TgName x) ann v /\ (ann = None -> v <> None).
Proof.
  unfold PySource_Model.plain_stmt. destruct (find_eq 0 None ts) as [[before after]|] eqn:F.
  - apply find_eq_app in F. destruct after as [|t0 after]; [discriminate|]. destruct (find_op ":" 0 before) as [[tg ann]|] eqn:O.
    + intros H T. apply find_op_app in O. destruct (assign_of_name _ _ _ _ _ H T) as (-> & N & ->). subst before ts. cbn. split; [eauto|]. split; [exact N|]. eexists. eexists. split; [reflexivity|discriminate].
    + intros H T. assert (K : assign_of before None (Some (t0 :: after)) = Ok (SAssign a)).
      { destruct (find_eq 0 None (t0 :: after)) as [[b2 ?]|]; [|exact H]. destruct (existsb _ b2); [exact H|discriminate]. }
      destruct (assign_of_name _ _ _ _ _ K T) as (-> & N & ->). subst ts. cbn. split; [eauto|]. split; [exact N|]. eexists. eexists. split; [reflexivity|discriminate].
  - destruct (find_op ":" 0 ts) as [[tg [|t0 ann]]|] eqn:O; intros H T; try discriminate. destruct (is_op "=" t0); [discriminate|]. apply find_op_app in O.
    destruct (assign_of_name _ _ _ _ _ H T) as (-> & N & ->). subst ts. cbn. split; [eauto|]. split; [exact N|]. eexists. eexists. split; [reflexivity|discriminate].
Qed.
Lemma stmt_of_name ts a x : stmt_of ts = Ok (SAssign a) -> a_target a = TgName x -> plain_line ts = Some (asg_stmt a).
Proof.
  unfold stmt_of, plain_line. destruct (find_op ";" 0 ts) eqn:O; [discriminate|]. intros H T.
  assert (No : forall t r, ts = t :: r -> (forall w, t <> TWord w) -> PySource_Model.plain_stmt ts = Ok (SAssign a) -> False).
  { intros t r -> N P. destruct (plain_stmt_name _ _ _ P T) as ((r' & E) & _). injection E as -> _. now apply (N x). }
  destruct ts as [|[w|w|c] rest]; [discriminate| | |].
  - destruct (String.eqb w "import") eqn:E1; [destruct (opt_list _ _); discriminate|]. destruct (String.eqb w "from") eqn:E2.
    { cbv zeta in H. destruct (dotted (skip_dots rest)) as [[m r]|].
      - destruct r as [|t names]; [discriminate|]. destruct (is_word "import" t); [|discriminate]. destruct (object_aliases names); [|discriminate]. cbn in H. discriminate.
      - destruct (Nat.ltb _ _); [|discriminate]. destruct (skip_dots rest) as [|t names]; [discriminate|]. destruct (is_word "import" t); [|discriminate]. destruct (object_aliases names); discriminate. }
    destruct (existsb (String.eqb w) clause_keywords); [destruct (is_op _ _); discriminate|]. destruct (existsb (String.eqb w) keywords) eqn:K; [discriminate|].
    rewrite H. destruct (plain_stmt_name _ _ _ H T) as (_ & _ & ann & v & -> & Hv). destruct ann as [ann|]; [reflexivity|]. destruct v as [v|]; [reflexivity|]. now destruct (Hv eq_refl).
  - exfalso. eapply No; [reflexivity| |exact H]. discriminate.
  - exfalso. eapply No; [reflexivity| |exact H]. discriminate.
Qed.
Lemma program_assign ls a x : parse_lines ls = Ok [SAssign a] -> a_target a = TgName x -> program_lines ls = Some [asg_stmt a].
Proof.
  unfold parse_lines. destruct (logical None ls) as [la|] eqn:L; [|discriminate]. intros H T. destruct la as [|ts [|ts' la]]; cbn [res_list] in H; [discriminate| |].
  - destruct (stmt_of ts) as [n|] eqn:S; [|discriminate]. injection H as ->. apply (program_one ls ts); [exact L|]. now apply (stmt_of_name ts a x).
  - destruct (stmt_of ts); [|discriminate]. destruct (stmt_of ts'); [|discriminate]. destruct (res_list stmt_of la); discriminate.
Qed.
Lemma program_lines_for d es : read_from d es -> program_lines (lines_for d) = Some (map asg_stmt es).
Proof.
  induction 1 as [|[x v] a d es [P T] _ IH]; [reflexivity|]. cbn [lines_for flat_map map fst snd] in *. exact (program_app_some _ _ _ _ (program_assign _ _ _ P T) IH).
Qed.

Lemma program_drop_empty ls p : program_lines ls = Some p -> tail_ok ls -> program_lines (drop_last_empty ls) = Some p.
Proof.
  intros H T. destruct (drop_last_empty_cases ls) as [(m & -> & ->) | [-> _]]; [|exact H]. destruct (program_logical _ _ H) as [xs L].
  destruct (logical_drop_empty m None xs L T (fun _ => eq_refl)) as (ys & Ly & ->). unfold program_lines in *. rewrite L in H. rewrite Ly. rewrite filter_app in H. cbn [filter is_blank negb] in H. now rewrite app_nil_r in H.
Qed.

(* ------------------------------------------------------------------ *)
(** * The program of a file that was written *)

Lemma program_rewritten it c f pb : item_ok it -> start c f -> program_lines (l_body f) = Some pb ->
  exists es, read_from (missing it (l_assigns f)) es /\
    program (rewritten it f) = Some (map imp_stmt (combine_imports (l_imports f) (item_imports it)) ++
      map asg_stmt (map (fun _ => selector_asgn) (missing_begin it (l_assigns f))) ++ pb ++ map asg_stmt es).
Proof.
  intros Hit St Pp. destruct (start_facts c f St) as (bst & bi & F & T & Hi & _).
  set (is := combine_imports (l_imports f) (item_imports it)). set (bl := map snd (missing_begin it (l_assigns f))). set (new := missing it (l_assigns f)).
  pose proof (combine_imports_ok it _ Hit Hi) as His. fold is in His. pose proof (out_first_ok it f bst bi Hit F) as Hf. fold bl new in Hf.
  pose proof (missing_ok it (l_assigns f) Hit) as Hv. fold new in Hv.
  assert (Nbl : Forall no_nl bl) by (unfold bl; destruct (missing_begin_cases it (l_assigns f) Hit) as [-> | ->]; repeat constructor).
  assert (Tbl : tail_ok bl) by (unfold bl; destruct (missing_begin_cases it (l_assigns f) Hit) as [-> | ->]; reflexivity).
  destruct (out_lines_split is bl (l_body f) new His Nbl (bf_nl _ _ _ F) (lines_for_nl new Hv) Hf) as [L _].
  destruct (parse_lines_for new Hv) as (es & Pe & Fe). exists es. split; [exact Fe|].
  unfold program, rewritten. fold is bl new. rewrite L. rewrite <- app_assoc.
  apply program_app_some; [now apply program_import_lines|].
  assert (H0 : program_lines (match bl ++ l_body f ++ lines_for new with [] => [] | _ => [""] end) = Some []) by (destruct (bl ++ l_body f ++ lines_for new); reflexivity).
  apply (program_app_some _ _ [] _ H0).
  assert (Hb : program_lines bl = Some (map asg_stmt (map (fun _ => selector_asgn) (missing_begin it (l_assigns f))))).
  { unfold bl. destruct (missing_begin_cases it (l_assigns f) Hit) as [-> | ->]; reflexivity. }
  unfold out_body. destruct new as [|q new'] eqn:En.
  - inversion Fe; subst es. cbn [map]. rewrite app_nil_r. apply program_drop_empty; [now apply program_app_some|now apply tail_ok_app].
  - apply program_app_some; [exact Hb|]. apply program_app_some; [exact Pp|]. now apply program_lines_for.
Qed.

(** the lines at the top of a supported file *)
Definition import_only (s : pstmt) : Prop := match s with PImport _ | PFrom _ _ _ => True | _ => False end.

Lemma header_program h b p : Forall (fun l => is_whitespace_line l = true \/ exists i, parse_lines [l] = Ok [SImport i]) h ->
  program_lines (h ++ b) = Some p -> exists ph pb, p = ph ++ pb /\ program_lines h = Some ph /\ program_lines b = Some pb /\ Forall import_only ph.
Proof.
  intros H. revert p. induction H as [|l h Hl _ IH]; intros p P; [exists [], p; auto|]. cbn [app] in P.
  assert (G : exists la, logical None [l] = Some la /\ exists q, program_lines [l] = Some q /\ Forall import_only q).
  { destruct Hl as [Hl|[i Hi]].
    - destruct (lex_blank l Hl) as [E|E].
      + exfalso. unfold program_lines in P. cbn [logical lstart ls_mode ls_depth ls_lit] in P. now rewrite E in P.
      + exists [[]]. split; [now apply logical_one|]. exists []. split; [|constructor]. unfold program_lines. now rewrite (logical_one _ _ E).
    - unfold parse_lines in Hi. destruct (logical None [l]) as [la|] eqn:L; [|discriminate]. exists la. split; [reflexivity|]. change (l :: h ++ b) with ([l] ++ h ++ b) in P. rewrite (program_app [l] _ la L) in P.
      destruct (program_lines [l]) as [q|] eqn:Q; [|discriminate]. exists q. split; [reflexivity|]. unfold program_lines in Q. rewrite L in Q.
      destruct la as [|ts [|ts' la]]; cbn [res_list] in Hi; [discriminate| |destruct (stmt_of ts); [|discriminate]; destruct (stmt_of ts'); [|discriminate]; destruct (res_list stmt_of la); discriminate].
      cbn [filter] in Q. destruct (is_blank ts); cbn [negb opt_list] in Q; [injection Q as <-; constructor|]. destruct (plain_line ts) as [s|] eqn:Ps; [|discriminate]. injection Q as <-.
      destruct (plain_line_node ts s Ps) as (_ & n & Sn & Nn & _). rewrite Sn in Hi. injection Hi as ->. constructor; [|constructor].
      destruct s as [| |ts0 ?| | | | | | | | |]; cbn in Nn; try discriminate; cbn; auto. destruct ts0 as [|? [|]]; discriminate. }
  destruct G as (la & L & q & Q & Fq). change (l :: h ++ b) with ([l] ++ h ++ b) in P. rewrite (program_app [l] _ la L), Q in P.
  destruct (program_lines (h ++ b)) as [r|] eqn:R; [|discriminate]. injection P as <-. destruct (IH r eq_refl) as (ph & pb & -> & Ph & Pb & Fp).
  exists (q ++ ph), pb. split; [now rewrite app_assoc|]. split; [exact (program_app_some [l] h q ph Q Ph)|]. split; [exact Pb|]. apply Forall_app. auto.
Qed.
Lemma supported_program t f p : supported t f -> program t = Some p ->
  exists ph pb, p = ph ++ pb /\ program_lines (l_body f) = Some pb /\ Forall import_only ph.
Proof.
  intros (L & Hh & _) P. destruct (load_file_inv t f L) as (_ & _ & _ & _ & _ & B). unfold program in P. rewrite <- body_app in P.
  destruct (header_program _ _ _ Hh P) as (ph & pb & E & _ & Pb & Fp). exists ph, pb. rewrite B. auto.
Qed.
