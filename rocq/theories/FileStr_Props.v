(** C43, C44, C45: scaffolding config files. *)
From Verif Require Import PySource_Model PySource_Spec PySource_Proofs Imports_Proofs FileStr_Model FileStr_Spec FileStr_Proofs FileStrRead_Proofs FileStrOps_Proofs.
Local Open Scope string_scope.
Local Open Scope list_scope.

Definition text (l : list string) : string := join nl l.
Definition no_astor (_ : string) (_ : option (list tok)) : value := Value None ["OLD"].

(** a pipeline function [def f(df: DataFrame, k=(1, 2))] *)
Definition example_item : item :=
  function_item [ObjImp ["DataFrame"] "pandas" []] [("df", Value (Some "DataFrame") ["None"]); ("k", Value None ["(1,"; "    2)"])].
Definition example_file : string := text ["import a, b as c"; ""; "k = [a.x,"; "     c.y]  # mine"; ""; "other: int = 5"; "# the end"; ""].

Lemma value_ok_by x v a : forallb (fun l => negb (has_char nl_c l)) (assign_lines x v) = true -> tail_ok (assign_lines x v) ->
  parse_lines (assign_lines x v) = Ok [SAssign a] -> a_target a = TgName x -> value_ok x v.
Proof.
  intros H1 H2 H3 H4. split; [|split; [exact H2|exists a; auto]]. apply Forall_forall. intros l Hl. rewrite forallb_forall in H1. apply negb_true_iff. now apply H1.
Qed.

Lemma example_item_ok : item_ok example_item.
Proof.
  split; [repeat constructor; cbn; intuition discriminate|]. split; [constructor|]. split; [|split].
  - intros x v [H|[H|[]]]; injection H as <- <-; (eapply value_ok_by; [vm_compute; reflexivity|vm_compute; reflexivity|vm_compute; reflexivity|reflexivity]).
  - intros p [[<-|[]]|[<-|[]]]; (split; [reflexivity|]; right; split; [discriminate|]; repeat constructor).
  - now left.
Qed.

Lemma example_supported : exists f, supported example_file f.
Proof.
  eexists. split; [vm_compute; reflexivity|]. split; [|vm_compute; reflexivity].
  constructor; [right; eexists; vm_compute; reflexivity|]. constructor; [left; reflexivity|constructor].
Qed.

Lemma example_survive : survive (imports_brought example_item) /\ forall f, load_file example_file = Ok f -> survive (l_imports f).
Proof.
  split.
  - intros i [<-|[<-|[]]]; reflexivity.
  - intros f H. vm_compute in H. injection H as <-. intros i [<-|[]]. reflexivity.
Qed.

(* ------------------------------------------------------------------ *)
(** * C43 *)

(** Any file that can be read is rewritten with its imports and those still missing, the selector if the file has no s, its
    settings line by line, and the lines of the values it does not assign. *)
Theorem C43_text_written : forall astor it t f, item_ok it -> load_file t = Ok f ->
  scaffold astor it (Some t) =
  Ok (join nl (out_lines (combine_imports (l_imports f) (item_imports it)) (map snd (missing_begin it (l_assigns f))) (body t) (missing it (l_assigns f)))).
Proof.
  intros astor it t f Hit H. rewrite (scaffold_eq astor it t f Hit H). unfold rewritten. destruct (load_file_inv t f H) as (_ & _ & _ & _ & _ & <-). reflexivity.
Qed.

(** The values added are exactly those of arguments (and of strings always assigned) that the file does not assign. *)
Theorem C43_values_added : forall it al x, In x (dkeys (missing it al)) <->
  (In x (dkeys (i_defaults it)) \/ In x (dkeys (i_end it))) /\ contains_varname al x = false.
Proof.
  intros it al x. unfold missing. rewrite In_dkeys_dfilter, negb_true_iff. unfold brought, dkeys at 1. rewrite map_app, in_app_iff.
  fold (dkeys (map (annotate (i_end it)) (i_defaults it))). rewrite annotate_keys. fold (dkeys (dfilter (fun x => negb (dmem x (i_defaults it))) (i_end it))). rewrite In_dkeys_dfilter, dmem_false_iff.
  destruct (in_dec string_dec x (dkeys (i_defaults it))); tauto.
Qed.

(** The value written is that of the argument. If the argument has no annotation, it takes that of a string always assigned to
    its name. *)
Theorem C43_value_written : forall it x,
  dget x (brought it) =
  match dget x (i_defaults it) with
  | Some (Value None src) => Some (Value (match dget x (i_end it) with Some w => v_ann w | None => None end) src)
  | Some v => Some v
  | None => dget x (i_end it)
  end.
Proof.
  intros it x. unfold brought. rewrite dget_app, dget_dfilter. unfold dmem. generalize (i_end it). intros e.
  assert (K : forall d : dict value, dget x (map (annotate e) d) = match dget x d with
    | Some (Value None src) => Some (Value (match dget x e with Some w => v_ann w | None => None end) src) | r => r end).
  { intros d. induction d as [|[y [ann src]] d IH]; [reflexivity|]. cbn [map dget annotate fst snd]. destruct (String.eqb_spec x y) as [<-|]; [|exact IH].
    cbn [v_ann v_src]. destruct ann; [reflexivity|]. destruct (dget x e); reflexivity. }
  rewrite K. destruct (dget x (i_defaults it)) as [[[|] src]|]; reflexivity.
Qed.
Example C43_value_example :
  scaffold no_astor (class_item [] [("k", Value None ["1"])] (Some []) (Some [("k", Value (Some "int") ["2"]); ("m", Value None ["3"])])) None =
  Ok (text [""; ""; "k: int = 1"; "m = 3"; ""]).
Proof. vm_compute. reflexivity. Qed.

(** Reading the file afterwards gives all assignments as before, in order, with the new ones before and after them; settings the
    file had keep their values. *)
Theorem C43_settings_kept : forall astor it t f, item_ok it -> supported t f ->
  exists out f' es, scaffold astor it (Some t) = Ok out /\ load_file out = Ok f' /\
    l_assigns f' = map (fun _ => selector_asgn) (missing_begin it (l_assigns f)) ++ l_assigns f ++ es /\
    read_from (missing it (l_assigns f)) es /\
    (forall x, contains_varname (l_assigns f) x = true -> dget x (l_config f') = dget x (l_config f)).
Proof.
  intros astor it t f Hit H. destruct (start_reading it (Some t) f Hit H) as (f' & bst & bi & es & L & _ & _ & _ & _ & Ea & Fe & _ & D & _).
  exists (rewritten it f), f', es. split; [now apply (start_scaffold astor it (Some t) f)|]. auto.
Qed.

(** A new file assigns the selector and all values. *)
Theorem C43_new_file : forall astor it, item_ok it ->
  exists out f' es, scaffold astor it None = Ok out /\ load_file out = Ok f' /\
    l_assigns f' = map (fun _ => selector_asgn) (i_begin it) ++ es /\ read_from (brought it) es.
Proof.
  intros astor it Hit. destruct (start_reading it None not_existing Hit eq_refl) as (f' & bst & bi & es & L & _ & _ & _ & _ & Ea & Fe & _).
  exists (rewritten it not_existing), f', es. split; [now apply scaffold_new|]. split; [exact L|].
  cbn [l_assigns not_existing app] in *. unfold missing_begin, missing, dfilter in *. cbn in Ea, Fe.
  assert (E1 : forall A (l : list A), filter (fun _ => true) l = l) by (intros A l; induction l as [|y l IH]; cbn; congruence).
  rewrite E1 in Ea. rewrite E1 in Fe. auto.
Qed.

(** A file that cannot be read raises; nothing is written. *)
Theorem C43_unreadable_file_raises : forall astor it t e, load_file t = Raise e -> scaffold astor it (Some t) = Raise e.
Proof. intros astor it t e H. unfold scaffold. now rewrite H. Qed.

(** What astor would print for a setting read from the file does not matter. *)
Theorem C43_old_values_are_not_printed : forall a1 a2 it c, item_ok it -> scaffold a1 it c = scaffold a2 it c.
Proof.
  intros a1 a2 it [t|] Hit; [|reflexivity]. destruct (load_file t) as [f|e] eqn:E; [now rewrite !(scaffold_eq _ it t f Hit E)|]. unfold scaffold. now rewrite E.
Qed.

(** Files of specific classes are written in the same way, with the name of the instance among the values. *)
Theorem C43_specific_classes_too : forall astor it k v c, item_ok (with_name it k v) ->
  scaffold_class it k v c = scaffold astor (with_name it k v) c.
Proof. apply scaffold_class_eq. Qed.

(** What is read as a setting: the first equals sign outside of brackets that is no part of another operator splits the line. *)
Theorem C43_assignment_sign : forall ts b a, find_eq 0 None ts = Some (b, a) <->
  ts = b ++ TOp "=" :: a /\ assigns_between b a /\ forall b1 b2, b = b1 ++ TOp "=" :: b2 -> ~ assigns_between b1 (b2 ++ TOp "=" :: a).
Proof. exact find_eq_between. Qed.
Theorem C43_annotated_setting : forall x ann value, is_name x = true -> value <> [] -> (forall t, In t ann -> t <> TOp "=") -> assigns_between (TWord x :: TOp ":" :: ann) value ->
  plain_stmt (TWord x :: TOp ":" :: ann ++ TOp "=" :: value) = Ok (SAssign (Asgn (TgName x) (Some ann) (Some value))).
Proof. exact annotated_assignment. Qed.
Theorem C43_plain_setting : forall x value, is_name x = true -> value <> [] -> (forall a, value <> TOp "=" :: a) -> find_eq 0 None value = None ->
  plain_stmt (TWord x :: TOp "=" :: value) = Ok (SAssign (Asgn (TgName x) None (Some value))).
Proof. exact plain_assignment. Qed.
Theorem C43_declared_setting : forall x ann, is_name x = true -> ann <> [] -> (forall t, In t ann -> t <> TOp "=") ->
  plain_stmt (TWord x :: TOp ":" :: ann) = Ok (SAssign (Asgn (TgName x) (Some ann) None)).
Proof. exact annotation_only. Qed.
(** Without a value, or with a string to the left, it is no Python. *)
Theorem C43_value_needed : forall ts, (exists b, find_eq 0 None ts = Some (b, [])) -> plain_stmt ts = Raise SyntaxError.
Proof. intros ts (b & H). unfold plain_stmt. now rewrite H. Qed.
Theorem C43_target_needed : forall l t value, t <> TOp "=" -> find_eq 0 None (t :: value) = None -> plain_stmt (TLit l :: TOp "=" :: t :: value) = Raise SyntaxError.
Proof.
  intros l t value T N. assert (E : is_op "=" t = false) by (destruct t as [| |c]; try reflexivity; cbn; destruct (Ascii.eqb_spec c "="); [now subst c|reflexivity]).
  unfold plain_stmt. cbn [find_eq]. change (is_op "=" (TLit l)) with false. change (is_op "=" (TOp "=")) with true. cbn [andb Nat.eqb depth_after negb eq_prefix]. rewrite E. cbn [negb andb].
  cbn [find_op]. change (is_op ":" (TLit l)) with false. cbn [andb]. rewrite N. reflexivity.
Qed.
(** An annotated attribute is Python, but the library can not read it. *)
Theorem C43_annotated_attribute_refuted : exists t, t = text ["conf.size: int = 1"] /\ parse t = Ok [SAssign (Asgn TgAttr (Some [TWord "int"]) (Some [TWord "1"]))] /\
  load_file t = Raise AttributeError /\ is_ok (load_file (text ["conf.size = 1"])) = true /\ forall astor it, scaffold astor it (Some t) = Raise AttributeError.
Proof. eexists. split; [reflexivity|]. split; [vm_compute; reflexivity|]. split; [vm_compute; reflexivity|]. split; [vm_compute; reflexivity|]. intros astor it. apply C43_unreadable_file_raises. vm_compute. reflexivity. Qed.
Example C43_ex_no_python : plain_stmt [TWord "x"; TOp "="] = Raise SyntaxError /\ plain_stmt [TLit "'x'"; TOp "="; TWord "y"] = Raise SyntaxError.
Proof. split; reflexivity. Qed.
(** Text that is no Python (or that the model does not read) is reported as such, whatever is wrong with it. *)
Theorem C43_only_syntax_errors : forall t e, parse t = Raise e -> e = SyntaxError.
Proof.
  assert (A : forall tg a v e, assign_of tg a v = Raise e -> e = SyntaxError) by (intros tg a v e; unfold assign_of; destruct (target_of tg); congruence).
  assert (P : forall ts e, plain_stmt ts = Raise e -> e = SyntaxError).
  { intros ts e. unfold plain_stmt. destruct (find_eq 0 None ts) as [[b [|x y]]|]; [congruence| |].
    - destruct (find_op ":" 0 b) as [[tg ann]|]; [apply A|]. destruct (find_eq 0 None (x :: y)) as [[b2 r]|]; [|apply A].
      destruct (existsb (is_word "lambda") b2); [apply A|discriminate].
    - destruct (find_op ":" 0 ts) as [[tg [|x y]]|]; try discriminate. destruct (is_op "=" x); [congruence | apply A]. }
  assert (S : forall ts e, stmt_of ts = Raise e -> e = SyntaxError).
  { intros ts e. unfold stmt_of. destruct (find_op ";" 0 ts); [congruence|]. destruct ts as [|[w|l|c] rest]; [discriminate| |apply P | apply P].
    destruct (String.eqb w "import"); [destruct (opt_list module_alias (split_commas rest)); congruence|]. destruct (String.eqb w "from").
    - cbv zeta. match goal with |- match ?m with _ => _ end = _ -> _ => destruct m as [[md [|x names]]|]; try congruence end.
      destruct (is_word "import" x); [|congruence]. destruct (object_aliases names); [|congruence]. destruct (of_import_from md l); discriminate.
    - destruct (existsb (String.eqb w) clause_keywords); [destruct (is_op ":" _); congruence|]. destruct (existsb (String.eqb w) keywords); [discriminate | apply P]. }
  intros t e. unfold parse, parse_lines. destruct (logical None (lines_of t)) as [ls|]; [|congruence].
  induction ls as [|l ls IH]; cbn [res_list]; [discriminate|]. destruct (stmt_of l) eqn:E; [|intros [= <-]; eapply S; exact E].
  destruct (res_list stmt_of ls); [discriminate|]. intros [= <-]. now apply IH.
Qed.
(** An import of objects without the word import is no Python. *)
Theorem C43_import_word_needed : forall x t names, is_name x = true -> t <> TOp "." -> t <> TWord "import" ->
  stmt_of (TWord "from" :: TWord x :: t :: names) = Raise SyntaxError.
Proof.
  intros x t names N D W. unfold stmt_of. destruct (find_op ";" 0 _); [reflexivity|]. cbn -[dotted is_word is_name]. rewrite (dotted_stops x t names N D).
  destruct (is_word "import" t) eqn:E; [|reflexivity]. exfalso. apply W. destruct t as [v| |]; try discriminate. cbn in E. apply String.eqb_eq in E. now subst v.
Qed.
Example C43_setting_example :
  parse_lines ["k: int = f(a=1)"] = Ok [SAssign (Asgn (TgName "k") (Some [TWord "int"]) (Some [TWord "f"; TOp "("; TWord "a"; TOp "="; TWord "1"; TOp ")"]))] /\
  parse_lines ["k = a == b"] = Ok [SAssign (Asgn (TgName "k") None (Some [TWord "a"; TOp "="; TOp "="; TWord "b"]))] /\
  parse_lines ["print(a=1)"] = Ok [SOther] /\ parse_lines ["k += 1"] = Ok [SOther] /\
  parse_lines ["k: int"] = Ok [SAssign (Asgn (TgName "k") (Some [TWord "int"]) None)].
Proof. repeat split; vm_compute; reflexivity. Qed.

Example C43_example : item_ok example_item /\ (exists f, supported example_file f) /\
  scaffold no_astor example_item (Some example_file) =
  Ok (text ["from pyfileconf import Selector"; "import a, b as c"; "from pandas import DataFrame"; ""; "s = Selector()";
            "k = [a.x,"; "     c.y]  # mine"; ""; "other: int = 5"; "# the end"; "df: DataFrame = None"; ""]).
Proof. split; [exact example_item_ok|]. split; [exact example_supported|vm_compute; reflexivity]. Qed.

(* ------------------------------------------------------------------ *)
(** * C44 *)

(** If no import stands among the settings, rewriting a file again and again takes away one newline at its end each time, as
    long as there is one, and changes nothing else. A file without settings does not change at all. *)
Theorem C44_only_newlines_at_the_end_change : forall astor it t f n, item_ok it -> supported t f -> no_imports_below t ->
  survive (l_imports f) -> survive (imports_brought it) ->
  exists out, scaffold astor it (Some t) = Ok out /\
    again astor it n out = Ok (match body out with [] => out | _ => chops n out end).
Proof.
  intros astor it t f n Hit H Hb S1 S2. exists (rewritten it f). split; [now apply (start_scaffold astor it (Some t) f)|].
  apply (again_chops astor it (Some t) f n Hit H); auto. destruct (start_facts (Some t) f H) as (bst & bi & F & _).
  exists bst. split; [apply (bf_parse _ _ _ F)|]. apply Hb. destruct H as (L & _). destruct (load_file_inv t f L) as (_ & _ & _ & _ & _ & <-). apply (bf_parse _ _ _ F).
Qed.
Theorem C44_new_files_too : forall astor it n, item_ok it -> survive (imports_brought it) ->
  exists out, scaffold astor it None = Ok out /\ again astor it n out = Ok (match body out with [] => out | _ => chops n out end).
Proof.
  intros astor it n Hit S2. exists (rewritten it not_existing). split; [now apply scaffold_new|].
  apply (again_chops astor it None not_existing n Hit eq_refl); auto; [|intros i []]. exists []. auto.
Qed.

(** So the file settles. *)
Theorem C44_settles : forall astor it t f out n, item_ok it -> supported t f -> no_imports_below t ->
  survive (l_imports f) -> survive (imports_brought it) -> scaffold astor it (Some t) = Ok out -> String.length out <= n ->
  again astor it (S n) out = again astor it n out.
Proof.
  intros astor it t f out n Hit H Hb S1 S2 E L.
  destruct (C44_only_newlines_at_the_end_change astor it t f n Hit H Hb S1 S2) as (o1 & E1 & A1).
  destruct (C44_only_newlines_at_the_end_change astor it t f (S n) Hit H Hb S1 S2) as (o2 & E2 & A2).
  assert (o1 = out) by congruence. assert (o2 = out) by congruence. subst o1 o2. rewrite A1, A2. destruct (body out); [reflexivity|].
  rewrite chops_S. now rewrite chops_fix.
Qed.

(** From the second rewriting on, if neither the file nor a value ends in an empty line. *)
Theorem C44_settles_with_the_second_rewriting : forall astor it t f out n, item_ok it -> supported t f -> no_imports_below t ->
  survive (l_imports f) -> survive (imports_brought it) -> scaffold astor it (Some t) = Ok out ->
  (body t <> [] -> last (body t) "" <> "") ->
  (forall x v, In (x, v) (brought it) -> last (assign_lines x v) "" <> "") ->
  again astor it (S n) out = again astor it 1 out.
Proof.
  intros astor it t f out n Hit H Hb S1 S2 E L1 L2.
  destruct (C44_only_newlines_at_the_end_change astor it t f (S n) Hit H Hb S1 S2) as (o1 & E1 & A1).
  destruct (C44_only_newlines_at_the_end_change astor it t f 1 Hit H Hb S1 S2) as (o2 & E2 & A2).
  assert (o1 = out) by congruence. assert (o2 = out) by congruence. subst o1 o2. rewrite A1, A2. destruct (body out); [reflexivity|]. f_equal.
  assert (Eo : out = rewritten it f) by (rewrite (start_scaffold astor it (Some t) f Hit H) in E; congruence).
  assert (C : chop (chop out) = chop out).
  { rewrite Eo. apply (chop_chop it (Some t) f Hit H); [|exact L2]. destruct H as (L & _). destruct (load_file_inv t f L) as (_ & _ & _ & _ & _ & ->). exact L1. }
  cbn [chops]. clear - C. induction n as [|n IH]; [reflexivity|]. cbn [chops]. now rewrite C.
Qed.

Example C44_example : no_imports_below example_file /\ survive (imports_brought example_item) /\
  (exists f, supported example_file f /\ survive (l_imports f)) /\ body example_file <> [] /\ last (body example_file) "" <> "" /\
  exists out out', scaffold no_astor example_item (Some example_file) = Ok out /\ again no_astor example_item 1 out = Ok out' /\
    out = (out' ++ nl)%string /\ again no_astor example_item 5 out = Ok out'.
Proof.
  split. { intros st H. vm_compute in H. injection H as <-. reflexivity. }
  split; [exact (proj1 example_survive)|]. split. { destruct example_supported as [f Hf]. exists f. split; [exact Hf|]. exact (proj2 example_survive f (proj1 Hf)). }
  split; [discriminate|]. split; [discriminate|]. do 2 eexists. split; [vm_compute; reflexivity|]. split; [vm_compute; reflexivity|]. split; vm_compute; reflexivity.
Qed.

(* ------------------------------------------------------------------ *)
(** * C45 *)

(** Imports among the settings are copied to the top by every rewriting: after n + 1 rewritings the file has n + 1 copies of
    them above the settings, besides those in the settings. *)
Theorem C45_imports_below_multiply : forall astor it t f bi n, item_ok it -> supported t f ->
  (exists bst, parse_lines (body t) = Ok bst /\ imports_of bst = Ok bi) ->
  survive (l_imports f) -> survive (imports_brought it) -> survive bi ->
  exists t' f', again astor it (S n) t = Ok t' /\ load_file t' = Ok f' /\
    l_imports f' = combine_imports (l_imports f) (item_imports it) ++ copies (S n) bi.
Proof.
  intros astor it t f bi n Hit H Hb S1 S2 S3.
  assert (B : below f bi). { destruct H as (L & _). destruct (load_file_inv t f L) as (_ & _ & _ & _ & _ & E). unfold below. now rewrite E. }
  destruct (again_after astor it (Some t) f bi n Hit H B S1 S2 S3) as (t' & f' & E & L & Ei). exists t', f'. split; [|auto].
  cbn [again]. now rewrite (start_scaffold astor it (Some t) f Hit H).
Qed.

(** A comment in the first line is enough. *)
Theorem C45_below_a_comment_refuted : exists it t f, item_ok it /\ supported t f /\ survive (l_imports f) /\ survive (imports_brought it) /\
  t = text ["# settings"; "import a"; "df = a.x"] /\
  forall astor n, exists t' f', again astor it (S n) t = Ok t' /\ load_file t' = Ok f' /\ n <= length (l_imports f').
Proof.
  exists example_item, (text ["# settings"; "import a"; "df = a.x"]). eexists. split; [exact example_item_ok|].
  assert (S : supported (text ["# settings"; "import a"; "df = a.x"]) (Loaded [ModImp ["a"] []] [Asgn (TgName "df") None (Some [TWord "a"; TOp "."; TWord "x"])] ["# settings"; "import a"; "df = a.x"] [("df", Some [TWord "a"; TOp "."; TWord "x"])])).
  { split; [vm_compute; reflexivity|]. split; [constructor|vm_compute; reflexivity]. }
  split; [exact S|]. assert (V : survive [ModImp ["a"] []]) by (intros i [<-|[]]; reflexivity). split; [exact V|]. split; [exact (proj1 example_survive)|]. split; [reflexivity|].
  intros astor n. destruct (C45_imports_below_multiply astor example_item _ _ [ModImp ["a"] []] n example_item_ok S) as (t' & f' & E & L & Ei); auto.
  - eexists. split; vm_compute; reflexivity.
  - exact (proj1 example_survive).
  - exists t', f'. split; [exact E|]. split; [exact L|]. rewrite Ei, app_length. assert (K : forall k, length (copies k [ModImp ["a"] []]) = k) by (induction k as [|k IHk]; [reflexivity|]; cbn; now rewrite IHk). rewrite K. lia.
Qed.

(** A setting at the top whose line contains the text "import" is deleted, and not added again. *)
Theorem C45_setting_deleted_refuted : exists it t f out f', item_ok it /\ load_file t = Ok f /\ t = text ["important = 5"; "k = 2"] /\
  scaffold no_astor it (Some t) = Ok out /\ load_file out = Ok f' /\
  dget "important" (l_config f) = Some (Some [TWord "5"]) /\ dget "important" (l_config f') = None /\ dmem "important" (i_defaults it) = true.
Proof.
  exists (function_item [] [("important", Value None ["1"]); ("k", Value None ["None"])]), (text ["important = 5"; "k = 2"]). do 3 eexists. split.
  { split; [repeat constructor; cbn; intuition discriminate|]. split; [constructor|]. split; [|split; [|now left]].
    - intros x v [H|[H|[]]]; injection H as <- <-; (eapply value_ok_by; [vm_compute; reflexivity|vm_compute; reflexivity|vm_compute; reflexivity|reflexivity]).
    - intros p [[]|[<-|[]]]; (split; [reflexivity|]; right; split; [discriminate|]; repeat constructor). }
  split; [vm_compute; reflexivity|]. split; [reflexivity|]. split; [vm_compute; reflexivity|]. split; [vm_compute; reflexivity|]. split; [vm_compute; reflexivity|]. split; vm_compute; reflexivity.
Qed.

(** A comment among the imports is deleted if it contains the text "import". *)
Theorem C45_comment_deleted_refuted : exists t out, t = text ["# do not reorder the imports"; "import a"; "k = 2"] /\
  scaffold no_astor example_item (Some t) = Ok out /\ contains out "reorder" = false.
Proof. do 2 eexists. split; [reflexivity|]. split; vm_compute; reflexivity. Qed.

(** An import over several lines leaves its other lines behind: the file cannot be read any more. *)
Theorem C45_import_over_lines_refuted : exists t f out, t = text ["from a import ("; "    b,"; "    c"; ")"; "k = 2"] /\ load_file t = Ok f /\
  scaffold no_astor example_item (Some t) = Ok out /\ load_file out = Raise SyntaxError.
Proof. do 3 eexists. split; [reflexivity|]. split; [vm_compute; reflexivity|]. split; vm_compute; reflexivity. Qed.

(** Relative imports become absolute ones. *)
Theorem C45_relative_import_refuted : exists t out, t = text ["from .a import b"; "k = 2"] /\
  scaffold no_astor example_item (Some t) = Ok out /\ contains out "from a import b" = true /\ contains out "from .a" = false.
Proof. do 2 eexists. split; [reflexivity|]. split; [vm_compute; reflexivity|]. split; vm_compute; reflexivity. Qed.

(** The import of the selector is put in front of imports from __future__. *)
Theorem C45_future_import_refuted : exists t out, t = text ["from __future__ import annotations"; "k = 2"] /\
  scaffold no_astor example_item (Some t) = Ok out /\ startswith out ("from pyfileconf import Selector" ++ nl ++ "from __future__ import annotations") = true.
Proof. do 2 eexists. split; [reflexivity|]. split; vm_compute; reflexivity. Qed.

(** A class whose only setting has "import" in its name and which brings no selector: the setting comes and goes with every
    other load, for ever. *)
Definition importer_item : item := class_item [] [("importer", Value None ["None"])] (Some []) (Some []).
Theorem C45_setting_comes_and_goes_refuted :
  scaffold no_astor importer_item None = Ok (text [""; ""; "importer = None"; ""]) /\
  (forall n, again no_astor importer_item (2 * n) (text [""; ""; "importer = None"; ""]) = Ok (text [""; ""; "importer = None"; ""])) /\
  (forall n, again no_astor importer_item (2 * n + 1) (text [""; ""; "importer = None"; ""]) = Ok (text [""; ""])).
Proof.
  split; [vm_compute; reflexivity|].
  assert (A1 : scaffold no_astor importer_item (Some (text [""; ""; "importer = None"; ""])) = Ok (text [""; ""])) by (vm_compute; reflexivity).
  assert (A2 : scaffold no_astor importer_item (Some (text [""; ""])) = Ok (text [""; ""; "importer = None"; ""])) by (vm_compute; reflexivity).
  generalize dependent (text [""; ""; "importer = None"; ""]). generalize (text [""; ""]). intros t2 t1 A1 A2.
  assert (E : forall n, again no_astor importer_item (2 * n) t1 = Ok t1).
  { induction n as [|n IH]; [reflexivity|]. replace (2 * S n) with (S (S (2 * n))) by lia. cbn [again]. rewrite A1. cbn [again]. rewrite A2. exact IH. }
  assert (E2 : forall n, again no_astor importer_item (2 * n) t2 = Ok t2).
  { induction n as [|n IH]; [reflexivity|]. replace (2 * S n) with (S (S (2 * n))) by lia. cbn [again]. rewrite A2. cbn [again]. rewrite A1. exact IH. }
  split; [exact E|]. intros n. replace (2 * n + 1) with (S (2 * n)) by lia. cbn [again]. rewrite A1. apply E2.
Qed.

Print Assumptions C43_text_written.
Print Assumptions C43_values_added.
Print Assumptions C43_value_written.
Print Assumptions C43_settings_kept.
Print Assumptions C43_new_file.
Print Assumptions C43_unreadable_file_raises.
Print Assumptions C43_old_values_are_not_printed.
Print Assumptions C43_specific_classes_too.
Print Assumptions C43_assignment_sign.
Print Assumptions C43_import_word_needed.
Print Assumptions C43_annotated_setting.
Print Assumptions C43_plain_setting.
Print Assumptions C43_declared_setting.
Print Assumptions C44_only_newlines_at_the_end_change.
Print Assumptions C44_new_files_too.
Print Assumptions C44_settles.
Print Assumptions C44_settles_with_the_second_rewriting.
Print Assumptions C45_imports_below_multiply.
Print Assumptions C45_below_a_comment_refuted.
Print Assumptions C45_setting_deleted_refuted.
Print Assumptions C45_comment_deleted_refuted.
Print Assumptions C45_import_over_lines_refuted.
Print Assumptions C45_relative_import_refuted.
Print Assumptions C45_future_import_refuted.
Print Assumptions C45_setting_comes_and_goes_refuted.
Print Assumptions C43_value_needed.
Print Assumptions C43_target_needed.
Print Assumptions C43_annotated_attribute_refuted.
Print Assumptions C43_only_syntax_errors.
