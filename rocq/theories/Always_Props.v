(** C83: what config files always get. *)
From Verif Require Import FileStr_Proofs FileStrOps_Proofs Always_Spec Always_Proofs.
Local Open Scope string_scope.
Local Open Scope list_scope.

(* ------------------------------------------------------------------ *)
(** * Which strings are accepted *)

(** A string to always assign must be readable and contain one assignment, at any depth, among any other statements. *)
Theorem C83_assign_string : forall s a, assign_from_str s = Ok a <-> exists st, parse s = Ok st /\ only_one assigns (SAssign a) st.
Proof. exact assign_from_str_ok. Qed.
(** The same for imports. *)
Theorem C83_import_string : forall s i, import_from_str s = Ok i <-> exists st, parse s = Ok st /\ only_one imports_something (SImport i) st.
Proof. exact import_from_str_ok. Qed.

(** A string that is not readable raises the parser's error, one without assignment an error of the library. *)
Theorem C83_rejected_string : forall s,
  (forall e, parse s = Raise e -> assign_from_str s = Raise e /\ import_from_str s = Raise e) /\
  (forall st, parse s = Ok st -> (forall x, In x st -> assigns x = false) -> assign_from_str s = Raise (LibExn "CouldNotExtractAssignmentFromAstException")) /\
  (forall st, parse s = Ok st -> (forall x, In x st -> imports_something x = false) -> import_from_str s = Raise (LibExn "CouldNotExtractObjectImportFromAstException")).
Proof.
  intros s. unfold assign_from_str, import_from_str. split; [intros e ->; auto|]. split; intros st -> H.
  - apply assigns_none in H. now rewrite H.
  - apply imports_none in H. now rewrite H.
Qed.

Example C83_string_examples :
  assign_from_str "k: int = 5  # five" = Ok (Asgn (TgName "k") (Some [TWord "int"]) (Some [TWord "5"])) /\
  assign_from_str (text ["import a"; "k = 5"]) = Ok (Asgn (TgName "k") None (Some [TWord "5"])) /\
  assign_from_str (text ["k = 1"; "m = 2"]) = Raise ValueError /\
  assign_from_str "print(k)" = Raise (LibExn "CouldNotExtractAssignmentFromAstException") /\
  assign_from_str "k = (1" = Raise SyntaxError /\
  import_from_str "from a import b" = Ok (ObjImp ["b"] "a" []) /\
  import_from_str "import a as c" = Ok (ModImp ["a"] [("a", "c")]) /\
  import_from_str (text ["import a"; "import b"]) = Raise ValueError /\
  import_from_str "a" = Raise (LibExn "CouldNotExtractObjectImportFromAstException").
Proof. repeat split; vm_compute; reflexivity. Qed.

(** Only what is read of a string matters. *)
Theorem C83_only_what_is_read : forall s1 s2, parse s1 = parse s2 -> assign_from_str s1 = assign_from_str s2 /\ import_from_str s1 = import_from_str s2.
Proof. intros s1 s2 E. unfold assign_from_str, import_from_str. now rewrite E. Qed.
(** The string is not written as the user wrote it: two strings with different comments give the same files. *)
Theorem C83_verbatim_refuted : exists s1 s2, s1 = "k = 5  # do not change" /\ s2 = "k = 5" /\ forall pv pa imports defaults si key v c,
  scaffold_strs pv pa imports defaults si (ListOf [s1]) key v c = scaffold_strs pv pa imports defaults si (ListOf [s2]) key v c.
Proof.
  do 2 eexists. split; [reflexivity|]. split; [reflexivity|]. intros. unfold scaffold_strs, item_of_strs, always_assigns. cbn [res_list].
  assert (E : assign_from_str "k = 5  # do not change" = assign_from_str "k = 5") by (vm_compute; reflexivity). now rewrite E.
Qed.

(* ------------------------------------------------------------------ *)
(** * The class's own or the user's *)

(** Without strings, or with an empty tuple, files get the selector; with an empty list, nothing. *)
Theorem C83_strings_or_own : forall pv pa imports defaults,
  item_of_strs pv pa imports defaults NoStrs NoStrs = Ok (function_item imports defaults) /\
  (forall si, item_of_strs pv pa imports defaults si (TupleOf []) = item_of_strs pv pa imports defaults si NoStrs) /\
  (forall sa, item_of_strs pv pa imports defaults (TupleOf []) sa = item_of_strs pv pa imports defaults NoStrs sa) /\
  item_of_strs pv pa imports defaults (ListOf []) (ListOf []) = Ok (class_item imports defaults (Some []) (Some [])) /\
  (forall si l, l <> [] -> item_of_strs pv pa imports defaults si (TupleOf l) = item_of_strs pv pa imports defaults si (ListOf l)) /\
  (forall sa l, l <> [] -> item_of_strs pv pa imports defaults (TupleOf l) sa = item_of_strs pv pa imports defaults (ListOf l) sa).
Proof.
  intros pv pa imports defaults. repeat split; try reflexivity.
  - intros si [|s l] H; [contradiction|reflexivity].
  - intros sa [|s l] H; [contradiction|reflexivity].
Qed.
(** Import strings follow the imports of the signature, in their order; one that is there already is left out. The selector's import
    comes before them all. *)
Theorem C83_given_imports : forall pv pa imports defaults li is, Forall2 (fun s i => import_from_str s = Ok i) li is ->
  item_of_strs pv pa imports defaults (ListOf li) NoStrs = Ok (class_item imports defaults (Some is) None).
Proof. intros pv pa imports defaults li is H. unfold item_of_strs, always_imports. apply res_list_ok in H. now rewrite H. Qed.
Theorem C83_import_strings_last : forall imports defaults is al, (forall l1 i l2, is = l1 ++ i :: l2 -> ~ covered i (imports ++ l1)) ->
  map fst (item_imports (class_item imports defaults (Some is) al)) = imports ++ is.
Proof. intros imports defaults is al H. now apply strings_last. Qed.
Theorem C83_import_string_left_out : forall imports defaults is i al, covered i (imports ++ is) ->
  map fst (item_imports (class_item imports defaults (Some (is ++ [i])) al)) = map fst (item_imports (class_item imports defaults (Some is) al)).
Proof. intros imports defaults is i al H. now apply string_left_out. Qed.
Theorem C83_selector_first : forall imports defaults al, ~ covered (ObjImp ["Selector"] "pyfileconf" []) imports ->
  map fst (item_imports (class_item imports defaults None al)) = ObjImp ["Selector"] "pyfileconf" [] :: imports.
Proof. intros imports defaults al H. now apply selector_before. Qed.
Example C83_imports_example : let a := ModImp ["a"] [] in let b := ObjImp ["x"; "y"] "b" [] in let c := ObjImp ["y"] "b" [] in
  map fst (item_imports (class_item [a; b] ex_defaults (Some [ModImp ["c"] []; c]) None)) = [a; b; ModImp ["c"] []] /\
  ~ covered (ModImp ["c"] []) [a; b] /\ covered c [a; b; ModImp ["c"] []] /\ ~ covered (ObjImp ["Selector"] "pyfileconf" []) [a; b].
Proof.
  split; [vm_compute; reflexivity|]. split; [|split].
  - intros (j & [<-|[<-|[]]] & E & I & _); [|discriminate]. destruct (I "c" (or_introl eq_refl)) as [|[]]. discriminate.
  - exists (ObjImp ["x"; "y"] "b" []). split; [right; now left|]. split; [reflexivity|]. split; [|easy]. intros n [<-|[]]. right. now left.
  - intros (j & [<-|[<-|[]]] & E & _); discriminate.
Qed.
(** An empty sequence of strings does not mean that nothing is added. *)
Theorem C83_empty_sequence_refuted : exists pv pa s, In s [ListOf []; TupleOf []] /\
  exists t, scaffold_strs pv pa [] ex_defaults s s "name" (Value None ["'a'"]) None = Ok t /\ contains t "Selector" = true.
Proof.
  exists pv, pa, (TupleOf []). split; [right; left; reflexivity|]. eexists. split; vm_compute; reflexivity.
Qed.

(** All strings must be accepted, and each assign to a name or (without annotation) to an attribute. *)
Theorem C83_accepted : forall pv pa imports defaults li la,
  (exists it, item_of_strs pv pa imports defaults (ListOf li) (ListOf la) = Ok it) <->
  (forall s, In s li -> exists i, import_from_str s = Ok i) /\
  (forall s, In s la -> exists a, assign_from_str s = Ok a /\ (a_target a = TgAttr /\ a_ann a = None \/ exists x, a_target a = TgName x)).
Proof.
  intros pv pa imports defaults li la. unfold item_of_strs, always_imports, always_assigns. destruct (res_list import_from_str li) as [is|e] eqn:Ei.
  - apply res_list_ok in Ei. destruct (res_list assign_from_str la) as [al|e] eqn:Ea.
    + apply res_list_ok in Ea. assert (X : (exists it, match end_values pv pa [] al with Ok d => Ok (Item (map (fun i => (i, false)) imports) defaults (map (fun i => (i, false)) is) [] d) | Raise e => Raise e end = Ok it) <-> exists d, end_values pv pa [] al = Ok d).
      { destruct (end_values pv pa [] al) as [d|e]; split; intros [y Hy]; try discriminate; eauto. }
      rewrite X, end_values_ok. clear X. split.
      * intros H. split. { intros s Hs. apply In_nth_error in Hs as [n Hn]. clear - Ei Hn. revert n Hn. induction Ei as [|a b l l' Hab HF IH]; intros [|n] Hn; try discriminate; [injection Hn as <-; eauto|eauto]. }
        intros s Hs. assert (G : exists a, assign_from_str s = Ok a /\ In a al). { clear - Ea Hs. induction Ea as [|a b l l' Hab HF IH]; [contradiction|]. destruct Hs as [<-|Hs]; [exists b; split; [exact Hab|now left]|]. destruct (IH Hs) as (c & H1 & H2). exists c. split; [exact H1|now right]. }
        destruct G as (a & H1 & H2). exists a. split; [exact H1|]. destruct (H a H2) as [r Hr]. unfold default_of in Hr. destruct (a_target a) as [x| |] eqn:T; [right; eauto| |discriminate]. left. split; [reflexivity|]. destruct (a_ann a); [discriminate|reflexivity].
      * intros [_ H] a Hin. assert (G : exists s, In s la /\ assign_from_str s = Ok a). { clear - Ea Hin. induction Ea as [|s b l l' Hab HF IH]; [contradiction|]. destruct Hin as [<-|Hin]; [exists s; split; [now left|exact Hab]|]. destruct (IH Hin) as (c & H1 & H2). exists c. split; [now right|exact H2]. }
        destruct G as (s & H1 & H2). destruct (H s H1) as (b & H3 & H4). replace b with a in H4 by congruence. unfold default_of. destruct H4 as [[-> ->]|[x ->]]; eauto.
    + split; [intros [it H]; discriminate|]. intros [_ H]. exfalso. assert (G : exists al, res_list assign_from_str la = Ok al); [|destruct G; congruence]. clear - H. induction la as [|s la IH]; [eexists; reflexivity|]. cbn [res_list]. destruct (H s (or_introl eq_refl)) as (a & -> & _). destruct IH as [al ->]; [intros t Ht; apply H; now right|]. eexists; reflexivity.
  - split; [intros [it H]; discriminate|]. intros [H _]. exfalso. assert (G : exists al, res_list import_from_str li = Ok al); [|destruct G; congruence]. clear - H. induction li as [|s la IH]; [eexists; reflexivity|]. cbn [res_list]. destruct (H s (or_introl eq_refl)) as (a & ->). destruct IH as [al ->]; [intros t Ht; apply H; now right|]. eexists; reflexivity.
Qed.

(** Assignments to attributes are accepted, but nothing is written for them; assignments to elements raise NotImplementedError. *)
Theorem C83_attribute_strings : forall pv pa imports defaults si l1 s l2 a, assign_from_str s = Ok a -> a_target a = TgAttr -> a_ann a = None ->
  item_of_strs pv pa imports defaults si (ListOf (l1 ++ s :: l2)) = item_of_strs pv pa imports defaults si (ListOf (l1 ++ l2)).
Proof.
  intros pv pa imports defaults si l1 s l2 a Hs T N. unfold item_of_strs. destruct (always_imports si) as [pis|e]; [|reflexivity]. unfold always_assigns.
  assert (G : forall d, match res_list assign_from_str (l1 ++ s :: l2) with Ok al => end_values pv pa d al | Raise e => Raise e end = match res_list assign_from_str (l1 ++ l2) with Ok al => end_values pv pa d al | Raise e => Raise e end /\ ((exists e, res_list assign_from_str (l1 ++ s :: l2) = Raise e /\ res_list assign_from_str (l1 ++ l2) = Raise e) \/ (exists x y, res_list assign_from_str (l1 ++ s :: l2) = Ok x /\ res_list assign_from_str (l1 ++ l2) = Ok y))).
  { induction l1 as [|t l1 IH]; intros d; cbn [app res_list].
    - rewrite Hs. destruct (res_list assign_from_str l2) as [al|e]; [|split; [reflexivity|left; eauto]]. split; [|right; eauto]. cbn [end_values]. unfold default_of, add_assign. now rewrite T, N.
    - destruct (assign_from_str t) as [b|e]; [|split; [reflexivity|left; eauto]]. destruct (IH (add_assign pv pa d b)) as [E [(e & E1 & E2)|(x & y & E1 & E2)]]; rewrite E1, E2 in *; [split; [reflexivity|left; eauto]|]. split; [|right; eauto]. cbn [end_values]. destruct (default_of b); [exact E|reflexivity]. }
  destruct (G []) as [E [(e & E1 & E2)|(x & y & E1 & E2)]]; rewrite E1, E2 in *; [reflexivity|]. now rewrite E.
Qed.
Example C83_target_examples :
  assign_from_str "a.b = 5" = Ok (Asgn TgAttr None (Some [TWord "5"])) /\
  scaffold_strs pv pa [] ex_defaults (ListOf []) (ListOf ["a.b = 5"; "k = 3"]) "name" (Value None ["'a'"]) None = Ok (text [""; ""; "x = 1"; "name = 'a'"; "k = VALUE"; ""]) /\
  assign_from_str "a[0] = 5" = Ok (Asgn TgOther None (Some [TWord "5"])) /\
  scaffold_strs pv pa [] ex_defaults (ListOf []) (ListOf ["a[0] = 5"]) "name" (Value None ["'a'"]) None = Raise (LibExn "NotImplementedError").
Proof. repeat split; vm_compute; reflexivity. Qed.

(* ------------------------------------------------------------------ *)
(** * What is written for the strings *)

(** A name gets the value of the last string that assigns it and the annotation of the last that annotates it. *)
Theorem C83_value_of_a_name : forall pv pa imports defaults si l al it x, Forall2 (fun s a => assign_from_str s = Ok a) l al ->
  item_of_strs pv pa imports defaults si (ListOf l) = Ok it ->
  i_begin it = [] /\ i_defaults it = defaults /\
  dget x (i_end it) = match last_for x al with Some a => Some (Value (option_map pa (last_ann x al)) (pv (a_value a))) | None => None end.
Proof.
  intros pv pa imports defaults si l al it x Hal H. unfold item_of_strs in H. destruct (always_imports si) as [pis|e]; [|discriminate]. unfold always_assigns in H.
  apply res_list_ok in Hal. rewrite Hal in H. destruct (end_values pv pa [] al) as [d|e] eqn:E; [|discriminate]. injection H as <-. repeat split. cbn [i_end]. now apply end_values_get.
Qed.
Example C83_value_example : exists it, item_of_strs pv pa [] ex_defaults (ListOf []) (ListOf ["k: int = 1"; "k = 2"]) = Ok it /\ i_end it = [("k", Value (Some "ANN") ["VALUE"])].
Proof. eexists. split; vm_compute; reflexivity. Qed.

(** The names of the strings come after those of the parameters, in the order of the strings. *)
Theorem C83_order : forall pv pa imports defaults si l al it, Forall2 (fun s a => assign_from_str s = Ok a) l al ->
  item_of_strs pv pa imports defaults si (ListOf l) = Ok it ->
  dkeys (brought it) = dkeys defaults ++ filter (fun x => negb (dmem x defaults)) (firsts (names_of al)).
Proof.
  intros pv pa imports defaults si l al it Hal H. unfold item_of_strs in H. destruct (always_imports si) as [pis|e]; [|discriminate]. unfold always_assigns in H.
  apply res_list_ok in Hal. rewrite Hal in H. destruct (end_values pv pa [] al) as [d|e] eqn:E; [|discriminate]. injection H as <-. unfold brought. cbn [i_end i_defaults].
  unfold dkeys at 1. rewrite map_app. fold (dkeys (map (annotate d) defaults)). rewrite annotate_keys. f_equal. rewrite <- (end_values_order _ _ _ _ E). unfold dkeys, dfilter. clear.
  induction d as [|[y v] d IH]; [reflexivity|]. cbn [filter map fst]. destruct (negb (dmem y defaults)); cbn [map fst]; now rewrite IH.
Qed.

(** Passing the class's own strings does not give the class's own files: the selector comes after the settings that may use it. *)
Theorem C83_own_strings_refuted : exists si sa t u, si = ListOf ["from pyfileconf import Selector"] /\ sa = ListOf ["s = Selector()"] /\
  scaffold_strs (fun _ => ["Selector()"]) pa [] ex_defaults NoStrs NoStrs "name" (Value None ["'a'"]) None = Ok t /\
  scaffold_strs (fun _ => ["Selector()"]) pa [] ex_defaults si sa "name" (Value None ["'a'"]) None = Ok u /\
  t = text ["from pyfileconf import Selector"; ""; "s = Selector()"; "x = 1"; "name = 'a'"; ""] /\
  u = text ["from pyfileconf import Selector"; ""; "x = 1"; "name = 'a'"; "s = Selector()"; ""].
Proof. do 4 eexists. split; [reflexivity|]. split; [reflexivity|]. split; [vm_compute; reflexivity|]. split; [vm_compute; reflexivity|]. split; reflexivity. Qed.

(** A file that exists is read before the strings: its error comes first. *)
Theorem C83_file_first : forall pv pa imports defaults si sa key v t e, load_file t = Raise e -> scaffold_strs pv pa imports defaults si sa key v (Some t) = Raise e.
Proof. intros. unfold scaffold_strs. now rewrite H. Qed.
(** Otherwise the file is written like that of any other class. *)
Theorem C83_then_as_usual : forall pv pa imports defaults si sa key v c it, (forall t, c = Some t -> exists f, load_file t = Ok f) ->
  item_of_strs pv pa imports defaults si sa = Ok it -> scaffold_strs pv pa imports defaults si sa key v c = scaffold_class it key v c.
Proof. intros pv pa imports defaults si sa key v c it Hc H. unfold scaffold_strs. rewrite H. destruct c as [t|]; [|reflexivity]. destruct (Hc t eq_refl) as [f ->]. reflexivity. Qed.
Theorem C83_bad_strings_raise : forall pv pa imports defaults si sa key v c e, (forall t, c = Some t -> exists f, load_file t = Ok f) ->
  item_of_strs pv pa imports defaults si sa = Raise e -> scaffold_strs pv pa imports defaults si sa key v c = Raise e.
Proof. intros pv pa imports defaults si sa key v c e Hc H. unfold scaffold_strs. rewrite H. destruct c as [t|]; [|reflexivity]. destruct (Hc t eq_refl) as [f ->]. reflexivity. Qed.

(* ------------------------------------------------------------------ *)
(** * DataPipeline *)

(** What is written for an object called DataPipeline is what would be if its default for cleanup_kwargs were [dict()] at the end
    (unless it has another default than None). *)
Theorem C83_pipeline_as_usual : forall astor n it content, i_end it = [] -> scaffold_named astor n it content = scaffold astor (cleaned n it) content.
Proof. exact scaffold_named_eq. Qed.
Theorem C83_other_names : forall n it, n <> "DataPipeline" -> cleaned n it = it.
Proof. intros n [a b c d e] H. unfold cleaned, with_cleanup. cbn [i_defaults i_imports i_always_imports i_begin i_end]. destruct (String.eqb_spec n "DataPipeline"); [contradiction|reflexivity]. Qed.
Theorem C83_pipeline_defaults : forall it,  dwf (i_defaults it) ->
  (forall x, x <> cleanup -> dget x (i_defaults (cleaned "DataPipeline" it)) = dget x (i_defaults it)) /\
  dget cleanup (i_defaults (cleaned "DataPipeline" it)) =
    Some (match dget cleanup (i_defaults it) with
          | Some v => if list_eq_dec string_dec (v_src v) ["None"] then Value (v_ann v) ["dict()"] else v
          | None => Value None ["dict()"]
          end) /\
  (forall v, dget cleanup (i_defaults it) = Some v -> v_src v <> ["None"] -> cleaned "DataPipeline" it = it) /\
  ((forall v, dget cleanup (i_defaults it) = Some v -> v_src v = ["None"]) ->
     dkeys (i_defaults (cleaned "DataPipeline" it)) = dkeys (ddel cleanup (i_defaults it)) ++ [cleanup]).
Proof.
  intros it W. unfold cleaned, with_cleanup. cbn [i_defaults]. change (String.eqb "DataPipeline" "DataPipeline") with true. cbn [negb]. cbv iota.
  split; [|split; [|split]].
  - intros x N. assert (Z : forall v, dget x [(cleanup, v)] = None :> option value) by (intros v; cbn [dget]; destruct (String.eqb_spec x cleanup); [contradiction|reflexivity]).
    destruct (dget cleanup (i_defaults it)) as [v|]; [destruct (is_none v); [|reflexivity]|]; rewrite dget_app, Z; [rewrite dget_ddel_neq by exact N|]; now destruct (dget x (i_defaults it)).
  - destruct (dget cleanup (i_defaults it)) as [v|] eqn:G; [pose proof (is_none_iff v) as I; destruct (list_eq_dec string_dec (v_src v) ["None"]) as [Y|Y], (is_none v); try (now destruct (Y (proj1 I eq_refl))); try (now discriminate (proj2 I Y))|].
    + rewrite dget_app. rewrite dget_ddel_eq by exact W. reflexivity.
    + exact G.
    + rewrite dget_app, G. reflexivity.
  - intros v -> N. destruct (is_none v) eqn:I; [now destruct (N (proj1 (is_none_iff v) I))|]. destruct it; reflexivity.
  - intros H. destruct (dget cleanup (i_defaults it)) as [v|] eqn:G.
    + rewrite (proj2 (is_none_iff v) (H v eq_refl)). unfold dkeys. now rewrite map_app.
    + unfold dkeys at 1. rewrite map_app. fold (dkeys (i_defaults it)). f_equal. apply dget_None in G. f_equal. clear - G. unfold dict in *. induction (i_defaults it) as [|[x v] d IH]; [reflexivity|]. cbn [ddel].
      destruct (String.eqb_spec cleanup x) as [E|N]; [exfalso; apply G; left; now symmetry|]. f_equal. apply IH. intros K. apply G. now right.
Qed.

Example C83_pipeline_example :
  scaffold_named (fun _ _ => Value None []) "DataPipeline" (function_item [] pipe_defaults) None =
    Ok (text ["from pyfileconf import Selector"; ""; "s = Selector()"; "data = None"; "name = None"; "cleanup_kwargs: dict = dict()"; ""]) /\
  scaffold_named (fun _ _ => Value None ["None"]) "DataPipeline" (function_item [] pipe_defaults) (Some (text ["cleanup_kwargs = None"; "data = 3"])) =
    Ok (text ["from pyfileconf import Selector"; ""; "s = Selector()"; "cleanup_kwargs = None"; "data = 3"; "name = None"; ""]).
Proof. split; vm_compute; reflexivity. Qed.

(* ------------------------------------------------------------------ *)
(** * Where a config is saved *)

(** A config that comes from no file is written to the path it is given; nothing else changes. *)
Theorem C83_saved_to_path : forall save path disk t, save (dget path disk) = Ok t ->
  exists disk', to_file save None path disk = Ok disk' /\ dget path disk' = Some t /\ forall q, q <> path -> dget q disk' = dget q disk.
Proof.
  intros save path disk t H. unfold to_file. cbn [cf_known cf_path]. rewrite H. eexists. split; [reflexivity|]. split; [apply dget_dset_eq|]. intros q N. now apply dget_dset_neq.
Qed.
(** A config that comes from a file is written to that file again, whatever path it is given. *)
Theorem C83_saved_to_its_file : forall save f path disk disk', to_file save (Some f) path disk = Ok disk' ->
  (exists t, dget (cf_path f) disk' = Some t) /\ forall q, q <> cf_path f -> dget q disk' = dget q disk.
Proof.
  intros save f path disk disk' H. unfold to_file in H. match type of H with match save ?k with _ => _ end = _ => destruct (save k) as [t|e]; [|discriminate] end. injection H as <-.
  split; [exists t; apply dget_dset_eq|]. intros q N. now apply dget_dset_neq.
Qed.
(** The text is made from what was last read of that file; it is read again only if there is something at the given path. *)
Theorem C83_text_saved : forall save p k path disk t,
  (dmem path disk = false -> save k = Ok t -> to_file save (Some (CFile p (Some k))) path disk = Ok (dset p t disk)) /\
  (dmem path disk = true -> save (dget p disk) = Ok t -> to_file save (Some (CFile p (Some k))) path disk = Ok (dset p t disk)).
Proof. intros save p k path disk t. unfold to_file. cbn [cf_known cf_path]. split; intros -> ->; reflexivity. Qed.
(** to_file does not write to the new path although the comment in it says so. *)
Theorem C83_new_path_refuted : exists save f path disk disk', cf_path f <> path /\ to_file save (Some f) path disk = Ok disk' /\ dget path disk' = None /\ dget (cf_path f) disk' <> dget (cf_path f) disk.
Proof.
  exists (fun _ => Ok "new"), (CFile "a.py" (Some (Some "old"))), "b.py", [("a.py", "old")]. eexists. split; [discriminate|]. split; [reflexivity|]. split; [reflexivity|discriminate].
Qed.
(** Nothing is written if the text cannot be made. *)
Theorem C83_save_fails : forall save file path disk e, (forall k, save k = Raise e) -> to_file save file path disk = Raise e.
Proof. intros save file path disk e H. unfold to_file. now rewrite H. Qed.

Print Assumptions C83_assign_string.
Print Assumptions C83_import_string.
Print Assumptions C83_rejected_string.
Print Assumptions C83_only_what_is_read.
Print Assumptions C83_verbatim_refuted.
Print Assumptions C83_strings_or_own.
Print Assumptions C83_given_imports.
Print Assumptions C83_import_strings_last.
Print Assumptions C83_import_string_left_out.
Print Assumptions C83_selector_first.
Print Assumptions C83_empty_sequence_refuted.
Print Assumptions C83_accepted.
Print Assumptions C83_attribute_strings.
Print Assumptions C83_value_of_a_name.
Print Assumptions C83_order.
Print Assumptions C83_own_strings_refuted.
Print Assumptions C83_file_first.
Print Assumptions C83_then_as_usual.
Print Assumptions C83_bad_strings_raise.
Print Assumptions C83_pipeline_as_usual.
Print Assumptions C83_other_names.
Print Assumptions C83_pipeline_defaults.
Print Assumptions C83_saved_to_path.
Print Assumptions C83_saved_to_its_file.
Print Assumptions C83_text_saved.
Print Assumptions C83_new_path_refuted.
Print Assumptions C83_save_fails.
