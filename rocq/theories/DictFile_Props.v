(** Properties of dict files with any contents (C86). *)
From Verif Require Import DictFile_Spec DictFile_Proofs.
From Coq Require Import Lia.
Local Open Scope string_scope.
Local Open Scope list_scope.

(** Which files can be read, and what is read from them. All assignments in the file, not only the one that counts and at any depth, have to be to
    one name. *)
Theorem C86_loads_iff : forall src general p d, dict_of_file src general p = Ok d <->
  good_imports p /\ forallb to_a_name (assignments p) = true /\
  match filter (to_name (dict_name general)) (assignments p) with
  | [] => general = true /\ d = []
  | [a] => exists l, flat_map displays (parts a) = [XDict l] /\ plain (XDict l) = true /\ PDict d = to_pd src (pure (negb general) (XDict l))
  | _ => False
  end.
Proof. exact dict_of_file_iff. Qed.
Example C86_loads_ex : dict_of_file df_src true df_file = Ok [("a", PList [PName "f"]); ("b", PDict [("c", PList [PName "g"; POther "..."])])] /\
  dict_of_file df_src false df_file = Raise AttributeError /\
  dict_of_file df_src false [SAsg [Some "class_dict"] df_dict] = Ok [("a", PList [PName "f"]); ("b", PDict [("c", PList [PName "g"; PStr "h"])])].
Proof. repeat split. Qed.

(** the tree is the one of this dict, and strings in it are kept only in the files of classes *)
Theorem C86_tree : forall src view general name p d, dict_of_file src general p = Ok d -> tree_of_file src view general name p = from_dict view name d.
Proof. intros src view general name p d H. unfold tree_of_file. now rewrite H. Qed.
Theorem C86_strings : forall src s, to_pd src (pure true (XStr s)) = PStr s /\ to_pd src (pure false (XStr s)) = POther (src (XStr s)).
Proof. split; reflexivity. Qed.

(** The value Python gives to the display, evaluated wherever, is what the dict read from it stands for there. *)
Theorem C86_python_agrees : forall other key g conv e v, plain e = true -> eval other key g e = Some v -> denote other key g (pure conv e) = Some v.
Proof. exact pure_denotes. Qed.
Example C86_python_agrees_ex : eval df_other df_key df_env df_dict = Some (ODict [("a", OList [OObj 1]); ("b", ODict [("c", OList [OObj 2; OStr "h"])])]).
Proof. reflexivity. Qed.

(** If the file is executed, then the variable has this value as soon as it has been assigned. *)
Theorem C86_executed : forall other key act general p before a after ann e g g1 r,
  p = before ++ a :: after -> assigned a = [([Some (dict_name general)], ann, Some e)] -> displays e = [e] ->
  runs other key act (before ++ [a]) g = Some g1 -> load_file general p = Ok (Some r) ->
  exists g0 v, runs other key act before g = Some g0 /\ dget (dict_name general) g1 = Some v /\ denote other key g0 r = Some v.
Proof. exact executed. Qed.
Example C86_executed_ex : exists g1 r, runs df_other df_key df_act df_file df_env = Some g1 /\ load_file true df_file = Ok (Some r) /\ dget "pipeline_dict" g1 = denote df_other df_key df_env r /\ denote df_other df_key df_env r <> None.
Proof. eexists. eexists. split; [reflexivity|]. split; [reflexivity|]. split; [reflexivity|discriminate]. Qed.

(** What comes after it can change the variable, but that is not seen: *)
Theorem C86_final_value_refuted : exists other key act p g g1 r, runs other key act p g = Some g1 /\ load_file true p = Ok (Some r) /\
  dget "pipeline_dict" g1 <> denote other key g r /\ denote other key g r <> None.
Proof.
  exists df_other, df_key, df_act, (df_file ++ [SElse "pipeline_dict.update(more=[f])"]), df_env. eexists. eexists. split; [reflexivity|]. split; [reflexivity|]. split; discriminate.
Qed.
(** no statement but imports and assignments is seen, wherever it is, *)
Theorem C86_other_statements_ignored : forall general before label after, load_file general (before ++ SElse label :: after) = load_file general (before ++ after).
Proof.
  intros general before label after. apply load_file_inert. rewrite !flat_map_app, !filter_app. reflexivity.
Qed.
(** and all blocks count as if their contents were at the top level: bodies of functions, branches that are never executed. *)
Theorem C86_blocks_ignored : forall general before label body after, load_file general (before ++ SBlock label body :: after) = load_file general (before ++ body ++ after).
Proof.
  intros general before label body after. apply load_file_flat. rewrite !flat_map_app. cbn [flat_map flat]. reflexivity.
Qed.
Example C86_blocks_ex : dict_of_file df_src true [SBlock "def f():" [SAsg [Some "pipeline_dict"] df_dict]] = dict_of_file df_src true df_file /\
  dict_of_file df_src true [SBlock "if x:" [SAsg [Some "pipeline_dict"] (XDict [])]; SBlock "else:" [SAsg [Some "pipeline_dict"] df_dict]] = Raise ValueError.
Proof. split; reflexivity. Qed.

(** Around the display there can be anything: it is not seen either. *)
Theorem C86_wrapped : forall general before label args e after, displays (XNode label args) = displays e -> 
  load_file general (before ++ SAsg [Some (dict_name general)] (XNode label args) :: after) = load_file general (before ++ SAsg [Some (dict_name general)] e :: after).
Proof. intros general before label args e after. apply load_file_same. Qed.
Theorem C86_wrapped_value_refuted : exists other key act p g g1 r, runs other key act p g = Some g1 /\ load_file true p = Ok (Some r) /\
  (exists e, p = [SAsg [Some "pipeline_dict"] e]) /\ dget "pipeline_dict" g1 <> denote other key g r /\ denote other key g r <> None.
Proof.
  exists df_other, df_key, df_act, [SAsg [Some "pipeline_dict"] (XNode "call" [XName "extended"; XDict [(KStr "a", XList [XName "f"])]])], df_env.
  eexists. eexists. split; [reflexivity|]. split; [reflexivity|]. split; [eexists; reflexivity|]. split; discriminate.
Qed.

(** Values that are no lists or dicts are in the dict, but in no collection: [\{'a': \[f\] + \[g\]\}] gives an empty tree. *)
Theorem C86_entries_refuted : exists src view p c, tree_of_file src view true "all" p = Ok c /\ from_dict view "all" [] = Ok c /\
  exists other key act g g1 d, runs other key act p g = Some g1 /\ dget "pipeline_dict" g1 = Some (ODict d) /\ d <> [].
Proof.
  exists df_src, df_view, [SAsg [Some "pipeline_dict"] (XDict [(KStr "a", XNode "+" [XList [XName "f"]; XList [XName "g"]])])]. eexists. split; [reflexivity|]. split; [reflexivity|].
  exists df_other, df_key, df_act, df_env. eexists. eexists. split; [reflexivity|]. split; [reflexivity|discriminate].
Qed.

(** * Exceptions *)

(** of the imports first *)
Theorem C86_bad_import : forall src general p before e after, flat_map flat p = before ++ SImp (Some e) :: after -> (forall x, ~ In (SImp (Some x)) before) ->
  dict_of_file src general p = Raise e.
Proof.
  intros src general p before e after H N. unfold dict_of_file, load_file, register. rewrite H. assert (K : first_bad bad_import (before ++ SImp (Some e) :: after) = Raise e); [|now rewrite K].
  clear H. induction before as [|s b IH]; [reflexivity|]. cbn [app first_bad]. rewrite (IH (fun x Hin => N x (or_intror Hin))). destruct s as [ts x|t ann x|[y|]|lb body|lb]; try reflexivity. destruct (N y (or_introl eq_refl)).
Qed.
(** then of all assignments with several targets, *)
Theorem C86_several_targets : forall src general p, good_imports p -> forallb single (assignments p) = false -> dict_of_file src general p = Raise not_implemented.
Proof. intros src general p G S. unfold dict_of_file. now rewrite (load_file_good general p G), S. Qed.
(** of all assignments to something else than a name, *)
Theorem C86_target_no_name : forall src general p, good_imports p -> forallb single (assignments p) = true -> forallb to_a_name (assignments p) = false -> dict_of_file src general p = Raise AttributeError.
Proof. intros src general p G S N. unfold dict_of_file. now rewrite (load_file_good general p G), S, N. Qed.
(** and then of what is assigned. *)
Theorem C86_found : forall src general p found, good_imports p -> forallb to_a_name (assignments p) = true -> filter (to_name (dict_name general)) (assignments p) = found ->
  (found = [] -> general = false -> dict_of_file src general p = Raise AttributeError) /\
  (2 <= List.length found -> dict_of_file src general p = Raise ValueError) /\
  (forall a, found = [a] -> let ds := flat_map displays (parts a) in
     (ds = [] -> dict_of_file src general p = Raise AttributeError) /\
     (forall l, ds = [XList l] -> plain (XList l) = true -> dict_of_file src general p = Raise AttributeError) /\
     (2 <= List.length ds -> forallb plain ds = true -> dict_of_file src general p = Raise ValueError) /\
     (forallb plain ds = false -> forallb no_const ds = true -> dict_of_file src general p = Raise AttributeError)).
Proof.
  intros src general p found G N F. pose proof (load_file_good general p G) as L. rewrite (to_a_name_single _ N), N, F in L. unfold dict_of_file. rewrite L. clear L. repeat split.
  - intros -> ->. reflexivity.
  - intros H. destruct found as [|a [|b t]]; cbn [List.length] in H; [lia|lia|reflexivity].
  - subst found. rewrite H. intros D. pose proof (extract_spec (negb general) (snd (fst a)) (snd a)) as E. unfold part_displays in E. fold (parts a) in E. rewrite D in E. now rewrite E.
  - subst found. rewrite H. intros l D P. pose proof (extract_spec (negb general) (snd (fst a)) (snd a)) as E. unfold part_displays in E. fold (parts a) in E. rewrite D in E. now rewrite (proj1 E P).
  - subst found. rewrite H. intros D P. pose proof (extract_exn (negb general) (snd (fst a)) (snd a)) as E. cbn zeta in E. unfold part_displays in E. fold (parts a) in E. now rewrite (proj2 E P D).
  - subst found. rewrite H. intros P C. pose proof (extract_exn (negb general) (snd (fst a)) (snd a)) as E. cbn zeta in E. unfold part_displays in E. fold (parts a) in E. now rewrite (proj1 E C P).
Qed.
(** Of the annotation, displays count too: [pipeline_dict: Dict\[str, Callable\[\[int\], str\]\] = \{...\}]. An assignment to an attribute in a function of
    the file is enough to make it unreadable. *)
Example C86_exceptions_ex :
  dict_of_file df_src true [SAnn (Some "pipeline_dict") (XNode "Subscript" [XName "Callable"; XNode "Tuple" [XList [XName "int"]; XName "str"]]) (Some df_dict)] = Raise ValueError /\
  dict_of_file df_src true (df_file ++ [SBlock "class A:" [SBlock "def __init__(self):" [SAsg [None] (XStr "1")]]]) = Raise AttributeError /\
  dict_of_file df_src true (SAsg [Some "x"; Some "y"] (XStr "1") :: df_file) = Raise not_implemented /\
  dict_of_file df_src true (df_file ++ df_file) = Raise ValueError /\
  dict_of_file df_src true [SAsg [Some "pipeline_dict"] (XNode "call" [XName "make"])] = Raise AttributeError /\
  dict_of_file df_src true [SAsg [Some "pipeline_dict"] (XList [XName "f"])] = Raise AttributeError /\
  dict_of_file df_src true [SAsg [Some "pipeline_dict"] (XDict [(KStars, XName "base"); (KStr "a", XList [XName "f"])])] = Raise AttributeError /\
  dict_of_file df_src true [SAsg [Some "pipeline_dict"] (XDict [(KExpr "NAME", XList [XName "f"])])] = Raise AttributeError.
Proof. repeat split. Qed.
(** Python has no trouble with any of these: what can be executed need not be readable. *)
Theorem C86_readable_refuted : exists src other key act p g g1 d x, runs other key act p g = Some g1 /\ dget "pipeline_dict" g1 = Some (ODict d) /\ d <> [] /\ dict_of_file src true p = Raise x.
Proof.
  exists df_src, df_other, df_key, df_act, [SAsg [Some "base"] (XDict [(KStr "b", XList [XName "g"])]); SAsg [Some "pipeline_dict"] (XDict [(KStars, XName "base"); (KStr "a", XList [XName "f"])])], df_env.
  eexists. eexists. eexists. split; [reflexivity|]. split; [reflexivity|]. split; [discriminate|reflexivity].
Qed.

Print Assumptions C86_loads_iff.
Print Assumptions C86_tree.
Print Assumptions C86_strings.
Print Assumptions C86_python_agrees.
Print Assumptions C86_executed.
Print Assumptions C86_final_value_refuted.
Print Assumptions C86_other_statements_ignored.
Print Assumptions C86_blocks_ignored.
Print Assumptions C86_wrapped.
Print Assumptions C86_wrapped_value_refuted.
Print Assumptions C86_entries_refuted.
Print Assumptions C86_bad_import.
Print Assumptions C86_several_targets.
Print Assumptions C86_target_no_name.
Print Assumptions C86_found.
Print Assumptions C86_readable_refuted.
