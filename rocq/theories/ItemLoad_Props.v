(** C81: which object an item of the pipeline dict is, and which names it has. *)
From Verif Require Import ItemLoad_Spec ItemLoad_Proofs FuncArgs_Proofs Imports_Proofs.
Local Open Scope string_scope.
Local Open Scope list_scope.

(* ------------------------------------------------------------------ *)
(** * Objects *)

(** An item that is a name imported from a module is what Python takes the name for ... *)
Theorem C81_name : forall obj (import_module : string -> res obj) getattr other l n m x M o, n <> "DataPipeline" -> clear_for l n -> bound_to l n = Some (m, Some x) ->
  import_module m = Ok M -> getattr M x = Ok o ->
  load_item import_module getattr l (Name n) = Ok o /\ evaluates import_module getattr other l (Name n) = Ok o.
Proof.
  intros obj im ga other l n m x M o N C B EM Eo. split.
  - rewrite (load_object im ga l (Name n) n m x eq_refl N C B). now rewrite EM.
  - cbn. unfold env, import_from. now rewrite B, EM, Eo.
Qed.
(** ... and otherwise both raise, unless it is a submodule that has not been imported: Python imports it then, the library raises AttributeError. *)
Theorem C81_name_raises : forall obj (import_module : string -> res obj) getattr other l n m x, n <> "DataPipeline" -> clear_for l n -> bound_to l n = Some (m, Some x) ->
  (forall e, import_module m = Raise e -> load_item import_module getattr l (Name n) = Raise e /\ evaluates import_module getattr other l (Name n) = Raise e) /\
  (forall M e, import_module m = Ok M -> getattr M x = Raise e -> load_item import_module getattr l (Name n) = Raise e /\
     evaluates import_module getattr other l (Name n) = match e with AttributeError => import_module (m ++ "." ++ x)%string | e => Raise e end).
Proof.
  intros obj im ga other l n m x N C B. rewrite (load_object im ga l (Name n) n m x eq_refl N C B). split.
  - intros e E. cbn. unfold env, import_from. rewrite B, E. auto.
  - intros M e E G. cbn. unfold env, import_from. rewrite B, E, G. split; [reflexivity|]. now destruct e.
Qed.
(** For any other expression with one name in it, the object is that of the name: attributes, calls and subscripts do not matter. *)
Theorem C81_root : forall obj (import_module : string -> res obj) getattr l e n, named e [n] -> n <> "DataPipeline" ->
  load_item import_module getattr l e = load_item import_module getattr l (Name n).
Proof. intros obj im ga l e n V. apply view_named in V. now apply load_root. Qed.
(** For a name bound to a module, the object is the attribute of the module that is called like the name. *)
Theorem C81_module : forall obj (import_module : string -> res obj) getattr l e n m j, named e [n] -> n <> "DataPipeline" -> clear_for l n ->
  bound_to l n = Some (m, None) -> get_import_for_name n l = Ok j ->
  load_item import_module getattr l e = match import_module m with Raise y => Raise y | Ok M => getattr M n end.
Proof. intros obj im ga l e n m j V. apply view_named in V. intros. eapply load_module; eassumption. Qed.
(** Items without names make a view that cannot be loaded, those with several names and those whose name is not imported no view. *)
Theorem C81_no_object : forall obj (import_module : string -> res obj) getattr l e,
  (named e [] -> make_view l e = Ok None /\ load_item import_module getattr l e = Raise AttributeError) /\
  (forall a b r, named e (a :: b :: r) -> make_view l e = Raise ValueError) /\
  (forall n, named e [n] -> (forall i, In i l -> ~ mentions i n) -> make_view l e = Raise (LibExn "NoImportMatchingNameException")) /\
  (forall n, named e [n] -> (exists i, In i l /\ mentions i n) -> exists i, make_view l e = Ok (Some i)).
Proof.
  intros obj im ga l e. unfold load_item, make_view, view_name. split; [|split; [|split]].
  - intro V. apply named_iff in V. rewrite V. split; reflexivity.
  - intros a b r V. apply named_iff in V. now rewrite V.
  - intros n V H. apply named_iff in V. rewrite V. destruct (get_import_for_name n l) as [j|x] eqn:G.
    + apply get_import_ok in G. destruct G as (pre & i & post & -> & _ & E). exfalso. apply (H i); [apply in_app_iff; right; now left|].
      apply mentions_iff. congruence.
    + apply get_import_raises in G. destruct G as [-> _]. reflexivity.
  - intros n V (i & Hi & M). apply named_iff in V. rewrite V. destruct (get_import_for_name n l) as [j|x] eqn:G; [eauto|]. apply get_import_raises in G. destruct G as [_ G]. now apply G in Hi.
Qed.
(** If the modules do what their files say, the object of an item is the function or class whose definition its config was read from. *)
Theorem C81_config_of_the_object : forall obj (import_module : string -> res obj) getattr set_list is_builtin_type file_of made dict_imports e n m x m2 d,
  as_written import_module getattr file_of made -> named e [n] -> n <> "DataPipeline" -> clear_for dict_imports n -> bound_to dict_imports n = Some (m, Some x) ->
  clear_files file_of -> stands_for file_of m x m2 d ->
  exists name2 f k, leads_to file_of m x m2 name2 d /\ file_of m2 = Ok f /\ load_item import_module getattr dict_imports e = Ok (made m2 name2) /\
    forall fuel, k <= fuel -> default_config set_list is_builtin_type fuel file_of dict_imports e =
      match read_def set_list is_builtin_type f m2 d with
      | Raise e => Raise e
      | Ok (a, l) => match args_dicts a with Ok (ds, anns) => Ok (ds, anns, l) | Raise e => Raise e end
      end.
Proof.
  intros obj im ga sl bt file_of made l e n m x m2 d W V N C B Cf S. destruct (stands_leads file_of m x m2 d S) as (name2 & L).
  destruct (item_config sl bt l e n m x file_of m2 d V C B Cf S) as (k & f & Ef & G). exists name2, f, k. repeat split; try assumption.
  rewrite (load_object im ga l e n m x (view_named e n V) N C B). destruct (written_object im ga file_of made m x m2 name2 d W L) as (M & -> & Eo). exact Eo.
Qed.
(** The module of a view: reading it twice does not give the same if there is no import. *)
Theorem C81_module_of_view : forall i, (forall os m r, i = Some (ObjImp os m r) -> get_module i None = (Ok (Some m), Some (Some m))) /\
  (forall m ms r, i = Some (ModImp (m :: ms) r) -> get_module i None = (Ok (Some m), Some (Some m))) /\
  (i = None -> fst (get_module i None) = Raise ValueError /\ fst (get_module i (snd (get_module i None))) = Ok None).
Proof. intros i. repeat split; intros; subst; reflexivity. Qed.
(** With an import it is the same however often it is read. *)
Theorem C81_module_again : forall i m c, get_module i None = (Ok m, c) -> get_module i c = (Ok m, c).
Proof. intros [[[|m0 ms] r|os m0 r]|] m c; cbn; intros [= <- <-]; reflexivity. Qed.
(** Executing an import statement gives its objects, in the order of the statement; renaming does not matter. *)
Theorem C81_executed : forall obj (import_module : string -> res obj) getattr i objs, execute import_module getattr i = Ok objs <->
  match i with
  | ObjImp os m _ => exists M, import_module m = Ok M /\ Forall2 (fun x o => getattr M x = Ok o) os objs
  | ModImp ms _ => Forall2 (fun m o => import_module m = Ok o) ms objs
  end.
Proof.
  intros obj im ga [ms r|os m r] objs; cbn [execute]; [apply collect_iff|]. destruct (im m) as [M|e]; [|split; [discriminate|intros (M & [=] & _)]].
  rewrite collect_iff. split; [eauto|]. intros (M' & [= <-] & H). exact H.
Qed.
Example C81_executed_example : execute il_import il_getattr (ObjImp ["run"; "tool"] "pkg.inner" []) = Ok [AFunction "run"; AModule "c"].
Proof. reflexivity. Qed.

(* ------------------------------------------------------------------ *)
(** * Names *)

(** An item other than a DataPipeline has one name, however often and in whatever order its names are read: the name in it. *)
Theorem C81_one_name : forall e n l a, named e [n] -> n <> "DataPipeline" -> fst (read_access e a (after e l None)) = Ok (Some n).
Proof.
  intros e n l a V N. apply view_named in V. assert (S : set_name e = Ok (Some n, None)).
  { unfold set_name. rewrite V. destruct (String.eqb_spec n "DataPipeline"); [contradiction|reflexivity]. }
  apply (plain_access e (Some n) S). apply plain_after; [exact S|now left].
Qed.
(** A DataPipeline has the name given to it, if there is no other name in it ... *)
Theorem C81_pipeline : forall args before s rest, (forall q, In q rest -> fst q <> "name") ->
  (forall e, In e args -> named e []) -> (forall q, In q (before ++ rest) -> named (snd q) []) ->
  set_name (data_pipeline args before s rest) = Ok (Some "DataPipeline", Some s).
Proof.
  intros args before s rest H A Q. apply pipeline_set_name; [exact H| |].
  - induction args as [|e args IH]; [reflexivity|]. cbn [flat_map]. rewrite IH by (intros e' I; apply A; now right).
    rewrite (proj1 (named_iff e []) (A e (or_introl eq_refl))). reflexivity.
  - intros q I. apply named_iff. now apply Q.
Qed.
(** ... it is kept in its collection and gets its config file under this name; but it is run with its section under the name DataPipeline. *)
Theorem C81_pipeline_names : forall e s l, set_name e = Ok (Some "DataPipeline", Some s) ->
  fst (collection_key e (after e l None)) = Ok (Some s) /\
  fst (file_name e (after e (APublic true :: l) None)) = Ok (Some s) /\
  fst (run_name e (after e l None)) = Ok (Some "DataPipeline").
Proof.
  intros e s l S. unfold collection_key, file_name, run_name. rewrite (named_first e _ s S).
  assert (H : after e l None = None \/ after e l None = Some (Some "DataPipeline", Some s)) by (destruct l as [|a l]; [now left|right; now apply named_first]).
  destruct H as [-> | ->]; unfold public_name, output_name, get_name; rewrite ?S; cbn; auto.
Qed.
(** The output name is the name DataPipeline when it is the first name read, and the name given from then on. *)
Theorem C81_first_output_name : forall e s l a, set_name e = Ok (Some "DataPipeline", Some s) ->
  fst (output_name e None) = Ok (Some "DataPipeline") /\ fst (output_name e (after e (a :: l) None)) = Ok (Some s).
Proof. intros e s l a S. split; [unfold output_name, get_name; now rewrite S|]. now rewrite (named_first e _ s S). Qed.
(** Without a name it raises KeyError; if the name is no string, there is no name at all. *)
Theorem C81_pipeline_without_name : forall e c, named e ["DataPipeline"] -> c = None ->
  (keyword_values "name" e = [] -> fst (collection_key e c) = Raise KeyError) /\
  (forall v, keyword_value "name" e = Ok v -> (forall s, v <> Str s) -> fst (collection_key e c) = Raise ValueError).
Proof.
  intros e c V ->. apply view_named in V. unfold collection_key, public_name, output_name, get_name, set_name. rewrite V. cbn [String.eqb Ascii.eqb Bool.eqb]. split.
  - intros K. unfold keyword_value. now rewrite K.
  - intros v -> H. destruct v; try reflexivity. now destruct (H s).
Qed.

(* ------------------------------------------------------------------ *)
(** * Examples *)

Example C81_example : il_load (Name "start") = Ok (AFunction "run") /\ il_load (Other "Call" [Name "start"; Str "x"]) = Ok (AFunction "run") /\
  clear_for il_imports "start" /\ bound_to il_imports "start" = Some ("pkg", Some "go") /\
  il_load (Str "x") = Raise AttributeError /\ il_load (Name "none") = Raise (LibExn "NoImportMatchingNameException") /\
  set_name il_pipe = Ok (Some "DataPipeline", Some "clean") /\ view_name (data_pipeline [Name "start"] [] "clean" []) = Raise ValueError.
Proof.
  split; [reflexivity|]. split; [reflexivity|]. split; [exact il_clear|]. repeat split.
Qed.
Example C81_as_written : as_written il_import il_getattr il_files (fun _ n => AFunction n) /\ clear_files il_files /\
  stands_for il_files "pkg" "go" "pkg.inner" ("run", one_arg (a_ "x")).
Proof. split; [exact il_written|]. split; [exact il_clear_files|]. exact il_stands. Qed.
(** An item tool.f is the module tool, not its function f. *)
Theorem C81_attribute_refuted : exists obj (import_module : string -> res obj) getattr other l e o o', view_name e = Ok (Some "tool") /\ clear_for l "tool" /\
  evaluates import_module getattr other l e = Ok o /\ load_item import_module getattr l e = Ok o' /\ o <> o'.
Proof.
  exists thing, il_import, il_getattr, (fun _ => Raise KeyError), il_imports, (Attr (Name "tool") "f"), (AFunction "f"), (AModule "c").
  split; [reflexivity|]. split; [exact il_clear_tool|]. split; [reflexivity|]. split; [reflexivity|discriminate].
Qed.
(** With [import c], an item c.f is the attribute c of the module c. *)
Theorem C81_module_attribute_refuted : exists obj (import_module : string -> res obj) getattr other l o o', bound_to l "c" = Some ("c", None) /\
  evaluates import_module getattr other l (Attr (Name "c") "f") = Ok o /\ load_item import_module getattr l (Attr (Name "c") "f") = Ok o' /\ o <> o'.
Proof.
  exists thing, il_import, il_getattr, (fun _ => Raise KeyError), il_imports, (AFunction "f"), (AFunction "c").
  split; [reflexivity|]. split; [reflexivity|]. split; [reflexivity|discriminate].
Qed.
(** With [import pkg.inner], an item pkg.inner.run has no import. *)
Theorem C81_package_refuted : exists obj (import_module : string -> res obj) getattr other l e o, l = [ModImp ["pkg.inner"] []] /\
  evaluates import_module getattr other l e = Ok o /\ load_item import_module getattr l e = Raise (LibExn "NoImportMatchingNameException").
Proof.
  exists thing, il_import, il_getattr, (fun _ => Raise KeyError), [ModImp ["pkg.inner"] []], (Attr (Attr (Name "pkg") "inner") "run"), (AFunction "run"). repeat split.
Qed.
(** With [from pkg import sub], where sub is a module that has not been imported, Python imports it and the library raises. *)
Theorem C81_submodule_refuted : exists obj (import_module : string -> res obj) getattr other l o, clear_for l "sub" /\
  evaluates import_module getattr other l (Name "sub") = Ok o /\ load_item import_module getattr l (Name "sub") = Raise AttributeError.
Proof.
  exists thing, il_import, il_getattr, (fun _ => Raise KeyError), il_imports, (AModule "pkg.sub"). split; [exact il_clear_sub|]. split; reflexivity.
Qed.
(** The name under which a DataPipeline is found is not the one under which it is run; two of them run under one name. *)
Theorem C81_run_under_own_name_refuted : exists e e', fst (collection_key e None) = Ok (Some "clean") /\ fst (collection_key e' None) = Ok (Some "merge") /\
  fst (run_name e (snd (collection_key e None))) = Ok (Some "DataPipeline") /\ fst (run_name e' (snd (collection_key e' None))) = Ok (Some "DataPipeline").
Proof. exists il_pipe, (data_pipeline [Elts []] [] "merge" []). repeat split. Qed.
(** A name keyword inside the value of the name keyword wins. *)
Theorem C81_outer_name_refuted : exists v, set_name (Other "Call" [Name "DataPipeline"; keyword "name" v]) = Ok (Some "DataPipeline", Some "inner") /\ v <> Str "inner".
Proof. exists (Other "Call" [Attr (Str "{name}_x") "format"; keyword "name" (Str "inner")]). split; [reflexivity|discriminate]. Qed.

Print Assumptions C81_name.
Print Assumptions C81_name_raises.
Print Assumptions C81_root.
Print Assumptions C81_module.
Print Assumptions C81_no_object.
Print Assumptions C81_config_of_the_object.
Print Assumptions C81_module_of_view.
Print Assumptions C81_module_again.
Print Assumptions C81_executed.
Print Assumptions C81_one_name.
Print Assumptions C81_pipeline.
Print Assumptions C81_pipeline_names.
Print Assumptions C81_first_output_name.
Print Assumptions C81_pipeline_without_name.
Print Assumptions C81_attribute_refuted.
Print Assumptions C81_module_attribute_refuted.
Print Assumptions C81_package_refuted.
Print Assumptions C81_submodule_refuted.
Print Assumptions C81_run_under_own_name_refuted.
Print Assumptions C81_outer_name_refuted.
