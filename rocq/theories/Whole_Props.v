(** C106: from the definition of a function in its source file to the call. *)
From Verif Require Import FileStr_Props Imports_Proofs Whole_Spec Whole_Proofs ItemLoad_Proofs ItemLoad_Props FuncArgs_Proofs.
From Verif Require Import ExecEx_Spec WholeEx_Spec WholeEx_Proofs.
From Verif Require Import ConfigLoad_Proofs Setup_Spec SetupEx_Spec Setup_Proofs SetupFiles_Proofs SetupLoad_Proofs SetupEx_Proofs Project_Proofs ProjectEx_Proofs.
From Verif Require Import Exec_Model Exec_Spec Exec_Proofs ExecText_Proofs ExecSave_Proofs ExecRun_Proofs.
Local Open Scope string_scope.
Local Open Scope list_scope.

(** An item of the pipeline dict is imported there, perhaps through other modules, from the module where the function is defined.
    The modules do what their files say, and what is printed for the defaults means the defaults. If the project loads and there was
    no config file for the item, one is written. If it can be executed, running the item calls the function of the definition once.
    It is given parameters of the definition only. A parameter about which the section files say nothing is given the value of its
    default in the definition (None without default), evaluated after the imports the signature needs, the selector and the
    parameters before it. So if the defaults do not depend on names, the call has the effect of a call without arguments. *)
Theorem C106_definition_to_call : forall obj (import_module : string -> res obj) getattr kind set_list is_builtin_type prints shows astor file_of made l e n m x m2 d
    py initial other meaning parse view inst cfg config_dir s,
  as_written import_module getattr file_of made -> FuncArgs_Spec.named e [n] -> n <> "DataPipeline" -> clear_for l n -> bound_to l n = Some (m, Some x) ->
  clear_files file_of -> stands_for file_of m x m2 d ->
  exists name2 src enough, leads_to file_of m x m2 name2 d /\ file_of m2 = Ok src /\
  forall fuel next f p disks p',
  let exec := exec_text py initial other in
  enough <= fuel -> pm_load parse view inst cfg config_dir s next f p = (disks, p', Ok tt) -> wf f ->
  mirrors exec (final f disks) (defaults_of s) (config_dir (final f disks)) -> dwf initial -> (forall rel t v, other rel t = Ok v -> dwf v) ->
  exists i r, p' = PM (Some i) (Some (i, r)) /\
  forall dd folders pi g a il,
    let view' := view (file_text f (pipeline_file (su_folder s))) in
    let file := defaults_of s ++ folders ++ [(n ++ ".py")%string] in
    has_dict parse f (su_folder s) dd -> tidy_items i -> distinct_names (i_general i) -> plain_path (su_config_folder s) (folders ++ [n]) ->
    PipeDict_Spec.written view' (PDict dd) (folders ++ [n]) pi -> view' pi = item_view import_module getattr kind l e ->
    cfg true n (TFunc g) None = Whole_Model.item_config set_list is_builtin_type prints shows astor fuel file_of l e None ->
    kind (made m2 name2) = TFunc g -> f_args g = map arg_name (all_args a) ->
    read_def set_list is_builtin_type src m2 d = Ok (a, il) -> args_ok a -> FuncArgs_Spec.plain a -> a_posonly a = [] ->
    (forall j, In j il -> imp_ok j) -> printable py meaning prints shows a ->
    final f disks (defaults_of s ++ folders ++ [n]) <> Some Dir -> content f file = None ->
    exists text, final f disks file = Some (File text) /\
    forall own path u, exec (folders ++ [(n ++ ".py")%string]) text = Ok own -> path_parts path = folders ++ [n] ->
    let silent k := forall rel, In rel (section_files folders) -> dget k (values_of exec (final f disks) (defaults_of s) rel) = None in
    exists r' kw, run_one i u path r = (r', match u_call u [] path (LPartial next g false kw) with Ok v => Ok (RVal v) | Raise e => Raise e end) /\
      r_calls r' = [(path, LPartial next g false kw)] /\
      (forall k, ~ In k (map fst (written_defaults a)) -> dget k kw = None) /\
      (forall k e0, In (k, e0) (written_defaults a) -> silent k ->
        exists l1 l2 es ns w, written_defaults a = l1 ++ (k, e0) :: l2 /\ map a_target es = map (fun q => TgName (fst q)) l1 /\
          Exec_Model.seq (Exec_Model.run py) (new_program (function_item il []) es) initial = (ns, None) /\ meaning ns e0 = Ok w /\
          dget k kw = if startswith k "__" then None else match w with MVal v => Some v | MModule _ => None end) /\
      (forall ev b, (forall k e0, In (k, e0) (written_defaults a) -> silent k /\ forall ns, meaning ns e0 = Ok (MVal (ev e0))) ->
        FuncArgs_Spec.call (sig_of ev a) [] [] = Ok b -> FuncArgs_Spec.call (sig_of ev a) [] kw = Ok b).
Proof.
  intros obj im ga kind sl bt prints shows astor file_of made l e n m x m2 d py initial other meaning parse view inst cfg config_dir s W V N C B Cf S.
  destruct (C81_config_of_the_object obj im ga sl bt file_of made l e n m x m2 d W V N C B Cf S) as (name2 & src & k & Le & Fo & Lo & Dc).
  exists name2, src, k. split; [exact Le|]. split; [exact Fo|]. intros fuel next f p disks p' exec En L Wf M Wi Wo.
  destruct (end_to_end parse view inst cfg config_dir exec s next f p disks p' L Wf M (exec_text_wf py initial other Wi Wo)) as (i & r & E & H).
  exists i, r. split; [exact E|]. intros dd folders pi g a il view' file Hd Ti Dn Pp Wr Vw Ci Kd Fa Rd Ao Pl Po Im Pr Nd Cn.
  assert (Vi : view' pi = Ok (n, TFunc g)) by (rewrite Vw, (view_of_item im ga kind l e n m x _ V N C B Lo), Kd; reflexivity).
  destruct (H dd folders n pi g Hd Ti Dn Pp Wr Vi Nd) as (text & Ct & Ft & K). fold file in Ct, Ft. rewrite Cn, Ci in Ct. unfold Whole_Model.item_config in Ct. rewrite (Dc fuel En), Rd in Ct.
  destruct Pl as (Le' & Kn & An). rewrite (args_dicts_spec a Ao), (proj2 (Nat.leb_le _ _) Le') in Ct. rewrite (config_values_written prints shows a Ao Po Kn) in Ct.
  set (it := function_item il (values_written prints shows a)) in Ct.
  assert (Hit : item_ok it) by (apply (function_item_ok prints shows a il py meaning Ao (conj Le' (conj Kn An)) Po Im Pr)).
  destruct (scaffold_program astor it text Hit Ct) as (es & Re & Pt). exists text. split; [exact Ft|]. intros own path u Ex Hp silent.
  destruct (K own path u Ex Hp) as (r' & kw & R1 & R2 & Wk & G). exists r', kw. split; [exact R1|]. split; [exact R2|].
  assert (Wn : map fst (written_defaults a) = f_args g) by (rewrite Fa; exact (written_names a Po Kn Le')).
  assert (Lo' : active_load py initial (Some (new_program it es)) = Ok own) by (unfold exec, exec_text in Ex; now rewrite Pt in Ex).
  assert (Out : forall k0, ~ In k0 (map fst (written_defaults a)) -> dget k0 kw = None).
  { intros k0 Hk. rewrite G. destruct (mem k0 (f_args g)) eqn:Mk; [|reflexivity]. exfalso. apply Hk. rewrite Wn. now apply ConfigLoad_Proofs.mem_In. }
  assert (In1 : forall k0 e0, In (k0, e0) (written_defaults a) -> silent k0 ->
        exists l1 l2 es ns w, written_defaults a = l1 ++ (k0, e0) :: l2 /\ map a_target es = map (fun q => TgName (fst q)) l1 /\
          Exec_Model.seq (Exec_Model.run py) (new_program (function_item il []) es) initial = (ns, None) /\ meaning ns e0 = Ok w /\
          dget k0 kw = if startswith k0 "__" then None else match w with MVal v => Some v | MModule _ => None end).
  { intros k0 e0 Hin Si. rewrite G. assert (Mk : mem k0 (f_args g) = true) by (apply ConfigLoad_Proofs.mem_In; rewrite <- Wn; change k0 with (fst (k0, e0)); now apply in_map). rewrite Mk.
    rewrite (setting_own exec (final f disks) (defaults_of s) folders n k0 text own Ft Ex Si).
    destruct (in_split _ _ Hin) as (l1 & l2 & Hs). unfold it in Re. rewrite brought_function in Re. unfold values_written in Re. rewrite Hs, map_app in Re. cbn [map] in Re.
    destruct (read_from_split _ _ _ _ Re) as (es1 & b & es2 & Ee & Re1 & Pb & Tb). cbn [fst snd] in Pb, Tb.
    destruct (proj2 (Pr k0 e0 Hin) b Pb) as (t & Vb & Me).
    assert (Re' : read_from (brought it) es) by (unfold it; rewrite brought_function; unfold values_written; rewrite Hs, map_app; exact Re).
    destruct (new_value py initial it es es1 b es2 k0 t own Hit Wi Re' Ee Tb Vb Lo') as (ns & w & Sq & Ev & D).
    exists l1, l2, es1, ns, w. split; [exact Hs|]. split; [|split; [exact Sq|split; [now rewrite <- Me|exact D]]].
    rewrite (read_targets _ _ Re1). unfold dkeys. rewrite !map_map. reflexivity. }
  split; [exact Out|]. split; [exact In1|].
  intros ev b Cl. apply call_same.
  - intros k0 Hk. unfold by_name. cbn [sig_of s_args s_kwonly]. rewrite map_map. cbn [fst]. apply smem_In. rewrite <- (map_map fst arg_name), <- map_app.
    change (In k0 (map arg_name (all_args a))). rewrite <- Fa, <- Wn. destruct (in_dec string_dec k0 (map fst (written_defaults a))) as [|Nk]; [assumption|]. exfalso. apply Out in Nk. apply dmem_In in Hk. unfold dmem in Hk. now rewrite Nk in Hk.
  - intros y v Hy. assert (Hy' : exists e0, In (y, e0) (written_defaults a) /\ v = ev e0) by exact (param_default ev a y v Hy).
    destruct Hy' as (e0 & Hin & ->). destruct (Cl y e0 Hin) as [Si Me]. destruct (In1 y e0 Hin Si) as (l1 & l2 & es' & ns & w & _ & _ & _ & Mw & D). rewrite Me in Mw. injection Mw as <-.
    destruct (startswith y "__"); auto.
Qed.

(** The import statement of an item is looked for when the dict is read. The object is not: an item that cannot be imported becomes
    an entry of the collection all the same. *)
Theorem C106_imported_late : forall obj (import_module : string -> res obj) getattr kind l e n m x, FuncArgs_Spec.named e [n] -> n <> "DataPipeline" -> clear_for l n ->
  bound_to l n = Some (m, Some x) ->
  item_view import_module getattr kind l e = Ok (n, match import_module m with Raise err => TBroken err | Ok M => match getattr M x with Ok o => kind o | Raise err => TBroken err end end).
Proof.
  intros obj im ga kind l e n m x V N C B. unfold item_view. rewrite (named_key e n V N). rewrite (load_object im ga l e n m x (view_named e n V) N C B).
  unfold make_view. rewrite (view_named e n V). destruct (object_import n l m x C B) as [r ->]. destruct (im m) as [M|]; [destruct (ga M x)|]; reflexivity.
Qed.
(** Reading the dict raises if no import statement mentions the name of an item, or if there are several names in it. *)
Theorem C106_not_imported : forall obj (import_module : string -> res obj) getattr kind l e,
  (forall n, FuncArgs_Spec.named e [n] -> (forall i, In i l -> ~ mentions i n) -> item_view import_module getattr kind l e = Raise (LibExn "NoImportMatchingNameException")) /\
  (forall a b r, FuncArgs_Spec.named e (a :: b :: r) -> item_view import_module getattr kind l e = Raise ValueError).
Proof.
  intros obj im ga kind l e. unfold item_view, make_view. split.
  - intros n V M. rewrite (view_named e n V). rewrite (proj2 (get_import_raises n l _) (conj eq_refl M)). reflexivity.
  - intros a b r V. apply named_iff in V. unfold view_name. now rewrite V.
Qed.
(** An expression without any name in it, such as a number, can not be an item: there is no name to keep it under. *)
Theorem C106_no_name : forall obj (import_module : string -> res obj) getattr kind l e, FuncArgs_Spec.named e [] ->
  item_view import_module getattr kind l e = Raise TypeError.
Proof.
  intros obj im ga kind l e V. apply named_iff in V. unfold item_view, make_view, collection_key, public_name, output_name, get_name, set_name, view_name. now rewrite V.
Qed.
Example C106_ex_no_name : FuncArgs_Spec.named (Other "2" []) [].
Proof. now apply named_iff. Qed.
(** [DataPipeline(..., name='s')] is an entry with the name [s]; it stands for DataPipeline itself, not for the object the expression
    makes. *)
Theorem C106_pipeline_entry : forall obj (import_module : string -> res obj) getattr kind l m x args before s rest, (forall q, In q rest -> fst q <> "name") ->
  (forall e, In e args -> FuncArgs_Spec.named e []) -> (forall q, In q (before ++ rest) -> FuncArgs_Spec.named (snd q) []) ->
  clear_for l "DataPipeline" -> bound_to l "DataPipeline" = Some (m, Some x) ->
  item_view import_module getattr kind l (data_pipeline args before s rest) =
    Ok (s, match import_module m with Raise err => TBroken err | Ok M => match getattr M x with Ok o => kind o | Raise err => TBroken err end end).
Proof.
  intros obj im ga kind l m x args before s rest H A Q C B. pose proof (C81_pipeline args before s rest H A Q) as S.
  destruct (C81_pipeline_names _ s [] S) as (K & _ & _). cbn [after] in K. set (e := data_pipeline args before s rest) in *. clearbody e.
  assert (V : view_name e = Ok (Some "DataPipeline")).
  { unfold set_name in S. destruct (view_name e) as [[n|]|err]; [|cbn in S; discriminate S|discriminate S].
    destruct (String.eqb n "DataPipeline") eqn:En; [|discriminate S]. apply String.eqb_eq in En. now subst. }
  unfold item_view. rewrite K. unfold load_item. unfold make_view. rewrite V. destruct (object_import _ l m x C B) as [r ->].
  unfold load, get_name. rewrite S. cbn [fst execute]. destruct (im m) as [M|]; [|reflexivity]. cbn [collect]. destruct (ga M x); reflexivity.
Qed.
(** An item that has a config file already, perhaps written for another definition: the settings in the file stay; after them come
    those of the parameters the file does not assign, in their order, with expressions that mean their defaults. *)
Theorem C106_changed_definition : forall set_list is_builtin_type prints shows astor file_of l e n m x m2 d src py meaning a il t f,
  FuncArgs_Spec.named e [n] -> clear_for l n -> bound_to l n = Some (m, Some x) -> clear_files file_of -> stands_for file_of m x m2 d -> file_of m2 = Ok src ->
  read_def set_list is_builtin_type src m2 d = Ok (a, il) -> args_ok a -> FuncArgs_Spec.plain a -> a_posonly a = [] ->
  (forall j, In j il -> imp_ok j) -> printable py meaning prints shows a -> supported t f ->
  exists enough out f' es, (forall fuel, enough <= fuel -> Whole_Model.item_config set_list is_builtin_type prints shows astor fuel file_of l e (Some t) = Ok out) /\ load_file out = Ok f' /\
    l_assigns f' = (if contains_varname (l_assigns f) "s" then [] else [selector_asgn]) ++ l_assigns f ++ es /\
    Forall2 (fun q b => a_target b = TgName (fst q) /\ exists tk, a_value b = Some tk /\ forall ns, py_eval py ns tk = meaning ns (snd q))
      (filter (fun q => negb (contains_varname (l_assigns f) (fst q))) (written_defaults a)) es /\
    forall y, contains_varname (l_assigns f) y = true -> dget y (l_config f') = dget y (l_config f).
Proof.
  intros sl bt prints shows astor file_of l e n m x m2 d src py meaning a il t f V C B Cf S Fo Rd Ao Pl Po Im Pr Su.
  destruct (FuncArgs_Proofs.item_config sl bt l e n m x file_of m2 d V C B Cf S) as (k & f2 & Ef & Dc). rewrite Fo in Ef. injection Ef as <-.
  set (it := function_item il (values_written prints shows a)).
  assert (Hit : item_ok it) by (exact (function_item_ok prints shows a il py meaning Ao Pl Po Im Pr)).
  destruct (C43_settings_kept astor it t f Hit Su) as (out & f' & es & Sc & Lf & La & Re & Kp). exists k, out, f', es. split.
  - intros fuel En. unfold Whole_Model.item_config. destruct Su as (Lt & _). rewrite Lt, (Dc fuel En), Rd. destruct Pl as (Le & Kn & _).
    rewrite (args_dicts_spec a Ao), (proj2 (Nat.leb_le _ _) Le), (config_values_written prints shows a Ao Po Kn). exact Sc.
  - split; [exact Lf|]. split; [|split; [|exact Kp]].
    + rewrite La. f_equal. unfold missing_begin, it, function_item. cbn. destruct (contains_varname (l_assigns f) "s"); reflexivity.
    + unfold it in Re. rewrite missing_values in Re. unfold read_from in Re.
      assert (Sub : forall q, In q (filter (fun q => negb (contains_varname (l_assigns f) (fst q))) (written_defaults a)) -> In q (written_defaults a)) by (intros q H; now apply filter_In in H).
      clear - Re Sub Pr. revert es Re. induction (filter _ (written_defaults a)) as [|[k0 e0] ws IH]; intros es Re; inversion Re as [|? b ? es' [P1 T1] R1]; subst; constructor.
      * cbn [fst snd] in *. split; [exact T1|]. exact (proj2 (Pr k0 e0 (Sub _ (or_introl eq_refl))) b P1).
      * apply IH; [intros q H; apply Sub; now right|exact R1].
Qed.
(** No file is written if the old one cannot be read or, after that, if the definition cannot. *)
Theorem C106_no_config : forall set_list is_builtin_type prints shows astor fuel file_of l e,
  let config := Whole_Model.item_config set_list is_builtin_type prints shows astor fuel file_of l e in
  (forall t x, load_file t = Raise x -> config (Some t) = Raise x) /\
  (forall old x, (forall t, old = Some t -> exists f, load_file t = Ok f) -> default_config set_list is_builtin_type fuel file_of l e = Raise x -> config old = Raise x).
Proof.
  intros sl bt prints shows astor fuel file_of l e config. unfold config, Whole_Model.item_config. split.
  - intros t x H. now rewrite H.
  - intros [t|] x R H; [destruct (R t eq_refl) as [f ->]|]; now rewrite H.
Qed.
(** A default is evaluated after the parameters before it, unlike in the definition: the object [x] of the module, default of [y], is
    hidden by the parameter [x]. *)
Theorem C106_default_in_scope_refuted : exists file_of src text own, file_of "pkg.inner" = Ok src /\ src_imports src = [ObjImp ["x"] "lib" []] /\
  src_body src = [SDef "a" (Args [] [a_ "x"; a_ "y"] [Other "1" []; Name "x"] false [] false)] /\
  Whole_Model.item_config ex_set ex_builtin w_prints w_shows ex_astor 5 file_of [ObjImp ["a"] "pkg.inner" []] (Name "a") None = Ok text /\
  w_exec ["a.py"] text = Ok own /\ dget "y" own = Some (VInt 1) /\ py_from mini 0 (Some "lib") "x" = Ok (MVal (VStr "lib.x")).
Proof. exists w_shadow. do 3 eexists. split; [reflexivity|]. split; [reflexivity|]. split; [reflexivity|]. split; [vm_compute; reflexivity|]. split; [vm_compute; reflexivity|]. split; reflexivity. Qed.
(** example: a file for [a(x=7, old=x1)], and [def a(x=1, y=x0)] *)
Example C106_ex_changed : (exists f, supported w_old f) /\
  w_cfg (Name "x0") true "a" (TFunc w_fn) (Some w_old) =
    Ok (ex_lines ["from pyfileconf import Selector"; "from lib import x1"; "from lib import x0"; ""; "s = Selector()"; "x = 7"; "old = x1"; "y = x0"; ""]).
Proof.
  split; [|vm_compute; reflexivity]. eexists. split; [vm_compute; reflexivity|]. split.
  - unfold header_ok. vm_compute header. constructor; [right; eexists; vm_compute; reflexivity|]. repeat (constructor; [now left|]). constructor.
  - vm_compute. reflexivity.
Qed.

(** examples: [def a(x=1, y=x0)] and [def a(x=1, y=2)]. All conditions hold. *)
Example C106_ex : forall y il, (y = Name "x0" /\ il = [ObjImp ["x0"] "lib" []]) \/ (y = Other "2" [] /\ il = []) ->
  as_written w_import w_getattr (w_files y) w_made /\ clear_for (w_imports w_dict) "a" /\ bound_to (w_imports w_dict) "a" = Some ("pkg", Some "a") /\
  clear_files (w_files y) /\ stands_for (w_files y) "pkg" "a" "pkg.inner" ("a", w_def y) /\ wf w_disk /\ dwf mini_names /\
  (exists disks r, w_load y new_pm = (disks, PM (Some ex_items) (Some (ex_items, r)), Ok tt) /\
    mirrors w_exec (final w_disk disks) ["proj"; "defaults"] (w_config (final w_disk disks)) /\
    final w_disk disks ["proj"; "defaults"; "run"; "a"] <> Some Dir /\
    (forall k e0, In (k, e0) (written_defaults (w_def y)) -> forall rel, In rel (section_files ["run"]) -> dget k (values_of w_exec (final w_disk disks) ["proj"; "defaults"] rel) = None) /\
    exists text own, final w_disk disks ["proj"; "defaults"; "run"; "a.py"] = Some (File text) /\ w_exec ["run"; "a.py"] text = Ok own) /\
  has_dict w_parse w_disk ["proj"] [("run", PList [PName "a"])] /\ tidy_items ex_items /\ distinct_names (i_general ex_items) /\
  plain_path "defaults" ["run"; "a"] /\ PipeDict_Spec.written (w_view w_dict) (PDict [("run", PList [PName "a"])]) ["run"; "a"] (PName "a") /\
  w_view w_dict (PName "a") = item_view w_import w_getattr w_kind (w_imports w_dict) (Name "a") /\
  w_cfg y true "a" (TFunc w_fn) None = Whole_Model.item_config ex_set ex_builtin w_prints w_shows ex_astor 5 (w_files y) (w_imports w_dict) (Name "a") None /\
  w_kind (w_made "pkg.inner" "a") = TFunc w_fn /\ f_args w_fn = map arg_name (all_args (w_def y)) /\
  read_def ex_set ex_builtin (w_inner y) "pkg.inner" ("a", w_def y) = Ok (w_def y, il) /\ args_ok (w_def y) /\ FuncArgs_Spec.plain (w_def y) /\
  (forall j, In j il -> imp_ok j) /\ printable mini w_meaning w_prints w_shows (w_def y) /\ content w_disk ["proj"; "defaults"; "run"; "a.py"] = None /\
  (y = Other "2" [] -> exists ev, (forall k e0, In (k, e0) (written_defaults (w_def y)) -> forall ns, w_meaning ns e0 = Ok (MVal (ev e0))) /\
     FuncArgs_Spec.call (sig_of ev (w_def y)) [] [] = Ok (Bound [("x", VInt 1); ("y", VInt 2)] [] [])).
Proof.
  intros y il Y. assert (Y' : y = Name "x0" \/ y = Other "2" []) by (destruct Y as [[-> _]|[-> _]]; auto).
  split; [apply w_as_written|]. split; [apply w_clear|]. split; [apply w_clear|]. split; [apply w_clear_files|]. split; [apply w_stands|]. split; [exact w_wf|].
  split; [repeat constructor; intros []|]. split.
  { assert (L : w_loaded y) by (destruct Y' as [-> | ->]; [exact w_loaded_name|exact w_loaded_number]). destruct L as (disks & r & L & M & A & B & text & own & C & D).
    exists disks, r. split; [exact L|]. split; [exact M|]. split; [rewrite A; discriminate|]. split; [|exists text, own; auto].
    intros k e0 Hk rel Hr. apply B; [|exact Hr]. cbn in Hk. destruct Hk as [H|[H|[]]]; injection H as <- _; discriminate. }
  split; [right; eexists; split; [reflexivity|vm_compute; reflexivity]|]. split; [exact ex_tidy|]. split; [cbn; repeat split; repeat constructor; intros []|].
  split. { repeat split; try (repeat constructor; discriminate); try discriminate; vm_compute; repeat constructor; try discriminate. }
  split. { eapply (W_key _ _ "run"); [now left|reflexivity|]. eapply W_item; [now left|reflexivity|vm_compute; reflexivity]. }
  split; [reflexivity|]. split; [reflexivity|]. split; [reflexivity|]. split; [reflexivity|].
  split. { destruct Y as [[-> ->]|[-> ->]]; vm_compute; reflexivity. }
  split. { unfold args_ok. cbn. repeat (apply NoDup_cons; [cbn; intuition discriminate|]). apply NoDup_nil. }
  split. { split; [cbn; auto|]. split; [intros x []|]. intros x e [<-|[<-|[]]]; discriminate. }
  split. { destruct Y as [[-> ->]|[-> ->]]; [|intros j []]. intros j [<-|[]]. split; [reflexivity|]. right. split; [discriminate|]. repeat constructor. }
  split; [now apply w_printable|]. split; [reflexivity|].
  intros ->. exists (fun e => match e with Other "1" [] => VInt 1 | _ => VInt 2 end). split; [|vm_compute; reflexivity].
  intros k e0 [H|[H|[]]] ns; injection H as <- <-; reflexivity.
Qed.

Print Assumptions C106_definition_to_call.
Print Assumptions C106_imported_late.
Print Assumptions C106_not_imported.
Print Assumptions C106_no_name.
Print Assumptions C106_default_in_scope_refuted.
Print Assumptions C106_pipeline_entry.
Print Assumptions C106_changed_definition.
Print Assumptions C106_no_config.
