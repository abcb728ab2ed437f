(** C77: the arguments of a new function, from its signature to the call. *)
From Verif Require Import Setup_Spec SetupEx_Spec Setup_Proofs SetupFiles_Proofs SetupLoad_Proofs SetupEx_Proofs Project_Proofs ProjectEx_Proofs ExecRunEx_Spec ExecRunEx_Proofs.
From Verif Require Import Exec_Model Exec_Spec ExecEx_Spec Exec_Proofs ExecText_Proofs ExecSave_Proofs ExecEx_Proofs ExecRun_Proofs.
Local Open Scope string_scope.
Local Open Scope list_scope.

(** A project loads, and its pipeline dict has a function for which there is no config file yet. Then the file written for it
    is a program, and if that can be executed, running the function calls it once; a parameter about which the section files say
    nothing is given the value of its default, evaluated after the imports, the selector and the parameters before it. *)
Theorem C77_new_function : forall parse view inst cfg config_dir py initial other s next f p l p',
  let exec := exec_text py initial other in
  pm_load parse view inst cfg config_dir s next f p = (l, p', Ok tt) -> wf f ->
  mirrors exec (final f l) (defaults_of s) (config_dir (final f l)) -> dwf initial -> (forall rel t v, other rel t = Ok v -> dwf v) ->
  exists i r, p' = PM (Some i) (Some (i, r)) /\
  forall d folders n pi g astor it, has_dict parse f (su_folder s) d -> tidy_items i -> distinct_names (i_general i) ->
    plain_path (su_config_folder s) (folders ++ [n]) ->
    let view' := view (file_text f (pipeline_file (su_folder s))) in
    let file := defaults_of s ++ folders ++ [(n ++ ".py")%string] in
    PipeDict_Spec.written view' (PDict d) (folders ++ [n]) pi -> view' pi = Ok (n, TFunc g) ->
    final f l (defaults_of s ++ folders ++ [n]) <> Some Dir ->
    content f file = None -> cfg true n (TFunc g) None = scaffold astor it None -> item_ok it ->
    exists text es, final f l file = Some (File text) /\ read_from (brought it) es /\ program text = Some (new_program it es) /\
    forall own path u, active_load py initial (Some (new_program it es)) = Ok own -> path_parts path = folders ++ [n] ->
    exists r' kw, run_one i u path r = (r', match u_call u [] path (LPartial next g false kw) with Ok v => Ok (RVal v) | Raise e => Raise e end) /\
      r_calls r' = [(path, LPartial next g false kw)] /\
      (forall k, mem k (f_args g) = false -> dget k kw = None) /\
      forall k es1 a es2 e, mem k (f_args g) = true -> es = es1 ++ a :: es2 -> a_target a = TgName k -> a_value a = Some e ->
        (forall rel, In rel (section_files folders) -> dget k (values_of exec (final f l) (defaults_of s) rel) = None) ->
        exists ns w, seq (Exec_Model.run py) (new_program it es1) initial = (ns, None) /\ py_eval py ns e = Ok w /\
          dget k kw = if startswith k "__" then None else match w with MVal v => Some v | MModule _ => None end.
Proof.
  intros parse view inst cfg config_dir py initial other s next f p l p' exec L W M Wi Wo.
  destruct (end_to_end parse view inst cfg config_dir exec s next f p l p' L W M (exec_text_wf py initial other Wi Wo)) as (i & r & E & H).
  exists i, r. split; [exact E|]. intros d folders n pi g astor it Hd Ti Dn Pp view' file Wr Vw Nd Cn Cf Hit.
  destruct (H d folders n pi g Hd Ti Dn Pp Wr Vw Nd) as (text & Ct & Ft & K). fold file in Ct, Ft. rewrite Cn, Cf in Ct.
  destruct (scaffold_program astor it text Hit Ct) as (es & Re & Pt). exists text, es. split; [exact Ft|]. split; [exact Re|]. split; [exact Pt|].
  intros own path u Lo Hp. assert (Ex : exec (folders ++ [(n ++ ".py")%string]) text = Ok own) by (unfold exec, exec_text; now rewrite Pt).
  destruct (K own path u Ex Hp) as (r' & kw & R1 & R2 & Wk & G). exists r', kw. split; [exact R1|]. split; [exact R2|]. split.
  - intros k Hk. rewrite G, Hk. reflexivity.
  - intros k es1 a es2 e Hk Ee Ta Va Se. rewrite G, Hk. rewrite (setting_own exec (final f l) (defaults_of s) folders n k text own Ft Ex Se).
    exact (new_value py initial it es es1 a es2 k e own Hit Wi Re Ee Ta Va Lo).
Qed.

(** What a section file merely imports counts as a setting of the section: an object called like a parameter is passed to the
    functions of the section, whatever their own files say. *)
Theorem C77_imports_in_sections_harmless_refuted :
  exists f, wf f /\ f ["d"; "run"; "section.py"] = Some (File "from lib import y") /\ f ["d"; "run"; "a.py"] = Some (File "y = 1") /\
    setting (exec_text mini mini_names (fun _ _ => Raise SyntaxError)) f ["d"] ["run"] "a" "y" = Some (VStr "lib.y").
Proof.
  exists (fs_of [([], Dir); (["d"], Dir); (["d"; "section.py"], File ""); (["d"; "run"], Dir); (["d"; "run"; "section.py"], File "from lib import y"); (["d"; "run"; "a.py"], File "y = 1")]).
  split; [apply table_wf; vm_compute; reflexivity|]. repeat (split; [vm_compute; reflexivity|]). vm_compute. reflexivity.
Qed.

(** example: all conditions hold for a project with a new function *)
Example C77_ex : exists l r, fresh_load new_pm = (l, PM (Some ex_items) (Some (ex_items, r)), Ok tt) /\ wf fresh_disk /\ dwf mini_names /\
  mirrors fresh_exec (final fresh_disk l) ["proj"; "defaults"] (fresh_config (final fresh_disk l)) /\
  has_dict ex_parse fresh_disk ["proj"] [("run", PList [PName "a"])] /\ tidy_items ex_items /\ distinct_names (i_general ex_items) /\
  plain_path "defaults" ["run"; "a"] /\ PipeDict_Spec.written (ex_view "") (PDict [("run", PList [PName "a"])]) ["run"; "a"] (PName "a") /\
  ex_view "" (PName "a") = Ok ("a", TFunc (Fn "a" ["x"; "y"])) /\
  final fresh_disk l ["proj"; "defaults"; "run"; "a"] <> Some Dir /\ content fresh_disk ["proj"; "defaults"; "run"; "a.py"] = None /\
  fresh_cfg true "a" (TFunc (Fn "a" ["x"; "y"])) None = scaffold ex_astor xy_item None /\ item_ok xy_item /\
  (forall rel, In rel (section_files ["run"]) -> dget "x" (values_of fresh_exec (final fresh_disk l) ["proj"; "defaults"] rel) = None) /\
  exists es d, read_from (brought xy_item) es /\ active_load mini mini_names (Some (new_program xy_item es)) = Ok d /\
    dget "x" d = Some (VInt 1) /\ dget "y" d = Some (VStr "lib.x0").
Proof.
  destruct fresh_loads as (l & r & H & M & A & B). exists l, r. split; [exact H|]. split; [exact fresh_wf|]. split; [repeat constructor; intros []|]. split; [exact M|].
  split; [right; eexists; split; [vm_compute; reflexivity|vm_compute; reflexivity]|]. split; [exact ex_tidy|].
  split; [cbn; repeat split; repeat constructor; intros []|].
  split. { repeat split; try (repeat constructor; discriminate); try discriminate; vm_compute; repeat constructor; try discriminate. }
  split. { eapply (W_key _ _ "run"); [now left|reflexivity|]. eapply W_item; [now left|reflexivity|reflexivity]. }
  split; [reflexivity|]. split; [rewrite A; discriminate|]. split; [reflexivity|]. split; [reflexivity|]. split; [exact xy_item_ok|]. split; [exact B|].
  exists [Asgn (TgName "x") None (Some [TWord "1"]); Asgn (TgName "y") None (Some [TWord "x0"])]. eexists.
  split. { repeat constructor; vm_compute; reflexivity. } split; [vm_compute; reflexivity|]. split; reflexivity.
Qed.


Print Assumptions C77_new_function.
Print Assumptions C77_imports_in_sections_harmless_refuted.
