(** C78: the items of class dicts, from the files to the call. *)
From Verif Require Import Setup_Spec SetupEx_Spec Setup_Proofs SetupFiles_Proofs SetupLoad_Proofs SetupEx_Proofs Project_Proofs ProjectEx_Proofs ClassRunEx_Spec ClassRun_Proofs ClassRunEx_Proofs.
From Verif Require Import Exec_Model Exec_Spec ExecEx_Spec Exec_Proofs ExecText_Proofs ExecSave_Proofs ExecEx_Proofs ExecRun_Proofs.
Local Open Scope string_scope.
Local Open Scope list_scope.

(** If a project loads and a class dict has an item at a path, then the item has a config file, written from the signature of
    the class and what the file held before. Running it initialises the instance with the values that the section files and its
    own file give to the parameters of the class, and if that does not raise, calls the instance once. *)
Theorem C78_files_to_call : forall parse view inst cfg config_dir exec s next f p l p',
  pm_load parse view inst cfg config_dir s next f p = (l, p', Ok tt) -> wf f -> Forall (@dwf cval) (su_classes s) ->
  mirrors exec (final f l) (defaults_of s) (config_dir (final f l)) -> (forall rel t v, exec rel t = Ok v -> dwf v) ->
  exists i r, p' = PM (Some i) (Some (i, r)) /\
  forall c nm text d folders n it k, In c (su_classes s) -> dget "name" c = Some (CStr nm) ->
    f (dict_file (su_folder s) nm) = Some (File text) -> parse false text = Ok d ->
    tidy_items i -> (forall r, In r (i_specific i) -> distinct_names (reg_coll r)) -> plain_item (su_config_folder s) nm (folders ++ [n]) ->
    let inst' := inst (dupdate default_ccfg c) in
    let file := defaults_of s ++ nm :: folders ++ [(n ++ ".py")%string] in
    PipeDict_Spec.written inst' (PDict d) (folders ++ [n]) it -> inst' it = Ok (n, TInst k) ->
    final f l (defaults_of s ++ nm :: folders ++ [n]) <> Some Dir ->
    exists text, cfg false n (TInst k) (content f file) = Ok text /\ final f l file = Some (File text) /\
    forall own path u, exec (nm :: folders ++ [(n ++ ".py")%string]) text = Ok own -> path_parts path = nm :: folders ++ [n] ->
    exists r' args, dwf args /\
      (forall x, dget x args = if mem x (f_args k) then setting exec (final f l) (defaults_of s) (nm :: folders) n x else None) /\
      let o := LInst next k [args] in
      run_one i u path r = (r', match u_init u k args with
                                | Some e => Raise e
                                | None => match u_call u [] path o with Ok v => Ok (RVal v) | Raise e => Raise e end
                                end) /\
      r_calls r' = match u_init u k args with Some _ => [] | None => [(path, o)] end.
Proof. intros parse view inst cfg config_dir exec s next f p l p'. apply class_end_to_end. Qed.

(** A new item, for which there is no file yet: the file is a program that assigns every parameter its default and the name of
    the item to [key_attr]. If the section files say nothing about a parameter, the instance is initialised with that value. *)
Theorem C78_new_item : forall parse view inst cfg config_dir py initial other s next f p l p',
  let exec := exec_text py initial other in
  pm_load parse view inst cfg config_dir s next f p = (l, p', Ok tt) -> wf f -> Forall (@dwf cval) (su_classes s) ->
  mirrors exec (final f l) (defaults_of s) (config_dir (final f l)) -> dwf initial -> (forall rel t v, other rel t = Ok v -> dwf v) ->
  exists i r, p' = PM (Some i) (Some (i, r)) /\
  forall c nm text d folders n pi k it key name_value, In c (su_classes s) -> dget "name" c = Some (CStr nm) ->
    f (dict_file (su_folder s) nm) = Some (File text) -> parse false text = Ok d ->
    tidy_items i -> (forall r, In r (i_specific i) -> distinct_names (reg_coll r)) -> plain_item (su_config_folder s) nm (folders ++ [n]) ->
    let inst' := inst (dupdate default_ccfg c) in
    let file := defaults_of s ++ nm :: folders ++ [(n ++ ".py")%string] in
    PipeDict_Spec.written inst' (PDict d) (folders ++ [n]) pi -> inst' pi = Ok (n, TInst k) ->
    final f l (defaults_of s ++ nm :: folders ++ [n]) <> Some Dir ->
    content f file = None -> cfg false n (TInst k) None = scaffold_class it key name_value None -> item_ok (named it key name_value) ->
    exists text es, final f l file = Some (File text) /\ read_from (brought (named it key name_value)) es /\
      program text = Some (new_program (named it key name_value) es) /\
    forall own path u, active_load py initial (Some (new_program (named it key name_value) es)) = Ok own -> path_parts path = nm :: folders ++ [n] ->
    exists r' args,
      let o := LInst next k [args] in
      run_one i u path r = (r', match u_init u k args with
                                | Some e => Raise e
                                | None => match u_call u [] path o with Ok v => Ok (RVal v) | Raise e => Raise e end
                                end) /\
      r_calls r' = match u_init u k args with Some _ => [] | None => [(path, o)] end /\
      (forall x, mem x (f_args k) = false -> dget x args = None) /\
      forall x es1 a es2 e, mem x (f_args k) = true -> es = es1 ++ a :: es2 -> a_target a = TgName x -> a_value a = Some e ->
        (forall rel, In rel (section_files (nm :: folders)) -> dget x (values_of exec (final f l) (defaults_of s) rel) = None) ->
        exists ns w, seq (Exec_Model.run py) (new_program (named it key name_value) es1) initial = (ns, None) /\ py_eval py ns e = Ok w /\
          dget x args = if startswith x "__" then None else match w with MVal v => Some v | MModule _ => None end.
Proof.
  intros parse view inst cfg config_dir py initial other s next f p l p' exec L W Dw M Wi Wo.
  destruct (class_end_to_end parse view inst cfg config_dir exec s next f p l p' L W Dw M (exec_text_wf py initial other Wi Wo)) as (i & r & E & H).
  exists i, r. split; [exact E|]. intros c nm text0 d folders n pi k it key name_value Ic Nm Fd Pd Ti Dn Pp inst' file Wr Vw Nd Cn Cf Hit.
  destruct (H c nm text0 d folders n pi k Ic Nm Fd Pd Ti Dn Pp Wr Vw Nd) as (text & Ct & Ft & K). fold file in Ct, Ft. rewrite Cn, Cf in Ct.
  change (scaffold_class it key name_value None) with (scaffold ex_astor (named it key name_value) None) in Ct.
  destruct (scaffold_program ex_astor _ text Hit Ct) as (es & Re & Pt). exists text, es. split; [exact Ft|]. split; [exact Re|]. split; [exact Pt|].
  intros own path u Lo Hp. assert (Ex : exec (nm :: folders ++ [(n ++ ".py")%string]) text = Ok own) by (unfold exec, exec_text; now rewrite Pt).
  destruct (K own path u Ex Hp) as (r' & args & Wa & G & R1 & R2). exists r', args. split; [exact R1|]. split; [exact R2|]. split.
  - intros x Hx. rewrite G, Hx. reflexivity.
  - intros x es1 a es2 e Hx Ee Ta Va Se. rewrite G, Hx. rewrite (setting_own exec (final f l) (defaults_of s) (nm :: folders) n x text own Ft Ex Se).
    exact (new_value py initial _ es es1 a es2 x e own Hit Wi Re Ee Ta Va Lo).
Qed.

(** An item is not always initialised with its own name: a section file that assigns [key_attr] counts for all items. *)
Theorem C78_own_name_refuted :
  final (k_disk "name = 'z'") (fst (fst (k_load "name = 'z'" new_pm))) ["proj"; "defaults"; "ks"; "s"; "a.py"] =
    Some (File (ex_lines ["from pyfileconf import Selector"; ""; "s = Selector()"; "name = 'a'"; "x = 1"; ""])) /\
  k_called "name = 'z'" "ks.s.a" = Some (Ok (RVal VNone), [("ks.s.a", LInst 0 k_class [[("name", VStr "z"); ("x", VInt 1)]])]) /\
  k_called "name = 'z'" "ks.s.b" = Some (Ok (RVal VNone), [("ks.s.b", LInst 0 k_class [[("name", VStr "z"); ("x", VInt 1)]])]).
Proof. split; [vm_compute; reflexivity|]. split; vm_compute; reflexivity. Qed.

(** example: all conditions hold for a project with new items, and the instance gets its name *)
Example C78_ex : exists l r, k_load "z = 1" new_pm = (l, PM (Some k_items) (Some (k_items, r)), Ok tt) /\ wf (k_disk "z = 1") /\
  Forall (@dwf cval) (su_classes k_setup) /\ dwf mini_names /\
  mirrors k_exec (final (k_disk "z = 1") l) ["proj"; "defaults"] (k_config (final (k_disk "z = 1") l)) /\
  k_disk "z = 1" (dict_file ["proj"] "ks") = Some (File "class_dict = {'s': ['a', 'b']}") /\
  ex_parse false "class_dict = {'s': ['a', 'b']}" = Ok [("s", PList [PStr "a"; PStr "b"])] /\
  tidy_items k_items /\ (forall r, In r (i_specific k_items) -> distinct_names (reg_coll r)) /\ plain_item "defaults" "ks" ["s"; "a"] /\
  PipeDict_Spec.written (k_inst []) (PDict [("s", PList [PStr "a"; PStr "b"])]) ["s"; "a"] (PStr "a") /\
  k_inst [] (PStr "a") = Ok ("a", TInst k_class) /\ final (k_disk "z = 1") l ["proj"; "defaults"; "ks"; "s"; "a"] <> Some Dir /\
  content (k_disk "z = 1") ["proj"; "defaults"; "ks"; "s"; "a.py"] = None /\
  k_cfg false "a" (TInst k_class) None = scaffold_class k_item "name" (k_name "a") None /\ item_ok (named k_item "name" (k_name "a")) /\
  (forall rel, In rel (section_files ["ks"; "s"]) -> dget "name" (values_of k_exec (final (k_disk "z = 1") l) ["proj"; "defaults"] rel) = None) /\
  k_called "z = 1" "ks.s.a" = Some (Ok (RVal VNone), [("ks.s.a", LInst 0 k_class [[("name", VStr "a"); ("x", VInt 1)]])]).
Proof.
  destruct k_loads as (l & r & H & M & A & B). exists l, r. split; [exact H|]. split; [apply k_wf|]. split; [repeat constructor; cbn; intuition discriminate|].
  split; [repeat constructor; intros []|]. split; [exact M|]. split; [reflexivity|]. split; [vm_compute; reflexivity|]. split; [exact k_tidy|].
  split; [intros r0 [<-|[]]; cbn; repeat split; repeat constructor; cbn; intuition discriminate|]. split; [exact k_plain|].
  split. { eapply (W_key _ _ "s"); [now left|reflexivity|]. eapply W_item; [now left|reflexivity|reflexivity]. }
  split; [reflexivity|]. split; [rewrite A; discriminate|]. split; [reflexivity|]. split; [reflexivity|]. split; [exact k_item_ok|]. split; [exact B|]. vm_compute. reflexivity.
Qed.

Print Assumptions C78_files_to_call.
Print Assumptions C78_new_item.
Print Assumptions C78_own_name_refuted.
