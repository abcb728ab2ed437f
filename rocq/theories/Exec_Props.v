(** C73: the settings a config file gives; C74: what scaffolding sees of it; C75, C76: executing files the library has written;
    C77: the arguments of a new function. *)
From Verif Require Import Exec_Model Exec_Spec ExecRules_Spec ExecRules_Proofs ExecEx_Spec Exec_Proofs ExecText_Proofs ExecSave_Proofs PySource_Proofs ExecEx_Proofs.
Local Open Scope string_scope.
Local Open Scope list_scope.

(* ------------------------------------------------------------------ *)
(** * C73 *)

(** The settings are the names the module has after its code was executed, without modules and without names that begin with
    two underscores, in the order in which they were bound first. *)
Theorem C73_settings : forall py initial p d, dwf initial -> active_load py initial (Some p) = Ok d ->
  exists ns, seq (run py) p initial = (ns, None) /\ dwf d /\ d = flat_map setting_of ns /\
    forall k v, dget k d = Some v <-> startswith k "__" = false /\ dget k ns = Some (MVal v).
Proof.
  intros py initial p d W L. destruct (active_load_inv py initial p d L) as (r & ns & _ & R & ->). pose proof (runs_wf' py _ _ _ W R) as Wn. exists ns. split; [exact R|].
  split; [now apply user_dict_wf|]. split; [now apply user_dict_eq|]. intros k v. rewrite (user_dict_get ns k Wn). destruct (startswith k "__"); [split; [discriminate|intros [K _]; discriminate]|].
  destruct (dget k ns) as [[m|w]|]; split; try discriminate; try (intros [_ K]; discriminate).
  - intros [= ->]. auto.
  - intros [_ [= ->]]. reflexivity.
Qed.

(** Executing follows the rules of the language. *)
Theorem C73_execution : forall py p ns o, seq (run py) p ns = o <-> in_turn (executes py) p ns o.
Proof. exact runs_execute. Qed.

(** Only names that a statement outside of functions and classes binds become settings. *)
Theorem C73_only_own_names : forall py initial p d k, fresh initial -> active_load py initial (Some p) = Ok d -> In k (dkeys d) ->
  exists s, In s p /\ touches s k.
Proof.
  intros py initial p d k [W Fr] L K. destruct (C73_settings py initial p d W L) as (ns & R & _ & _ & G). apply In_dkeys_dget in K. destruct K as [v Kv]. apply G in Kv. destruct Kv as [Nk Kn].
  apply dget_Some_In in Kn. pose proof (runs_bound py p initial k) as B. rewrite R in B. destruct (B (in_map fst _ _ Kn)) as [H|H]; [|exact H]. specialize (Fr k H). congruence.
Qed.

(** The last statement that touches a name counts. *)
Theorem C73_last_counts : forall py initial p1 s p2 d k, dwf initial -> active_load py initial (Some (p1 ++ s :: p2)) = Ok d ->
  (forall s', In s' p2 -> ~ touches s' k) ->
  exists ns1 ns2, seq (run py) p1 initial = (ns1, None) /\ run py s ns1 = (ns2, None) /\ dget k d = dget k (user_dict ns2).
Proof.
  intros py initial p1 s p2 d k W L N. destruct (active_load_inv py initial _ d L) as (r & ns & _ & R & ->). pose proof (runs_wf' py _ _ _ W R) as Wn.
  destruct (runs_last py p1 s p2 k initial ns R N) as (ns1 & ns2 & R1 & R2 & D). exists ns1, ns2. split; [exact R1|]. split; [exact R2|].
  pose proof (runs_wf' py _ _ _ W R1) as W1. pose proof (run_wf py s ns1 W1) as W2. rewrite R2 in W2. cbn [fst] in W2. now rewrite !user_dict_get, D by assumption.
Qed.
Theorem C73_assigned_value : forall py initial p1 s p2 d k e, dwf initial -> active_load py initial (Some (p1 ++ s :: p2)) = Ok d ->
  assigns s k e -> (forall s', In s' p2 -> ~ touches s' k) ->
  exists ns1 w, seq (run py) p1 initial = (ns1, None) /\ py_eval py ns1 e = Ok w /\
    dget k d = if startswith k "__" then None else match w with MVal v => Some v | MModule _ => None end.
Proof.
  intros py initial p1 s p2 d k e W L A N. destruct (active_load_inv py initial _ d L) as (r & ns & _ & R & ->). pose proof (runs_wf' py _ _ _ W R) as Wn.
  destruct (runs_last py p1 s p2 k initial ns R N) as (ns1 & ns2 & R1 & R2 & D). destruct (assign_value py s k e ns1 ns2 A R2) as (w & Ew & Dw).
  exists ns1, w. split; [exact R1|]. split; [exact Ew|]. now rewrite (user_dict_get ns k Wn), D, Dw.
Qed.

(** Loading fails if the syntax tree holds something the library does not support, or as executing the file fails. *)
Theorem C73_failure : forall py initial p e, active_load py initial (Some p) = Raise e <->
  register (Some p) = Raise e \/ exists r ns, register (Some p) = Ok r /\ seq (run py) p initial = (ns, Some e).
Proof.
  intros py initial p e. unfold active_load. destruct (register (Some p)) as [r|e']; cbn [user_defined_dict].
  - destruct (seq (run py) p initial) as [ns [e'|]].
    + split; [intros [= ->]; right; eauto|]. intros [K|(r' & ns' & [= <-] & [= <- <-])]; [discriminate|reflexivity].
    + split; [discriminate|]. intros [K|(r' & ns' & _ & K)]; discriminate.
  - split; [intros [= ->]; now left|]. intros [[= ->]|(r' & ns' & K & _)]; [reflexivity|discriminate].
Qed.
Theorem C73_no_file : forall py initial, active_load py initial None = Raise OSError.
Proof. reflexivity. Qed.

(** Objects that a config file imports become settings like those it assigns. *)
Theorem C73_only_assignments_are_settings_refuted : exists p d, (forall s k e, In s p -> ~ assigns s k e) /\
  active_load mini mini_names (Some p) = Ok d /\ dget "sep" d = Some (VStr "os.sep").
Proof. exists [PFrom 0 (Some "os") [("sep", None)]]. eexists. split; [|split; vm_compute; reflexivity]. intros s k e [<-|[]] [K|[ann K]]; discriminate. Qed.
(** Not everything assigned becomes a setting: not modules, not names with two underscores. *)
Theorem C73_assignments_are_settings_refuted : exists p d,
  active_load mini mini_names (Some p) = Ok d /\ In (PAssign [GName "m"] (name "os")) p /\ In (PAssign [GName "__c"] one) p /\ d = [].
Proof. exists [PImport [("os", None)]; PAssign [GName "m"] (name "os"); PAssign [GName "__c"] one]. eexists. split; [vm_compute; reflexivity|]. cbn. split; [tauto|]. split; [tauto|reflexivity]. Qed.

Example C73_example : fresh mini_names /\ active_load mini mini_names (Some ex_program) = Ok [("sep2", VStr "os.sep"); ("a", VInt 2); ("b", VInt 1)].
Proof. split; [|vm_compute; reflexivity]. split; [repeat constructor; intros []|]. intros k [<-|[]]. reflexivity. Qed.
(** loops, branches and functions *)
Example C73_compound_example : active_load mini mini_names
    (Some [PFor (GName "i") [TWord "1"; TOp ","; TWord "2"] [PAssign [GName "last"] (name "i")]; PIf (name "None") [PAssign [GName "t"] one] [PAssign [GName "e"] one];
           PDef "f" [PAssign [GName "inner"] one]; PTry [PAssign [GName "before"] one; PExpr (name "unknown")] [PAssign [GName "handled"] (name "before")]; PAug "last" one; PDel "i"]) =
  Ok [("last", VInt 3); ("e", VInt 1); ("f", VFunc "f"); ("before", VInt 1); ("handled", VInt 1)].
Proof. vm_compute. reflexivity. Qed.

(* ------------------------------------------------------------------ *)
(** * C74 *)

(** Loading reads the syntax tree first. It accepts a file just if no assignment, however deeply nested, has several targets in
    a row, and no import is like [from . import x]. *)
Theorem C74_accepted : forall p, (exists r, register (Some p) = Ok r) <->
  forall s, within s p -> (forall ts e, s = PAssign ts e -> List.length ts = 1) /\ (forall dots al, s <> PFrom dots None al).
Proof. exact register_ok. Qed.
(** Scaffolding furthermore wants targets that are names, or attributes without annotation. *)
Theorem C74_scaffoldable : forall p, (exists c, lazy_load p = Ok c) <->
  (exists r, register (Some p) = Ok r) /\
  forall s, within s p -> (forall t e, s = PAssign [t] e -> (exists x, t = GName x) \/ exists e' a, t = GAttr e' a) /\
                          (forall t ann e, s = PAnn t ann e -> exists x, t = GName x).
Proof. exact lazy_ok. Qed.

(** For files of imports and plain assignments: the names bound are those assigned and those imported, ... *)
Theorem C74_names : forall py p initial ns x, Forall simple_stmt p -> seq (run py) p initial = (ns, None) ->
  (In x (dkeys ns) <-> (exists s, In s p /\ ((exists e, assigns s x e) \/ imports s x)) \/ In x (dkeys initial)).
Proof. intros py p initial ns x P R. now apply (plain_keys py p P initial ns x). Qed.
(** ... scaffolding sees those assigned or declared, ... *)
Theorem C74_names_seen : forall p c x, Forall simple_stmt p -> lazy_load p = Ok c ->
  (dget x c = None <-> forall s, In s p -> ~ declares s x).
Proof.
  intros p c x P L. unfold lazy_load in L. cbn [register] in L. destruct (imports_of _); [|discriminate]. destruct (assigns_of (flat_map nodes p)) as [al|] eqn:A; [|discriminate].
  pose proof (plain_last p P al c x A L) as H. destruct (dget x c) as [o|]; [|tauto]. split; [discriminate|]. intros N. exfalso. destruct H as (p1 & s & p2 & -> & _ & H). apply (N s); [apply in_elt|].
  destruct o as [e|]; [left; eauto|right; exact H].
Qed.
(** ... and the expression it sees is the one whose value the setting has, evaluated where it stands, unless the name is imported,
    too. *)
Theorem C74_values_agree : forall py initial p c d x e, dwf initial -> Forall simple_stmt p -> lazy_load p = Ok c -> active_load py initial (Some p) = Ok d ->
  dget x c = Some (Some e) -> (forall s, In s p -> ~ imports s x) ->
  exists p1 s p2 ns w, p = p1 ++ s :: p2 /\ assigns s x e /\ seq (run py) p1 initial = (ns, None) /\ py_eval py ns e = Ok w /\
    dget x d = if startswith x "__" then None else match w with MVal v => Some v | MModule _ => None end.
Proof.
  intros py initial p c d x e W P L A D N. unfold lazy_load in L. cbn [register] in L. destruct (imports_of _); [|discriminate]. destruct (assigns_of (flat_map nodes p)) as [al|] eqn:E; [|discriminate].
  pose proof (plain_last p P al c x E L) as H. rewrite D in H. destruct H as (p1 & s & p2 & -> & Nd & As). exists p1, s, p2.
  destruct (C73_assigned_value py initial p1 s p2 d x e W A As) as (ns & w & R & Ew & Dw).
  - intros s' Hs Ts. rewrite Forall_forall in P. assert (Hp : In s' (p1 ++ s :: p2)) by (apply in_or_app; right; now right).
    destruct (plain_touches s' x (P s' Hp) Ts) as [[e' K]|K]; [apply (Nd s' Hs); left; eauto|exact (N s' Hp K)].
  - exists ns, w. auto.
Qed.

(** Python executes more files than the library loads. *)
Theorem C74_executable_loads_refuted : exists p ns, seq (run mini) p mini_names = (ns, None) /\ dget "a" ns = Some (MVal (VInt 1)) /\
  active_load mini mini_names (Some p) = Raise (LibExn "NotImplementedError").
Proof. exists [PAssign [GName "a"; GName "b"] one]. eexists. split; [vm_compute; reflexivity|]. split; vm_compute; reflexivity. Qed.
(** A file that can be loaded can not always be scaffolded, ... *)
Theorem C74_loaded_scaffolds_refuted : exists p d e, active_load mini mini_names (Some p) = Ok d /\ d = [("a", VInt 1); ("b", VInt 2)] /\ lazy_load p = Raise e.
Proof. exists [PAssign [GTuple [GName "a"; GName "b"]] [TWord "1"; TOp ","; TWord "2"]]. eexists. eexists. split; [vm_compute; reflexivity|]. split; vm_compute; reflexivity. Qed.
(** ... and the other way round. *)
Theorem C74_scaffolded_loads_refuted : exists p c e, lazy_load p = Ok c /\ active_load mini mini_names (Some p) = Raise e.
Proof. exists [PAssign [GName "a"] (name "unknown")]. eexists. eexists. split; vm_compute; reflexivity. Qed.
(** Scaffolding takes assignments inside of functions for settings, ... *)
Theorem C74_seen_is_set_refuted : exists p c d, lazy_load p = Ok c /\ dget "x" c = Some (Some one) /\ active_load mini mini_names (Some p) = Ok d /\ dget "x" d = None.
Proof. exists [PDef "f" [PAssign [GName "x"] one]]. eexists. eexists. split; [vm_compute; reflexivity|]. split; [reflexivity|]. split; vm_compute; reflexivity. Qed.
(** ... takes the last assignment in the text for the one that counts, ... *)
Theorem C74_last_in_text_counts_refuted : exists p c d, lazy_load p = Ok c /\ dget "x" c = Some (Some two) /\ active_load mini mini_names (Some p) = Ok d /\ dget "x" d = Some (VInt 1).
Proof. exists [PIf (name "True") [PAssign [GName "x"] one] [PAssign [GName "x"] two]]. eexists. eexists. split; [vm_compute; reflexivity|]. split; [reflexivity|]. split; vm_compute; reflexivity. Qed.
(** ... a declaration after an assignment for one without a value, ... *)
Theorem C74_declared_has_no_value_refuted : exists p c d, lazy_load p = Ok c /\ dget "x" c = Some None /\ active_load mini mini_names (Some p) = Ok d /\ dget "x" d = Some (VInt 1).
Proof. exists [PAssign [GName "x"] one; PAnn (GName "x") (name "int") None]. eexists. eexists. split; [vm_compute; reflexivity|]. split; [reflexivity|]. split; vm_compute; reflexivity. Qed.
(** ... and an assignment followed by an import of the same name for the setting. *)
Theorem C74_import_after_refuted : exists p c d, Forall simple_stmt p /\ lazy_load p = Ok c /\ dget "sep" c = Some (Some one) /\ active_load mini mini_names (Some p) = Ok d /\ dget "sep" d = Some (VStr "os.sep").
Proof.
  exists [PAssign [GName "sep"] one; PFrom 0 (Some "os") [("sep", None)]]. eexists. eexists. split; [repeat constructor; intros a [<-|[]]; discriminate|]. split; [vm_compute; reflexivity|]. split; [reflexivity|]. split; vm_compute; reflexivity.
Qed.
Example C74_example : Forall simple_stmt ex_program /\ lazy_load ex_program = Ok [("a", Some two); ("b", Some (name "a")); ("__c", Some one)] /\
  (forall s, In s ex_program -> ~ imports s "a").
Proof.
  split; [repeat constructor; intros a [<-|[<-|[]]]; discriminate|]. split; [vm_compute; reflexivity|].
  intros s Hs [(al & a & -> & Ha & E)|(dots & m & al & a & -> & Ha & E)]; cbn in Hs; repeat destruct Hs as [Hs|Hs]; try discriminate; try contradiction; injection Hs; intros; subst; cbn in Ha;
    repeat destruct Ha as [Ha|Ha]; subst; try contradiction; discriminate.
Qed.
(** the same from the text of a file *)
Example C74_text_example : program (ex_lines ["import os"; "from os import path, sep as sep2"; "a = 1"; "b: int = a"; ""; "# again"; "a = 2"; "__c = 1"]) = Some ex_program.
Proof. vm_compute. reflexivity. Qed.
(** A plain file is read by scaffolding as its program is. *)
Theorem C74_text : forall t p, program t = Some p -> load_file t =
  match register (Some p) with
  | Raise e => Raise e
  | Ok (is, al) => match default_dict [] al with Raise e => Raise e | Ok d => Ok (Loaded is al (body t) d) end
  end.
Proof. exact program_load. Qed.

(* ------------------------------------------------------------------ *)
(** * C75 *)

(** The file written for a new item is a program: the imports, the selector, and one assignment for each parameter and always
    assigned name, in their order. *)
Theorem C75_program : forall astor it out, item_ok it -> scaffold astor it None = Ok out ->
  exists es, read_from (brought it) es /\ program out = Some (new_program it es).
Proof. exact scaffold_program. Qed.
(** Executed, a parameter has the value of the expression written for it, evaluated after the imports, the selector and the
    parameters before it. *)
Theorem C75_value : forall py initial it es es1 a es2 x e d, item_ok it -> dwf initial -> read_from (brought it) es -> es = es1 ++ a :: es2 ->
  a_target a = TgName x -> a_value a = Some e -> active_load py initial (Some (new_program it es)) = Ok d ->
  exists ns w, seq (run py) (new_program it es1) initial = (ns, None) /\ py_eval py ns e = Ok w /\
    dget x d = if startswith x "__" then None else match w with MVal v => Some v | MModule _ => None end.
Proof. exact new_value. Qed.
(** If it does not depend on parameters before it, they do not matter. *)
Theorem C75_value_alone : forall py uses initial it es es1 a es2 x e d, local py uses -> item_ok it -> dwf initial -> read_from (brought it) es ->
  es = es1 ++ a :: es2 -> a_target a = TgName x -> a_value a = Some e -> (forall y b, In y (uses e) -> In b es1 -> a_target b <> TgName y) ->
  active_load py initial (Some (new_program it es)) = Ok d ->
  exists ns w, seq (run py) (new_program it []) initial = (ns, None) /\ py_eval py ns e = Ok w /\
    dget x d = if startswith x "__" then None else match w with MVal v => Some v | MModule _ => None end.
Proof. exact new_value_alone. Qed.
(** Every setting is a parameter, an always assigned name, the selector or an imported object. *)
Theorem C75_names : forall py initial it es d x, item_ok it -> fresh initial -> read_from (brought it) es -> active_load py initial (Some (new_program it es)) = Ok d ->
  In x (dkeys d) -> In x (dkeys (brought it)) \/ (x = "s" /\ i_begin it <> []) \/ exists i, In i (combine_imports [] (item_imports it)) /\ touches (imp_stmt i) x.
Proof.
  intros py initial it es d x Hit Fr Re L K. destruct (C73_only_own_names py initial _ d x Fr L K) as (s & Hs & Ts). unfold new_program in Hs. rewrite !in_app_iff in Hs. destruct Hs as [Hs|[Hs|Hs]].
  - apply in_map_iff in Hs as (i & <- & Hi). right. right. eauto.
  - rewrite map_map in Hs. apply in_map_iff in Hs as (q & <- & Hq). right. left. split; [exact (asg_touches' selector_asgn "s" x eq_refl Ts)|]. intros E. rewrite E in Hq. destruct Hq.
  - left. apply in_map_iff in Hs as (a & <- & Ha). assert (T : In (a_target a) (map TgName (dkeys (brought it)))) by (rewrite <- (read_targets _ _ Re); now apply in_map).
    apply in_map_iff in T as (y & Ey & Hy). apply (asg_touches' a y x) in Ts; [now subst|now symmetry].
Qed.

(** A parameter that has the name of something a later default needs spoils it: the scaffolded file of
    [def f(np=None, k=np.pi)] cannot be loaded. *)
Theorem C75_defaults_work_refuted : exists out p ns, item_ok shadow_item /\ scaffold ex_astor shadow_item None = Ok out /\ program out = Some p /\
  (* what the default of k is in the module of the function *)
  seq (run mini) [PImport [("numpy", Some "np")]] mini_names = (ns, None) /\ mini_eval ns [TWord "np"; TOp "."; TWord "pi"] = Ok (MVal (VStr "numpy.pi")) /\
  active_load mini mini_names (Some p) = Raise AttributeError.
Proof. eexists. eexists. eexists. split; [exact shadow_item_ok|]. split; [vm_compute; reflexivity|]. repeat (split; [vm_compute; reflexivity|]). vm_compute; reflexivity. Qed.
(** A parameter without default has the value None, as if that had been chosen; and the selector and imported objects are
    settings, too. *)
Theorem C75_only_parameters_refuted : exists out p d, scaffold ex_astor frame_item None = Ok out /\ program out = Some p /\ active_load mini mini_names (Some p) = Ok d /\
  d = [("Selector", VStr "pyfileconf.Selector"); ("DataFrame", VStr "pandas.DataFrame"); ("s", VObj 0); ("k", VNone); ("n", VInt 1)].
Proof. eexists. eexists. eexists. split; [vm_compute; reflexivity|]. split; [vm_compute; reflexivity|]. split; vm_compute; reflexivity. Qed.
Example C75_example : item_ok frame_item /\ local mini mini_uses.
Proof. split; [exact frame_item_ok|exact mini_local]. Qed.

(* ------------------------------------------------------------------ *)
(** * C76 *)

(** A plain file that the library writes again is a plain file: the imports of the old file and of the item, the selector if it was
    not assigned, the statements below the imports, and the parameters that were not assigned. *)
Theorem C76_program : forall astor it t f p t', item_ok it -> supported t f -> program t = Some p -> scaffold astor it (Some t) = Ok t' ->
  exists ph pb es, p = ph ++ pb /\ Forall import_only ph /\ read_from (missing it (l_assigns f)) es /\
    program t' = Some (map imp_stmt (combine_imports (l_imports f) (item_imports it)) ++
      map asg_stmt (map (fun _ => selector_asgn) (missing_begin it (l_assigns f))) ++ pb ++ map asg_stmt es).
Proof.
  intros astor it t f p t' Hit Su P S. pose proof Su as (Lf & _). rewrite (FileStrOps_Proofs.scaffold_eq astor it t f Hit Lf) in S. injection S as <-.
  destruct (supported_program t f p Su P) as (ph & pb & E & Pb & Fh). destruct (program_rewritten it (Some t) f pb Hit Su Pb) as (es & Re & Pn). exists ph, pb, es. auto.
Qed.

(** Its settings keep their values if no name is imported with two meanings, the file does not import something called s, and none
    of its expressions uses a name that is put before it. Excepted are imported names that are parameters. *)
Theorem C76_settings_kept : forall py astor uses initial it t f p t' d p' d',
  local py uses -> item_ok it -> fresh initial -> supported t f -> program t = Some p -> scaffold astor it (Some t) = Ok t' -> program t' = Some p' ->
  Forall simple_stmt (p ++ p') -> Forall plain_aliases p -> one_meaning py (p ++ p') ->
  (missing_begin it (l_assigns f) <> [] -> forall s, In s p -> ~ imports s "s") ->
  clear_of uses (put_before it f) p ->
  active_load py initial (Some p) = Ok d -> active_load py initial (Some p') = Ok d' ->
  forall x, dmem x d = true -> dmem x (missing it (l_assigns f)) = false -> dget x d' = dget x d.
Proof. exact rewritten_values. Qed.

(** Without these conditions: an import of the item takes the place of another one of the same name, ... *)
Theorem C76_imports_kept_refuted : exists t t' p p' d d', t = ex_lines ["from polars import DataFrame"; "frame = DataFrame"] /\
  scaffold ex_astor frame_item (Some t) = Ok t' /\ program t = Some p /\ program t' = Some p' /\
  active_load mini mini_names (Some p) = Ok d /\ active_load mini mini_names (Some p') = Ok d' /\
  dget "frame" d = Some (VStr "polars.DataFrame") /\ dget "frame" d' = Some (VStr "pandas.DataFrame").
Proof. eexists. eexists. eexists. eexists. eexists. eexists. split; [reflexivity|]. repeat (split; [vm_compute; reflexivity|]). vm_compute; reflexivity. Qed.
(** ... an imported s gives way to the selector, ... *)
Theorem C76_imported_s_kept_refuted : exists t t' p p' d d', t = ex_lines ["from letters import s"; "letter = s"] /\
  scaffold ex_astor frame_item (Some t) = Ok t' /\ program t = Some p /\ program t' = Some p' /\
  active_load mini mini_names (Some p) = Ok d /\ active_load mini mini_names (Some p') = Ok d' /\
  dget "letter" d = Some (VStr "letters.s") /\ dget "letter" d' = Some (VObj 0).
Proof. eexists. eexists. eexists. eexists. eexists. eexists. split; [reflexivity|]. repeat (split; [vm_compute; reflexivity|]). vm_compute; reflexivity. Qed.
(** ... a setting the file imports gives way to the parameter's default, ... *)
Theorem C76_imported_settings_kept_refuted : exists t t' p p' d d', t = ex_lines ["from mysettings import n"; "k = n"] /\
  scaffold ex_astor frame_item (Some t) = Ok t' /\ program t = Some p /\ program t' = Some p' /\
  active_load mini mini_names (Some p) = Ok d /\ active_load mini mini_names (Some p') = Ok d' /\
  dget "n" d = Some (VStr "mysettings.n") /\ dget "n" d' = Some (VInt 1).
Proof. eexists. eexists. eexists. eexists. eexists. eexists. split; [reflexivity|]. repeat (split; [vm_compute; reflexivity|]). vm_compute; reflexivity. Qed.
(** ... and of two imports of the same thing under two names one is lost, so that the file cannot be loaded any more. *)
Theorem C76_stays_loadable_refuted : exists t t' p p' d, t = ex_lines ["from os import sep as a, sep as b"; "k = a"] /\
  scaffold ex_astor frame_item (Some t) = Ok t' /\ program t = Some p /\ program t' = Some p' /\
  active_load mini mini_names (Some p) = Ok d /\ active_load mini mini_names (Some p') = Raise name_error.
Proof. eexists. eexists. eexists. eexists. eexists. split; [reflexivity|]. repeat (split; [vm_compute; reflexivity|]). vm_compute; reflexivity. Qed.
(** example: all conditions hold for a file with an import and two settings *)
Example C76_example : exists f, supported ex_file f /\ scaffold ex_astor frame_item (Some ex_file) = Ok ex_new_file /\
  program ex_file = Some ex_file_program /\ program ex_new_file = Some ex_new_program /\
  Forall simple_stmt (ex_file_program ++ ex_new_program) /\ Forall plain_aliases ex_file_program /\ one_meaning mini (ex_file_program ++ ex_new_program) /\
  (forall s, In s ex_file_program -> ~ imports s "s") /\ clear_of mini_uses (put_before frame_item f) ex_file_program /\
  active_load mini mini_names (Some ex_file_program) = Ok [("k", VStr "os.sep"); ("m", VStr "os.sep")] /\
  exists d', active_load mini mini_names (Some ex_new_program) = Ok d'.
Proof.
  destruct ex_kept as (f & S & Sc & P & P' & Si & Pl & Ns & Cl). exists f. repeat (split; [first [exact ex_one_meaning|assumption]|]). split; [vm_compute; reflexivity|]. eexists. vm_compute. reflexivity.
Qed.

Print Assumptions C73_settings.
Print Assumptions C73_execution.
Print Assumptions C73_only_own_names.
Print Assumptions C73_last_counts.
Print Assumptions C73_assigned_value.
Print Assumptions C73_failure.
Print Assumptions C73_no_file.
Print Assumptions C73_only_assignments_are_settings_refuted.
Print Assumptions C73_assignments_are_settings_refuted.
Print Assumptions C74_accepted.
Print Assumptions C74_scaffoldable.
Print Assumptions C74_names.
Print Assumptions C74_names_seen.
Print Assumptions C74_values_agree.
Print Assumptions C74_executable_loads_refuted.
Print Assumptions C74_loaded_scaffolds_refuted.
Print Assumptions C74_scaffolded_loads_refuted.
Print Assumptions C74_seen_is_set_refuted.
Print Assumptions C74_last_in_text_counts_refuted.
Print Assumptions C74_declared_has_no_value_refuted.
Print Assumptions C74_import_after_refuted.
Print Assumptions C74_text.
Print Assumptions C75_program.
Print Assumptions C75_value.
Print Assumptions C75_value_alone.
Print Assumptions C75_names.
Print Assumptions C75_defaults_work_refuted.
Print Assumptions C75_only_parameters_refuted.
Print Assumptions C76_program.
Print Assumptions C76_settings_kept.
Print Assumptions C76_imports_kept_refuted.
Print Assumptions C76_imported_s_kept_refuted.
Print Assumptions C76_imported_settings_kept_refuted.
Print Assumptions C76_stays_loadable_refuted.
