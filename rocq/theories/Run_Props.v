(** C21-C25 and C57: running lists and sections, and getting sections. *)
From Verif Require Import Runner_Model Config_Spec ConfigTree_Spec Runner_Spec Run_Spec Config_Proofs ConfigTree_Proofs ConfigOps_Proofs ConfigLoad_Proofs ConfigWf_Proofs Runner_Proofs RunnerOps_Proofs Run_Proofs RunList_Proofs ConfigTree_Example Runner_Example.
From Coq Require Import Lia.
Local Open Scope string_scope.
Local Open Scope list_scope.

(* ------------------------------------------------------------------ *)
(** * C21 *)

(** Unless exactly one path is left, a list is run path by path, each from the state the previous one left, up to the
    first that raises; the results come back as a list of the same length. Paths added by pre-run plugins count. *)
Theorem C21_list_runs_in_order : forall its u l s s' o,
  length (l ++ u_pre_run u) <> 1 -> (forall r, u_post_run u r = []) ->
  pm_run its u Plain (AList l) s = (s', o) ->
  match o with
  | Ok r => exists rs, r = RList rs /\ runs its u (l ++ u_pre_run u) s s' (Ok rs) /\ length rs = length (l ++ u_pre_run u)
  | Raise e => runs its u (l ++ u_pre_run u) s s' (Raise e)
  end.
Proof.
  intros its u l s s' o Hl Hp H. unfold pm_run in H. rewrite combine_many in H by exact Hl.
  rewrite runner_run_list in H by exact Hp. unfold bind in H.
  destruct (mapM (run_one its u) (l ++ u_pre_run u) s) as [s1 [rs|e]] eqn:E; apply runs_mapM in E; injection H as <- <-; [|exact E].
  exists rs. split; [reflexivity|]. split; [exact E|]. eapply runs_length; exact E.
Qed.

(** If the paths are functions, each is called exactly once and in order, and results are what they returned; if one raises,
    those before it were called, it was called, and nothing after it. *)
Theorem C21_functions_called_once_in_order : forall its u l s s' o,
  length l <> 1 -> u_pre_run u = [] -> (forall r, u_post_run u r = []) ->
  cms_wf (r_cms s) -> configured s l -> (forall p, In p l -> exists f, is_func its p f) ->
  pm_run its u Plain (AList l) s = (s', o) ->
  match o with
  | Ok r => exists objs vs, r_calls s' = r_calls s ++ objs /\ map fst objs = l /\ called u (r_calls s) objs vs /\ r = RList (map RVal vs)
  | Raise e => exists done p ob rest vs, r_calls s' = r_calls s ++ done ++ [(p, ob)] /\ l = map fst done ++ p :: rest /\
                 called u (r_calls s) done vs /\ u_call u (r_calls s ++ done) p ob = Raise e
  end /\
  (forall p ob more, r_calls s' = r_calls s ++ more -> In (p, ob) more -> dget p (r_loaded s') = Some ob).
Proof.
  intros its u l s s' o Hl Hpre Hpost W Hc Hf H.
  assert (R : exists o', runs its u l s s' o' /\ o = match o' with Ok rs => Ok (RList rs) | Raise e => Raise e end).
  { assert (X := C21_list_runs_in_order its u l s s' o). rewrite Hpre, app_nil_r in X. specialize (X Hl Hpost H). destruct o as [r|e].
    - destruct X as (rs & -> & X & _). exists (Ok rs). auto.
    - exists (Raise e). auto. }
  destruct R as (o' & R & ->). destruct (runs_ran its u l s s' o' W Hc Hf R) as ((objs & C & L & X) & V). split.
  - destruct o' as [rs|e].
    + destruct X as (_ & Hm & Hcal). specialize (V rs eq_refl). rewrite flatten_list in Hcal. exists objs, (flattens rs).
      split; [exact C|]. split; [exact Hm|]. split; [exact Hcal|]. f_equal. clear -V. induction V as [|r rs (v & ->) V IH]; [reflexivity|].
      cbn. f_equal. exact IH.
    + destruct X as [(dn & p & ob & rest & vs & E & EP & HC & HR)|(F & _)]; [|discriminate].
      exists dn, p, ob, rest, vs. rewrite C, E. auto.
  - intros p ob more Hm Hin. apply L. rewrite C in Hm. apply app_inv_head in Hm. now subst.
Qed.

Example C21_list_example :
  let r := pm_run ex_items ex_user Plain (AList ["a.g"; "a.b.f"; "a.g"]) ex_rs in
  snd r = Ok (RList [RVal (VInt 0); RVal (VInt 1); RVal (VInt 2)]) /\ map fst (r_calls (fst r)) = ["a.g"; "a.b.f"; "a.g"].
Proof. vm_compute. auto. Qed.
Example C21_failing_list_example :
  let r := pm_run ex_items ex_user Plain (AList ["a.g"; "e"; "a.b.f"]) ex_rs in
  snd r = Raise (UserExn 1) /\ map fst (r_calls (fst r)) = ["a.g"; "e"].
Proof. vm_compute. auto. Qed.
Example C21_hypotheses_example : configured ex_rs ["a.g"; "e"; "a.b.f"] /\ (forall p, In p ["a.g"; "e"; "a.b.f"] -> exists f, is_func ex_items p f).
Proof.
  split.
  - intros p [<-|[<-|[<-|[]]]]; vm_compute; discriminate.
  - intros p [<-|[<-|[<-|[]]]]; eexists; exists false; vm_compute; reflexivity.
Qed.

(* ------------------------------------------------------------------ *)
(** * C22 *)

(** Without plugins a list of one path is run exactly like the bare path, in every mode. *)
Theorem C22_one_element_list_is_unwrapped : forall its u set p s,
  u_pre_run u = [] -> pm_run its u set (AList [p]) s = pm_run its u set (AStr p) s.
Proof. intros its u set p s H. unfold pm_run, combine. now rewrite H. Qed.

(** For functions, a list argument gives a list result exactly if its length is not 1. *)
Theorem C22_list_result_iff : forall its u l s s' r,
  u_pre_run u = [] -> (forall r, u_post_run u r = []) ->
  cms_wf (r_cms s) -> configured s l -> (forall p, In p l -> exists f, is_func its p f) ->
  pm_run its u Plain (AList l) s = (s', Ok r) ->
  ((exists rs, r = RList rs) <-> length l <> 1).
Proof.
  intros its u l s s' r Hpre Hpost W Hc Hf H. split.
  - intros (rs & ->) Hl. destruct l as [|p [|]]; try discriminate. rewrite C22_one_element_list_is_unwrapped in H by exact Hpre.
    unfold pm_run, combine in H. rewrite Hpre in H. cbn [app] in H. rewrite runner_run_str in H by exact Hpost.
    destruct (Hf p (or_introl eq_refl)) as (f & Hp). rewrite (run_one_is_func _ _ _ _ Hp) in H.
    destruct (ran_func its u s p f s' _ W (Hc p (or_introl eq_refl)) Hp H) as (_ & V). destruct (V _ eq_refl). discriminate.
  - intro Hl. assert (X := C21_list_runs_in_order its u l s s' (Ok r)). rewrite Hpre, app_nil_r in X.
    destruct (X Hl Hpost H) as (rs & -> & _). eauto.
Qed.

(** Paths added by plugins turn even a bare path into a list: one result per path. *)
Theorem C22_plugin_paths_give_a_list : forall its u p s s' r,
  u_pre_run u <> [] -> (forall r, u_post_run u r = []) ->
  pm_run its u Plain (AStr p) s = (s', Ok r) ->
  exists rs, r = RList rs /\ length rs = S (length (u_pre_run u)) /\ runs its u (p :: u_pre_run u) s s' (Ok rs).
Proof.
  intros its u p s s' r Hpre Hpost H. unfold pm_run in H. rewrite combine_many in H.
  2:{ cbn. destruct (u_pre_run u); [congruence|cbn; lia]. }
  rewrite runner_run_list in H by exact Hpost. unfold bind in H. cbn [app] in H.
  destruct (mapM (run_one its u) (p :: u_pre_run u) s) as [s1 [rs|e]] eqn:E; [|discriminate]. apply runs_mapM in E. injection H as <- <-.
  exists rs. split; [reflexivity|]. split; [|exact E]. apply runs_length in E. exact E.
Qed.

(** Results that plugins return after the run come after the results of the paths, and turn a single result into a list. *)
Theorem C22_plugin_results_come_last : forall its u l s s' r,
  length l <> 1 -> u_pre_run u = [] -> pm_run its u Plain (AList l) s = (s', Ok r) ->
  exists rs, runs its u l s s' (Ok rs) /\ r = RList (rs ++ u_post_run u (RList rs)).
Proof.
  intros its u l s s' r Hl Hpre H. unfold pm_run in H. rewrite combine_many, Hpre, app_nil_r in H by (rewrite Hpre, app_nil_r; exact Hl).
  unfold runner_run, bind in H. destruct (mapM (run_one its u) l s) as [s1 [rs|e]] eqn:E; [|discriminate]. cbn [ret] in H.
  apply runs_mapM in E. exists rs. destruct (u_post_run u (RList rs)) eqn:P; injection H as <- <-.
  - rewrite app_nil_r. auto.
  - auto.
Qed.
Theorem C22_plugin_results_after_one_path : forall its u p s s' r,
  u_pre_run u = [] -> pm_run its u Plain (AStr p) s = (s', Ok r) ->
  exists x, run_one its u p s = (s', Ok x) /\
    r = match u_post_run u x with [] => x | extra => RList (x :: extra) end.
Proof.
  intros its u p s s' r Hpre H. unfold pm_run, combine in H. rewrite Hpre in H. cbn [app] in H.
  unfold runner_run, bind in H. destruct (run_one its u p s) as [s1 [x|e]] eqn:E; [|discriminate].
  exists x. destruct (u_post_run u x); injection H as <- <-; auto.
Qed.

(** The documented "if a list is passed, the return value will also be a list" is wrong. *)
Theorem C22_list_gives_list_refuted : exists its u l s s' v,
  u_pre_run u = [] /\ (forall r, u_post_run u r = []) /\ pm_run its u Plain (AList l) s = (s', Ok (RVal v)).
Proof.
  exists ex_items, ex_user, ["a.g"], ex_rs, (fst (pm_run ex_items ex_user Plain (AList ["a.g"]) ex_rs)), (VInt 0).
  split; [reflexivity|]. split; [reflexivity|]. vm_compute. reflexivity.
Qed.

(* ------------------------------------------------------------------ *)
(** * C23 *)

(** With force_continue every path of a list is run, whatever the outcomes; the successful results are returned in order and
    the failures reported in order. Only an interrupt stops, and ends the program. *)
Theorem C23_every_path_is_run : forall its u l s s' o,
  length l <> 1 -> u_pre_run u = [] -> (forall r, u_post_run u r = []) ->
  pm_run its u ForceContinue (AList l) s = (s', o) ->
  exists outs stop, forced its u l s s' outs stop /\
    if stop then o = Raise SystemExit
    else o = Ok (RList (successes outs)) /\ length outs = length l /\
         run_with_force_continue its u (AList l) s = (s', Ok (RList (successes outs), failures l outs)) /\
         length (successes outs) + length (failures l outs) = length l /\
         (length (successes outs) = length l <-> forall x, In x outs -> exists r, x = Ok r).
Proof.
  intros its u l s s' o Hl Hpre Hpost H. unfold pm_run in H. rewrite combine_many in H; rewrite Hpre, app_nil_r in *; [|exact Hl].
  unfold run_with_force_continue, bind in *. destruct (force_loop its u l s) as [s1 o1] eqn:E.
  destruct (force_forced its u l Hpost s s1 o1 E) as (outs & stop & F & X). exists outs, stop.
  destruct stop; [subst o1|destruct X as (-> & HL)]; injection H as <- <-; (split; [exact F|]); [reflexivity|].
  split; [reflexivity|]. split; [exact HL|]. split; [reflexivity|]. split; [now apply failures_length|]. rewrite <- HL. apply successes_length.
Qed.

(** For functions: each is called exactly once and in order, failing or not. *)
Theorem C23_functions_called_once_despite_failures : forall its u l s s' o,
  length l <> 1 -> u_pre_run u = [] -> (forall r, u_post_run u r = []) ->
  cms_wf (r_cms s) -> configured s l -> (forall p, In p l -> exists f, is_func its p f) ->
  pm_run its u ForceContinue (AList l) s = (s', o) ->
  exists objs vals, tried u (r_calls s) objs vals /\
    (forall p ob, In (p, ob) objs -> dget p (r_loaded s') = Some ob) /\
    ((o = Ok (RList (map RVal (successes vals))) /\ r_calls s' = r_calls s ++ objs /\ map fst objs = l /\
      (forall e, In (Raise e) vals -> interrupt e = false)) \/
     (o = Raise SystemExit /\ exists p ob e rest, r_calls s' = r_calls s ++ objs ++ [(p, ob)] /\ l = map fst objs ++ p :: rest /\
        u_call u (r_calls s ++ objs) p ob = Raise e /\ interrupt e = true)).
Proof.
  intros its u l s s' o Hl Hpre Hpost W Hc Hf H.
  destruct (C23_every_path_is_run its u l s s' o Hl Hpre Hpost H) as (outs & stop & F & X).
  destruct (forced_tried its u l s s' outs stop W Hc Hf F) as (objs & vals & T & Eo & L & Y). exists objs, vals.
  split; [exact T|]. split; [exact L|]. destruct stop; [right; auto|left].
  destruct X as (-> & _). destruct Y as (Y1 & Y2). split; [|split; [exact Y1|split; [congruence|]]].
  - f_equal. f_equal. rewrite Eo. clear. induction vals as [|[v|e] vals IH]; cbn; [reflexivity|now f_equal|exact IH].
  - assert (NI : forall e, In (Raise e) outs -> interrupt e = false).
    { clear -F. remember false as b eqn:Eb in F. induction F as [|p rest s s1 e E I|p rest s s1 s2 o os stop E NI F IH]; [intros ? []|discriminate|].
      intros e [->|Hin]; [now apply NI|now apply IH]. }
    intros e He. apply NI. rewrite Eo. apply (in_map as_result) in He. exact He.
Qed.

(** A single failing path gives an empty list instead of an exception (and a single successful one its bare result). *)
Theorem C23_single_path : forall its u p s s1 r,
  u_pre_run u = [] -> (forall r, u_post_run u r = []) -> run_one its u p s = (s1, r) ->
  pm_run its u ForceContinue (AStr p) s =
    (s1, match r with Ok x => Ok x | Raise e => if interrupt e then Raise SystemExit else Ok (RList []) end).
Proof.
  intros its u p s s1 r Hpre Hpost H. unfold pm_run, combine. rewrite Hpre. cbn [app]. unfold run_with_force_continue, bind. cbn [force_loop].
  unfold bind, try_run. rewrite runner_run_str by exact Hpost. rewrite H. destruct r as [x|e]; [reflexivity|]. change (interrupt e) with (user_interrupt e). destruct (user_interrupt e); reflexivity.
Qed.

Example C23_positions_shift_example :
  let r := pm_run ex_items ex_user ForceContinue (AList ["a.g"; "e"; "a.b.f"]) ex_rs in
  snd r = Ok (RList [RVal (VInt 0); RVal (VInt 2)]) /\ map fst (r_calls (fst r)) = ["a.g"; "e"; "a.b.f"].
Proof. vm_compute. auto. Qed.
Example C23_single_failure_example : snd (pm_run ex_items ex_user ForceContinue (AStr "e") ex_rs) = Ok (RList []).
Proof. vm_compute. reflexivity. Qed.

(** "each result item corresponding to the function at the same index" does not survive a failure. *)
Theorem C23_positions_refuted : exists its u l s s' rs,
  pm_run its u ForceContinue (AList l) s = (s', Ok (RList rs)) /\ length rs <> length l /\
  nth_error l 1 = Some "e" /\ nth_error rs 1 = Some (RVal (VInt 2)) /\ map fst (r_calls s') = ["a.g"; "e"; "a.b.f"].
Proof.
  exists ex_items, ex_user, ["a.g"; "e"; "a.b.f"], ex_rs, (fst (pm_run ex_items ex_user ForceContinue (AList ["a.g"; "e"; "a.b.f"]) ex_rs)), [RVal (VInt 0); RVal (VInt 2)].
  split; [vm_compute; reflexivity|]. split; [discriminate|]. vm_compute. auto.
Qed.

(* ------------------------------------------------------------------ *)
(** * C24 *)

(** Running a section calls the functions in it, through all subsections, exactly once and in definition order, up to the
    first entry that is no function (or the first function that raises). Results come back nested like the section. *)
Theorem C24_section_runs_its_functions : forall its u path c s s' o,
  get_func_or_collection its path = Ok (false, FColl c) -> names_ok c -> cms_wf (r_cms s) ->
  configured s (plan_calls (section_plan path c)) ->
  run_one its u path s = (s', o) ->
  ran u (fst (cut (section_plan path c))) (snd (cut (section_plan path c))) s s' o /\
  (forall r, o = Ok r -> shaped c r).
Proof.
  intros its u path c s s' o Hp N W Hc H. unfold run_one, bind at 1, lift in H. rewrite Hp in H.
  now apply (run_section_ran its u c path s s' o).
Qed.

(** Sections of functions only: every function of the section once, unless one raises. *)
Theorem C24_functions_only : forall its u path c s s' r,
  get_func_or_collection its path = Ok (false, FColl c) -> names_ok c -> cms_wf (r_cms s) ->
  configured s (plan_calls (section_plan path c)) -> ~ In SFail (section_plan path c) ->
  run_one its u path s = (s', Ok r) ->
  exists objs, r_calls s' = r_calls s ++ objs /\ map SCall (map fst objs) = section_plan path c /\
    called u (r_calls s) objs (flatten r) /\ shaped c r /\
    (forall p ob, In (p, ob) objs -> dget p (r_loaded s') = Some ob).
Proof.
  intros its u path c s s' r Hp N W Hc Hn H. destruct (C24_section_runs_its_functions its u path c s s' (Ok r) Hp N W Hc H) as ((objs & C & L & _ & P & Q) & S).
  exists objs. split; [exact C|]. split; [|split; [exact Q|split; [now apply S|exact L]]]. rewrite P. clear -Hn.
  induction (section_plan path c) as [|[p|] l IH]; cbn [cut]; [reflexivity| |exfalso; apply Hn; now left].
  destruct (cut l) as [ps b] eqn:E. cbn [fst map] in *. f_equal. apply IH. intro X. apply Hn. now right.
Qed.

(** A class entry (or anything that is no function) anywhere in the section makes the run raise, after the functions before
    it were called. *)
Theorem C24_class_entry_raises : forall its u path c s s' o before after,
  get_func_or_collection its path = Ok (false, FColl c) -> names_ok c -> cms_wf (r_cms s) ->
  configured s (plan_calls (section_plan path c)) ->
  section_plan path c = map SCall before ++ SFail :: after ->
  run_one its u path s = (s', o) ->
  (exists e, o = Raise e) /\
  ((forall calls p ob e, u_call u calls p ob <> Raise e) ->
   exists objs, r_calls s' = r_calls s ++ objs /\ map fst objs = before).
Proof.
  intros its u path c s s' o before after Hp N W Hc Hs H.
  destruct (C24_section_runs_its_functions its u path c s s' o Hp N W Hc H) as ((objs & C & L & X) & _). rewrite Hs in X.
  assert (Ec : cut (map SCall before ++ SFail :: after) = (before, true)).
  { clear. induction before as [|p l IH]; [reflexivity|]. cbn [map app cut]. now rewrite IH. }
  rewrite Ec in X. cbn [fst snd] in X. destruct o as [r|e].
  - destruct X as (X & _). discriminate.
  - split; [eauto|]. intro NR. destruct X as [(dn & p & ob & rest & vs & _ & _ & _ & R)|(_ & P & _)]; [exfalso; now apply NR in R|]. eauto.
Qed.

Definition ex_sec : coll := Coll "a" [EColl (Coll "b" [EItem "f" (TFunc ex_f)]); EItem "g" (TFunc ex_g)].
Example C24_section_example :
  let r := run_one ex_items ex_user "a" ex_rs in
  snd r = Ok (RList [RList [RVal (VInt 0)]; RVal (VInt 1)]) /\ map fst (r_calls (fst r)) = ["a.b.f"; "a.g"].
Proof. vm_compute. auto. Qed.
Example C24_hypotheses_example : get_func_or_collection ex_items "a" = Ok (false, FColl ex_sec) /\ names_ok ex_sec /\
  configured ex_rs (plan_calls (section_plan "a" ex_sec)) /\ section_plan "a" ex_sec = [SCall "a.b.f"; SCall "a.g"].
Proof.
  split; [reflexivity|]. split.
  - cbn. repeat split; repeat (constructor; cbn; [intuition discriminate|]); constructor.
  - split; [|reflexivity]. intros p [<-|[<-|[]]]; vm_compute; discriminate.
Qed.
Example C24_class_example : exists e, snd (run_one ex_items ex_user "x" ex_rs) = Raise e.
Proof. eexists. vm_compute. reflexivity. Qed.

(* ------------------------------------------------------------------ *)
(** * C25 *)

(** Whatever a get of a section returns shows the loaded objects of its entries: a list of them in order without
    subsections, a dict keyed by the names of the subsections with subsections. Items and subsections are not mixed then. *)
Theorem C25_get_shows_loaded_objects : forall its u path b c s s' g,
  get_func_or_collection its path = Ok (b, FColl c) -> names_ok c ->
  runner_get its u path s = (s', Ok g) -> shows (r_loaded s') path c g /\ unmixed c.
Proof.
  intros its u path b c s s' g Hp N H. unfold runner_get, bind at 1, lift in H. rewrite Hp in H. cbn [snd] in H.
  eapply get_section_shows; eassumption.
Qed.

(** A section mixing items and subsections, at any level, raises. *)
Theorem C25_mixed_section_raises : forall its u path b c s,
  get_func_or_collection its path = Ok (b, FColl c) -> names_ok c -> ~ unmixed c ->
  exists s' e, runner_get its u path s = (s', Raise e).
Proof.
  intros its u path b c s Hp N Hu. destruct (runner_get its u path s) as [s' [g|e]] eqn:E; [|eauto].
  destruct (C25_get_shows_loaded_objects its u path b c s s' g Hp N E). contradiction.
Qed.

(** An unmixed section of functions and classes with configs can be got. *)
Theorem C25_get_succeeds : forall its u path c s,
  get_func_or_collection its path = Ok (false, FColl c) -> names_ok c -> unmixed c -> all_callable c ->
  cms_wf (r_cms s) -> configured s (item_paths path c) ->
  exists s' g, runner_get its u path s = (s', Ok g) /\ shows (r_loaded s') path c g /\
    forall p o, dget p (r_loaded s) = Some o -> dget p (r_loaded s') = Some o.
Proof.
  intros its u path c s Hp N HU HA W Hc. destruct (get_section_loads its u c path s N Hp HU HA W Hc) as (s' & g & E). exists s', g.
  split; [|split].
  - unfold runner_get, bind at 1, lift. rewrite Hp. exact E.
  - exact (proj1 (get_section_shows its u c path s s' g N E)).
  - assert (G := get_section_grows its u c path s). rewrite E in G. apply G.
Qed.

(** Getting the section binds a class entry's constructor like a function; from then on, whatever else is done, getting the
    class by its own path gives that partial object, never an instance. *)
Theorem C25_class_stays_a_partial : forall base its u path n l s s' g x k,
  get_func_or_collection its path = Ok (false, FColl (Coll n l)) -> names_ok (Coll n l) -> existsb is_coll l = false ->
  In (EItem x (TClass k)) l -> dget (path ++ "." ++ x)%string (r_loaded s) = None ->
  runner_get its u path s = (s', Ok g) ->
  exists id, forall ops, exists kw, let s1 := fold_left (rop_run base its u) ops s' in
    runner_get its u (path ++ "." ++ x)%string s1 = (s1, Ok (GObj (LPartial id k true kw))).
Proof.
  intros base its u path n l s s' g x k Hp N Hx Hin Hl H.
  assert (Hf : get_func_or_collection its (path ++ "." ++ x)%string = Ok (false, FThing (TClass k))).
  { rewrite <- sub_path_str. exact (entry_found its path n l (EItem x (TClass k)) Hp N Hin ltac:(discriminate)). }
  assert (P : exists id kw, dget (path ++ "." ++ x)%string (r_loaded s') = Some (LPartial id k true kw)).
  { unfold runner_get, bind at 1, lift in H. rewrite Hp in H. cbn [snd] in H. rewrite get_section_eq, Hx in H.
    unfold bind in H. destruct (list_entries its u path l s) as [s1 [gs|e]] eqn:E; [|discriminate]. injection H as <- <-.
    assert (ND := names_ok_nodup _ _ N). clear Hp N Hx. revert s s1 gs Hl E. induction l as [|e l IH]; intros s s1 gs Hl E; [destruct Hin|].
    inversion ND as [|? ? ND1 ND2]; subst. destruct Hin as [->|Hin].
    - cbn [list_entries list_entry] in E. unfold bind at 1 2 in E. rewrite sub_path_str in E.
      destruct (get_one_func_with_config its (path ++ "." ++ x) s) as [s2 [o|e]] eqn:E2; [|discriminate].
      cbn [ret] in E. unfold bind at 1 in E. destruct (list_entries its u path l s2) as [s3 [gs'|e]] eqn:E3; [|discriminate]. injection E as <- <-.
      assert (G := list_entries_grows its u path l s2). rewrite E3 in G. cbn [fst] in G.
      unfold get_one_func_with_config, bind at 1, gets in E2. rewrite Hl in E2. unfold get_func_and_config, bind, lift in E2.
      destruct (get_config (path ++ "." ++ x) s) as [s4 [c|e]]; [|discriminate]. rewrite Hf in E2. cbn [snd] in E2. injection E2 as <- <-.
      eexists _, _. apply G. cbn [r_loaded]. apply dget_dset_eq.
    - destruct e as [y t|c]; cbn [list_entries] in E; [|eapply IH; eauto].
      unfold bind at 1 in E. destruct (list_entry its u path y t l s) as [s2 [g1|e]] eqn:E2; [|discriminate].
      unfold bind at 1 in E. destruct (list_entries its u path l s2) as [s3 [gs'|e]] eqn:E3; [|discriminate]. injection E as <- <-.
      apply (IH Hin ND2 s2 s3 gs'); [|exact E3].
      assert (y <> x). { intros ->. apply ND1. cbn [entry_name]. apply (in_map entry_name) in Hin. exact Hin. }
      assert (X := list_entry_other its u path y t l s x (not_eq_sym H)). rewrite E2 in X. cbn [fst] in X. congruence. }
  destruct P as (id & kw & P). exists id. intro ops.
  destruct (steps_same s' _ (rops_steps base its u ops s') _ _ P) as (o' & Ho & So). destruct o' as [i f b kw'|]; [|contradiction].
  destruct So as (-> & -> & -> & _). exists kw'. cbv zeta. unfold runner_get, bind at 1, lift. rewrite Hf. cbn [snd]. unfold bind.
  now rewrite (loaded_obj its u _ _ _ Ho).
Qed.

Definition ex_class_sec : coll := Coll "x" [EItem "y" (TClass ex_k)].
Example C25_class_example : exists s' id kw, runner_get ex_items ex_user "x" ex_rs = (s', Ok (GList [GObj (LPartial id ex_k true kw)])) /\
  snd (runner_get ex_items ex_user "x.y" s') = Ok (GObj (LPartial id ex_k true kw)) /\
  exists args, snd (runner_get ex_items ex_user "x.y" ex_rs) = Ok (GObj (LInst 0 ex_k [args])).
Proof.
  exists (fst (runner_get ex_items ex_user "x" ex_rs)). do 2 eexists. split; [vm_compute; reflexivity|].
  split; [vm_compute; reflexivity|]. eexists. vm_compute. reflexivity.
Qed.
Example C25_dict_example : exists o, snd (runner_get (Items [] (Coll "root" [EColl (Coll "a" [EColl (Coll "b" [EItem "f" (TFunc ex_f)])])])) ex_user "a" ex_rs)
  = Ok (GDict [("b", GList [GObj o])]).
Proof. eexists. vm_compute. reflexivity. Qed.
Example C25_mixed_example : ~ unmixed ex_sec /\ snd (runner_get ex_items ex_user "a" ex_rs) = Raise ValueError.
Proof. split; [|vm_compute; reflexivity]. cbn. intros [[H|H] _]; discriminate. Qed.

(* ------------------------------------------------------------------ *)
(** * C57 *)

(** With auto_pdb a run that does not raise is the plain run; a run that raises returns None after the debugger, with
    everything done so far in effect, and the caller cannot tell it from a run that returned None. *)
Theorem C57_auto_pdb : forall its u a s s' o,
  pm_run its u Plain a s = (s', o) ->
  pm_run its u AutoPdb a s = (s', match o with Ok r => Ok r | Raise e => if interrupt e then Raise SystemExit else Ok (RVal VNone) end).
Proof.
  intros its u a s s' o H. unfold pm_run in *. unfold bind, try_run. rewrite H. destruct o as [r|e]; [reflexivity|]. change (interrupt e) with (user_interrupt e). destruct (user_interrupt e); reflexivity.
Qed.

(** In particular only interrupts get out of it, and they end the program. *)
Theorem C57_auto_pdb_never_raises_other : forall its u a s s' e,
  pm_run its u AutoPdb a s = (s', Raise e) -> e = SystemExit.
Proof.
  intros its u a s s' e H. destruct (pm_run its u Plain a s) as [s1 o] eqn:E. rewrite (C57_auto_pdb its u a s s1 o E) in H.
  destruct o as [r|e']; [discriminate|]. destruct (interrupt e'); [|discriminate]. injection H as _ <-. reflexivity.
Qed.

Example C57_example : snd (pm_run ex_items ex_user AutoPdb (AList ["a.g"; "e"; "a.b.f"]) ex_rs) = Ok (RVal VNone) /\
  snd (pm_run ex_items ex_user AutoPdb (AStr "a.g") ex_rs) = Ok (RVal (VInt 0)).
Proof. vm_compute. auto. Qed.

(* ------------------------------------------------------------------ *)
(** * C18, running *)

(** Running a class constructs the instance, keeps it for the path, and calls that instance (not the class). *)
Theorem C18_running_a_class_calls_its_instance : forall its u s path own k,
  cms_wf (r_cms s) -> own_values (r_cms s) (path_parts path) = Some own ->
  is_class its path k -> dget path (r_loaded s) = None -> (forall a, u_init u k a = None) ->
  exists s' args, let o := LInst (r_next s) k [args] in
    run_one its u path s = (s', match u_call u (r_calls s) path o with Ok v => Ok (RVal v) | Raise e => Raise e end) /\
    r_loaded s' = dset path o (r_loaded s) /\ r_calls s' = r_calls s ++ [(path, o)].
Proof.
  intros its u s path own k W Ho Hk Hn Hi. destruct (get_config_spec s path own W Ho) as (c & s1 & E & (R1 & R2 & R3 & _) & _ & _ & _ & W1 & _).
  assert (G := get_config_grows path s). rewrite E in G. cbn [fst] in G. destruct G as [_ G]. specialize (G W) as [_ G].
  destruct (own_values (r_cms s1) (path_parts path)) as [own1|] eqn:Ho1; [|exfalso; revert Ho1; apply G; rewrite Ho; discriminate].
  destruct (first_access_class its u s1 path own1 k W1 Ho1 Hk) as (s2 & args & E2 & L & C & _); [congruence|]. rewrite Hi in E2, L.
  destruct Hk as (b & Hf). rewrite R2, R1, R3 in *.
  exists (RS (r_cms s2) (r_loaded s2) (r_next s2) (r_calls s2 ++ [(path, LInst (r_next s) k [args])])), args. cbv zeta. split.
  - unfold run_one, bind at 1, lift. rewrite Hf.
    assert (X : run_one_class its u path s = (RS (r_cms s2) (r_loaded s2) (r_next s2) (r_calls s2 ++ [(path, LInst (r_next s) k [args])]),
              match u_call u (r_calls s) path (LInst (r_next s) k [args]) with Ok v => Ok (RVal v) | Raise e => Raise e end)).
    { unfold run_one_class, bind at 1. unfold get_func_and_config, bind at 1. rewrite E. unfold bind at 1, lift. rewrite Hf. cbn [snd ret].
      unfold bind. rewrite E2. unfold call_object. now rewrite C. }
    destruct b; exact X.
  - cbn [r_loaded r_calls]. rewrite L, C. auto.
Qed.

Print Assumptions C21_list_runs_in_order.
Print Assumptions C21_functions_called_once_in_order.
Print Assumptions C22_one_element_list_is_unwrapped.
Print Assumptions C22_list_result_iff.
Print Assumptions C22_plugin_paths_give_a_list.
Print Assumptions C22_list_gives_list_refuted.
Print Assumptions C23_every_path_is_run.
Print Assumptions C23_functions_called_once_despite_failures.
Print Assumptions C23_single_path.
Print Assumptions C23_positions_refuted.
Print Assumptions C24_section_runs_its_functions.
Print Assumptions C24_functions_only.
Print Assumptions C24_class_entry_raises.
Print Assumptions C25_get_shows_loaded_objects.
Print Assumptions C25_mixed_section_raises.
Print Assumptions C25_get_succeeds.
Print Assumptions C25_class_stays_a_partial.
Print Assumptions C57_auto_pdb.
Print Assumptions C57_auto_pdb_never_raises_other.
Print Assumptions C22_plugin_results_come_last.
Print Assumptions C22_plugin_results_after_one_path.
Print Assumptions C18_running_a_class_calls_its_instance.
