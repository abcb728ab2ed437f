From Verif Require Import Runner_Model Config_Spec ConfigTree_Spec Runner_Spec Run_Spec SectionPath_Proofs Config_Proofs ConfigTree_Proofs ConfigOps_Proofs ConfigLoad_Proofs ConfigWf_Proofs Runner_Proofs RunnerOps_Proofs.
From Coq Require Import Lia.
Local Open Scope list_scope.
Local Open Scope monad_scope.

(* ------------------------------------------------------------------ *)
(** * Running and getting keep loaded objects and readable configs *)

Definition grows (s s' : rs) : Prop :=
  (forall p o, dget p (r_loaded s) = Some o -> dget p (r_loaded s') = Some o) /\
  (cms_wf (r_cms s) -> cms_wf (r_cms s') /\ forall q, own_values (r_cms s) q <> None -> own_values (r_cms s') q <> None).

Lemma grows_refl s : grows s s. Proof. split; auto. Qed.
Lemma grows_trans a b c : grows a b -> grows b c -> grows a c.
Proof.
  intros (A1 & A2) (B1 & B2). split; [auto|]. intro W. destruct (A2 W) as (W1 & C1). destruct (B2 W1) as (W2 & C2). auto.
Qed.

Lemma own_values_touches r st st' q : touches r st st' -> target st q <> Some r -> own_values st' q = own_values st q.
Proof. intros (T1 & T2 & T3 & T4) H. unfold own_values. now rewrite (T2 q H), T4. Qed.

Lemma cm_get_configured st path q : cms_wf st -> own_values st q <> None -> own_values (fst (cm_get path st)) q <> None.
Proof.
  intros W H. destruct (cm_get path st) as [st' o] eqn:E. cbn [fst]. assert (S := cm_get_spec _ _ _ _ W E).
  destruct (target st (path_parts path)) as [r|]; [|destruct S as (-> & _); exact H].
  destruct S as (T & _ & S).
  assert (D : target st q = Some r \/ target st q <> Some r).
  { destruct (target st q) as [r'|]; [|right; discriminate]. destruct (cref_eq_dec r' r); [left; congruence|right; congruence]. }
  destruct D as [Hq|Hq]; [|now rewrite (own_values_touches r st st' q)].
  assert (r = CItem q).
  { unfold target in Hq. unfold own_values in H. destruct (see st q) as [[]|]; try congruence. } subst r.
  destruct (current st (CItem q)) as [c|] eqn:Ec; [|destruct S as (-> & _); exact H].
  destruct S as (_ & c' & R & _). apply read_current in R. rewrite own_values_current, R. discriminate.
Qed.

Lemma get_config_grows path : keeps grows (get_config path).
Proof.
  intro s. assert (G : grows s (fst (on_cms (cm_get path) s))).
  { unfold on_cms. split; [intros p o H; now destruct (cm_get path (r_cms s))|]. intro W.
    assert (W1 := cm_get_wf _ path W). assert (C := fun q => cm_get_configured (r_cms s) path q W).
    destruct (cm_get path (r_cms s)); cbn in *; auto. }
  unfold get_config, bind. destruct (on_cms (cm_get path) s) as [s1 [[r|]|e]]; cbn [fst] in *; try exact G.
  eapply grows_trans; [exact G|]. unfold on_cms, deref. destruct (read_cref (r_cms s1) r); destruct s1; apply grows_refl.
Qed.

Ltac gbind := apply (keeps_bind grows grows_trans).
Ltac gdone := first [apply (keeps_ret grows grows_refl) | apply (keeps_raise grows grows_refl)
                    | apply (keeps_lift grows grows_refl) | apply (keeps_gets grows grows_refl)].

Lemma gfc_grows its path : keeps grows (get_func_and_config its path).
Proof.
  unfold get_func_and_config. gbind; [apply get_config_grows|]. intro c. gbind; [gdone|]. intros [b f]. cbn [snd].
  destruct f as [|[]|]; gdone.
Qed.
Lemma gcc_grows its path : keeps grows (get_class_and_config its path).
Proof.
  unfold get_class_and_config. gbind; [apply get_config_grows|]. intro c. gbind; [gdone|]. intros [b f]. cbn [snd].
  destruct f as [|[]|]; gdone.
Qed.

Lemma add_grows s p o n : dget p (r_loaded s) = None -> grows s (RS (r_cms s) (dset p o (r_loaded s)) n (r_calls s)).
Proof.
  intro H. split; [|intro W; auto]. intros q o' Hq. cbn. rewrite dget_dset_neq; [exact Hq|]. intros ->. congruence.
Qed.

Lemma one_func_grows its path : keeps grows (get_one_func_with_config its path).
Proof.
  intro s. unfold get_one_func_with_config, bind at 1, gets. destruct (dget path (r_loaded s)) as [o|] eqn:E; [apply grows_refl|].
  unfold bind at 1. assert (G := gfc_sr its path s). assert (G' := gfc_grows its path s).
  destruct (get_func_and_config its path s) as [s1 [[[f b] kw]|e]]; cbn [fst] in *; [|exact G'].
  eapply grows_trans; [exact G'|]. apply (add_grows s1 path (LPartial (r_next s1) f b kw)). destruct G as (-> & _). exact E.
Qed.
Lemma one_obj_grows its u path : keeps grows (get_one_obj_with_config its u path).
Proof.
  intro s. unfold get_one_obj_with_config, bind at 1, gets. destruct (dget path (r_loaded s)) as [o|] eqn:E; [apply grows_refl|].
  unfold bind at 1, lift. destruct (get_func_or_collection its path); [|apply grows_refl].
  unfold bind at 1. assert (G := gcc_sr its path s). assert (G' := gcc_grows its path s).
  destruct (get_class_and_config its path s) as [s1 [[[k b] kw]|e]]; cbn [fst] in *; [|exact G'].
  eapply grows_trans; [exact G'|]. destruct (u_init u k _); [apply grows_refl|]. apply (add_grows s1 path (LInst (r_next s1) k [if b then kw else relevant_config k kw])). destruct G as (-> & _). exact E.
Qed.
Lemma call_grows u path o : keeps grows (call_object u path o).
Proof. intro s. split; [auto|]. cbn. auto. Qed.

Lemma run_func_grows its u path : keeps grows (run_one_func its u path).
Proof. gbind; [apply gfc_grows|]. intro. gbind; [apply one_func_grows|]. intro. apply call_grows. Qed.
Lemma run_class_grows its u path : keeps grows (run_one_class its u path).
Proof. gbind; [apply gfc_grows|]. intro. gbind; [apply one_obj_grows|]. intro. apply call_grows. Qed.
Lemma run_specific_grows its u path : keeps grows (run_one_specific_class its u path).
Proof. gbind; [apply gcc_grows|]. intro. gbind; [apply one_obj_grows|]. intro. apply call_grows. Qed.

Lemma run_section_grows its u c : forall path, keeps grows (run_section its u c path).
Proof.
  induction c as [n l IH] using coll_ind2. intro path. rewrite run_section_eq. gbind; [|intro; gdone].
  apply (keeps_mapM grows grows_refl grows_trans). intros e He. destruct e as [x [| | | |]|c]; cbn [run_entry];
    try apply run_func_grows; try apply run_class_grows; try apply run_specific_grows; try gdone.
  destruct (dget _ _) as [[m|]|] eqn:E; try gdone. apply sub_thunks_In in E as (c' & Hc & _ & ->). now apply IH.
Qed.
Lemma run_one_grows its u path : keeps grows (run_one its u path).
Proof.
  gbind; [gdone|]. intros [[] [c|[]|]]; try gdone; try apply run_func_grows; try apply run_class_grows; try apply run_specific_grows.
  apply run_section_grows.
Qed.
Lemma list_entry_grows its u path n t rest : keeps grows (list_entry its u path n t rest).
Proof.
  destruct t; cbn [list_entry]; try gdone; try (gbind; [apply one_func_grows|intro; gdone]).
  destruct (existsb _ rest); [gdone|]. gbind; [apply one_obj_grows|intro; gdone].
Qed.
Lemma list_entries_grows its u path l : keeps grows (list_entries its u path l).
Proof.
  induction l as [|[n t|c] l IH]; cbn [list_entries]; [gdone| |exact IH].
  gbind; [apply list_entry_grows|]. intro. gbind; [exact IH|intro; gdone].
Qed.
Lemma get_section_grows its u c : forall path, keeps grows (get_section its u c path).
Proof.
  induction c as [n l IH] using coll_ind2. intro path. rewrite get_section_eq. destruct (existsb is_coll l).
  - gbind; [|intro; gdone]. apply (keeps_mapM grows grows_refl grows_trans). intros e He.
    destruct e as [x []|c]; cbn [dict_entry]; try gdone. gbind; [|intro; gdone]. unfold sub_got.
    destruct (dget _ _) as [[m|]|] eqn:E; try gdone. apply sub_thunks_In in E as (c' & Hc & _ & ->). now apply IH.
  - gbind; [apply list_entries_grows|intro; gdone].
Qed.

(* ------------------------------------------------------------------ *)
(** * Names in a section tree lead back to the entries *)

Lemma names_ok_entry n l e : names_ok (Coll n l) -> In e l ->
  has_char dot (entry_name e) = false /\ mem (entry_name e) coll_reserved = false /\
  match e with EColl c => names_ok c | EItem _ _ => True end.
Proof.
  cbn [names_ok]. intros [_ H]. induction l as [|e' l IH]; [intros []|]. intros [->|Hin]; [tauto|]. apply IH; tauto.
Qed.
Lemma names_ok_nodup n l : names_ok (Coll n l) -> NoDup (map entry_name l).
Proof. cbn [names_ok]. tauto. Qed.

Lemma last_entry_In x l e : last_entry x l = Some e -> In e l /\ entry_name e = x.
Proof.
  induction l as [|e' l IH]; cbn [last_entry]; [discriminate|]. destruct (last_entry x l) as [e0|].
  - intros [= ->]. destruct (IH eq_refl). split; [now right|assumption].
  - destruct (String.eqb x (entry_name e')) eqn:E; [|discriminate]. intros [= <-]. apply String.eqb_eq in E. split; [now left|congruence].
Qed.

Lemma last_entry_nodup l e : NoDup (map entry_name l) -> In e l -> last_entry (entry_name e) l = Some e.
Proof.
  induction l as [|e' l IH]; cbn [map]; intros N; [intros []|]. inversion N; subst. intros [->|Hin]; cbn [last_entry].
  - destruct (last_entry (entry_name e) l) as [e0|] eqn:E.
    + apply last_entry_In in E as [E1 E2]. exfalso. apply H1. rewrite <- E2. now apply in_map.
    + now rewrite String.eqb_refl.
  - now rewrite IH.
Qed.

Lemma coll_get_app c0 p c x : coll_get c0 p = Ok (FColl c) -> coll_get c0 (p ++ [x]) = coll_getattr c x.
Proof.
  revert c0. induction p as [|y p IH]; intros c0 H; cbn [coll_get app] in *.
  - injection H as <-. destruct (coll_getattr c0 x) as [[]|]; reflexivity.
  - destruct (coll_getattr c0 y) as [[c1| |]|]; try (destruct p; discriminate); try discriminate. now apply IH.
Qed.

Lemma reg_get_app c0 p c x : p <> [] -> reg_get c0 p = Ok (FColl c) -> reg_get c0 (p ++ [x]) = coll_getattr c x.
Proof.
  destruct p as [|y p]; [congruence|]. intros _. cbn [reg_get app]. destruct (String.eqb y "collection"); [apply coll_get_app|].
  destruct (mem y reg_reserved); [destruct p; discriminate|]. intro H. exact (coll_get_app c0 (y :: p) c x H).
Qed.

Lemma path_parts_join path x : has_char dot x = false -> path_parts (sub_path path x) = path_parts path ++ [x].
Proof.
  intro H. unfold path_parts, sub_path. rewrite sp_join_str. replace (mk_sp (path ++ "." ++ x)) with (sp_join (mk_sp path) (mk_sp x)) by apply sp_join_mk.
  rewrite sp_join_sections. f_equal. unfold sections, mk_sp. cbn. now apply split_no_sep.
Qed.

Lemma sub_path_str path x : sub_path path x = (path ++ "." ++ x)%string.
Proof. unfold sub_path. apply sp_join_str. Qed.

Definition found_of (e : entry) : found := match e with EItem _ t => FThing t | EColl c => FColl c end.

Lemma getattr_entry n l e : names_ok (Coll n l) -> In e l -> coll_getattr (Coll n l) (entry_name e) = Ok (found_of e).
Proof.
  intros N H. destruct (names_ok_entry _ _ _ N H) as (_ & R & _). unfold coll_getattr. rewrite R. cbn [coll_entries].
  rewrite last_entry_nodup; [|eapply names_ok_nodup; eassumption|exact H]. now destruct e.
Qed.

(** an entry of a section in the general registrar is found by its path *)
Lemma entry_found its path n l e : get_func_or_collection its path = Ok (false, FColl (Coll n l)) -> names_ok (Coll n l) -> In e l ->
  (forall x err, e <> EItem x (TBroken err)) ->
  get_func_or_collection its (sub_path path (entry_name e)) = Ok (false, found_of e).
Proof.
  intros H N He Hb. destruct (names_ok_entry _ _ _ N He) as (D & _ & _). unfold get_func_or_collection in *.
  rewrite path_parts_join by exact D. destruct (path_parts path) as [|x rest] eqn:Ep; [discriminate|].
  cbn [app]. destruct (find_registrar x (i_specific its)) as [r|].
  - exfalso. destruct (String.eqb _ _); [discriminate|]. destruct (reg_get _ _); discriminate.
  - assert (G : reg_get (i_general its) (x :: rest) = Ok (FColl (Coll n l))).
    { unfold general_get in H. destruct (reg_get (i_general its) (x :: rest)) as [[|[]|]|]; congruence. }
    unfold general_get. change (x :: rest ++ [entry_name e]) with ((x :: rest) ++ [entry_name e]).
    rewrite (reg_get_app (i_general its) (x :: rest) (Coll n l) (entry_name e)); try discriminate; try exact G.
    rewrite (getattr_entry _ _ _ N He). destruct e as [y []|]; cbn [found_of]; try reflexivity. exfalso. eapply Hb. reflexivity.
Qed.

Lemma sub_thunks_keys {A} (f : coll -> string -> M rs A) path l : map fst (sub_thunks f path l) = map entry_name l.
Proof. unfold sub_thunks. rewrite map_map. apply map_ext. now intros []. Qed.

Lemma sub_thunk_coll {A} (f : coll -> string -> M rs A) path l c : NoDup (map entry_name l) -> In (EColl c) l ->
  dget (coll_name c) (rev (sub_thunks f path l)) = Some (Some (f c (sub_path path (coll_name c)))).
Proof.
  intros N H. apply In_dget.
  - unfold dwf, dkeys. rewrite map_rev, sub_thunks_keys. now apply NoDup_rev.
  - apply in_rev. rewrite rev_involutive. unfold sub_thunks. apply in_map_iff. exists (EColl c). auto.
Qed.

(* ------------------------------------------------------------------ *)
(** * Runs of several functions *)

(** [ran] for a list of results *)
Definition flattens (l : list result) : list pyval := flat_map flatten l.
Lemma flatten_list l : flatten (RList l) = flattens l.
Proof. cbn [flatten]. unfold flattens. induction l as [|r l IH]; cbn; [reflexivity|now rewrite IH]. Qed.

Definition ranL (u : user) (plan : list string) (fails : bool) (s s' : rs) (o : res (list result)) : Prop :=
  ran u plan fails s s' (match o with Ok l => Ok (RList l) | Raise e => Raise e end).

Lemma called_app u objs1 : forall before vs1 objs2 vs2, called u before objs1 vs1 -> called u (before ++ objs1) objs2 vs2 ->
  called u before (objs1 ++ objs2) (vs1 ++ vs2).
Proof.
  induction objs1 as [|[p o] objs IH]; intros before vs1 objs2 vs2 H1 H2; inversion H1; subst; cbn [app].
  - now rewrite app_nil_r in H2.
  - constructor; [assumption|]. apply IH; [assumption|]. now rewrite <- app_assoc.
Qed.

Lemma ranL_nil u s : ranL u [] false s s (Ok []).
Proof.
  exists []. rewrite app_nil_r. split; [reflexivity|]. split; [intros ? ? []|]. split; [reflexivity|]. split; [reflexivity|].
  rewrite flatten_list. constructor.
Qed.

Lemma ranL_cons u plan1 fails1 plan2 fails2 s s1 s2 r o2 :
  ran u plan1 fails1 s s1 (Ok r) -> ranL u plan2 fails2 s1 s2 o2 -> grows s1 s2 ->
  ranL u (plan1 ++ plan2) fails2 s s2 (match o2 with Ok l => Ok (r :: l) | Raise e => Raise e end).
Proof.
  intros (objs1 & C1 & L1 & -> & P1 & H1) (objs2 & C2 & L2 & H2) G. exists (objs1 ++ objs2).
  split; [rewrite C2, C1; now rewrite app_assoc|]. split.
  { intros p ob Hin. apply in_app_iff in Hin as [Hin|Hin]; [apply G|]; auto. }
  rewrite C1 in H2. destruct o2 as [l|e].
  - destruct H2 as (F & P2 & H2). split; [exact F|]. split; [rewrite map_app; congruence|].
    rewrite flatten_list in *. cbn. now apply called_app.
  - destruct H2 as [(dn & p & ob & rest & vs & E & EP & HC & HR)|(F & P2 & vs & HC)].
    + left. exists (objs1 ++ dn), p, ob, rest, (flatten r ++ vs). split; [rewrite E; now rewrite app_assoc|].
      split; [rewrite EP, map_app, <- app_assoc; congruence|]. split; [now apply called_app|]. now rewrite app_assoc.
    + right. split; [exact F|]. split; [rewrite map_app; congruence|]. exists (flatten r ++ vs). now apply called_app.
Qed.

Lemma ranL_raise u plan1 fails1 plan2 fails2 s s1 e :
  ran u plan1 fails1 s s1 (Raise e) ->
  ranL u (plan1 ++ if fails1 then [] else plan2) (fails1 || fails2) s s1 (Raise e).
Proof.
  intros (objs & C & L & H). exists objs. split; [exact C|]. split; [exact L|]. 
  destruct H as [(dn & p & ob & rest & vs & E & EP & HC & HR)|(F & P & vs & HC)].
  - left. exists dn, p, ob, (rest ++ if fails1 then [] else plan2), vs. split; [exact E|].
    split; [rewrite EP, <- app_assoc; reflexivity|]. auto.
  - right. rewrite F. split; [reflexivity|]. split; [now rewrite app_nil_r|]. eauto.
Qed.

Lemma cut_app a b : cut (a ++ b) = (fst (cut a) ++ (if snd (cut a) then [] else fst (cut b)), snd (cut a) || snd (cut b)).
Proof.
  induction a as [|[p|] a IH]; cbn [app cut]; [now destruct (cut b)| |reflexivity].
  rewrite IH. now destruct (cut a).
Qed.

(** [o] is no success: nothing called *)
Lemma ran_nothing u s s' e : r_calls s' = r_calls s -> ran u [] true s s' (Raise e).
Proof.
  intro H. exists []. rewrite app_nil_r. split; [exact H|]. split; [intros ? ? []|]. right. split; [reflexivity|]. split; [reflexivity|].
  exists []. constructor.
Qed.

(** one function *)
Lemma run_func_ran its u s path f s' o : cms_wf (r_cms s) -> own_values (r_cms s) (path_parts path) <> None -> is_func its path f ->
  run_one_func its u path s = (s', o) ->
  exists ob, r_calls s' = r_calls s ++ [(path, ob)] /\ dget path (r_loaded s') = Some ob /\
    o = match u_call u (r_calls s) path ob with Ok v => Ok (RVal v) | Raise e => Raise e end.
Proof.
  intros W Ho Hf H. destruct (own_values (r_cms s) (path_parts path)) as [own|] eqn:Eo; [|congruence].
  destruct (dget path (r_loaded s)) as [ob|] eqn:El.
  - destruct (run_loaded_func its u s path own f ob W Eo Hf El) as (s1 & E & L & C & _). rewrite E in H. injection H as <- <-.
    exists ob. split; [exact C|]. split; [now rewrite L|reflexivity].
  - unfold run_one_func, bind at 1 in H. assert (G := gfc_sr its path s). assert (G' := gfc_grows its path s).
    destruct (get_config_spec s path own W Eo) as (c & s1 & E & _). destruct Hf as (b & Hf).
    assert (Egfc : get_func_and_config its path s = (s1, Ok (f, false, for_function c (f_args f)))).
    { unfold get_func_and_config, bind. rewrite E. unfold lift. now rewrite Hf. }
    rewrite Egfc in H, G, G'. cbn [fst] in G, G'. destruct G as (R1 & R2 & R3 & _). destruct (proj2 G' W) as (W1 & C1).
    assert (Eo1 : own_values (r_cms s1) (path_parts path) <> None) by (apply C1; congruence).
    destruct (own_values (r_cms s1) (path_parts path)) as [own1|] eqn:Eo1'; [|congruence].
    assert (El1 : dget path (r_loaded s1) = None) by now rewrite R1.
    destruct (first_access_func its s1 path own1 f W1 Eo1' (ex_intro _ b Hf) El1) as (s2 & kw & E2 & L2 & C2 & _).
    unfold bind in H. rewrite E2 in H. unfold call_object in H. injection H as <- <-. cbn [r_calls r_loaded].
    rewrite C2, R3. eexists. split; [reflexivity|]. rewrite L2. split; [apply dget_dset_eq|reflexivity].
Qed.

Lemma ran_func its u s path f s' o : cms_wf (r_cms s) -> own_values (r_cms s) (path_parts path) <> None -> is_func its path f ->
  run_one_func its u path s = (s', o) -> ran u [path] false s s' o /\ (forall r, o = Ok r -> exists v, r = RVal v).
Proof.
  intros W Ho Hf H. destruct (run_func_ran _ _ _ _ _ _ _ W Ho Hf H) as (ob & C & L & ->). split.
  - exists [(path, ob)]. split; [exact C|]. split; [intros p o [[= <- <-]|[]]; exact L|].
    destruct (u_call u (r_calls s) path ob) as [v|e] eqn:E.
    + split; [reflexivity|]. split; [reflexivity|]. econstructor; [exact E|constructor].
    + left. exists [], path, ob, [], []. rewrite app_nil_r. repeat split; auto. constructor.
  - intros r. destruct (u_call u (r_calls s) path ob); [|discriminate]. intros [= <-]. eauto.
Qed.

(** a class entry: the section's own path is looked up, which is not callable *)
Lemma run_class_on_section its u path s s' o b c : get_func_or_collection its path = Ok (b, FColl c) ->
  run_one_class its u path s = (s', o) -> r_calls s' = r_calls s /\ exists e, o = Raise e.
Proof.
  intros H E. unfold run_one_class, bind at 1 in E. assert (G := gfc_sr its path s).
  assert (X : exists s1 e, get_func_and_config its path s = (s1, Raise e)).
  { unfold get_func_and_config, bind. destruct (get_config path s) as [s1 [cf|e]]; [|eauto]. unfold lift. rewrite H. do 2 eexists; reflexivity. }
  destruct X as (s1 & e & X). rewrite X in E, G. injection E as <- <-. destruct G as (_ & _ & R3 & _). eauto.
Qed.
Lemma run_specific_on_section its u path s s' o b c : get_func_or_collection its path = Ok (b, FColl c) ->
  run_one_specific_class its u path s = (s', o) -> r_calls s' = r_calls s /\ exists e, o = Raise e.
Proof.
  intros H E. unfold run_one_specific_class, bind at 1 in E. assert (G := gcc_sr its path s).
  assert (X : exists s1 e, get_class_and_config its path s = (s1, Raise e)).
  { unfold get_class_and_config, bind. destruct (get_config path s) as [s1 [cf|e]]; [|eauto]. unfold lift. rewrite H. do 2 eexists; reflexivity. }
  destruct X as (s1 & e & X). rewrite X in E, G. injection E as <- <-. destruct G as (_ & _ & R3 & _). eauto.
Qed.

Definition entry_plan (path : string) (e : entry) : list step :=
  match e with
  | EItem n (TFunc _) => [SCall (path ++ "." ++ n)%string]
  | EItem _ _ => [SFail]
  | EColl c' => section_plan (path ++ "." ++ coll_name c')%string c'
  end.
Lemma section_plan_eq path n l : section_plan path (Coll n l) = flat_map (entry_plan path) l.
Proof.
  cbn [section_plan]. induction l as [|[x []|c] l IH]; cbn [flat_map entry_plan app]; try reflexivity; now rewrite IH.
Qed.

Definition entry_shaped (e : entry) (r : result) : Prop :=
  match e, r with
  | EItem _ _, RVal _ => True
  | EColl c, _ => shaped c r
  | _, _ => False
  end.
Lemma shaped_eq n l rs : shaped (Coll n l) (RList rs) <-> Forall2 entry_shaped l rs.
Proof.
  cbn [shaped]. revert rs. induction l as [|e l IH]; intros [|r rs]; split; intro H.
  all: try solve [constructor | exact I | destruct e; contradiction | inversion H | contradiction].
  - destruct e; [destruct r; [|contradiction]; constructor; [exact I|now apply IH]|].
    destruct H as [H1 H2]. constructor; [destruct r; exact H1|now apply IH].
  - inversion H as [|? ? ? ? H1 H2]; subst. apply IH in H2. destruct e; [destruct r; [exact H2|contradiction]|].
    destruct r; split; assumption.
Qed.

Definition plan_calls (l : list step) : list string := flat_map (fun st => match st with SCall p => [p] | SFail => [] end) l.

Lemma run_section_ran its u c : forall path s s' o, names_ok c -> get_func_or_collection its path = Ok (false, FColl c) ->
  cms_wf (r_cms s) -> configured s (plan_calls (section_plan path c)) -> run_section its u c path s = (s', o) ->
  ran u (fst (cut (section_plan path c))) (snd (cut (section_plan path c))) s s' o /\
  (forall r, o = Ok r -> shaped c r).
Proof.
  induction c as [n l IH] using coll_ind2. intros path s s' o N Hp W Hc H. rewrite run_section_eq in H. unfold bind at 1 in H.
  rewrite section_plan_eq in *.
  set (F := run_entry its u path (sub_thunks (run_section its u) path l)) in *.
  assert (K : forall e, keeps grows (F e)).
  { intro e. unfold F. destruct e as [x [| | | |]|c]; cbn [run_entry];
    try apply run_func_grows; try apply run_class_grows; try apply run_specific_grows; try gdone.
    destruct (dget _ _) as [[m|]|] eqn:E; try gdone. apply sub_thunks_In in E as (c' & Hc' & _ & ->). apply run_section_grows. }
  assert (ONE : forall e s s' o, In e l -> cms_wf (r_cms s) -> configured s (plan_calls (entry_plan path e)) -> F e s = (s', o) ->
     ran u (fst (cut (entry_plan path e))) (snd (cut (entry_plan path e))) s s' o /\ (forall r, o = Ok r -> entry_shaped e r)).
  { clear s s' o W Hc H. intros e s s' o He W Hc H. destruct e as [x t|c'].
    - assert (FAIL : forall err, s' = s -> o = Raise err -> (forall f, t <> TFunc f) ->
        ran u (fst (cut (entry_plan path (EItem x t)))) (snd (cut (entry_plan path (EItem x t)))) s s' o /\ (forall r, o = Ok r -> entry_shaped (EItem x t) r)).
      { intros err -> -> Ht. split; [|discriminate]. destruct t; try (now apply ran_nothing). exfalso. eapply Ht. reflexivity. }
      destruct t as [f|k| |err|k]; unfold F in H; cbn [run_entry] in H.
      + cbn [entry_plan cut fst snd]. rewrite <- sub_path_str.
        assert (Hf : is_func its (sub_path path x) f).
        { exists false. exact (entry_found its path n l (EItem x (TFunc f)) Hp N He ltac:(discriminate)). }
        assert (Hcx : own_values (r_cms s) (path_parts (sub_path path x)) <> None).
        { rewrite sub_path_str. apply Hc. cbn [entry_plan plan_calls flat_map app]. now left. }
        destruct (ran_func its u s (sub_path path x) f s' o W Hcx Hf H) as (R & V).
        split; [exact R|]. intros r Hr. destruct (V r Hr) as (v & ->). exact I.
      + destruct (run_class_on_section _ _ _ _ _ _ _ _ Hp H) as (C & e & ->). split; [now apply ran_nothing|discriminate].
      + injection H as <- <-. eapply FAIL; eauto; discriminate.
      + injection H as <- <-. eapply FAIL; eauto; discriminate.
      + destruct (run_specific_on_section _ _ _ _ _ _ _ _ Hp H) as (C & e & ->). split; [now apply ran_nothing|discriminate].
    - unfold F in H. cbn [run_entry] in H. rewrite sub_thunk_coll in H; [|eapply names_ok_nodup; exact N|exact He].
      cbn [entry_plan]. rewrite <- sub_path_str.
      eapply (IH c' He); [| |exact W| |exact H].
      + exact (proj2 (proj2 (names_ok_entry _ _ _ N He))).
      + exact (entry_found its path n l (EColl c') Hp N He ltac:(discriminate)).
      + rewrite sub_path_str. exact Hc. }
  assert (ALL : forall l0, incl l0 l -> forall s s' o, cms_wf (r_cms s) -> configured s (plan_calls (flat_map (entry_plan path) l0)) ->
    mapM F l0 s = (s', o) ->
    ranL u (fst (cut (flat_map (entry_plan path) l0))) (snd (cut (flat_map (entry_plan path) l0))) s s' o /\
    (forall rs, o = Ok rs -> Forall2 entry_shaped l0 rs)).
  { clear s s' o W Hc H. induction l0 as [|e l0 IHl]; intros Hi s s' o W Hc H.
    - injection H as <- <-. split; [apply ranL_nil|]. intros rs [= <-]. constructor.
    - cbn [mapM] in H. unfold bind at 1 in H. destruct (F e s) as [s1 o1] eqn:E1. cbn [flat_map]. rewrite cut_app. cbn [fst snd].
      assert (Hc1 : configured s (plan_calls (entry_plan path e))).
      { intros q Hq. apply Hc. cbn [flat_map]. unfold plan_calls. rewrite flat_map_app. apply in_app_iff. now left. }
      assert (Hc2 : configured s (plan_calls (flat_map (entry_plan path) l0))).
      { intros q Hq. apply Hc. cbn [flat_map]. unfold plan_calls. rewrite flat_map_app. apply in_app_iff. now right. }
      destruct (ONE e s s1 o1 (Hi e (or_introl eq_refl)) W Hc1 E1) as (R1 & S1).
      assert (G := K e s). rewrite E1 in G. cbn [fst] in G. destruct (proj2 G W) as (W1 & C1).
      destruct o1 as [r|err].
      + unfold bind at 1 in H. destruct (mapM F l0 s1) as [s2 o2] eqn:E2.
        destruct (IHl (fun x Hx => Hi x (or_intror Hx)) s1 s2 o2 W1) as (R2 & S2); auto.
        { intros q Hq. apply C1. now apply Hc2. }
        assert (G2 : grows s1 s2).
        { assert (X := keeps_mapM grows grows_refl grows_trans F l0 (fun a _ => K a) s1). now rewrite E2 in X. }
        assert (R := ranL_cons _ _ _ _ _ _ _ _ _ _ R1 R2 G2).
        assert (Ef : snd (cut (entry_plan path e)) = false) by (destruct R1 as (? & _ & _ & X & _); exact X). rewrite Ef. cbn [orb].
        destruct o2 as [rs|err]; injection H as <- <-; (split; [exact R|]); [|discriminate].
        intros rs' [= <-]. constructor; auto.
      + injection H as <- <-. split; [|discriminate]. now apply ranL_raise. }
  destruct (mapM F l s) as [s1 o1] eqn:E1. destruct (ALL l (incl_refl l) s s1 o1 W Hc E1) as (R & S).
  destruct o1 as [rs|e]; injection H as <- <-; (split; [exact R|]); [|discriminate].
  intros r [= <-]. apply shaped_eq. auto.
Qed.
