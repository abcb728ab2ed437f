(** From files to function calls. *)
From Verif Require Import Setup_Spec Setup_Proofs Selector_Proofs PipeDict_Proofs ProjectWalk_Proofs Project_Proofs ConfigTree_Proofs ConfigLoad_Proofs ConfigOps_Proofs RunnerOps_Proofs View_Proofs Project_Props PipeDict_Props.
Local Open Scope string_scope.
Local Open Scope list_scope.

Section Files.
Variable exec : path -> string -> res (dict pyval).
Variables (f : fs) (base : path) (name : string) (d : ConfigTree_Model.dir) (st : cms).
Hypothesis M : mirrors exec f base d.
Hypothesis L : cm_load name d = Ok st.

Definition plain_folder (x : string) : Prop := mem x mgr_reserved = false /\ hidden x = false.
Lemma sec_from_mgr x : mem x mgr_reserved = false -> mem x sec_reserved = false.
Proof. rewrite !mem_false. intros H C. apply H. unfold mgr_reserved. apply in_app_iff. now right. Qed.

Lemma last_cons (l : list string) : forall x d0, last (x :: l) d0 = last l x.
Proof. induction l as [|y l IH]; intros x d0; [reflexivity|]. change (last (x :: y :: l) d0) with (last (y :: l) d0). now rewrite !IH. Qed.

Lemma disk_walk rest : forall folders reserved nm rel d0 d', (forall x, mem x mgr_reserved = false -> mem x reserved = false) ->
  find_dir d0 folders = Some d' -> Forall plain_folder folders -> own_folder nm folders ->
  disk_seen reserved nm rel d0 (folders ++ rest) = disk_seen (match folders with [] => reserved | _ => sec_reserved end) (last folders nm) (rel ++ folders) d' rest.
Proof.
  induction folders as [|x folders IH]; intros reserved nm rel d0 d' R F P O.
  - cbn in F. injection F as <-. cbn [app last]. now rewrite app_nil_r.
  - cbn [find_dir] in F. destruct (dget x (dir_subs d0)) as [d1|] eqn:E; [|discriminate]. inversion P as [|? ? [P1 P2] P3]; subst. destruct O as [O1 O2].
    cbn [app disk_seen]. rewrite (R x P1), P2, E. apply String.eqb_neq in O1. rewrite O1. rewrite (IH sec_reserved x (rel ++ [x]) d1 d' sec_from_mgr F P3 O2). rewrite <- app_assoc. cbn [app].
    rewrite last_cons.
    destruct (folder_config nm rel d0), folders; reflexivity.
Qed.

Lemma folder_dir folders : f (base ++ folders) = Some Dir -> exists d', find_dir d folders = Some d'.
Proof. intros H. now apply M. Qed.

Lemma see_section folders d' : find_dir d folders = Some d' -> Forall plain_folder folders -> own_folder name folders ->
  see st folders = Some (SSec (last folders name) (folder_config (last folders name) folders d')).
Proof.
  intros F P O. rewrite (load_seen name d st folders (proj1 M) L). rewrite <- (app_nil_r folders) at 1. now rewrite (disk_walk [] folders mgr_reserved name [] d d' (fun x H => H) F P O).
Qed.
Lemma section_file folders d' : find_dir d folders = Some d' -> Forall plain_folder folders -> own_folder name folders ->
  section_values st folders = values_of exec f base (folders ++ ["section.py"]).
Proof.
  intros F P O. unfold section_values. rewrite (see_section folders d' F P O). unfold folder_config, values_of. destruct M as (_ & _ & M3).
  destruct (f (base ++ folders ++ ["section.py"])) as [[|s]|] eqn:E.
  - destruct (dget "section.py" (dir_files d')) as [r|] eqn:G; [|reflexivity]. apply (M3 folders d' "section.py" r F) in G as (s & Es & _). congruence.
  - assert (G : dget "section.py" (dir_files d') = Some (exec (folders ++ ["section.py"]) s)) by (apply (M3 folders d' "section.py"); eauto). rewrite G. destruct (exec (folders ++ ["section.py"]) s); reflexivity.
  - destruct (dget "section.py" (dir_files d')) as [r|] eqn:G; [|reflexivity]. apply (M3 folders d' "section.py" r F) in G as (s & Es & _). congruence.
Qed.

Lemma dir_prefix folders r d' : find_dir d (folders ++ r) = Some d' -> exists d1, find_dir d folders = Some d1.
Proof. rewrite find_dir_app. destruct (find_dir d folders) as [d1|]; [eauto|discriminate]. Qed.
Lemma own_prefix p r nm : own_folder nm (p ++ r) -> own_folder nm p.
Proof. revert nm; induction p as [|x p IH]; intros nm; cbn [app own_folder]; [easy|]. intros [H1 H2]. split; [exact H1|now apply (IH x)]. Qed.
Lemma own_last p x nm : own_folder nm (p ++ [x]) -> x <> last p nm.
Proof.
  revert nm; induction p as [|y p IH]; intros nm; cbn [app own_folder]; [tauto|]. intros [_ H]. apply IH in H. now rewrite last_cons.
Qed.
Lemma section_files_prefixes folders n : section_files folders = map (fun q => q ++ ["section.py"]) (rev (ConfigTree_Model.prefixes (folders ++ [n])) ++ [[]]).
Proof.
  induction folders as [|x rest IH]; [reflexivity|]. cbn [section_files]. rewrite IH. clear IH.
  assert (E : ConfigTree_Model.prefixes ((x :: rest) ++ [n]) = [x] :: map (cons x) (ConfigTree_Model.prefixes (rest ++ [n]))) by (destruct rest; reflexivity).
  rewrite E. cbn [rev]. rewrite <- map_rev. rewrite !map_app, !map_map. cbn [map app]. rewrite <- ?app_assoc. reflexivity.
Qed.
Lemma prefix_in p q n : In q (rev (ConfigTree_Model.prefixes (p ++ [n])) ++ [[]]) -> exists r, p = q ++ r.
Proof.
  rewrite in_app_iff, <- in_rev. intros [H|[<-|[]]]; [|now exists p]. apply prefixes_in in H as (_ & t & Nt & E). destruct (exists_last Nt) as (t' & y & ->). rewrite app_assoc in E. apply app_inj_tail in E as [E _]. eauto.
Qed.

Lemma item_setting folders n content k : f (base ++ folders) = Some Dir -> f (base ++ folders ++ [n]) <> Some Dir ->
  Forall plain_folder folders -> own_folder name (folders ++ [n]) -> mem n mgr_reserved = false -> n <> "section" ->
  (exists s, f (base ++ folders ++ [(n ++ ".py")%string]) = Some (File s) /\ exec (folders ++ [(n ++ ".py")%string]) s = Ok content) ->
  own_values st (folders ++ [n]) = Some content /\ effective st (folders ++ [n]) content k = setting exec f base folders n k.
Proof.
  intros D N P O R S (s & Es & Ex). destruct (folder_dir folders D) as (d' & F).
  assert (Ed : cs_disk st = d /\ cs_local st = empty_config). { unfold cm_load in L. destruct (from_files_at name d []); [|discriminate]. injection L as <-. now split. }
  destruct Ed as [Ed El]. pose proof (own_prefix _ _ _ O) as O'. destruct M as (Ok1 & M2 & M3).
  assert (G : dget (n ++ ".py")%string (dir_files d') = Some (Ok content)) by (apply (M3 folders d' _ _ F); exists s; split; [exact Es|now symmetry]).
  assert (Ns : dget n (dir_subs d') = None).
  { destruct (dget n (dir_subs d')) as [d2|] eqn:E; [|reflexivity]. exfalso. apply N. rewrite <- M2. exists d2. rewrite find_dir_app, F. cbn [find_dir]. now rewrite E. }
  assert (V : see st (folders ++ [n]) = Some (SFile (folders, (n ++ ".py")%string) n)).
  { rewrite (load_seen name d st _ Ok1 L). rewrite (disk_walk [n] folders mgr_reserved name [] d d' (fun x H => H) F P O'). cbn [disk_seen].
    assert (R' : mem n (match folders with [] => mgr_reserved | _ => sec_reserved end) = false) by (destruct folders; [exact R|now apply sec_from_mgr]). rewrite R', Ns.
    replace (if hidden n then None else @None ConfigTree_Model.dir) with (@None ConfigTree_Model.dir) by now destruct (hidden n).
    apply String.eqb_neq in S. rewrite S. unfold dmem. rewrite G. cbn [app].
    assert (O2 : String.eqb n (last folders name) = false) by (apply String.eqb_neq; now apply own_last). rewrite O2. now destruct (folder_config _ _ _). }
  split.
  - unfold own_values. rewrite V. unfold read_file. cbn [fst snd]. now rewrite Ed, F, G.
  - unfold effective, setting. replace (values_of exec f base (folders ++ [(n ++ ".py")%string])) with content by (unfold values_of; now rewrite Es, Ex).
    destruct content as [|e content]; [reflexivity|].
    assert (E : overriding_layers st (folders ++ [n]) = [] :: map (values_of exec f base) (section_files folders)); [|rewrite E; reflexivity].
    unfold overriding_layers. rewrite El. rewrite section_files_prefixes with (n := n). rewrite map_map. cbn [c_vals empty_config]. f_equal.
    rewrite <- ?(map_app (section_values st) _ [[]]). apply map_ext_in. intros q Hq. apply prefix_in in Hq as (r & ->). destruct (dir_prefix q r d' F) as (d1 & F1). apply (section_file q d1 F1); [apply Forall_app in P; tauto|now apply own_prefix in O'].
Qed.
End Files.

(* ------------------------------------------------------------------ *)
(** * Running *)

Lemma run_first_func its u s p own g : cms_wf (r_cms s) -> own_values (r_cms s) (path_parts p) = Some own -> is_func its p g -> dget p (r_loaded s) = None ->
  exists s' kw, run_one its u p s = (s', match u_call u (r_calls s) p (LPartial (r_next s) g false kw) with Ok v => Ok (RVal v) | Raise e => Raise e end) /\
    r_calls s' = r_calls s ++ [(p, LPartial (r_next s) g false kw)] /\ dwf kw /\
    forall k, dget k kw = if mem k (f_args g) then effective (r_cms s) (path_parts p) own k else None.
Proof.
  intros W Ho (b & Hf) Hn. destruct (get_config_spec s p own W Ho) as (c & s1 & E & (R1 & R2 & R3 & _) & _ & T & Sc & W1 & Wc & V).
  assert (Eg : get_func_and_config its p s = (s1, Ok (g, false, for_function c (f_args g)))) by (unfold get_func_and_config, bind; rewrite E; unfold lift; now rewrite Hf).
  assert (Ho1 : own_values (r_cms s1) (path_parts p) = Some (c_vals c)) by (unfold own_values; now rewrite Sc).
  assert (Hn1 : dget p (r_loaded s1) = None) by now rewrite R1.
  destruct (first_access_func its s1 p (c_vals c) g W1 Ho1 (ex_intro _ b Hf) Hn1) as (s2 & kw & E2 & _ & C2 & _ & Wk & V2).
  unfold run_one, bind at 1, lift. rewrite Hf.
  assert (Er : run_one_func its u p s = (RS (r_cms s2) (r_loaded s2) (r_next s2) (r_calls s2 ++ [(p, LPartial (r_next s1) g false kw)]), match u_call u (r_calls s2) p (LPartial (r_next s1) g false kw) with Ok v => Ok (RVal v) | Raise e => Raise e end)).
  { unfold run_one_func, bind. rewrite Eg, E2. reflexivity. }
  assert (Er' : (if b then run_one_func its u p s else run_one_func its u p s) = run_one_func its u p s) by now destruct b.
  rewrite C2, R3, R2 in Er. eexists. exists kw. split; [destruct b; exact Er|]. cbn [r_calls]. split; [reflexivity|]. split; [exact Wk|].
  intro k. rewrite V2. destruct (mem k (f_args g)); [|reflexivity]. rewrite <- V. rewrite own_values_current in Ho. destruct (current (r_cms s) (CItem (path_parts p))) as [c0|] eqn:Ec; [|discriminate]. injection Ho as <-.
  apply (effective_again (r_cms s) (r_cms s1) (CItem (path_parts p)) c0 c k T); [discriminate|exact Ec| |exact V]. rewrite read_cref_see, Sc. reflexivity.
Qed.

Lemma mirrors_wf exec f base d : mirrors exec f base d -> (forall rel s v, exec rel s = Ok v -> dwf v) -> disk_wf d.
Proof.
  intros (_ & _ & M3) H [rel x] content R. unfold read_file in R. cbn [fst snd] in R. destruct (find_dir d rel) as [d'|] eqn:F; [|discriminate].
  destruct (dget x (dir_files d')) as [r|] eqn:G; [|discriminate]. subst r. apply (M3 rel d' x _ F) in G as (s & _ & E). symmetry in E. now apply H in E.
Qed.

Lemma last_entry_in x l e : last_entry x l = Some e -> In e l /\ entry_name e = x.
Proof.
  induction l as [|a l IH]; cbn [last_entry]; [discriminate|]. destruct (last_entry x l) as [e'|]; [intros [= ->]; destruct (IH eq_refl); split; [now right|easy]|].
  destruct (String.eqb_spec x (entry_name a)); [|discriminate]. intros [= ->]. split; [now left|easy].
Qed.
Lemma coll_get_item_at folders n t : forall base c, Forall (fun x => mem x coll_reserved = false) (folders ++ [n]) -> coll_get c (folders ++ [n]) = Ok (FThing t) ->
  item_at base c (base ++ folders ++ [(n ++ ".py")%string]) n t /\ (folders <> [] -> exists c', In (EColl c') (coll_entries c) /\ coll_name c' = hd "" folders).
Proof.
  induction folders as [|x folders IH]; intros base c U H; cbn [app] in *; inversion U as [|? ? U1 U2]; subst; cbn [coll_get] in H; unfold coll_getattr in H; rewrite U1 in H.
  - destruct (last_entry n (coll_entries c)) as [[m t'|c']|] eqn:E; try discriminate. injection H as ->. apply last_entry_in in E as [E1 E2]. cbn in E2. subst m. split; [now apply item_here|congruence].
  - destruct (last_entry x (coll_entries c)) as [[m t'|c']|] eqn:E; [destruct folders; discriminate| |discriminate]. apply last_entry_in in E as [E1 E2]. cbn in E2. subst x.
    destruct (IH (base ++ [coll_name c']) c' U2 H) as [I _]. rewrite <- app_assoc in I. split; [now apply (item_below base c c')|]. intros _. eauto.
Qed.

(* ------------------------------------------------------------------ *)
(** * From files to calls *)

Section EndToEnd.
Variable parse : bool -> string -> res (dict pd).
Variable view : string -> pd -> res (string * thing).
Variable inst : ccfg -> pd -> res (string * thing).
Variable cfg : bool -> string -> thing -> option string -> res string.
Variable config_dir : fs -> ConfigTree_Model.dir.
Notation load := (pm_load parse view inst cfg config_dir).

Lemma load_ok s next f p l p' : load s next f p = (l, p', Ok tt) ->
  exists i r c, p' = PM (Some i) (Some (i, r)) /\ checked parse view inst f (su_folder s) (su_name s) (su_classes s) = Ok i /\
    scaffold_all cfg (defaults_of s) i f = (l, Ok tt) /\ cm_load (su_config_folder s) (config_dir (final f l)) = Ok c /\ r = RS c [] next [].
Proof.
  intros H. unfold pm_load, create_registrars, pbind, pfs in H. cbn [last app final fst snd] in H. destruct (checked parse view inst f (su_folder s) (su_name s) (su_classes s)) as [i|e]; [|discriminate].
  cbn in H. destruct (scaffold_all cfg (defaults_of s) i f) as [l1 [[]|e]] eqn:E; cbn in H; [|discriminate]. rewrite app_nil_r in H.
  destruct (runner_load (su_config_folder s) (config_dir (final f l1)) next) as [r|] eqn:R; [|discriminate]. unfold runner_load in R. destruct (cm_load _ _) as [c|] eqn:C; [|discriminate]. injection R as <-. injection H as <- <-. eexists. eexists. exists c. split; [reflexivity|]. auto.
Qed.

Lemma checked_names f folder name cs i : checked parse view inst f folder name cs = Ok i -> NoDup (map reg_name (i_specific i)) /\ forall r, In r (i_specific i) -> ~ In (reg_name r) (map entry_name (coll_entries (i_general i))).
Proof.
  unfold checked. destruct (read_items parse view inst f folder name cs) as [i'|]; [|discriminate]. destruct (validate i') as [[]|] eqn:V; [|discriminate]. intros [= ->]. apply validate_iff in V as [V1 V2]. split; [exact V1|]. intros r Hr C. apply V2 in Hr. tauto.
Qed.

Lemma checked_general f folder name cs i d : checked parse view inst f folder name cs = Ok i -> has_dict parse f folder d -> from_dict (view (file_text f (pipeline_file folder))) name d = Ok (i_general i).
Proof.
  intros H D. apply has_dict_iff in D. unfold checked, read_items in H. rewrite D in H. destruct (make_registrars _ _ _ _ _); [|discriminate]. destruct (from_dict _ name d) as [g|]; [|discriminate]. destruct (validate _); [|discriminate]. now injection H as <-.
Qed.

Lemma end_to_end exec s next f p l p' : load s next f p = (l, p', Ok tt) -> wf f ->
  mirrors exec (final f l) (defaults_of s) (config_dir (final f l)) -> (forall rel t v, exec rel t = Ok v -> dwf v) ->
  exists i r, p' = PM (Some i) (Some (i, r)) /\
  forall d folders n it g, has_dict parse f (su_folder s) d -> tidy_items i -> distinct_names (i_general i) ->
    plain_path (su_config_folder s) (folders ++ [n]) ->
    let view' := view (file_text f (pipeline_file (su_folder s))) in
    let file := defaults_of s ++ folders ++ [(n ++ ".py")%string] in
    PipeDict_Spec.written view' (PDict d) (folders ++ [n]) it -> view' it = Ok (n, TFunc g) ->
    final f l (defaults_of s ++ folders ++ [n]) <> Some Dir ->
    exists text, cfg true n (TFunc g) (content f file) = Ok text /\ final f l file = Some (File text) /\
    forall own path u, exec (folders ++ [(n ++ ".py")%string]) text = Ok own -> path_parts path = folders ++ [n] ->
    exists r' kw, run_one i u path r = (r', match u_call u [] path (LPartial next g false kw) with Ok v => Ok (RVal v) | Raise e => Raise e end) /\
      r_calls r' = [(path, LPartial next g false kw)] /\ dwf kw /\
      forall k, dget k kw = if mem k (f_args g) then setting exec (final f l) (defaults_of s) folders n k else None.
Proof.
  intros H W M X. destruct (load_ok _ _ _ _ _ _ H) as (i & r & c & -> & C & S & L & ->). exists i. eexists. split; [reflexivity|].
  intros d folders n it g D T N P view' file Wr V Nd. pose proof (checked_general _ _ _ _ _ _ C D) as Fd. destruct (checked_names _ _ _ _ _ C) as [U1 U2].
  destruct P as ((P1 & P1') & P2 & P3 & P4 & P5).
  assert (G : coll_get (i_general i) (folders ++ [n]) = Ok (FThing (TFunc g))) by (apply (C51_item_found_iff_written view' (su_name s) (PDict d)); [exact Fd|reflexivity|exact N|exact P1'|eauto]).
  destruct (coll_get_item_at folders n (TFunc g) (defaults_of s) (i_general i) P1' G) as [I J].
  destruct (C61_all_written cfg (defaults_of s) i f l W T S) as (A1 & A2 & A3). destruct (A1 true file n (TFunc g) (file_general _ _ _ _ _ I)) as (text & Et & Ef).
  exists text. split; [exact Et|]. split; [exact Ef|]. intros own path u Ex Ep.
  assert (Nf : folders <> []) by (intros ->; inversion Wr; subst; match goal with K : PipeDict_Spec.written _ _ [] _ |- _ => inversion K end).
  assert (Wf : wf (final f l)) by (rewrite scaffold_all_acts in S; now destruct (run_ok cfg _ f l W S)).
  assert (Dr : final f l (defaults_of s ++ folders) = Some Dir).
  { apply (proj2 Wf _ (n ++ ".py")%string). rewrite <- app_assoc. unfold file in Ef. congruence. }
  assert (If : is_func i path g).
  { exists false. unfold get_func_or_collection. rewrite Ep. destruct folders as [|x folders]; [congruence|]. cbn [app]. destruct (J Nf) as (c' & J1 & J2). cbn in J2.
    rewrite (find_registrar_None (i_specific i) x). 2:{ intros K. apply in_map_iff in K as (rr & <- & K). apply (U2 rr K). rewrite <- J2. apply in_map_iff. exists (EColl c'). auto. }
    destruct (C51_registrar_finds_the_same (i_general i) ((x :: folders) ++ [n]) (conj P1 P1')) as [_ K]. cbn [app] in K. now rewrite (K (FThing (TFunc g)) G) by discriminate. }
  assert (Hn : mem n mgr_reserved = false) by (apply Forall_app in P3 as [_ P3]; inversion P3; tauto).
  assert (Pf : Forall plain_folder folders).
  { rewrite removelast_last in P4. apply Forall_app in P3 as [P3 _]. rewrite Forall_forall in *. intros x Hx. split; [now apply P3|now apply P4]. }
  assert (Ns : n <> "section") by (rewrite last_last in P5; exact P5).
  destruct (item_setting exec (final f l) (defaults_of s) (su_config_folder s) _ c M L folders n own "" Dr Nd Pf P2 Hn Ns) as [Ov _]; [eauto|].
  assert (Cw : cms_wf c) by (apply (cm_load_wf (su_config_folder s) (config_dir (final f l))); [exact (proj1 M)|now apply (mirrors_wf exec (final f l) (defaults_of s))|exact L]).
  rewrite <- Ep in Ov. destruct (run_first_func i u (RS c [] next []) path own g Cw Ov If eq_refl) as (r' & kw & E1 & E2 & E3 & E4). exists r', kw. split; [exact E1|]. split; [exact E2|]. split; [exact E3|].
  intros k. rewrite E4, Ep. cbn [r_cms]. destruct (mem k (f_args g)); [|reflexivity]. apply (item_setting exec (final f l) (defaults_of s) (su_config_folder s) _ c M L folders n own k Dr Nd Pf P2 Hn Ns). eauto.
Qed.
End EndToEnd.
