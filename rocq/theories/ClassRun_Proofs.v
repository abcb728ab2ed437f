(** From files to calls of the items of class dicts. *)
From Verif Require Import Setup_Spec Setup_Proofs SetupFiles_Proofs SetupLoad_Proofs Selector_Proofs PipeDict_Proofs ProjectWalk_Proofs Project_Proofs ConfigTree_Proofs ConfigLoad_Proofs ConfigOps_Proofs RunnerOps_Proofs View_Proofs Project_Props PipeDict_Props.
From Verif Require Import ClassRun_Spec.
Local Open Scope string_scope.
Local Open Scope list_scope.

Lemma relevant_for_function c k : dwf (c_vals c) -> forall x, dget x (relevant_config k (for_function c (class_args k))) = if mem x (f_args k) then dget x (c_vals c) else None.
Proof.
  intros W x. unfold relevant_config, for_function. rewrite !dget_dfilter. destruct (mem x (f_args k)) eqn:E; [|reflexivity].
  assert (mem x (class_args k) = true) as ->; [|reflexivity]. unfold mem in *. cbn [class_args existsb]. rewrite E. apply Bool.orb_true_r.
Qed.

(** the first time an instance is run *)
Lemma run_first_inst its u s p own k : cms_wf (r_cms s) -> own_values (r_cms s) (path_parts p) = Some own -> is_inst its p k -> dget p (r_loaded s) = None ->
  exists s' args, dwf args /\ (forall x, dget x args = if mem x (f_args k) then effective (r_cms s) (path_parts p) own x else None) /\
    let o := LInst (r_next s) k [args] in
    run_one its u p s = (s', match u_init u k args with
                             | Some e => Raise e
                             | None => match u_call u (r_calls s) p o with Ok v => Ok (RVal v) | Raise e => Raise e end
                             end) /\
    r_calls s' = r_calls s ++ match u_init u k args with Some _ => [] | None => [(p, o)] end.
Proof.
  intros W Ho (b & Hf) Hn. destruct (get_config_spec s p own W Ho) as (c & s1 & E & (R1 & R2 & R3 & _) & _ & T & Sc & W1 & Wc & V).
  assert (Ho1 : own_values (r_cms s1) (path_parts p) = Some (c_vals c)) by (unfold own_values; now rewrite Sc).
  destruct (get_config_spec s1 p (c_vals c) W1 Ho1) as (c2 & s2 & E2 & (Q1 & Q2 & Q3 & _) & _ & T2 & Sc2 & W2 & Wc2 & V2).
  set (args := relevant_config k (for_function c2 (class_args k))).
  assert (Hargs : forall x, dget x args = if mem x (f_args k) then effective (r_cms s) (path_parts p) own x else None).
  { intro x. unfold args. rewrite (relevant_for_function c2 k (proj1 Wc2)). destruct (mem x (f_args k)); [|reflexivity]. rewrite V2, <- V.
    rewrite own_values_current in Ho. destruct (current (r_cms s) (CItem (path_parts p))) as [c0|] eqn:Ec; [|discriminate]. injection Ho as <-.
    apply (effective_again (r_cms s) (r_cms s1) (CItem (path_parts p)) c0 c x T); [discriminate|exact Ec| |exact V]. rewrite read_cref_see, Sc. reflexivity. }
  assert (Er : run_one its u p s = run_one_specific_class its u p s) by (unfold run_one, bind at 1, lift; rewrite Hf; now destruct b).
  rewrite Er. unfold run_one_specific_class, bind at 1. unfold get_class_and_config at 1, bind at 1. rewrite E. unfold bind at 1, lift at 1. rewrite Hf. cbn [snd]. unfold ret at 1.
  unfold bind. unfold get_one_obj_with_config, bind at 1, gets. rewrite R1, Hn. unfold bind at 1, lift at 1. rewrite Hf.
  unfold get_class_and_config, bind. rewrite E2. unfold lift. rewrite Hf. cbn [snd ret]. fold args.
  destruct (u_init u k args) as [e|] eqn:I.
  - exists s2, args. split; [unfold args; do 2 apply dfilter_wf; apply Wc2|]. split; [exact Hargs|]. cbn. rewrite I. split; [reflexivity|]. rewrite Q3, R3. now rewrite app_nil_r.
  - unfold fresh, set_loaded, modify, ret, call_object. cbn [r_cms r_loaded r_next r_calls]. 
    eexists. exists args. split; [unfold args; do 2 apply dfilter_wf; apply Wc2|]. split; [exact Hargs|]. cbn. rewrite I. rewrite Q3, R3, Q2, R2. split; reflexivity.
Qed.

Section EndToEnd.
Variable parse : bool -> string -> res (dict pd).
Variable view : string -> pd -> res (string * thing).
Variable inst : ccfg -> pd -> res (string * thing).
Variable cfg : bool -> string -> thing -> option string -> res string.
Variable config_dir : fs -> ConfigTree_Model.dir.
Notation load := (pm_load parse view inst cfg config_dir).

Lemma class_end_to_end exec s next f p l p' : load s next f p = (l, p', Ok tt) -> wf f -> Forall (@dwf cval) (su_classes s) ->
  mirrors exec (final f l) (defaults_of s) (config_dir (final f l)) -> (forall rel t v, exec rel t = Ok v -> dwf v) ->
  exists i r, p' = PM (Some i) (Some (i, r)) /\
  forall c nm text d folders n it k, In c (su_classes s) -> dget "name" c = Some (CStr nm) ->
    f (dict_file (su_folder s) nm) = Some (File text) -> parse false text = Ok d ->
    tidy_items i -> (forall r, In r (i_specific i) -> distinct_names (reg_coll r)) -> plain_item (su_config_folder s) nm (folders ++ [n]) ->
    let inst' := inst (dupdate default_ccfg c) in
    let file := defaults_of s ++ nm :: folders ++ [(n ++ ".py")%string] in
    PipeDict_Spec.written inst' (PDict d) (folders ++ [n]) it -> inst' it = Ok (n, TInst k) ->
    final f l (defaults_of s ++ nm :: folders ++ [n]) <> Some Dir ->
    exists text, cfg false n (TInst k) (content f file) = Ok text /\ final f l file = Some (File text) /\
    forall own path u, exec (nm :: folders ++ [(n ++ ".py")%string]) text = Ok own -> path_parts path = nm :: folders ++ [n] ->
    exists r' args, dwf args /\
      (forall x, dget x args = if mem x (f_args k) then setting exec (final f l) (defaults_of s) (nm :: folders) n x else None) /\
      let o := LInst next k [args] in
      run_one i u path r = (r', match u_init u k args with
                                | Some e => Raise e
                                | None => match u_call u [] path o with Ok v => Ok (RVal v) | Raise e => Raise e end
                                end) /\
      r_calls r' = match u_init u k args with Some _ => [] | None => [(path, o)] end.
Proof.
  intros H W Dw M X. destruct (load_ok _ _ _ _ _ _ _ _ _ _ _ H) as (i & r & cm & -> & C & S & L & ->). exists i. eexists. split; [reflexivity|].
  intros c nm text0 d folders n it k Ic Nm Fd Pd T N P inst' file Wr V Nd.
  pose proof (proj1 (checked_iff parse view inst f (su_folder s) (su_name s) (su_classes s) i Dw) C) as A.
  destruct (good_classes_names parse view inst s f i c A Ic) as (rg & Ir & nm' & k' & text' & d' & G1 & G2 & G3 & G4 & G5 & G6 & G7 & G8).
  assert (E0 : nm' = nm) by congruence. rewrite E0 in G1, G5, G7, G8. clear E0. assert (text' = text0) by congruence. subst text'. assert (d' = d) by congruence. subst d'.
  destruct P as ((Us0 & Us1) & P2 & P3 & P4 & P5).
  assert (G : coll_get (reg_coll rg) (folders ++ [n]) = Ok (FThing (TInst k))) by (apply (C51_item_found_iff_written inst' nm (PDict d)); [exact G7|reflexivity|now apply N|exact Us1|eauto]).
  destruct (coll_get_item_at folders n (TInst k) (defaults_of s ++ [nm]) (reg_coll rg) Us1 G) as [I J]. 
  rewrite <- app_assoc in I. cbn [app] in I. fold file in I.
  destruct (C61_all_written cfg (defaults_of s) i f l W T S) as (A1 & A2 & A3).
  assert (I' : item_at (defaults_of s ++ [reg_name rg]) (reg_coll rg) file n (TInst k)) by (rewrite G8; exact I).
  destruct (A1 false file n (TInst k) (file_specific _ _ _ _ _ _ Ir I')) as (text & Et & Ef).
  exists text. split; [exact Et|]. split; [exact Ef|]. intros own path u Ex Ep.
  assert (Wf : wf (final f l)) by (rewrite scaffold_all_acts in S; now destruct (run_ok cfg _ f l W S)).
  assert (Dr : final f l (defaults_of s ++ nm :: folders) = Some Dir).
  { apply (proj2 Wf _ (n ++ ".py")%string). rewrite <- app_assoc. cbn [app]. unfold file in Ef. congruence. }
  assert (If : is_inst i path k).
  { exists true. rewrite (lookup_specific parse view inst s f i rg path (folders ++ [n]) A Ir); [|now rewrite G8].
    assert (J0 : String.eqb (join sdot (folders ++ [n])) "" = false).
    { apply String.eqb_neq. intros K. assert (Hn0 : has_char dot n = false /\ n <> "").
      { rewrite app_comm_cons in P3. apply Forall_app in P3 as [_ P3]. inversion P3; tauto. }
      destruct Hn0 as [_ Hn0]. destruct folders as [|x [|y folders]]; cbn in K; [congruence| |]; destruct x; discriminate. }
    rewrite J0. destruct (C51_registrar_finds_the_same (reg_coll rg) (folders ++ [n]) (conj Us0 Us1)) as [K _]. rewrite K. now rewrite G. }
  assert (Hn : mem n mgr_reserved = false) by (rewrite app_comm_cons in P3; apply Forall_app in P3 as [_ P3]; inversion P3; tauto).
  rewrite app_comm_cons in P2, P3, P4.
  assert (Pf : Forall plain_folder (nm :: folders)).
  { rewrite removelast_last in P4. apply Forall_app in P3 as [P3 _]. rewrite Forall_forall in *. intros x Hx. split; [now apply P3|now apply P4]. }
  assert (Ns : n <> "section") by (rewrite last_last in P5; exact P5).
  assert (Ef' : exists t, final f l (defaults_of s ++ (nm :: folders) ++ [(n ++ ".py")%string]) = Some (File t) /\ exec ((nm :: folders) ++ [(n ++ ".py")%string]) t = Ok own) by (exists text; split; [exact Ef|exact Ex]).
  destruct (item_setting exec (final f l) (defaults_of s) (su_config_folder s) _ cm M L (nm :: folders) n own "" Dr Nd Pf P2 Hn Ns Ef') as [Ov _].
  assert (Cw : cms_wf cm) by (apply (cm_load_wf (su_config_folder s) (config_dir (final f l))); [exact (proj1 M)|now apply (mirrors_wf exec (final f l) (defaults_of s))|exact L]).
  cbn [app] in Ov. rewrite <- Ep in Ov. destruct (run_first_inst i u (RS cm [] next []) path own k Cw Ov If eq_refl) as (r' & args & E1 & E2 & E3 & E4). exists r', args. split; [exact E1|]. split.
  - intros x. rewrite E2, Ep. cbn [r_cms]. destruct (mem x (f_args k)); [|reflexivity].
    apply (item_setting exec (final f l) (defaults_of s) (su_config_folder s) _ cm M L (nm :: folders) n own x Dr Nd Pf P2 Hn Ns Ef').
  - split; [exact E3|]. exact E4.
Qed.
End EndToEnd.
