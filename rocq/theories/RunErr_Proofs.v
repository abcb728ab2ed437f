(** Lemmas for the error of a section with entries that are no functions (C24). *)
From Verif Require Import Runner_Model ConfigTree_Spec Runner_Spec Run_Spec ConfigTree_Proofs ConfigOps_Proofs RunnerOps_Proofs Runner_Proofs Run_Proofs
  ConfigTree_Props View_Proofs.
Local Open Scope string_scope.
Local Open Scope list_scope.

(** Getting the config of an item does not change what is seen anywhere else. *)
Lemma get_config_see path q s : cms_wf (r_cms s) -> own_values (r_cms s) (path_parts path) <> None -> q <> path_parts path ->
  see (r_cms (fst (get_config path s))) q = see (r_cms s) q.
Proof.
  intros W Ho Hq. assert (Ht : target (r_cms s) (path_parts path) = Some (CItem (path_parts path))).
  { unfold target, own_values in *. now destruct (see (r_cms s) (path_parts path)) as [[]|]. }
  unfold get_config, bind, on_cms. destruct (cm_get path (r_cms s)) as [st o] eqn:E.
  destruct (C11_get_leaves_others _ _ _ _ W Ht E q Hq) as (S & _).
  destruct o as [[r|]|e]; cbn [fst r_cms]; try exact S. unfold deref. destruct (read_cref st r); exact S.
Qed.
Lemma gfc_see its path q s : cms_wf (r_cms s) -> own_values (r_cms s) (path_parts path) <> None -> q <> path_parts path ->
  see (r_cms (fst (get_func_and_config its path s))) q = see (r_cms s) q.
Proof.
  intros W Ho Hq. assert (G := get_config_see path q s W Ho Hq). unfold get_func_and_config, bind. destruct (get_config path s) as [s1 [c|e]]; [|exact G].
  unfold lift. destruct (get_func_or_collection its path) as [[b [c'|[]|]]|]; exact G.
Qed.
Lemma run_func_see its u path q s : cms_wf (r_cms s) -> own_values (r_cms s) (path_parts path) <> None -> q <> path_parts path ->
  see (r_cms (fst (run_one_func its u path s))) q = see (r_cms s) q.
Proof.
  intros W Ho Hq. assert (G := gfc_see its path q s W Ho Hq). assert (K := gfc_grows its path s). unfold run_one_func, bind at 1.
  destruct (get_func_and_config its path s) as [s1 [c|e]]; [|exact G]. cbn [fst] in *. destruct (proj2 K W) as (W1 & C1).
  assert (G1 : see (r_cms (fst (get_one_func_with_config its path s1))) q = see (r_cms s1) q).
  { unfold get_one_func_with_config, bind at 1, gets. destruct (dget path (r_loaded s1)); [reflexivity|].
    assert (G2 := gfc_see its path q s1 W1 (C1 _ Ho) Hq). unfold bind at 1. destruct (get_func_and_config its path s1) as [s2 [[[f b] kw]|e]]; exact G2. }
  unfold bind. destruct (get_one_func_with_config its path s1) as [s2 [ob|e]]; cbn [fst call_object r_cms] in *; congruence.
Qed.

(** The error of an entry that is no function. *)
Definition entry_error (t : thing) (own : option config) : exn :=
  match t, own with
  | TOther, _ => ValueError
  | TBroken e, _ => e
  | _, Some _ => TypeError
  | _, None => not_loaded
  end.
Lemma entry_fails its u path c subs x t s m own : get_func_or_collection its path = Ok (false, FColl c) -> cms_wf (r_cms s) ->
  see (r_cms s) (path_parts path) = Some (SSec m own) -> (forall f, t <> TFunc f) ->
  exists s1, run_entry its u path subs (EItem x t) s = (s1, Raise (entry_error t own)) /\ r_calls s1 = r_calls s /\ r_loaded s1 = r_loaded s.
Proof.
  intros Hp W Hs Nf.
  assert (G : exists s1, r_calls s1 = r_calls s /\ r_loaded s1 = r_loaded s /\
    match own with Some _ => exists cf, get_config path s = (s1, Ok cf) | None => get_config path s = (s1, Raise not_loaded) end).
  { unfold get_config, bind, on_cms. destruct (cm_get path (r_cms s)) as [st' o'] eqn:E. destruct own as [cf|].
    - assert (S := cm_get_spec _ _ _ _ W E). unfold target in S. rewrite Hs in S. cbn [current] in S. rewrite Hs in S.
      destruct S as (_ & _ & -> & c' & R & _). cbn [r_cms]. unfold deref. rewrite R. eexists. split; [|split; [|eexists; reflexivity]]; reflexivity.
    - rewrite cm_get_tail in E. unfold bind in E. rewrite (gf_sec _ _ _ _ Hs : get_func_or_section_configs _ _ = _) in E.
      destruct (get_tail_chain _ _ _ None Hs) as (w & Et & _). rewrite Et in E. injection E as <- <-.
      cbn. eexists. split; [|split; [|reflexivity]]; reflexivity. }
  destruct G as (s1 & C1 & L1 & G).
  destruct t as [f|k| |e|k]; cbn [run_entry entry_error]; [now destruct (Nf f)| | | |].
  - exists s1. unfold run_one_class, get_func_and_config, bind. destruct own; [destruct G as (cf & G)|]; rewrite G; [unfold lift; rewrite Hp|]; auto.
  - exists s. auto.
  - exists s. auto.
  - exists s1. unfold run_one_specific_class, get_class_and_config, bind. destruct own; [destruct G as (cf & G)|]; rewrite G; [unfold lift; rewrite Hp|]; auto.
Qed.

Lemma sub_path_parts path x : path_parts (sub_path path x) <> path_parts path.
Proof.
  rewrite sub_path_str. unfold path_parts, mk_sp. cbn [sections]. unfold section_path_str_to_section_strs.
  change (path ++ "." ++ x)%string with (path ++ String dot x)%string. rewrite split_app. intro H. apply (f_equal (@length _)) in H. rewrite app_length in H.
  assert (split dot x <> []) by apply (path_parts_nonempty x). destruct (split dot x); [congruence|cbn in H; lia].
Qed.

(** Functions first: they are called, and nothing of this changes what the section is. *)
Lemma functions_then its u path n l subs : names_ok (Coll n l) -> get_func_or_collection its path = Ok (false, FColl (Coll n l)) ->
  (forall calls p ob e, u_call u calls p ob <> Raise e) ->
  forall fs x t after s s' o m own, incl fs l -> cms_wf (r_cms s) -> see (r_cms s) (path_parts path) = Some (SSec m own) ->
  (forall e, In e fs -> exists y f, e = EItem y (TFunc f) /\ own_values (r_cms s) (path_parts (path ++ "." ++ y)) <> None) -> (forall f, t <> TFunc f) ->
  mapM (run_entry its u path subs) (fs ++ EItem x t :: after) s = (s', o) ->
  o = Raise (entry_error t own) /\ exists objs, r_calls s' = r_calls s ++ objs /\ map fst objs = map (fun e => (path ++ "." ++ entry_name e)%string) fs.
Proof.
  intros N Hp Nr. induction fs as [|e fs IH]; intros x t after s s' o m own Hi W Hs Hf Nf H.
  - cbn [app mapM] in H. unfold bind at 1 in H. destruct (entry_fails its u path _ subs x t s m own Hp W Hs Nf) as (s1 & E & C & _). rewrite E in H. injection H as <- <-.
    split; [reflexivity|]. exists []. now rewrite app_nil_r.
  - destruct (Hf e (or_introl eq_refl)) as (y & f & -> & Ho). cbn [app mapM] in H. unfold bind at 1 in H. cbn [run_entry] in H.
    assert (Fy : is_func its (sub_path path y) f) by (exists false; exact (entry_found its path n l (EItem y (TFunc f)) Hp N (Hi _ (or_introl eq_refl)) ltac:(discriminate))).
    assert (Ho' := Ho). rewrite <- sub_path_str in Ho'. assert (K := run_func_grows its u (sub_path path y) s).
    assert (S1 := run_func_see its u (sub_path path y) (path_parts path) s W Ho' (fun X => sub_path_parts path y (eq_sym X))).
    destruct (run_one_func its u (sub_path path y) s) as [s1 o1] eqn:E1. cbn [fst] in *. destruct (proj2 K W) as (W1 & C1).
    destruct (run_func_ran _ _ _ _ _ _ _ W Ho' Fy E1) as (ob & Cs & _ & ->).
    destruct (u_call u (r_calls s) (sub_path path y) ob) as [v|e] eqn:Eu; [|now apply Nr in Eu].
    unfold bind at 1 in H. destruct (mapM (run_entry its u path subs) (fs ++ EItem x t :: after) s1) as [s2 o2] eqn:E2.
    destruct (IH x t after s1 s2 o2 m own) as (-> & objs & C2 & P2); auto.
    + intros z Hz. apply Hi. now right.
    + congruence.
    + intros z Hz. destruct (Hf z (or_intror Hz)) as (y' & f' & -> & Hz'). exists y', f'. split; [reflexivity|now apply C1].
    + injection H as <- <-. split; [reflexivity|]. exists ((sub_path path y, ob) :: objs). rewrite C2, Cs, <- app_assoc. split; [reflexivity|].
      cbn [map fst entry_name]. now rewrite P2, sub_path_str.
Qed.
