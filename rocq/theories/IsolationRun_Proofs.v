(** Two histories of a runner side by side (C92). *)
From Verif Require Import Isolation_Spec Config_Proofs ConfigTree_Proofs ConfigOps_Proofs ConfigLoad_Proofs ConfigWf_Proofs Runner_Proofs Run_Proofs SectionPath_Proofs RunnerOps_Proofs Isolation_Proofs IsolationTwin_Proofs ConfigTree_Example.
From Coq Require Import Lia.
Local Open Scope string_scope.
Local Open Scope list_scope.
Local Open Scope monad_scope.

(** * The invariant *)
Lemma touched_cinv base a a' r : touches r a a' -> (tree_wf a -> tree_wf a') -> cinv base a -> cinv base a'.
Proof. intros T W (I1 & I2). split; [auto|eapply named_touches; eassumption]. Qed.
Lemma get_cinv base q a : cinv base a -> cinv base (fst (cm_get q a)).
Proof.
  intro I. assert (K := cm_get_keeps q a). destruct (cm_get q a) as [a' o] eqn:E. cbn [fst] in *.
  assert (S := cm_get_spec _ _ _ _ (tree_cms_wf _ (proj1 I)) E).
  destruct (target a (path_parts q)) as [r|]; [|destruct S as (-> & _); exact I]. destruct S as (S & _). exact (touched_cinv _ _ _ _ S K I).
Qed.
Lemma update_cinv base d q persist kw a : cinv base a -> cinv base (fst (cm_update d q persist kw a)).
Proof.
  intro I. assert (K := cm_update_keeps d q persist kw a). destruct (cm_update d q persist kw a) as [a' o] eqn:E. cbn [fst] in *.
  assert (S := cm_update_spec _ _ _ _ _ _ _ E).
  destruct (path_target a q) as [r|]; [|destruct S as (-> & _); exact I]. destruct S as (S & _). exact (touched_cinv _ _ _ _ S K I).
Qed.
Lemma refresh_cinv base q a : cinv base a -> cinv base (fst (cm_refresh q a)).
Proof.
  intro I. assert (K := cm_refresh_keeps q a). destruct (cm_refresh q a) as [a' o] eqn:E. cbn [fst] in *.
  assert (S := cm_refresh_spec _ _ _ _ E).
  destruct (target a (path_parts q)) as [r|]; [|destruct S as (-> & _); exact I]. destruct S as (S & _). exact (touched_cinv _ _ _ _ S K I).
Qed.
Lemma reset_cinv base q a : target a (path_parts q) = Some (CItem (path_parts q)) -> cinv base a -> cinv base (fst (cm_reset base (Some q) false a)).
Proof.
  intros T I. assert (K := cm_reset_keeps base (Some q) false a). destruct (cm_reset base (Some q) false a) as [a' o] eqn:E. cbn [fst] in *.
  assert (S := cm_reset_item _ _ _ _ _ T E). destruct S as (S & _). exact (touched_cinv _ _ _ _ S K I).
Qed.
Lemma reset_local_cinv base ac a : cinv base a -> cinv base (fst (cm_reset base None ac a)).
Proof.
  intro I. apply (touched_cinv base a _ CLocal); [|exact (cm_reset_keeps base None ac a)|exact I].
  cbn. split; [reflexivity|]. split; [reflexivity|]. split; [congruence|reflexivity].
Qed.

Section Twin.
Variables (base : string) (its : items) (u : user) (path : string).
Let p := path_parts path.

Definition ragree (s t : rs) : Prop :=
  rinv base path s /\ rinv base path t /\ agree path (r_cms s) (r_cms t) /\ alike_opt (dget path (r_loaded s)) (dget path (r_loaded t)).

Lemma ragree_frame s t s' t' : ragree s t -> rinv base path s' -> rinv base path t' -> rframe path s s' -> rframe path t t' -> ragree s' t'.
Proof.
  intros (_ & _ & A & L) Is It (Fs & Ls) (Ft & Lt). split; [exact Is|]. split; [exact It|]. split; [eapply agree_frame; eassumption|].
  now rewrite Ls, Lt.
Qed.
Lemma foreign_left op s t : u_pre_run u = [] -> foreign base p op -> ragree s t -> ragree (rop_run base its u s op) t.
Proof.
  intros P F H. destruct (foreign_rstp base its u path op s P F (proj1 H)) as (I & Fr). apply (ragree_frame s t); auto; [apply H|].
  split; [apply cframe_refl|reflexivity].
Qed.
Lemma foreign_right op s t : u_pre_run u = [] -> foreign base p op -> ragree s t -> ragree s (rop_run base its u t op).
Proof.
  intros P F H. destruct (foreign_rstp base its u path op t P F (proj1 (proj2 H))) as (I & Fr). apply (ragree_frame s t); auto; [apply H|].
  split; [apply cframe_refl|reflexivity].
Qed.

Definition same_res {A} (Q : A -> A -> Prop) (x y : res A) : Prop :=
  match x, y with Ok a, Ok b => Q a b | Raise e, Raise e' => e = e' | _, _ => False end.
Definition rtw {A} (Q : A -> A -> Prop) (m m' : M rs A) (s t : rs) : Prop :=
  ragree (fst (m s)) (fst (m' t)) /\ same_res Q (snd (m s)) (snd (m' t)).

Lemma rtw_bind {A B} (Q : A -> A -> Prop) (Q' : B -> B -> Prop) m m' f f' s t : rtw Q m m' s t ->
  (forall x y s' t', m s = (s', Ok x) -> m' t = (t', Ok y) -> Q x y -> ragree s' t' -> rtw Q' (f x) (f' y) s' t') -> rtw Q' (bind m f) (bind m' f') s t.
Proof.
  intros (H1 & H2) K. unfold rtw, bind. destruct (m s) as [s' o] eqn:Es, (m' t) as [t' o'] eqn:Et. cbn [fst snd] in *.
  destruct o as [x|e], o' as [y|e']; try contradiction; [|now split]. exact (K x y s' t' eq_refl eq_refl H2 H1).
Qed.
Lemma rtw_ret {A} (Q : A -> A -> Prop) x y s t : ragree s t -> Q x y -> rtw Q (ret x) (ret y) s t. Proof. intros. now split. Qed.
Lemma rtw_raise {A} (Q : A -> A -> Prop) e s t : ragree s t -> rtw Q (raise e) (raise e) s t. Proof. intros. now split. Qed.
Lemma rtw_lift {A} (r : res A) s t : ragree s t -> rtw eq (lift r) (lift r) s t. Proof. intros. split; [assumption|]. now destruct r. Qed.
Lemma rtw_cms {A} (m : M cms A) s t : ragree s t -> tw path m (r_cms s) (r_cms t) ->
  (forall a, target a p = Some (CItem p) -> cinv base a -> cinv base (fst (m a))) -> rtw eq (on_cms m) (on_cms m) s t.
Proof.
  intros ((I1 & T1 & L1) & (I2 & T2 & L2) & Ag & L) (W1 & W2) K.
  assert (K1 := K _ T1 I1). assert (K2 := K _ T2 I2). unfold rtw, on_cms. destruct (m (r_cms s)) as [a o], (m (r_cms t)) as [b o']. cbn [fst snd] in *. subst o'.
  split; [|now destruct o]. split; [split; [exact K1|]; split; [apply W1|exact L1]|]. split; [split; [exact K2|]; split; [apply W1|exact L2]|].
  split; [exact W1|exact L].
Qed.
Lemma rtw_deref r s t : near p r -> ragree s t -> rtw eq (on_cms (deref r)) (on_cms (deref r)) s t.
Proof.
  intros N H. apply rtw_cms; [exact H|apply tw_deref; [exact N|apply H]|]. intros a _ I. unfold deref. now destruct (read_cref a r).
Qed.
Lemma rtw_emit e s t : ragree s t -> rtw eq (on_cms (emit e)) (on_cms (emit e)) s t.
Proof. intro H. apply rtw_cms; [exact H|apply tw_emit, H|]. intros a _ I. exact I. Qed.
Lemma rtw_set o o' s t : ragree s t -> alike o o' -> rtw (fun _ _ => True) (set_loaded path o) (set_loaded path o') s t.
Proof.
  intros ((I1 & T1 & L1) & (I2 & T2 & L2) & A & L) Ho. split; [|exact I]. cbn.
  split; [|split; [|split; [exact A|]]].
  - split; [exact I1|]. split; [exact T1|]. intros q Hq N. cbn. rewrite dget_dset_neq by exact N. now apply L1.
  - split; [exact I2|]. split; [exact T2|]. intros q Hq N. cbn. rewrite dget_dset_neq by exact N. now apply L2.
  - cbn. now rewrite !dget_dset_eq.
Qed.
Lemma rtw_fresh s t : ragree s t -> rtw (fun _ _ => True) fresh fresh s t.
Proof. intro H. split; [exact H|exact I]. Qed.
Lemma rtw_loaded s t : ragree s t -> rtw alike_opt (gets (fun s => dget path (r_loaded s))) (gets (fun s => dget path (r_loaded s))) s t.
Proof. intro H. split; [exact H|apply H]. Qed.

Lemma rtw_config s t : ragree s t -> rtw eq (get_config path) (get_config path) s t.
Proof.
  intro H. destruct (tw_get path _ _ (proj1 (proj2 (proj2 H)))) as (W & N). unfold get_config. apply (rtw_bind eq).
  - apply rtw_cms; [exact H|exact W|]. intros. now apply get_cinv.
  - intros o o' s' t' E _ <- H'. destruct o as [r|]; [|now apply rtw_raise]. apply rtw_deref; [|exact H'].
    unfold on_cms in E. destruct (cm_get path (r_cms s)) as [a [[r'|]|e]]; try discriminate. injection E as _ <-.
    rewrite (N _ _ eq_refl). reflexivity.
Qed.
Lemma rtw_gfc s t : ragree s t -> rtw eq (get_func_and_config its path) (get_func_and_config its path) s t.
Proof.
  intro H. unfold get_func_and_config. apply (rtw_bind eq); [now apply rtw_config|]. intros c c' s1 t1 _ _ <- H1.
  apply (rtw_bind eq); [now apply rtw_lift|]. intros f f' s2 t2 _ _ <- H2. destruct (snd f) as [|[]|]; try (now apply rtw_raise); now apply rtw_ret.
Qed.
Lemma rtw_gcc s t : ragree s t -> rtw eq (get_class_and_config its path) (get_class_and_config its path) s t.
Proof.
  intro H. unfold get_class_and_config. apply (rtw_bind eq); [now apply rtw_config|]. intros c c' s1 t1 _ _ <- H1.
  apply (rtw_bind eq); [now apply rtw_lift|]. intros f f' s2 t2 _ _ <- H2. destruct (snd f) as [|[]|]; try (now apply rtw_raise); now apply rtw_ret.
Qed.
Lemma rtw_func s t : ragree s t -> rtw alike (get_one_func_with_config its path) (get_one_func_with_config its path) s t.
Proof.
  intro H. unfold get_one_func_with_config. apply (rtw_bind alike_opt); [now apply rtw_loaded|]. intros o o' s1 t1 _ _ Ho H1.
  destruct o as [o|], o' as [o'|]; try contradiction; [now apply rtw_ret|]. apply (rtw_bind eq); [now apply rtw_gfc|].
  intros [[f b] kw] y s2 t2 _ _ <- H2. apply (rtw_bind (fun _ _ => True)); [now apply rtw_fresh|]. intros i i' s3 t3 _ _ _ H3.
  cbn zeta. assert (X : alike (LPartial i f b kw) (LPartial i' f b kw)) by (cbn; auto).
  apply (rtw_bind (fun _ _ => True)); [now apply rtw_set|]. intros _ _ s4 t4 _ _ _ H4. now apply rtw_ret.
Qed.
Lemma rtw_obj s t : ragree s t -> rtw alike (get_one_obj_with_config its u path) (get_one_obj_with_config its u path) s t.
Proof.
  intro H. unfold get_one_obj_with_config. apply (rtw_bind alike_opt); [now apply rtw_loaded|]. intros o o' s1 t1 _ _ Ho H1.
  destruct o as [o|], o' as [o'|]; try contradiction; [now apply rtw_ret|]. apply (rtw_bind eq); [now apply rtw_lift|]. intros f f' s5 t5 _ _ _ H5.
  apply (rtw_bind eq); [now apply rtw_gcc|].
  intros [[k b] kw] y s2 t2 _ _ <- H2. cbn zeta. destruct (u_init u k (if b then kw else relevant_config k kw)); [now apply rtw_raise|].
  apply (rtw_bind (fun _ _ => True)); [now apply rtw_fresh|]. intros i i' s3 t3 _ _ _ H3. set (args := if b then kw else relevant_config k kw).
  assert (X : alike (LInst i k [args]) (LInst i' k [args])) by (cbn; auto).
  apply (rtw_bind (fun _ _ => True)); [now apply rtw_set|]. intros _ _ s4 t4 _ _ _ H4. now apply rtw_ret.
Qed.

(** a run of the item: find the object, then call it *)
Definition run_head (t : thing) : M rs lobj :=
  match t with
  | TInst _ => get_class_and_config its path ;;; get_one_obj_with_config its u path
  | TClass _ => get_func_and_config its path ;;; get_one_obj_with_config its u path
  | TFunc _ => get_func_and_config its path ;;; get_one_func_with_config its path
  | _ => raise ValueError
  end.
Lemma run_one_eq b t s : get_func_or_collection its path = Ok (b, FThing t) -> run_one its u path s = (o <- run_head t ;; call_object u path o) s.
Proof.
  intro E. unfold run_one, bind, lift. rewrite E. unfold run_head, run_one_func, run_one_class, run_one_specific_class, bind.
  destruct b, t; try reflexivity;
    repeat match goal with |- context [match ?x with pair _ _ => _ end] => destruct x as [? []] end; reflexivity.
Qed.
Lemma rtw_head th s t : ragree s t -> rtw alike (run_head th) (run_head th) s t.
Proof.
  intro H. destruct th; cbn [run_head]; try (now apply rtw_raise).
  - apply (rtw_bind eq); [now apply rtw_gfc|]. intros. now apply rtw_func.
  - apply (rtw_bind eq); [now apply rtw_gfc|]. intros. now apply rtw_obj.
  - apply (rtw_bind eq); [now apply rtw_gcc|]. intros. now apply rtw_obj.
Qed.

(** the setting does not matter for what a run of the item does *)
Definition pm_out (set : setting) (o : res result) : res result :=
  let post r := match u_post_run u r with [] => r | extra => RList (r :: extra) end in
  match set, o with
  | Plain, Ok r => Ok (post r)
  | Plain, Raise e => Raise e
  | ForceContinue, Ok r => Ok (post r)
  | AutoPdb, Ok r => Ok (post r)
  | ForceContinue, Raise e => if user_interrupt e then Raise SystemExit else Ok (RList [])
  | AutoPdb, Raise e => if user_interrupt e then Raise SystemExit else Ok (RVal VNone)
  end.
Lemma pm_run_eq set s : u_pre_run u = [] ->
  pm_run its u set (AStr path) s = (fst (run_one its u path s), pm_out set (snd (run_one its u path s))).
Proof.
  intro P. unfold pm_run. rewrite P. unfold combine. cbn [app].
  assert (R : runner_run its u (AStr path) s = (fst (run_one its u path s), pm_out Plain (snd (run_one its u path s)))).
  { unfold runner_run, bind. destruct (run_one its u path s) as [s' [r|e]]; cbn; [|reflexivity]. now destruct (u_post_run u r). }
  destruct set.
  - exact R.
  - unfold run_with_force_continue, force_loop. unfold bind, try_run. rewrite R.
    destruct (run_one its u path s) as [s' [r|e]]; cbn; [reflexivity|]. destruct (user_interrupt e); reflexivity.
  - unfold bind, try_run. rewrite R. destruct (run_one its u path s) as [s' [r|e]]; cbn; [reflexivity|]. destruct (user_interrupt e); reflexivity.
Qed.

Lemma call_agree o o' s t : ragree s t -> ragree (fst (call_object u path o s)) (fst (call_object u path o' t)).
Proof. intro H. exact H. Qed.
Lemma run_agree set s t : u_pre_run u = [] -> is_thing its path -> ragree s t ->
  ragree (fst (pm_run its u set (AStr path) s)) (fst (pm_run its u set (AStr path) t)).
Proof.
  intros P (b & th & E) H. rewrite !(pm_run_eq set _ P). cbn [fst]. rewrite !(run_one_eq _ _ _ E). destruct (rtw_head th s t H) as (H1 & H2).
  unfold bind. destruct (run_head th s) as [s' [o|e]], (run_head th t) as [t' [o'|e']]; cbn [fst snd same_res] in *; try contradiction; [|exact H1].
  now apply call_agree.
Qed.

(** nothing is called before the object is there *)
Definition quiet (s s' : rs) : Prop := r_calls s' = r_calls s.
Ltac qbind := apply (keeps_bind quiet (fun a b c (H : quiet a b) (H' : quiet b c) => eq_trans H' H)).
Ltac qdone := first [apply (keeps_ret quiet (fun _ => eq_refl)) | apply (keeps_raise quiet (fun _ => eq_refl))
                    | apply (keeps_lift quiet (fun _ => eq_refl)) | apply (keeps_gets quiet (fun _ => eq_refl))].
Lemma cms_quiet {A} (m : M cms A) : keeps quiet (on_cms m).
Proof. intro s. unfold on_cms. destruct (m (r_cms s)). reflexivity. Qed.
Lemma config_quiet : keeps quiet (get_config path).
Proof. unfold get_config. qbind; [apply cms_quiet|]. intros [r|]; [apply cms_quiet|qdone]. Qed.
Lemma gfc_quiet : keeps quiet (get_func_and_config its path).
Proof. unfold get_func_and_config. qbind; [apply config_quiet|]. intro. qbind; [qdone|]. intros [b f]. cbn [snd]. destruct f as [|[]|]; qdone. Qed.
Lemma gcc_quiet : keeps quiet (get_class_and_config its path).
Proof. unfold get_class_and_config. qbind; [apply config_quiet|]. intro. qbind; [qdone|]. intros [b f]. cbn [snd]. destruct f as [|[]|]; qdone. Qed.
Lemma func_quiet : keeps quiet (get_one_func_with_config its path).
Proof.
  unfold get_one_func_with_config. qbind; [qdone|]. intros [o|]; [qdone|]. qbind; [apply gfc_quiet|]. intros [[f b] kw].
  qbind; [intro; reflexivity|]. intro. qbind; [intro; reflexivity|]. intro. qdone.
Qed.
Lemma obj_quiet : keeps quiet (get_one_obj_with_config its u path).
Proof.
  unfold get_one_obj_with_config. qbind; [qdone|]. intros [o|]; [qdone|]. qbind; [qdone|]. intro. qbind; [apply gcc_quiet|]. intros [[k b] kw].
  destruct (u_init u k _); [qdone|]. qbind; [intro; reflexivity|]. intro. qbind; [intro; reflexivity|]. intro. qdone.
Qed.
Lemma head_quiet th : keeps quiet (run_head th).
Proof.
  destruct th; cbn [run_head]; try qdone; qbind; first [apply gfc_quiet|apply gcc_quiet|intro; apply func_quiet|intro; apply obj_quiet].
Qed.

Lemma agree_runs s t : u_pre_run u = [] -> is_thing its path -> ragree s t -> runs_alike its u path s t.
Proof.
  intros P (b & th & E) H set run. unfold run. rewrite !(pm_run_eq set _ P). cbn [fst snd]. rewrite !(run_one_eq _ _ _ E). destruct (rtw_head th s t H) as (_ & H2).
  assert (Qs := head_quiet th s). assert (Qt := head_quiet th t). unfold quiet in *.
  unfold bind. destruct (run_head th s) as [s' [o|e]], (run_head th t) as [t' [o'|e']]; cbn [fst snd same_res] in *; try contradiction.
  - exists [(path, o)], [(path, o')]. unfold call_object. cbn [fst snd r_calls]. rewrite Qs, Qt. split; [reflexivity|]. split; [reflexivity|]. split.
    + constructor; [cbn; auto|constructor].
    + intros [B|B]; [discriminate|]. now rewrite (B (r_calls s) (r_calls t) o o' H2).
  - exists [], []. rewrite !app_nil_r, Qs, Qt, H2. split; [reflexivity|]. split; [reflexivity|]. split; [constructor|]. reflexivity.
Qed.

(** * The operations on the item *)
Lemma rtw_apply o o' cfg s t : ragree s t -> alike o o' -> rtw (fun _ _ => True) (apply_config u path o cfg) (apply_config u path o' cfg) s t.
Proof.
  intros H A. destruct o as [i f b kw|i k cs], o' as [i' f' b' kw'|i' k' cs']; try contradiction; cbn [apply_config] in *.
  - destruct A as (-> & -> & ->). apply rtw_set; [exact H|cbn; auto].
  - destruct A as (-> & ->). destruct (u_init u k' _); [now apply rtw_raise|]. apply rtw_set; [exact H|cbn; auto].
Qed.
Lemma any_unit {A} (Q : A -> A -> Prop) m m' s t : rtw Q m m' s t -> ragree (fst (m s)) (fst (m' t)). Proof. apply proj1. Qed.

Lemma update_agree d q persist kw s t : around_opt path q -> ragree s t ->
  rtw (fun _ _ => True) (runner_update u d q persist kw) (runner_update u d q persist kw) s t.
Proof.
  intros A H. destruct (tw_update path d q persist kw _ _ A (proj1 (proj2 (proj2 H)))) as (W & N).
  rewrite runner_update_eq. apply (rtw_bind eq).
  { apply rtw_cms; [exact H|exact W|]. intros. now apply update_cinv. }
  intros [r w] y s1 t1 E1 E1' <- H1. assert (Nr : near p r).
  { unfold on_cms in E1. destruct (cm_update d q persist kw (r_cms s)) as [a [[r' w']|e]]; [|discriminate]. injection E1 as _ <- _. exact (N _ _ _ eq_refl). }
  unfold after_update. assert (L : rtw (fun o o' => alike_opt o o' /\ (forall x, o = Some x -> q = Some path)) (loaded_at q) (loaded_at q) s1 t1).
  { split; [exact H1|]. cbn. destruct q as [q|]; [|split; [exact I|discriminate]]. destruct (string_dec q path) as [->|Nq]; [split; [apply H1|auto]|].
    destruct H1 as ((_ & _ & L1) & (_ & _ & L2) & _). cbn [around_opt] in A. rewrite (L1 q A Nq), (L2 q A Nq). split; [exact I|discriminate]. }
  apply (rtw_bind _ _ _ _ _ _ _ _ L). intros o o' s2 t2 _ _ (Ho & Hq) H2. destruct o as [o|], o' as [o'|]; try contradiction; [|now apply rtw_ret].
  destruct w; [|now apply rtw_ret]. rewrite (Hq o eq_refl). cbn [opt_path].
  apply (rtw_bind eq); [now apply rtw_deref|]. intros c c' s3 t3 _ _ <- H3.
  apply (rtw_bind (fun _ _ => True)); [now apply rtw_apply|]. intros _ _ s4 t4 _ _ _ H4. destruct (dmem "d" kw); [now apply rtw_raise|].
  destruct (rtw_emit (EvPost path (dupdate (opt_dict d) kw)) s4 t4 H4) as (X & Y). split; [exact X|]. exact I.
Qed.
Lemma refresh_agree q s t : around path q -> ragree s t -> rtw (fun _ _ => True) (runner_refresh u q) (runner_refresh u q) s t.
Proof.
  intros A H. rewrite runner_refresh_eq. apply (rtw_bind eq).
  { apply rtw_cms; [exact H|apply tw_refresh; [exact A|apply H]|]. intros. now apply refresh_cinv. }
  intros [[r w] us] y s1 t1 _ _ <- H1. unfold after_refresh.
  assert (L : rtw (fun o o' => alike_opt o o' /\ (forall x, o = Some x -> q = path)) (loaded_at (Some q)) (loaded_at (Some q)) s1 t1).
  { split; [exact H1|]. cbn. destruct (string_dec q path) as [->|Nq]; [split; [apply H1|auto]|].
    destruct H1 as ((_ & _ & L1) & (_ & _ & L2) & _). rewrite (L1 q A Nq), (L2 q A Nq). split; [exact I|discriminate]. }
  apply (rtw_bind _ _ _ _ _ _ _ _ L). intros o o' s2 t2 _ _ (Ho & Hq) H2. destruct o as [o|], o' as [o'|]; try contradiction; [|now apply rtw_ret].
  destruct w; [|now apply rtw_ret]. rewrite (Hq o eq_refl).
  apply (rtw_bind eq); [now apply rtw_config|]. intros c c' s3 t3 _ _ <- H3.
  apply (rtw_bind (fun _ _ => True)); [now apply rtw_apply|]. intros _ _ s4 t4 _ _ _ H4.
  destruct (rtw_emit (EvPost path us) s4 t4 H4) as (X & Y). split; [exact X|]. exact I.
Qed.
Lemma reset_agree s t : ragree s t -> rtw (fun _ _ => True) (runner_reset base u (Some path) false) (runner_reset base u (Some path) false) s t.
Proof.
  intro H. unfold runner_reset. apply (rtw_bind eq).
  { apply rtw_cms; [exact H|apply tw_reset, H|]. intros. now apply reset_cinv. }
  intros [def w] y s1 t1 _ _ <- H1. apply (rtw_bind alike_opt); [now apply rtw_loaded|]. intros o o' s2 t2 _ _ Ho H2.
  destruct o as [o|], o' as [o'|]; try contradiction; [|now apply rtw_ret]. destruct w; [|now apply rtw_ret]. destruct def as [c|d]; [|now apply rtw_raise].
  cbn [opt_path]. apply (rtw_bind (fun _ _ => True)); [now apply rtw_apply|]. intros _ _ s4 t4 _ _ _ H4.
  apply (rtw_bind eq); [now apply rtw_lift|]. intros us us' s5 t5 _ _ <- H5.
  destruct (rtw_emit (EvPost path us) s5 t5 H5) as (X & Y). split; [exact X|]. exact I.
Qed.
Lemma reset_local_agree ac s t : ragree s t -> rtw (fun _ _ => True) (runner_reset base u None ac) (runner_reset base u None ac) s t.
Proof.
  intro H. unfold runner_reset. apply (rtw_bind eq).
  { apply rtw_cms; [exact H|apply tw_reset_local, H|]. intros. now apply reset_local_cinv. }
  intros [def w] y s1 t1 _ _ <- H1. split; [exact H1|exact I].
Qed.
Lemma get_agree s t : is_thing its path -> ragree s t -> ragree (fst (runner_get its u path s)) (fst (runner_get its u path t)).
Proof.
  intros (b & th & E) H. refine (any_unit (fun _ _ => True) _ _ _ _ _). unfold runner_get. apply (rtw_bind eq); [now apply rtw_lift|].
  intros f y s1 t1 Ef _ <- H1. injection Ef as _ Ef. rewrite E in Ef. injection Ef as <-. cbn [snd].
  destruct th; try (now apply rtw_raise); apply (rtw_bind alike); try (now apply rtw_func); try (now apply rtw_obj); intros; now apply rtw_ret.
Qed.

Lemma own_agree op s t : u_pre_run u = [] -> is_thing its path -> own_op path op -> ragree s t ->
  ragree (rop_run base its u s op) (rop_run base its u t op).
Proof.
  intros P Th O H. destruct op as [q|set [q|l]|d q persist kw|[q|] ac|q]; cbn [own_op rop_run] in *; try contradiction.
  - subst q. now apply get_agree.
  - subst q. now apply run_agree.
  - apply (any_unit (fun _ _ => True)). apply update_agree; [|exact H]. destruct q; exact O.
  - destruct ac; [contradiction|]. subst q. apply (any_unit (fun _ _ => True)). now apply reset_agree.
  - apply (any_unit (fun _ _ => True)). now apply reset_local_agree.
  - apply (any_unit (fun _ _ => True)). now apply refresh_agree.
Qed.

Lemma histories_agree ops ops' : u_pre_run u = [] -> is_thing its path -> same_own base path ops ops' ->
  forall s t, ragree s t -> ragree (fold_left (rop_run base its u) ops s) (fold_left (rop_run base its u) ops' t).
Proof.
  intros P Th H. induction H; intros s t A; cbn [fold_left]; [exact A| | |].
  - apply IHsame_own. now apply own_agree.
  - apply IHsame_own. now apply foreign_left.
  - apply IHsame_own. now apply foreign_right.
Qed.

Lemma agree_values s t : ragree s t -> own_values (r_cms s) p = own_values (r_cms t) p.
Proof. intros (_ & _ & (A1 & _ & _ & A4 & _) & _). unfold own_values, p. now rewrite A4, A1. Qed.
Lemma agree_config s t : ragree s t -> snd (get_config path s) = snd (get_config path t).
Proof.
  intro H. destruct (rtw_config s t H) as (_ & X). destruct (snd (get_config path s)), (snd (get_config path t)); cbn in X; try contradiction; now subst.
Qed.

Lemma alike_refl o : alike o o. Proof. destruct o; cbn; auto. Qed.
Lemma agree_load disk n s : disk_ok disk -> runner_load base disk n = Ok s -> target (r_cms s) p = Some (CItem p) -> ragree s s.
Proof.
  intros D L T. unfold runner_load in L. destruct (cm_load base disk) as [c|] eqn:E; [|discriminate]. injection L as <-. cbn [r_cms] in T.
  assert (I : rinv base path (RS c [] n [])) by (split; [eapply load_cinv; eassumption|]; split; [exact T|reflexivity]).
  split; [exact I|]. split; [exact I|]. split; [|exact Logic.I]. split; [reflexivity|]. split; [exact T|]. split; [exact T|]. split; reflexivity.
Qed.
End Twin.

(** * The example *)
Lemma is_disk_ok : disk_ok is_disk.
Proof. split; [now apply dir_check_ok|]. intros [folders f] content. now apply dir_check_wf. Qed.
Lemma is_f_thing : is_thing is_items "sec.f".
Proof. eexists _, _. vm_compute. reflexivity. Qed.
Lemma is_f_apart q : q = ["sec"; "g"] \/ q = ["h"] -> apart "base" ["sec"; "f"] q.
Proof.
  intro H. split.
  - intros t E. destruct H as [-> | ->]; discriminate E.
  - intros r t E N. destruct r as [|x [|y [|z r]]]; [| | |discriminate E]; try (injection E as <- _); destruct H as [-> | ->]; discriminate N.
Qed.
Lemma is_g_apart : apart "base" (path_parts "sec.f") (path_parts "sec.g").
Proof. apply is_f_apart. now left. Qed.
Lemma is_h_apart : apart "base" (path_parts "sec.f") (path_parts "h").
Proof. apply is_f_apart. now right. Qed.
