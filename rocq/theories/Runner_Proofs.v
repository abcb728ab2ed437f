From Verif Require Import Runner_Model ConfigTree_Spec Runner_Spec Config_Proofs ConfigTree_Proofs ConfigOps_Proofs ConfigLoad_Proofs ConfigWf_Proofs.
From Coq Require Import Lia Relations.
Local Open Scope list_scope.
Local Open Scope monad_scope.

(* ------------------------------------------------------------------ *)
(** * Every operation is a sequence of four kinds of elementary steps *)

Inductive rstep : rs -> rs -> Prop :=
| st_cms s c : (tree_wf (r_cms s) -> tree_wf c) -> rstep s (RS c (r_loaded s) (r_next s) (r_calls s))
| st_call s x : rstep s (RS (r_cms s) (r_loaded s) (r_next s) (r_calls s ++ [x]))
| st_add s p o : dget p (r_loaded s) = None -> lobj_id o = r_next s ->
    rstep s (RS (r_cms s) (dset p o (r_loaded s)) (S (r_next s)) (r_calls s))
| st_apply s p o o' : dget p (r_loaded s) = Some o -> same_object o o' ->
    rstep s (RS (r_cms s) (dset p o' (r_loaded s)) (r_next s) (r_calls s)).

Definition rsteps := clos_refl_trans _ rstep.

Definition keeps (R : rs -> rs -> Prop) {A} (m : M rs A) : Prop := forall s, R s (fst (m s)).

Section Keeps.
  Variable R : rs -> rs -> Prop.
  Hypothesis Rrefl : forall s, R s s.
  Hypothesis Rtrans : forall a b c, R a b -> R b c -> R a c.

  Lemma keeps_ret {A} (a : A) : keeps R (ret a). Proof. intro s. apply Rrefl. Qed.
  Lemma keeps_raise {A} e : keeps R (@raise rs A e). Proof. intro s. apply Rrefl. Qed.
  Lemma keeps_lift {A} (r : res A) : keeps R (lift r). Proof. intro s. apply Rrefl. Qed.
  Lemma keeps_gets {A} (f : rs -> A) : keeps R (gets f). Proof. intro s. apply Rrefl. Qed.
  Lemma keeps_bind {A B} (m : M rs A) (k : A -> M rs B) : keeps R m -> (forall a, keeps R (k a)) -> keeps R (bind m k).
  Proof.
    intros Hm Hk s. unfold bind. specialize (Hm s). destruct (m s) as [s1 [a|e]]; [|exact Hm].
    eapply Rtrans; [exact Hm|]. apply Hk.
  Qed.
  Lemma keeps_mapM {A B} (f : A -> M rs B) l : (forall a, In a l -> keeps R (f a)) -> keeps R (mapM f l).
  Proof.
    induction l as [|a l IH]; intro Hf; [apply keeps_ret|]. cbn [mapM]. apply keeps_bind; [apply Hf; now left|].
    intro. apply keeps_bind; [apply IH; intros; apply Hf; now right|]. intro. apply keeps_ret.
  Qed.
  Lemma keeps_try {A} (m : M rs A) : keeps R m -> keeps R (try_run m).
  Proof.
    intros Hm s. specialize (Hm s). unfold try_run. destruct (m s) as [s1 [a|e]]; [exact Hm|]. destruct (user_interrupt e); exact Hm.
  Qed.
End Keeps.

Lemma rsteps_refl s : rsteps s s. Proof. apply rt_refl. Qed.
Lemma rsteps_trans a b c : rsteps a b -> rsteps b c -> rsteps a c. Proof. apply rt_trans. Qed.
Lemma rstep_1 a b : rstep a b -> rsteps a b. Proof. apply rt_step. Qed.

Local Notation kp := (keeps rsteps).
Ltac kbind := apply (keeps_bind rsteps rsteps_trans).
Ltac kdone := first [apply (keeps_ret rsteps rsteps_refl) | apply (keeps_raise rsteps rsteps_refl)
                    | apply (keeps_lift rsteps rsteps_refl) | apply (keeps_gets rsteps rsteps_refl)].

Lemma kp_cms {A} (m : M cms A) : keepsW m -> kp (on_cms m).
Proof. intros K s. specialize (K (r_cms s)). unfold on_cms. destruct (m (r_cms s)) as [c r]. apply rstep_1. constructor. exact K. Qed.
Lemma deref_keeps r : keepsW (deref r).
Proof. intros st W. unfold deref. now destruct (read_cref st r). Qed.
Lemma emit_keeps' e : keepsW (emit e).
Proof. intros st W. exact W. Qed.
Ltac kw := first [apply cm_get_keeps | apply deref_keeps | apply emit_keeps' | apply cm_update_keeps | apply cm_refresh_keeps | apply cm_reset_keeps].

Lemma get_config_kp path : kp (get_config path).
Proof. unfold get_config. kbind; [apply kp_cms; kw|]. intros [r|]; [apply kp_cms; kw|kdone]. Qed.

Lemma gfc_kp its path : kp (get_func_and_config its path).
Proof.
  unfold get_func_and_config. kbind; [apply get_config_kp|]. intro c. kbind; [kdone|]. intros [b f]. cbn [snd].
  destruct f as [|[]|]; kdone.
Qed.
Lemma gcc_kp its path : kp (get_class_and_config its path).
Proof.
  unfold get_class_and_config. kbind; [apply get_config_kp|]. intro c. kbind; [kdone|]. intros [b f]. cbn [snd].
  destruct f as [|[]|]; kdone.
Qed.

(** reading the config does not change what is loaded *)
Definition same_run (s s' : rs) : Prop := r_loaded s' = r_loaded s /\ r_next s' = r_next s /\ r_calls s' = r_calls s /\ (tree_wf (r_cms s) -> tree_wf (r_cms s')).
Lemma same_run_refl s : same_run s s. Proof. split; [|split; [|split]]; auto. Qed.
Lemma same_run_trans a b c : same_run a b -> same_run b c -> same_run a c.
Proof. intros (A1 & A2 & A3 & A4) (B1 & B2 & B3 & B4). split; [|split; [|split]]; auto; congruence. Qed.
Ltac sbind := apply (keeps_bind same_run same_run_trans).
Ltac sdone := first [apply (keeps_ret same_run same_run_refl) | apply (keeps_raise same_run same_run_refl)
                    | apply (keeps_lift same_run same_run_refl) | apply (keeps_gets same_run same_run_refl)].
Lemma sr_cms {A} (m : M cms A) : keepsW m -> keeps same_run (on_cms m).
Proof. intros K s. specialize (K (r_cms s)). unfold on_cms. destruct (m (r_cms s)) as [c r]. split; [|split; [|split]]; auto. Qed.
Lemma get_config_sr path : keeps same_run (get_config path).
Proof. unfold get_config. sbind; [apply sr_cms; kw|]. intros [r|]; [apply sr_cms; kw|sdone]. Qed.
Lemma gfc_sr its path : keeps same_run (get_func_and_config its path).
Proof.
  unfold get_func_and_config. sbind; [apply get_config_sr|]. intro c. sbind; [sdone|]. intros [b f]. cbn [snd].
  destruct f as [|[]|]; sdone.
Qed.
Lemma gcc_sr its path : keeps same_run (get_class_and_config its path).
Proof.
  unfold get_class_and_config. sbind; [apply get_config_sr|]. intro c. sbind; [sdone|]. intros [b f]. cbn [snd].
  destruct f as [|[]|]; sdone.
Qed.

Lemma sr_rsteps s s' : same_run s s' -> rsteps s s'.
Proof.
  intros (H1 & H2 & H3 & H4). destruct s' as [c l n k]; cbn in *. subst. apply rstep_1. constructor. exact H4.
Qed.

Lemma one_func_kp its path : kp (get_one_func_with_config its path).
Proof.
  intro s. unfold get_one_func_with_config, bind at 1, gets. destruct (dget path (r_loaded s)) as [o|] eqn:E; [apply rsteps_refl|].
  unfold bind at 1. assert (G := gfc_sr its path s). destruct (get_func_and_config its path s) as [s1 [[[f b] kw]|e]]; cbn [fst] in *.
  - apply sr_rsteps in G as G'. eapply rsteps_trans; [exact G'|]. destruct G as (G1 & G2 & G3 & _).
    apply rstep_1. cbn. apply (st_add s1 path (LPartial (r_next s1) f b kw)); [now rewrite G1|reflexivity].
  - now apply sr_rsteps.
Qed.

Lemma one_obj_kp its u path : kp (get_one_obj_with_config its u path).
Proof.
  intro s. unfold get_one_obj_with_config, bind at 1, gets. destruct (dget path (r_loaded s)) as [o|] eqn:E; [apply rsteps_refl|].
  unfold bind at 1, lift. destruct (get_func_or_collection its path); [|apply rsteps_refl].
  unfold bind at 1. assert (G := gcc_sr its path s). destruct (get_class_and_config its path s) as [s1 [[[k b] kw]|e]]; cbn [fst] in *.
  - apply sr_rsteps in G as G'. eapply rsteps_trans; [exact G'|]. destruct G as (G1 & G2 & G3 & _).
    destruct (u_init u k (if b then kw else relevant_config k kw)); [apply rsteps_refl|].
    apply rstep_1. cbn. apply (st_add s1 path (LInst (r_next s1) k [if b then kw else relevant_config k kw])); [now rewrite G1|reflexivity].
  - now apply sr_rsteps.
Qed.

Lemma call_kp u path o : kp (call_object u path o).
Proof. intro s. apply rstep_1. constructor. Qed.

Lemma run_func_kp its u path : kp (run_one_func its u path).
Proof. kbind; [apply gfc_kp|]. intro. kbind; [apply one_func_kp|]. intro. apply call_kp. Qed.
Lemma run_class_kp its u path : kp (run_one_class its u path).
Proof. kbind; [apply gfc_kp|]. intro. kbind; [apply one_obj_kp|]. intro. apply call_kp. Qed.
Lemma run_specific_kp its u path : kp (run_one_specific_class its u path).
Proof. kbind; [apply gcc_kp|]. intro. kbind; [apply one_obj_kp|]. intro. apply call_kp. Qed.

(** induction on collections that looks into the entries *)
Section CollInd.
  Variable P : coll -> Prop.
  Hypothesis H : forall n l, (forall c, In (EColl c) l -> P c) -> P (Coll n l).
  Fixpoint coll_ind2 (c : coll) : P c :=
    match c with
    | Coll n l => H n l ((fix go (l : list entry) : forall c, In (EColl c) l -> P c :=
        match l with
        | [] => fun c hin => match hin with end
        | e :: rest => fun c hin =>
            match hin with
            | or_introl E => match e as e0 return e0 = EColl c -> P c with
                             | EItem _ _ => fun E0 => False_ind _ (eq_ind (EItem _ _) (fun x => match x with EItem _ _ => True | _ => False end) I _ E0)
                             | EColl c' => fun E0 => eq_ind c' P (coll_ind2 c') c (f_equal (fun x => match x with EColl y => y | _ => c' end) E0)
                             end E
            | or_intror Hr => go rest c Hr
            end
        end) l)
    end.
End CollInd.

(** the thunks for the entries of a section *)
Definition sub_thunks {A} (f : coll -> string -> M rs A) (path : string) (l : list entry) : list (string * option (M rs A)) :=
  map (fun e => match e with
                | EItem n _ => (n, None)
                | EColl c => (coll_name c, Some (f c (sub_path path (coll_name c))))
                end) l.

Lemma dget_In {A} k (v : A) d : dget k d = Some v -> In (k, v) d.
Proof. apply dget_Some_In. Qed.

Lemma sub_thunks_In {A} (f : coll -> string -> M rs A) path l n m : dget n (rev (sub_thunks f path l)) = Some (Some m) ->
  exists c, In (EColl c) l /\ coll_name c = n /\ m = f c (sub_path path n).
Proof.
  intro H. apply dget_In in H. apply in_rev in H. unfold sub_thunks in H. apply in_map_iff in H as ([x t|c] & E & Hin); [discriminate|].
  injection E as <- <-. eauto.
Qed.

Definition run_entry (its : items) (u : user) (path : string) (subs : list (string * option (M rs result))) (e : entry) : M rs result :=
  match e with
  | EColl c' => match dget (coll_name c') (rev subs) with
                | Some (Some m) => m
                | _ => raise TypeError
                end
  | EItem n (TFunc _) => run_one_func its u (sub_path path n)
  | EItem n (TClass _) => run_one_class its u path
  | EItem n (TInst _) => run_one_specific_class its u path
  | EItem n (TBroken e) => raise e
  | EItem n TOther => raise ValueError
  end.

Lemma run_section_eq its u n l path : run_section its u (Coll n l) path =
  (results <- mapM (run_entry its u path (sub_thunks (run_section its u) path l)) l ;; ret (RList results)).
Proof.
  cbn [run_section]. f_equal. match goal with |- mapM (fun e => match e with EItem _ _ => _ | EColl c' => match dget _ (rev ?x) with _ => _ end end) _ = _ =>
    assert (E : x = sub_thunks (run_section its u) path l) end.
  { unfold sub_thunks. induction l as [|[]]; cbn; [reflexivity| |]; now f_equal. }
  rewrite E. reflexivity.
Qed.

Lemma run_section_kp its u c : forall path, kp (run_section its u c path).
Proof.
  induction c as [n l IH] using coll_ind2. intro path. rewrite run_section_eq. kbind; [|intro; kdone].
  apply (keeps_mapM rsteps rsteps_refl rsteps_trans). intros e He. destruct e as [x [| | | |]|c]; cbn [run_entry];
    try apply run_func_kp; try apply run_class_kp; try apply run_specific_kp; try kdone.
  destruct (dget _ _) as [[m|]|] eqn:E; try kdone. apply sub_thunks_In in E as (c' & Hc & _ & ->). now apply IH.
Qed.

Lemma run_one_kp its u path : kp (run_one its u path).
Proof.
  kbind; [kdone|]. intros [[] [c|[]|]]; try kdone; try apply run_func_kp; try apply run_class_kp; try apply run_specific_kp.
  apply run_section_kp.
Qed.

Lemma runner_run_kp its u a : kp (runner_run its u a).
Proof.
  kbind.
  - destruct a as [p|l]; [apply run_one_kp|]. kbind; [|intro; kdone].
    apply (keeps_mapM rsteps rsteps_refl rsteps_trans). intros. apply run_one_kp.
  - intro r. destruct (u_post_run u r); [kdone|]. destruct a; [kdone|]. destruct r; kdone.
Qed.

Lemma force_loop_kp its u l : kp (force_loop its u l).
Proof.
  induction l as [|p l IH]; cbn [force_loop]; [kdone|]. kbind; [apply keeps_try, runner_run_kp|].
  intro r. kbind; [exact IH|]. intro re. destruct r; kdone.
Qed.

Lemma pm_run_kp its u set a : kp (pm_run its u set a).
Proof.
  unfold pm_run. destruct set.
  - apply runner_run_kp.
  - kbind; [|intro; kdone]. unfold run_with_force_continue. kbind; [apply force_loop_kp|]. intro re.
    destruct (combine a (u_pre_run u)); [|kdone]. destruct (fst re) as [|r [|]]; kdone.
  - kbind; [apply keeps_try, runner_run_kp|]. intros []; kdone.
Qed.

(** getting a section *)
Definition sub_got (subs : list (string * option (M rs got))) (n : string) : M rs got :=
  match dget n (rev subs) with Some (Some m) => m | _ => raise TypeError end.

Definition dict_entry (subs : list (string * option (M rs got))) (e : entry) : M rs (string * got) :=
  match e with
  | EColl c' => g <- sub_got subs (coll_name c') ;; ret (coll_name c', g)
  | EItem _ (TBroken e) => raise e
  | EItem _ _ => raise ValueError
  end.

Definition list_entry its u (path n : string) (t : thing) (rest : list entry) : M rs got :=
  match t with
  | TInst _ => if existsb (fun e => String.eqb n (entry_name e)) rest then raise ValueError
               else o <- get_one_obj_with_config its u (sub_path path n) ;; ret (GObj o)
  | TFunc _ | TClass _ => o <- get_one_func_with_config its (sub_path path n) ;; ret (GObj o)
  | TBroken e => raise e
  | TOther => raise ValueError
  end.

Fixpoint list_entries its u (path : string) (l : list entry) : M rs (list got) :=
  match l with
  | [] => ret []
  | EColl _ :: rest => list_entries its u path rest
  | EItem n t :: rest => g <- list_entry its u path n t rest ;; gs <- list_entries its u path rest ;; ret (g :: gs)
  end.

Lemma get_section_eq its u n l path : get_section its u (Coll n l) path =
  if existsb is_coll l then
    rs <- mapM (dict_entry (sub_thunks (get_section its u) path l)) l ;; ret (GDict (dict_of rs))
  else
    rs <- list_entries its u path l ;; ret (GList rs).
Proof.
  cbn [get_section]. destruct (existsb is_coll l).
  - f_equal. match goal with |- mapM (fun e => match e with EItem _ _ => _ | EColl c' => bind (match dget _ (rev ?x) with _ => _ end) _ end) _ = _ =>
      assert (E : x = sub_thunks (get_section its u) path l) end.
    { unfold sub_thunks. induction l as [|[]]; cbn; [reflexivity| |]; now f_equal. }
    rewrite E. reflexivity.
  - f_equal. induction l as [|[x t|c] l IH]; [reflexivity| |exact IH].
    cbn [list_entries]. rewrite <- IH. destruct t; reflexivity.
Qed.

Lemma list_entries_kp its u path l : kp (list_entries its u path l).
Proof.
  induction l as [|[n t|c] l IH]; cbn [list_entries]; [kdone| |exact IH].
  kbind.
  - destruct t; cbn [list_entry]; try kdone; try (kbind; [apply one_func_kp|intro; kdone]).
    destruct (existsb _ l); [kdone|]. kbind; [apply one_obj_kp|intro; kdone].
  - intro. kbind; [exact IH|intro; kdone].
Qed.

Lemma get_section_kp its u c : forall path, kp (get_section its u c path).
Proof.
  induction c as [n l IH] using coll_ind2. intro path. rewrite get_section_eq. destruct (existsb is_coll l).
  - kbind; [|intro; kdone]. apply (keeps_mapM rsteps rsteps_refl rsteps_trans). intros e He.
    destruct e as [x []|c]; cbn [dict_entry]; try kdone. kbind; [|intro; kdone]. unfold sub_got.
    destruct (dget _ _) as [[m|]|] eqn:E; try kdone. apply sub_thunks_In in E as (c' & Hc & _ & ->). now apply IH.
  - kbind; [apply list_entries_kp|intro; kdone].
Qed.

Lemma runner_get_kp its u path : kp (runner_get its u path).
Proof.
  kbind; [kdone|]. intros [b [c|[]|]]; cbn [snd]; try kdone; try (kbind; [apply one_func_kp + apply one_obj_kp|intro; kdone]).
  apply get_section_kp.
Qed.

(** update, reset, refresh *)
Lemma partial_keys kw cfg : dkeys (apply_config_to_partial kw cfg) = dkeys kw.
Proof.
  revert kw. induction cfg as [|[k v] cfg IH]; intro kw; [reflexivity|]. cbn [apply_config_to_partial].
  rewrite IH. destruct (dmem k kw) eqn:E; [|reflexivity]. now rewrite dkeys_dset, E.
Qed.

Lemma apply_steps u path o cfg s : dget path (r_loaded s) = Some o -> rsteps s (fst (apply_config u path o cfg s)).
Proof.
  intro H. destruct o as [i f b kw|i k calls]; cbn [apply_config].
  - apply rstep_1. apply (st_apply s path _ _ H). cbn. repeat split. apply partial_keys.
  - destruct (u_init u k _); [apply rsteps_refl|]. apply rstep_1. apply (st_apply s path _ _ H). cbn. repeat split. eauto.
Qed.

Lemma apply_tail_kp {A} u path o cfg (k : M rs A) s : dget path (r_loaded s) = Some o -> kp k ->
  rsteps s (fst ((apply_config u path o cfg ;;; k) s)).
Proof.
  intros H Hk. assert (G := apply_steps u path o cfg s H). unfold bind.
  destruct (apply_config u path o cfg s) as [s1 [[]|e]]; cbn [fst] in *; [|exact G]. eapply rsteps_trans; [exact G|]. apply Hk.
Qed.

Lemma runner_update_kp u d path persist kw : kp (runner_update u d path persist kw).
Proof.
  unfold runner_update. kbind; [apply kp_cms; kw|]. intros [r b]. intro s. unfold bind at 1, loaded_at, gets.
  destruct path as [p|]; [|apply rsteps_refl]. destruct (dget p (r_loaded s)) as [o|] eqn:E; [|apply rsteps_refl].
  destruct b; [|apply rsteps_refl]. unfold bind at 1. assert (G := sr_cms (deref r) (deref_keeps r) s).
  destruct (on_cms (deref r) s) as [s1 [c|e]]; cbn [fst] in *; apply sr_rsteps in G as G'; [|exact G'].
  eapply rsteps_trans; [exact G'|]. apply apply_tail_kp; [destruct G as (-> & _); exact E|].
  destruct (dmem "d" kw); [kdone|apply kp_cms; kw].
Qed.

Lemma runner_reset_kp base u path b : kp (runner_reset base u path b).
Proof.
  unfold runner_reset. kbind; [apply kp_cms; kw|]. intros [v up]. intro s. unfold bind at 1, loaded_at, gets.
  destruct path as [p|]; [|apply rsteps_refl]. destruct (dget p (r_loaded s)) as [o|] eqn:E; [|apply rsteps_refl].
  destruct up; [|apply rsteps_refl]. destruct v as [c|]; [|apply rsteps_refl].
  apply apply_tail_kp; [exact E|]. kbind; [kdone|]. intro. apply kp_cms; kw.
Qed.

Lemma runner_refresh_kp u path : kp (runner_refresh u path).
Proof.
  unfold runner_refresh. kbind; [apply kp_cms; kw|]. intros [[r b] ups]. intro s. unfold bind at 1, loaded_at, gets.
  destruct (dget path (r_loaded s)) as [o|] eqn:E; [|apply rsteps_refl].
  destruct b; [|apply rsteps_refl]. unfold bind at 1. assert (G := get_config_sr path s).
  destruct (get_config path s) as [s1 [c|e]]; cbn [fst] in *; apply sr_rsteps in G as G'; [|exact G'].
  eapply rsteps_trans; [exact G'|]. apply apply_tail_kp; [destruct G as (-> & _); exact E|]. apply kp_cms; kw.
Qed.

Lemma rop_steps base its u s op : rsteps s (rop_run base its u s op).
Proof.
  destruct op; cbn [rop_run].
  - apply runner_get_kp.
  - apply pm_run_kp.
  - apply runner_update_kp.
  - apply runner_reset_kp.
  - apply runner_refresh_kp.
Qed.

Lemma rops_steps base its u ops : forall s, rsteps s (fold_left (rop_run base its u) ops s).
Proof.
  induction ops as [|op ops IH]; intro s; cbn [fold_left]; [apply rsteps_refl|].
  eapply rsteps_trans; [apply rop_steps|]. apply IH.
Qed.

(* ------------------------------------------------------------------ *)
(** * Consequences *)

Lemma same_object_refl o : same_object o o.
Proof. destruct o; cbn; repeat split. exists []. now rewrite app_nil_r. Qed.
Lemma same_object_trans a b c : same_object a b -> same_object b c -> same_object a c.
Proof.
  destruct a, b; cbn; try tauto; destruct c; cbn; try tauto.
  - intros (-> & -> & -> & E) (-> & -> & -> & E'). repeat split. congruence.
  - intros (-> & -> & l & ->) (-> & -> & l' & ->). repeat split. exists (l ++ l'). now rewrite app_assoc.
Qed.
Lemma same_object_id a b : same_object a b -> lobj_id b = lobj_id a.
Proof. destruct a, b; cbn; try tauto; intros (-> & _); reflexivity. Qed.

Lemma steps_same s s' : rsteps s s' -> forall p o, dget p (r_loaded s) = Some o ->
  exists o', dget p (r_loaded s') = Some o' /\ same_object o o'.
Proof.
  intro H. induction H as [s s' H|s|s1 s2 s3 _ IH1 _ IH2]; intros p o Hp.
  - destruct H; cbn [r_loaded]; try (exists o; split; [exact Hp|apply same_object_refl]).
    + exists o. split; [|apply same_object_refl]. rewrite dget_dset_neq; [exact Hp|]. intros ->. congruence.
    + rewrite dget_dset. destruct (String.eqb p p0) eqn:E.
      * apply String.eqb_eq in E. subst p0. exists o'. split; [reflexivity|]. congruence.
      * exists o. split; [exact Hp|apply same_object_refl].
  - exists o. split; [exact Hp|apply same_object_refl].
  - destruct (IH1 p o Hp) as (o1 & H1 & S1). destruct (IH2 p o1 H1) as (o2 & H2 & S2). exists o2.
    split; [exact H2|eapply same_object_trans; eassumption].
Qed.

Lemma steps_ids s s' : rsteps s s' -> ids_ok s -> ids_ok s'.
Proof.
  intro H. induction H as [s s' H|s|s1 s2 s3 _ IH1 _ IH2]; [|auto|auto]. intros [H1 H2].
  destruct H as [s c|s x|s p o Hn Hi|s p o o' Hp Hs]; try (split; assumption).
  - split; cbn [r_loaded r_next].
    + intros q o1. rewrite dget_dset. destruct (String.eqb q p); [intros [= <-]; lia|]. intro Hq. apply H1 in Hq. lia.
    + intros q q' o1 o2. rewrite !dget_dset. destruct (String.eqb q p) eqn:E1, (String.eqb q' p) eqn:E2;
        try apply String.eqb_eq in E1; try apply String.eqb_eq in E2; subst; auto.
      * intros [= <-] Hq E. apply H1 in Hq. lia.
      * intros Hq [= <-] E. apply H1 in Hq. lia.
      * apply H2.
  - apply same_object_id in Hs. split; cbn [r_loaded r_next].
    + intros q o1. rewrite dget_dset. destruct (String.eqb q p); [intros [= <-]; rewrite Hs; eauto|]. apply H1.
    + intros q q' o1 o2. rewrite !dget_dset. destruct (String.eqb q p) eqn:E1, (String.eqb q' p) eqn:E2;
        try apply String.eqb_eq in E1; try apply String.eqb_eq in E2; subst; auto.
      * intros [= <-] Hq E. eapply (H2 p q'); eauto. congruence.
      * intros Hq [= <-] E. eapply (H2 q p); eauto. congruence.
      * apply H2.
Qed.

Lemma steps_next s s' : rsteps s s' -> r_next s <= r_next s' /\ (exists more, r_calls s' = r_calls s ++ more) /\
  (forall p o, dget p (r_loaded s') = Some o -> r_next s <= lobj_id o \/ exists o0, dget p (r_loaded s) = Some o0 /\ same_object o0 o).
Proof.
  intro H. induction H as [s s' H|s|s1 s2 s3 H1 IH1 H2 IH2].
  - destruct H as [s c|s x|s p o Hn Hi|s p o o' Hp Hs]; cbn; (split; [lia|split; [try (exists []; now rewrite app_nil_r); eauto|]]);
      try (intros q o1 Hq; right; exists o1; split; [exact Hq|apply same_object_refl]).
    + intros q o1. rewrite dget_dset. destruct (String.eqb q p); [intros [= <-]; left; lia|].
      intro Hq; right; exists o1; split; [exact Hq|apply same_object_refl].
    + intros q o1. rewrite dget_dset. destruct (String.eqb q p) eqn:E; [intros [= <-]; right; apply String.eqb_eq in E; subst; eauto|].
      intro Hq; right; exists o1; split; [exact Hq|apply same_object_refl].
  - split; [lia|]. split; [exists []; now rewrite app_nil_r|].
    intros q o1 Hq; right; exists o1; split; [exact Hq|apply same_object_refl].
  - destruct IH1 as (A1 & (l1 & B1) & C1), IH2 as (A2 & (l2 & B2) & C2). split; [lia|]. split.
    + exists (l1 ++ l2). rewrite B2, B1. now rewrite app_assoc.
    + intros p o Hp. destruct (C2 p o Hp) as [Hx|(o0 & Ho & So)]; [left; lia|].
      destruct (C1 p o0 Ho) as [Hx|(o1 & Ho1 & So1)]; [left; apply same_object_id in So; lia|].
      right. exists o1. split; [exact Ho1|eapply same_object_trans; eassumption].
Qed.

Lemma steps_wf s s' : rsteps s s' -> tree_wf (r_cms s) -> tree_wf (r_cms s').
Proof. intro H. induction H as [s s' H|s|s1 s2 s3 _ IH1 _ IH2]; auto. destruct H; auto. Qed.
