(** Lists of paths (C21-C23) and getting sections (C25). *)
From Verif Require Import Runner_Model Config_Spec ConfigTree_Spec Runner_Spec Run_Spec SectionPath_Proofs Config_Proofs ConfigTree_Proofs ConfigOps_Proofs ConfigLoad_Proofs ConfigWf_Proofs Runner_Proofs RunnerOps_Proofs Run_Proofs.
From Coq Require Import Lia.
Local Open Scope list_scope.
Local Open Scope monad_scope.

Lemma runs_mapM its u l : forall s s' o, mapM (run_one its u) l s = (s', o) -> runs its u l s s' o.
Proof.
  induction l as [|p l IH]; intros s s' o H; cbn [mapM] in H.
  - injection H as <- <-. constructor.
  - unfold bind at 1 in H. destruct (run_one its u p s) as [s1 [r|e]] eqn:E1.
    + unfold bind at 1 in H. destruct (mapM (run_one its u) l s1) as [s2 [rs|e]] eqn:E2; injection H as <- <-;
        [eapply RunsOk|eapply RunsLater]; eauto.
    + injection H as <- <-. now apply RunsFail.
Qed.

Lemma runs_length its u l s s' rs : runs its u l s s' (Ok rs) -> length rs = length l.
Proof.
  revert s s' rs. induction l as [|p l IH]; intros s s' rs H; inversion H; subst; [reflexivity|].
  cbn. f_equal. eauto.
Qed.

Lemma run_one_is_func its u path f : is_func its path f -> forall s, run_one its u path s = run_one_func its u path s.
Proof. intros (b & Hf) s. unfold run_one, bind at 1, lift. rewrite Hf. now destruct b. Qed.

(** a list of functions *)
Lemma runs_ran its u l : forall s s' o, cms_wf (r_cms s) -> configured s l -> (forall p, In p l -> exists f, is_func its p f) ->
  runs its u l s s' o -> ranL u l false s s' o /\ (forall rs, o = Ok rs -> Forall (fun r => exists v, r = RVal v) rs).
Proof.
  induction l as [|p l IH]; intros s s' o W Hc Hf H.
  - inversion H; subst. split; [apply ranL_nil|]. intros rs [= <-]. constructor.
  - destruct (Hf p (or_introl eq_refl)) as (f & Hp).
    assert (ONE : forall s1 o1, run_one its u p s = (s1, o1) -> ran u [p] false s s1 o1 /\ (forall r, o1 = Ok r -> exists v, r = RVal v) /\ grows s s1).
    { intros s1 o1 E. assert (G := run_one_grows its u p s). rewrite E in G. rewrite (run_one_is_func _ _ _ _ Hp) in E.
      destruct (ran_func its u s p f s1 o1 W (Hc p (or_introl eq_refl)) Hp E). auto. }
    assert (KG : forall l s s' o, runs its u l s s' o -> grows s s').
    { clear. induction l as [|p l IH]; intros s s' o H; inversion H; subst; [apply grows_refl|..];
        match goal with E : run_one _ _ _ _ = _ |- _ => assert (G := run_one_grows its u p s); rewrite E in G end; cbn [fst] in G; eauto using grows_trans. }
    inversion H; subst; match goal with E : run_one _ _ _ _ = _ |- _ => rename E into HR end;
      try match goal with E : runs _ _ l _ _ _ |- _ => rename E into HL end.
    + destruct (ONE _ _ HR) as (R & _ & _). split; [|discriminate].
      exact (ranL_raise u [p] false l false s s' e R).
    + destruct (ONE _ _ HR) as (R & V & G). destruct (proj2 G W) as (W1 & C1).
      destruct (IH s1 s' (Ok rs) W1) as (R2 & V2); auto.
      { intros q Hq. apply C1, Hc. now right. } { intros q Hq. apply Hf. now right. }
      split; [exact (ranL_cons u [p] false l false s s1 s' r (Ok rs) R R2 (KG _ _ _ _ HL))|].
      intros rs' [= <-]. constructor; auto.
    + destruct (ONE _ _ HR) as (R & V & G). destruct (proj2 G W) as (W1 & C1).
      destruct (IH s1 s' (Raise e) W1) as (R2 & V2); auto.
      { intros q Hq. apply C1, Hc. now right. } { intros q Hq. apply Hf. now right. }
      split; [|discriminate]. exact (ranL_cons u [p] false l false s s1 s' r (Raise e) R R2 (KG _ _ _ _ HL)).
Qed.

Lemma combine_list a extra :
  let l := (match a with AStr p => [p] | AList l => l end) ++ extra in
  combine a extra = match l with [p] => AStr p | _ => AList l end.
Proof. unfold combine. destruct (_ ++ extra) as [|x [|]]; reflexivity. Qed.

Lemma combine_many a extra : length ((match a with AStr p => [p] | AList l => l end) ++ extra) <> 1 ->
  combine a extra = AList ((match a with AStr p => [p] | AList l => l end) ++ extra).
Proof. intro H. rewrite combine_list. cbv zeta. destruct (_ ++ extra) as [|x [|]]; cbn in *; congruence. Qed.

(* ------------------------------------------------------------------ *)
(** * force_continue *)

(** what one path's run contributes: the run, with the results of plugins *)
Lemma runner_run_str its u p s : (forall r, u_post_run u r = []) -> runner_run its u (AStr p) s = run_one its u p s.
Proof.
  intro H. unfold runner_run, bind. destruct (run_one its u p s) as [s1 [r|e]]; [|reflexivity]. now rewrite H.
Qed.
Lemma runner_run_list its u l s : (forall r, u_post_run u r = []) ->
  runner_run its u (AList l) s = (rs <- mapM (run_one its u) l ;; ret (RList rs)) s.
Proof.
  intro H. unfold runner_run, bind. destruct (mapM (run_one its u) l s) as [s1 [r|e]]; [|reflexivity]. cbn [ret]. now rewrite H.
Qed.

Lemma force_forced its u l : (forall r, u_post_run u r = []) -> forall s s' o, force_loop its u l s = (s', o) ->
  exists outs stop, forced its u l s s' outs stop /\
    if stop then o = Raise SystemExit else o = Ok (successes outs, failures l outs) /\ length outs = length l.
Proof.
  intro Hp. induction l as [|p l IH]; intros s s' o H; cbn [force_loop] in H.
  - injection H as <- <-. exists [], false. split; [constructor|auto].
  - unfold bind at 1, try_run in H. rewrite runner_run_str in H by exact Hp. destruct (run_one its u p s) as [s1 [r|e]] eqn:E1.
    + unfold bind at 1 in H. destruct (force_loop its u l s1) as [s2 o2] eqn:E2. destruct (IH _ _ _ E2) as (outs & stop & HF & HO).
      exists (Ok r :: outs), stop.
      assert (FF : forced its u (p :: l) s s2 (Ok r :: outs) stop) by (econstructor; [exact E1|discriminate|exact HF]).
      destruct stop; [subst o2|destruct HO as [-> HL]]; injection H as <- <-; (split; [exact FF|]); [reflexivity|].
      split; [reflexivity|cbn; congruence].
    + assert (DI : interrupt e = true \/ interrupt e = false) by (destruct (interrupt e); auto). destruct DI as [Ei|Ei].
      * exists [], true. assert (H' : (s1, Raise SystemExit : res (list result * list (string * exn))) = (s', o)) by (change (user_interrupt e = true) in Ei; rewrite Ei in H; exact H).
        injection H' as <- <-. split; [eapply ForcedStop; eassumption|reflexivity].
      * assert (H' : (re <- force_loop its u l ;; ret (fst re, (p, e) :: snd re)) s1 = (s', o)) by (change (user_interrupt e = false) in Ei; rewrite Ei in H; exact H).
        clear H. unfold bind in H'. destruct (force_loop its u l s1) as [s2 o2] eqn:E2. destruct (IH _ _ _ E2) as (outs & stop & HF & HO).
        exists (Raise e :: outs), stop.
        assert (FF : forced its u (p :: l) s s2 (Raise e :: outs) stop) by (econstructor; [exact E1|intros ? [= <-]; exact Ei|exact HF]).
        destruct stop; [subst o2|destruct HO as [-> HL]]; injection H' as <- <-; (split; [exact FF|]); [reflexivity|].
        split; [reflexivity|cbn; congruence].
Qed.

Lemma successes_length {A} (outs : list (res A)) : length (successes outs) <= length outs /\
  (length (successes outs) = length outs <-> forall o, In o outs -> exists v, o = Ok v).
Proof.
  induction outs as [|[v|e] outs [IH1 IH2]]; cbn [successes length].
  - split; [lia|]. split; [intros _ o []|auto].
  - split; [lia|]. split.
    + intros H o [<-|Ho]; [eauto|]. apply IH2; [lia|exact Ho].
    + intro H. f_equal. apply IH2. intros o Ho. apply H. now right.
  - split; [lia|]. split; [lia|]. intro H. destruct (H (Raise e) (or_introl eq_refl)). discriminate.
Qed.

Lemma failures_length {A} l (outs : list (res A)) : length outs = length l -> length (successes outs) + length (failures l outs) = length l.
Proof.
  revert l. induction outs as [|[v|e] outs IH]; intros [|p l] H; try discriminate; cbn [successes failures length]; [reflexivity| |];
    injection H as H; rewrite <- (IH l H); lia.
Qed.

Definition as_result (o : res pyval) : res result := match o with Ok v => Ok (RVal v) | Raise e => Raise e end.

(** the same for functions *)
Lemma forced_tried its u l : forall s s' outs stop, cms_wf (r_cms s) -> configured s l -> (forall p, In p l -> exists f, is_func its p f) ->
  forced its u l s s' outs stop ->
  exists objs vals, tried u (r_calls s) objs vals /\ outs = map as_result vals /\
    (forall p ob, In (p, ob) objs -> dget p (r_loaded s') = Some ob) /\
    if stop then exists p ob e rest, r_calls s' = r_calls s ++ objs ++ [(p, ob)] /\ l = map fst objs ++ p :: rest /\
                                  u_call u (r_calls s ++ objs) p ob = Raise e /\ interrupt e = true
    else r_calls s' = r_calls s ++ objs /\ l = map fst objs.
Proof.
  assert (KG : forall l s s' o b, forced its u l s s' o b -> grows s s').
  { clear. induction l as [|p l IH]; intros s s' o b H; inversion H; subst; [apply grows_refl|..];
      match goal with E : run_one _ _ _ _ = _ |- _ => assert (G := run_one_grows its u p s); rewrite E in G end; cbn [fst] in G; eauto using grows_trans. }
  induction l as [|p l IH]; intros s s' outs stop W Hc Hf H.
  - inversion H; subst. exists [], []. split; [constructor|]. split; [reflexivity|]. split; [intros ? ? []|]. rewrite app_nil_r. auto.
  - destruct (Hf p (or_introl eq_refl)) as (f & Hp). inversion H; subst; match goal with E : run_one _ _ _ _ = _ |- _ => rename E into HR end;
      try match goal with E : forced _ _ l _ _ _ _ |- _ => rename E into HL end.
    + assert (E := HR). rewrite (run_one_is_func _ _ _ _ Hp) in E.
      destruct (run_func_ran its u s p f s' (Raise e) W (Hc p (or_introl eq_refl)) Hp E) as (ob & C & L & O).
      exists [], []. split; [constructor|]. split; [reflexivity|]. split; [intros ? ? []|]. exists p, ob, e, l. cbn. rewrite app_nil_r.
      split; [exact C|]. split; [reflexivity|]. split; [|assumption]. destruct (u_call u (r_calls s) p ob); congruence.
    + assert (E := HR). rewrite (run_one_is_func _ _ _ _ Hp) in E.
      destruct (run_func_ran its u s p f s1 o W (Hc p (or_introl eq_refl)) Hp E) as (ob & C & L & O).
      assert (G := run_one_grows its u p s). rewrite HR in G. cbn [fst] in G. destruct (proj2 G W) as (W1 & C1).
      destruct (IH s1 s' os stop W1) as (objs & vals & T & -> & LL & X); auto.
      { intros q Hq. apply C1, Hc. now right. } { intros q Hq. apply Hf. now right. }
      assert (G2 := KG _ _ _ _ _ HL).
      exists ((p, ob) :: objs), (u_call u (r_calls s) p ob :: vals). split; [constructor; now rewrite <- C|].
      split; [cbn [map]; f_equal; exact O|]. split.
      { intros q o' [[= <- <-]|Hin]; [now apply G2|auto]. }
      rewrite C in X. destruct stop.
      * destruct X as (q & ob' & e & rest & X1 & X2 & X3 & X4). exists q, ob', e, rest. rewrite <- !app_assoc in *. cbn. 
        split; [exact X1|]. split; [now rewrite X2|]. split; [exact X3|exact X4].
      * destruct X as (X1 & X2). cbn. rewrite X1, <- app_assoc. split; [reflexivity|]. now rewrite X2 at 1.
Qed.

(* ------------------------------------------------------------------ *)
(** * Getting a section *)

Definition entry_shows (loaded : dict lobj) (path : string) (e : entry) (g : got) : Prop :=
  match e, g with
  | EItem n _, GObj o => dget (path ++ "." ++ n)%string loaded = Some o
  | _, _ => False
  end.
Definition entry_shows_sec (loaded : dict lobj) (path : string) (e : entry) (g : string * got) : Prop :=
  match e with
  | EColl c' => fst g = coll_name c' /\ shows loaded (path ++ "." ++ coll_name c')%string c' (snd g)
  | EItem _ _ => False
  end.

Lemma shows_list loaded path n l gs : existsb is_coll l = false ->
  (shows loaded path (Coll n l) (GList gs) <-> Forall2 (entry_shows loaded path) l gs).
Proof.
  intro H. cbn [shows]. rewrite H. clear H. revert gs. induction l as [|e l IH]; intros [|g gs]; split; intro H;
    try solve [constructor | exact I | destruct e; contradiction | inversion H | contradiction].
  - destruct e; [|contradiction]. destruct g; try contradiction. destruct H. constructor; [assumption|now apply IH].
  - inversion H; subst. destruct e; [|contradiction]. destruct g; try contradiction. split; [assumption|now apply IH].
Qed.
Lemma shows_dict loaded path n l gs : existsb is_coll l = true ->
  (shows loaded path (Coll n l) (GDict gs) <-> Forall2 (entry_shows_sec loaded path) l gs).
Proof.
  intro H. cbn [shows]. rewrite H. clear H. revert gs. induction l as [|e l IH]; intros [|g gs]; split; intro H;
    try solve [constructor | exact I | destruct e; contradiction | inversion H | contradiction].
  - destruct e; [contradiction|]. destruct g; try contradiction. destruct H as (-> & H1 & H2). constructor; [split; auto|now apply IH].
  - inversion H as [|? ? ? ? A B]; subst. destruct e; [contradiction|]. destruct g. destruct A. split; [assumption|]. split; [assumption|now apply IH].
Qed.

Lemma shows_mono loaded loaded' c : (forall p o, dget p loaded = Some o -> dget p loaded' = Some o) ->
  forall path g, shows loaded path c g -> shows loaded' path c g.
Proof.
  intro M. induction c as [n l IH] using coll_ind2. intros path g H. destruct (existsb is_coll l) eqn:E.
  - destruct g as [|gs|gs]; try (cbn [shows] in H; rewrite E in H; contradiction). apply shows_dict in H; [|exact E]. apply shows_dict; [exact E|].
    clear E. induction H as [|e g l gs H HH IHH]; constructor.
    + destruct e; [contradiction|]. destruct H. split; [assumption|]. apply IH; [now left|assumption].
    + apply IHH. intros c Hc. apply IH. now right.
  - destruct g as [|gs|gs]; try (cbn [shows] in H; rewrite E in H; contradiction). apply shows_list in H; [|exact E]. apply shows_list; [exact E|].
    clear E IH. induction H as [|e g l gs H HH IHH]; constructor; auto. destruct e; [|contradiction]. destruct g; try contradiction. now apply M.
Qed.

Lemma one_func_ok its path s s' o : get_one_func_with_config its path s = (s', Ok o) -> dget path (r_loaded s') = Some o.
Proof.
  unfold get_one_func_with_config, bind at 1, gets. destruct (dget path (r_loaded s)) as [o'|] eqn:E; [intros [= <- <-]; exact E|].
  unfold bind at 1. destruct (get_func_and_config its path s) as [s1 [[[f b] kw]|e]]; [|discriminate].
  intros [= <- <-]. cbn [r_loaded]. apply dget_dset_eq.
Qed.
Lemma one_obj_ok its u path s s' o : get_one_obj_with_config its u path s = (s', Ok o) -> dget path (r_loaded s') = Some o.
Proof.
  unfold get_one_obj_with_config, bind at 1, gets. destruct (dget path (r_loaded s)) as [o'|] eqn:E; [intros [= <- <-]; exact E|].
  unfold bind at 1, lift. destruct (get_func_or_collection its path); [|discriminate].
  unfold bind at 1. destruct (get_class_and_config its path s) as [s1 [[[f b] kw]|e]]; [|discriminate].
  destruct (u_init u f _); [discriminate|]. intros [= <- <-]. cbn [r_loaded]. apply dget_dset_eq.
Qed.

Lemma list_entry_ok its u path n t rest s s' g : list_entry its u path n t rest s = (s', Ok g) ->
  entry_shows (r_loaded s') path (EItem n t) g.
Proof.
  destruct t; cbn [list_entry]; try discriminate.
  - unfold bind. destruct (get_one_func_with_config its (sub_path path n) s) as [s1 [o|e]] eqn:E; [|discriminate].
    intros [= <- <-]. apply one_func_ok in E. rewrite sub_path_str in E. exact E.
  - unfold bind. destruct (get_one_func_with_config its (sub_path path n) s) as [s1 [o|e]] eqn:E; [|discriminate].
    intros [= <- <-]. apply one_func_ok in E. rewrite sub_path_str in E. exact E.
  - destruct (existsb _ rest); [discriminate|].
    unfold bind. destruct (get_one_obj_with_config its u (sub_path path n) s) as [s1 [o|e]] eqn:E; [|discriminate].
    intros [= <- <-]. apply one_obj_ok in E. rewrite sub_path_str in E. exact E.
Qed.

Lemma dict_of_nodup {A} (l : list (string * A)) : NoDup (map fst l) -> dict_of l = l.
Proof.
  exact (dict_of_id l).
Qed.

(** a successful get shows the loaded objects, and the section is not mixed *)
Lemma get_section_shows its u c : forall path s s' g, names_ok c -> get_section its u c path s = (s', Ok g) ->
  shows (r_loaded s') path c g /\ unmixed c.
Proof.
  induction c as [n l IH] using coll_ind2. intros path s s' g N H. rewrite get_section_eq in H.
  destruct (existsb is_coll l) eqn:Ex.
  - set (F := dict_entry (sub_thunks (get_section its u) path l)) in *.
    assert (K : forall e, keeps grows (F e)).
    { intro e. unfold F. destruct e as [x []|c]; cbn [dict_entry]; try gdone. gbind; [|intro; gdone]. unfold sub_got.
      destruct (dget _ _) as [[m|]|] eqn:E; try gdone. apply sub_thunks_In in E as (c' & Hc & _ & ->). apply get_section_grows. }
    assert (ALL : forall l0, incl l0 l -> forall s s' gs, mapM F l0 s = (s', Ok gs) ->
      Forall2 (entry_shows_sec (r_loaded s') path) l0 gs /\ (forall e, In e l0 -> exists c, e = EColl c /\ unmixed c)).
    { clear s s' g H. induction l0 as [|e l0 IHl]; intros Hi s s' gs H; cbn [mapM] in H.
      - injection H as <- <-. split; [constructor|intros ? []].
      - unfold bind at 1 in H. destruct (F e s) as [s1 [g|err]] eqn:E1; [|discriminate].
        unfold bind at 1 in H. destruct (mapM F l0 s1) as [s2 [gs'|err]] eqn:E2; [|discriminate]. injection H as <- <-.
        destruct (IHl (fun x Hx => Hi x (or_intror Hx)) _ _ _ E2) as (A & B).
        assert (G2 : grows s1 s2).
        { assert (X := keeps_mapM grows grows_refl grows_trans F l0 (fun a _ => K a) s1). now rewrite E2 in X. }
        assert (He := Hi e (or_introl eq_refl)).
        destruct e as [x t|c']; [unfold F in E1; destruct t; discriminate|].
        unfold F, dict_entry, sub_got in E1. rewrite sub_thunk_coll in E1; [|eapply names_ok_nodup; exact N|exact He].
        unfold bind in E1. destruct (get_section its u c' (sub_path path (coll_name c')) s) as [s3 [g'|err]] eqn:E3; [|discriminate].
        injection E1 as <- <-. destruct (IH c' He _ _ _ _ (proj2 (proj2 (names_ok_entry _ _ _ N He))) E3) as (S1 & U1).
        split.
        + constructor; [|exact A]. cbn. split; [reflexivity|]. rewrite sub_path_str in S1. eapply shows_mono; [|exact S1]. apply G2.
        + intros e [<-|Hin]; [eauto|auto]. }
    unfold bind in H. destruct (mapM F l s) as [s1 [gs|err]] eqn:E1; [|discriminate]. injection H as <- <-.
    destruct (ALL l (incl_refl l) _ _ _ E1) as (A & B).
    assert (Ek : map fst gs = map entry_name l).
    { clear -A. induction A as [|e g l gs H HH IH]; [reflexivity|]. cbn. destruct e; [contradiction|]. destruct H as [-> _]. now f_equal. }
    rewrite dict_of_nodup by (rewrite Ek; eapply names_ok_nodup; exact N).
    split; [now apply shows_dict|]. cbn [unmixed]. split.
    + left. apply forallb_forall. intros e He. destruct (B e He) as (c & -> & _). reflexivity.
    + clear -B. induction l as [|e l IHl]; [exact I|]. destruct (B e (or_introl eq_refl)) as (c & -> & Hc). split; [exact Hc|].
      apply IHl. intros e He. apply B. now right.
  - unfold bind in H. destruct (list_entries its u path l s) as [s1 [gs|err]] eqn:E1; [|discriminate]. injection H as <- <-.
    split.
    + apply shows_list; [exact Ex|]. clear IH N. revert s s1 gs E1. induction l as [|e l IHl]; intros s s1 gs E1; cbn [list_entries] in E1.
      * injection E1 as <- <-. constructor.
      * destruct e as [x t|c]; [|discriminate]. unfold bind at 1 in E1.
        destruct (list_entry its u path x t l s) as [s2 [g|err]] eqn:E2; [|discriminate].
        unfold bind at 1 in E1. destruct (list_entries its u path l s2) as [s3 [gs'|err]] eqn:E3; [|discriminate]. injection E1 as <- <-.
        assert (G := list_entries_grows its u path l s2). rewrite E3 in G.
        constructor; [|eapply IHl; [exact Ex|exact E3]]. apply list_entry_ok in E2. destruct g; try contradiction. cbn in *. now apply G.
    + cbn [unmixed]. split; [now right|]. clear -Ex. induction l as [|[x t|c] l IHl]; [exact I| |discriminate]. apply IHl. exact Ex.
Qed.

(** loading a function or class entry succeeds if it has a config *)
Lemma one_func_loads its path s t : cms_wf (r_cms s) -> own_values (r_cms s) (path_parts path) <> None ->
  (exists b, get_func_or_collection its path = Ok (b, FThing t)) -> (match t with TFunc _ | TClass _ => True | _ => False end) ->
  exists s' o, get_one_func_with_config its path s = (s', Ok o).
Proof.
  intros W Ho (b & Hf) Ht. destruct (own_values (r_cms s) (path_parts path)) as [own|] eqn:Eo; [|congruence].
  unfold get_one_func_with_config, bind at 1, gets. destruct (dget path (r_loaded s)) as [o|]; [do 2 eexists; reflexivity|].
  destruct (get_config_spec s path own W Eo) as (c & s1 & E & _). unfold get_func_and_config, bind. rewrite E. unfold lift. rewrite Hf. cbn [snd].
  destruct t; try contradiction; unfold ret, fresh, set_loaded, modify; do 2 eexists; reflexivity.
Qed.

Lemma all_callable_entry n l e : all_callable (Coll n l) -> In e l ->
  match e with EItem _ (TFunc _) | EItem _ (TClass _) => True | EItem _ _ => False | EColl c => all_callable c end.
Proof.
  cbn [all_callable]. induction l as [|e' l IH]; [intros _ []|]. intros H [->|Hin].
  - destruct e as [x []|]; tauto.
  - destruct e' as [x []|]; try tauto. all: apply IH; tauto.
Qed.
Lemma unmixed_entry n l c : unmixed (Coll n l) -> In (EColl c) l -> unmixed c.
Proof.
  cbn [unmixed]. intros [_ H]. induction l as [|e' l IH]; [intros []|]. intros [->|Hin]; [tauto|]. destruct e'; [apply IH; auto|apply IH; tauto].
Qed.
Lemma item_paths_entry path n l e : In e l ->
  match e with EItem x _ => In (path ++ "." ++ x)%string (item_paths path (Coll n l))
             | EColl c => incl (item_paths (path ++ "." ++ coll_name c)%string c) (item_paths path (Coll n l)) end.
Proof.
  cbn [item_paths]. induction l as [|e' l IH]; [intros []|]. intros [->|Hin].
  - destruct e; [now left|]. intros q Hq. apply in_app_iff. now left.
  - specialize (IH Hin). destruct e' as [x t|c']; destruct e.
    + right. exact IH.
    + intros q Hq. right. apply IH, Hq.
    + apply in_app_iff. right. exact IH.
    + intros q Hq. apply in_app_iff. right. apply IH, Hq.
Qed.

Lemma get_section_loads its u c : forall path s, names_ok c -> get_func_or_collection its path = Ok (false, FColl c) ->
  unmixed c -> all_callable c -> cms_wf (r_cms s) -> configured s (item_paths path c) ->
  exists s' g, get_section its u c path s = (s', Ok g).
Proof.
  induction c as [n l IH] using coll_ind2. intros path s N Hp HU HA W Hc. rewrite get_section_eq.
  destruct (existsb is_coll l) eqn:Ex.
  - assert (AC : forallb is_coll l = true).
    { destruct HU as ([HU|HU] & _); [exact HU|congruence]. }
    set (F := dict_entry (sub_thunks (get_section its u) path l)) in *.
    assert (K : forall e, keeps grows (F e)).
    { intro e. unfold F. destruct e as [x []|c]; cbn [dict_entry]; try gdone. gbind; [|intro; gdone]. unfold sub_got.
      destruct (dget _ _) as [[m|]|] eqn:E; try gdone. apply sub_thunks_In in E as (c' & Hc' & _ & ->). apply get_section_grows. }
    assert (ALL : forall l0, incl l0 l -> forall s, cms_wf (r_cms s) -> configured s (item_paths path (Coll n l)) ->
      exists s' gs, mapM F l0 s = (s', Ok gs)).
    { clear s W Hc. induction l0 as [|e l0 IHl]; intros Hi s W Hc; cbn [mapM].
      - do 2 eexists; reflexivity.
      - assert (He := Hi e (or_introl eq_refl)). assert (Hcl : is_coll e = true) by (rewrite forallb_forall in AC; auto).
        destruct e as [|c']; [discriminate|].
        assert (X : exists s1 g, F (EColl c') s = (s1, Ok g)).
        { unfold F, dict_entry, sub_got. rewrite sub_thunk_coll; [|eapply names_ok_nodup; exact N|exact He]. unfold bind.
          destruct (IH c' He (sub_path path (coll_name c')) s) as (s1 & g & ->).
          - exact (proj2 (proj2 (names_ok_entry _ _ _ N He))).
          - exact (entry_found its path n l (EColl c') Hp N He ltac:(discriminate)).
          - eapply unmixed_entry; eassumption.
          - exact (all_callable_entry n l (EColl c') HA He).
          - exact W.
          - intros q Hq. apply Hc. rewrite sub_path_str in Hq. exact (item_paths_entry path n l (EColl c') He q Hq).
          - do 2 eexists; reflexivity. }
        destruct X as (s1 & g & X). unfold bind at 1. rewrite X. assert (G := K (EColl c') s). rewrite X in G. cbn [fst] in G.
        destruct (proj2 G W) as (W1 & C1).
        destruct (IHl (fun x Hx => Hi x (or_intror Hx)) s1 W1) as (s2 & gs & Y); [intros q Hq; apply C1, Hc, Hq|].
        unfold bind. rewrite Y. do 2 eexists; reflexivity. }
    destruct (ALL l (incl_refl l) s W Hc) as (s' & gs & E). unfold bind. rewrite E. do 2 eexists; reflexivity.
  - assert (ALL : forall l0, incl l0 l -> forall s, cms_wf (r_cms s) -> configured s (item_paths path (Coll n l)) ->
      exists s' gs, list_entries its u path l0 s = (s', Ok gs)).
    { clear s W Hc. induction l0 as [|e l0 IHl]; intros Hi s W Hc; cbn [list_entries].
      - do 2 eexists; reflexivity.
      - assert (He := Hi e (or_introl eq_refl)). assert (Hcl : is_coll e = false).
        { destruct (is_coll e) eqn:Hcl; [|reflexivity]. exfalso. assert (existsb is_coll l = true); [|congruence]. apply existsb_exists. eauto. }
        destruct e as [x t|c']; [|discriminate].
        assert (Ht := all_callable_entry n l (EItem x t) HA He).
        assert (X : exists s1 g, list_entry its u path x t l0 s = (s1, Ok g)).
        { destruct (one_func_loads its (sub_path path x) s t W) as (s1 & o & E).
          - apply Hc. rewrite sub_path_str. exact (item_paths_entry path n l (EItem x t) He).
          - exists false. apply (entry_found its path n l (EItem x t) Hp N He). intros y err [= -> ->]. exact Ht.
          - destruct t; exact Ht || exact I.
          - destruct t; try contradiction; cbn [list_entry]; unfold bind; rewrite E; do 2 eexists; reflexivity. }
        destruct X as (s1 & g & X). unfold bind at 1. rewrite X. assert (G := list_entry_grows its u path x t l0 s). rewrite X in G. cbn [fst] in G.
        destruct (proj2 G W) as (W1 & C1).
        destruct (IHl (fun x Hx => Hi x (or_intror Hx)) s1 W1) as (s2 & gs & Y); [intros q Hq; apply C1, Hc, Hq|].
        unfold bind. rewrite Y. do 2 eexists; reflexivity. }
    destruct (ALL l (incl_refl l) s W Hc) as (s' & gs & E). unfold bind. rewrite E. do 2 eexists; reflexivity.
Qed.

(** loading one item leaves the others alone *)
Lemma one_func_other its path s q : q <> path -> dget q (r_loaded (fst (get_one_func_with_config its path s))) = dget q (r_loaded s).
Proof.
  intro Hq. unfold get_one_func_with_config, bind at 1, gets. destruct (dget path (r_loaded s)) as [o|]; [reflexivity|].
  unfold bind at 1. assert (G := gfc_sr its path s). destruct (get_func_and_config its path s) as [s1 [[[f b] kw]|e]]; cbn [fst] in *.
  - destruct G as (G & _). cbn. now rewrite dget_dset_neq, G.
  - now destruct G as (-> & _).
Qed.
Lemma one_obj_other its u path s q : q <> path -> dget q (r_loaded (fst (get_one_obj_with_config its u path s))) = dget q (r_loaded s).
Proof.
  intro Hq. unfold get_one_obj_with_config, bind at 1, gets. destruct (dget path (r_loaded s)) as [o|]; [reflexivity|].
  unfold bind at 1, lift. destruct (get_func_or_collection its path); [|reflexivity].
  unfold bind at 1. assert (G := gcc_sr its path s). destruct (get_class_and_config its path s) as [s1 [[[f b] kw]|e]]; cbn [fst] in *.
  - destruct G as (G & _). destruct (u_init u f _); cbn [fst raise]; [now rewrite G|]. cbn. now rewrite dget_dset_neq, G.
  - now destruct G as (-> & _).
Qed.
Lemma str_app_inv (a x y : string) : (a ++ x)%string = (a ++ y)%string -> x = y.
Proof. induction a as [|c a IH]; cbn; [auto|]. intros [= H]. auto. Qed.
Lemma list_entry_other its u path n t rest s x : x <> n ->
  dget (path ++ "." ++ x)%string (r_loaded (fst (list_entry its u path n t rest s))) = dget (path ++ "." ++ x)%string (r_loaded s).
Proof.
  intro Hx. assert (Hq : (path ++ "." ++ x)%string <> sub_path path n).
  { rewrite sub_path_str. intro E. apply str_app_inv in E. cbn in E. congruence. }
  destruct t; cbn [list_entry]; try reflexivity.
  - unfold bind. assert (X := one_func_other its (sub_path path n) s _ Hq). now destruct (get_one_func_with_config its (sub_path path n) s) as [s1 []].
  - unfold bind. assert (X := one_func_other its (sub_path path n) s _ Hq). now destruct (get_one_func_with_config its (sub_path path n) s) as [s1 []].
  - destruct (existsb _ rest); [reflexivity|].
    unfold bind. assert (X := one_obj_other its u (sub_path path n) s _ Hq). now destruct (get_one_obj_with_config its u (sub_path path n) s) as [s1 []].
Qed.
