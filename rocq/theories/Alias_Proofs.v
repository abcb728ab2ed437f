From Verif Require Import Alias_Spec Config_Proofs.
Require Import Lia.
Local Open Scope list_scope.

(** ---- contents of dicts ---- *)
Lemma dcontents_get h k d : dget k (dcontents h d) = option_map (contents h) (dget k d).
Proof. apply dget_map. Qed.
Lemma dcontents_mem h k d : dmem k (dcontents h d) = dmem k d.
Proof. unfold dmem. rewrite dcontents_get. now destruct (dget k d). Qed.
Lemma dcontents_keys h d : dkeys (dcontents h d) = dkeys d.
Proof. unfold dkeys, dcontents. rewrite map_map. now apply map_ext. Qed.
Lemma dcontents_wf h d : dwf d -> dwf (dcontents h d).
Proof. unfold dwf. now rewrite dcontents_keys. Qed.
Lemma dcontents_set h k x d : dcontents h (dset k x d) = dset k (contents h x) (dcontents h d).
Proof.
  induction d as [|[k' x'] d IH]; [reflexivity|].
  cbn. destruct (String.eqb k k'); cbn; [reflexivity|]. f_equal. exact IH.
Qed.
Lemma dcontents_update h e : forall d, dcontents h (dupdate d e) = dupdate (dcontents h d) (dcontents h e).
Proof.
  induction e as [|[k x] e IH]; intro d; [reflexivity|].
  change (dupdate d ((k, x) :: e)) with (dupdate (dset k x d) e). rewrite IH, dcontents_set. reflexivity.
Qed.
Lemma dcontents_filter h p d : dcontents h (dfilter p d) = dfilter p (dcontents h d).
Proof. induction d as [|[k x] d IH]; [reflexivity|]. cbn. destruct (p k); cbn; [f_equal|]; exact IH. Qed.
Lemma dcontents_apply h c : forall kw, dcontents h (h_apply kw c) = apply_config_to_partial (dcontents h kw) (dcontents h c).
Proof.
  induction c as [|[k x] c IH]; intro kw; [reflexivity|].
  change (dcontents h ((k, x) :: c)) with ((k, contents h x) :: dcontents h c).
  cbn [h_apply apply_config_to_partial]. rewrite IH, dcontents_mem. destruct (dmem k kw); [|reflexivity]. now rewrite dcontents_set.
Qed.
Lemma dcontents_loaded h o c : option_map (dcontents h) (apply_loaded o c) = v_apply (option_map (dcontents h) o) (dcontents h c).
Proof. destruct o as [kw|]; [|reflexivity]. cbn. now rewrite dcontents_apply. Qed.

Lemma contents_app h n x : ref_ok h x -> contents (h ++ n) x = contents h x.
Proof. destruct x as [v|l]; [reflexivity|]. cbn. intro L. now rewrite app_nth1. Qed.
Lemma dcontents_app h n d : refs_ok h d -> dcontents (h ++ n) d = dcontents h d.
Proof.
  intro R. unfold dcontents. apply map_ext_in. intros [k x] I. cbn.
  rewrite contents_app; [reflexivity|]. exact (proj1 (Forall_forall _ _) R _ I).
Qed.
Lemma ref_ok_app h n x : ref_ok h x -> ref_ok (h ++ n) x.
Proof. destruct x as [v|l]; [trivial|]. cbn. rewrite app_length. lia. Qed.
Lemma refs_ok_app h n d : refs_ok h d -> refs_ok (h ++ n) d.
Proof. unfold refs_ok. apply Forall_impl. intros kv. apply ref_ok_app. Qed.
Lemma file_ok_app h n file : file_ok h file -> file_ok (h ++ n) file.
Proof.
  unfold file_ok. apply Forall_impl. intros [k [v|c|l]]; cbn; trivial. rewrite app_length. lia.
Qed.
Lemma refs_ok_len h h' d : length h' = length h -> refs_ok h d -> refs_ok h' d.
Proof. intro L. unfold refs_ok. apply Forall_impl. intros [k [v|l]]; cbn; trivial. now rewrite L. Qed.
Lemma file_ok_len h h' file : length h' = length h -> file_ok h file -> file_ok h' file.
Proof. intro L. unfold file_ok. apply Forall_impl. intros [k [v|c|l]]; cbn; trivial. now rewrite L. Qed.

Lemma In_dset {A} k (v : A) d kv : In kv (dset k v d) -> snd kv = v \/ In kv d.
Proof.
  induction d as [|[k' v'] d IH]; cbn; [intros [<-|[]]; now left|].
  destruct (String.eqb k k'); cbn; [intros [<-|I]; [now left|right; now right]|].
  intros [<-|I]; [right; now left|]. destruct (IH I); [now left|right; now right].
Qed.
Lemma refs_ok_set h k x d : ref_ok h x -> refs_ok h d -> refs_ok h (dset k x d).
Proof.
  unfold refs_ok. rewrite !Forall_forall. intros X R kv I.
  destruct (In_dset _ _ _ _ I) as [->|J]; [exact X|exact (R _ J)].
Qed.
Lemma refs_ok_update h e : forall d, refs_ok h e -> refs_ok h d -> refs_ok h (dupdate d e).
Proof.
  induction e as [|[k x] e IH]; intros d E D; [exact D|].
  inversion E; subst. change (dupdate d ((k, x) :: e)) with (dupdate (dset k x d) e). apply IH; [assumption|]. now apply refs_ok_set.
Qed.
Lemma refs_ok_filter h p d : refs_ok h d -> refs_ok h (dfilter p d).
Proof.
  unfold refs_ok, dfilter. rewrite !Forall_forall. intros R kv I. apply filter_In in I. exact (R _ (proj1 I)).
Qed.
Lemma refs_ok_apply h c : forall kw, refs_ok h c -> refs_ok h kw -> refs_ok h (h_apply kw c).
Proof.
  induction c as [|[k x] c IH]; intros kw C K; [exact K|].
  inversion C; subst. cbn. apply IH; [assumption|].
  destruct (dmem k kw); [now apply refs_ok_set|exact K].
Qed.
Lemma h_apply_wf c : forall kw, dwf kw -> dwf (h_apply kw c).
Proof.
  induction c as [|[k x] c IH]; intros kw K; [exact K|]. cbn. apply IH.
  destruct (dmem k kw); [now apply dset_wf|exact K].
Qed.

(** ---- executing the file ---- *)
Lemma eval_file_spec file : forall h d,
  file_ok h file -> refs_ok h d ->
  exists n, fst (eval_file file h d) = h ++ n
    /\ refs_ok (h ++ n) (snd (eval_file file h d))
    /\ dcontents (h ++ n) (snd (eval_file file h d))
       = dupdate (dcontents h d) (map (fun ke => (fst ke, fx_value h (snd ke))) file)
    /\ (dwf d -> dwf (snd (eval_file file h d))).
Proof.
  induction file as [|[k e] file IH]; intros h d F R.
  - exists []. rewrite app_nil_r. auto.
  - inversion F as [|? ? E F']; subst. cbn [eval_file].
    assert (exists n, fst (eval_fx h e) = h ++ n /\ ref_ok (h ++ n) (snd (eval_fx h e))
                      /\ contents (h ++ n) (snd (eval_fx h e)) = fx_value h e) as (n & En & Rn & Cn).
    { destruct e as [v|c|l]; cbn.
      - exists []. now rewrite app_nil_r.
      - exists [c]. rewrite app_length. repeat split; [cbn; lia|]. rewrite app_nth2 by lia. now rewrite Nat.sub_diag.
      - exists []. rewrite app_nil_r. auto. }
    destruct (eval_fx h e) as [h' x]; cbn in En, Rn, Cn; subst h'.
    destruct (IH (h ++ n) (dset k x d)) as (m & E1 & E2 & E3 & E4).
    { now apply file_ok_app. }
    { apply refs_ok_set; [exact Rn|now apply refs_ok_app]. }
    exists (n ++ m). rewrite app_assoc. split; [exact E1|]. split; [exact E2|]. split.
    + rewrite E3, dcontents_set, Cn, dcontents_app by exact R. cbn.
      unfold dupdate. f_equal. apply map_ext_in. intros [k' e'] I. cbn. f_equal.
      destruct e' as [v|c|l]; cbn; [reflexivity|reflexivity|].
      pose proof (proj1 (Forall_forall _ _) F' _ I) as L; cbn in L. now rewrite app_nth1.
    + intro W. apply E4. now apply dset_wf.
Qed.

Lemma eval_file_new file h : file_ok h file ->
  exists n new, eval_file file h [] = (h ++ n, new) /\ refs_ok (h ++ n) new
    /\ dcontents (h ++ n) new = file_values file h /\ dwf new.
Proof.
  intro F. destruct (eval_file_spec file h [] F (Forall_nil _)) as (n & E1 & E2 & E3 & E4).
  destruct (eval_file file h []) as [h' new]; cbn in *; subst h'.
  exists n, new. repeat split; auto. apply E4. constructor.
Qed.

Lemma file_values_app file h n : file_ok h file -> file_values file (h ++ n) = file_values file h.
Proof.
  intro F. unfold file_values. f_equal. apply map_ext_in. intros [k [v|c|l]] I; cbn; try reflexivity.
  pose proof (proj1 (Forall_forall _ _) F _ I) as L; cbn in L. now rewrite app_nth1.
Qed.

Lemma file_values_wf file h : dwf (file_values file h).
Proof. unfold file_values, dict_of. apply dupdate_wf. constructor. Qed.

Lemma file_values_keys file h k : In k (dkeys (file_values file h)) -> In k (map fst file).
Proof.
  unfold file_values, dict_of. intro I. apply In_dkeys_dupdate in I. destruct I as [[]|I].
  unfold dkeys in I. rewrite map_map in I. exact I.
Qed.

(** ---- changing lists ---- *)
Lemma put_length l c : forall h, length (put l c h) = length h.
Proof. induction l as [|l IH]; intros [|x h]; cbn; [reflexivity..|]. now rewrite IH. Qed.
Lemma put_nth l c : forall h l', l < length h -> nth l' (put l c h) [] = if Nat.eqb l' l then c else nth l' h [].
Proof.
  induction l as [|l IH]; intros [|x h] [|l'] L; cbn in *; try lia; try reflexivity. apply IH. lia.
Qed.
Lemma put_other l c : forall h l', l' <> l -> nth l' (put l c h) [] = nth l' h [].
Proof.
  induction l as [|l IH]; intros [|x h] [|l'] L; cbn; try reflexivity; [now elim L|apply IH; congruence].
Qed.
Lemma change_arg_length kw kc h : length (change_arg kw h kc) = length h.
Proof. unfold change_arg. destruct (dget _ kw) as [[v|l]|]; [reflexivity|apply put_length|reflexivity]. Qed.
Lemma change_args_length kw ch : forall h, length (fold_left (change_arg kw) ch h) = length h.
Proof. induction ch as [|kc ch IH]; intro h; cbn; [reflexivity|]. rewrite IH. apply change_arg_length. Qed.

Lemma put_contents l c h x : l < length h -> contents (put l c h) x = now l c h x.
Proof.
  intro L. destruct x as [v|l']; [reflexivity|]. cbn. rewrite put_nth by exact L. now destruct (Nat.eqb l' l).
Qed.

(** ---- states ---- *)
Lemma ast_grow file h n vals applied loaded calls :
  ast_ok file (HS h vals applied loaded calls) -> ast_ok file (HS (h ++ n) vals applied loaded calls).
Proof.
  intros [[V1 V2] [A1 [A2 A3]] L F]; cbn in *. constructor; cbn.
  - split; [exact V1|now apply refs_ok_app].
  - repeat split; [exact A1|now apply refs_ok_app|exact A3].
  - intros kw E. destruct (L kw E). split; [assumption|now apply refs_ok_app].
  - now apply file_ok_app.
Qed.

Lemma apply_loaded_ok h o c kw' :
  (forall kw, o = Some kw -> dwf kw /\ refs_ok h kw) -> refs_ok h c ->
  apply_loaded o c = Some kw' -> dwf kw' /\ refs_ok h kw'.
Proof.
  intros L C E. destruct o as [kw|]; [|discriminate]. cbn in E. injection E as <-.
  destruct (L kw eq_refl) as [W R]. split; [now apply h_apply_wf|now apply refs_ok_apply].
Qed.

Lemma keywords_ok file params s : ast_ok file s -> dwf (keywords params s) /\ refs_ok (h_heap s) (keywords params s).
Proof.
  intros [[V1 V2] _ L _]. unfold keywords. destruct (h_loaded s) as [kw|] eqn:E; [now apply L|].
  split; [now apply dfilter_wf|now apply refs_ok_filter].
Qed.

Lemma key_ok_update {A} (d e : dict A) : Forall key_ok (dkeys d) -> Forall key_ok (dkeys e) -> Forall key_ok (dkeys (dupdate d e)).
Proof.
  rewrite !Forall_forall. intros D E k I. apply In_dkeys_dupdate in I. destruct I as [I|I]; auto.
Qed.

Lemma step_ok file params body o s :
  ast_ok file s -> aop_ok (h_heap s) o -> ast_ok file (fst (h_step file params body o s)).
Proof.
  intros A O. pose proof A as [[V1 V2] [A1 [A2 A3]] L F].
  destruct s as [h vals applied loaded calls]; cbn in V1, V2, A1, A2, A3, L, F, O.
  destruct o as [d persist| | | |c|l c]; cbn [h_step].
  - destruct O as (Wd & Rd & Kd). unfold h_update; cbn.
    destruct (would_update_loop _ _) as [[|]|e]; cbn; [|exact A|exact A].
    assert (refs_ok h (dupdate vals d)) as RV by now apply refs_ok_update.
    constructor; cbn; [split; [now apply dupdate_wf|exact RV]| |intros kw; now apply apply_loaded_ok|exact F].
    destruct persist; [|auto].
    repeat split; [now apply dupdate_wf|now apply refs_ok_update|now apply key_ok_update].
  - unfold h_refresh; cbn.
    destruct (eval_file_new file h F) as (n & new & -> & R1 & C1 & W1).
    pose proof (ast_grow file h n _ _ _ _ A) as An.
    destruct (would_update_loop _ _) as [[|]|e]; [|exact An|exact An].
    destruct (eval_file_new file (h ++ n)) as (n2 & new2 & -> & R2 & C2 & W2); [now apply file_ok_app|].
    pose proof (ast_grow file (h ++ n) n2 _ _ _ _ An) as [[B1 B2] [B3 [B4 B5]] B6 B7]; cbn in B1, B2, B3, B4, B5, B6, B7.
    assert (refs_ok ((h ++ n) ++ n2) (dupdate vals (dupdate new2 applied))) as RV.
    { apply refs_ok_update; [|exact B2]. now apply refs_ok_update. }
    constructor; cbn; [split; [now apply dupdate_wf|exact RV]|auto|intros kw; now apply apply_loaded_ok|exact B7].
  - unfold h_reset; cbn.
    destruct (eval_file_new file h F) as (n & new & -> & R1 & C1 & W1).
    pose proof (ast_grow file h n _ _ _ _ A) as An.
    destruct (would_update_loop _ _) as [[|]|e]; [|exact An|exact An].
    destruct An as [[B1 B2] [B3 [B4 B5]] B6 B7]; cbn in *.
    constructor; cbn; [auto| |intros kw; now apply apply_loaded_ok|exact B7].
    repeat split; constructor.
  - unfold h_run. cbn [fst]. pose proof (change_args_length (keywords params (HS h vals applied loaded calls))
        (body (dcontents h (keywords params (HS h vals applied loaded calls)))) h) as Len.
    destruct (keywords_ok file params _ A) as [Kw Kr].
    constructor; cbn; [split; [exact V1|eapply refs_ok_len; eassumption]| | |eapply file_ok_len; eassumption].
    + repeat split; [exact A1|eapply refs_ok_len; eassumption|exact A3].
    + intros kw [= <-]. split; [exact Kw|]. eapply refs_ok_len; [exact Len|exact Kr].
  - now apply ast_grow.
  - pose proof (put_length l c h) as Len.
    constructor; cbn; [split; [exact V1|eapply refs_ok_len; eassumption]| | |eapply file_ok_len; eassumption].
    + repeat split; [exact A1|eapply refs_ok_len; eassumption|exact A3].
    + intros kw E. destruct (L kw E) as [W R]. split; [exact W|]. eapply refs_ok_len; [exact Len|exact R].
Qed.

Lemma load_ok file h : file_ok h file -> ast_ok file (h_load file h).
Proof.
  intro F. unfold h_load. destruct (eval_file_new file h F) as (n & new & -> & R1 & C1 & W1).
  constructor; cbn; [auto|repeat split; constructor|discriminate|now apply file_ok_app].
Qed.

Lemma steps_ok file params body ops : forall s,
  ast_ok file s -> calls_ok file params body ops s -> ast_ok file (h_steps file params body ops s).
Proof.
  induction ops as [|o ops IH]; intros s A C; [exact A|].
  inversion C; subst. cbn. apply IH; [|assumption]. now apply step_ok.
Qed.

(** ---- the value model ---- *)
Lemma refresh_keys file h applied : Forall key_ok (map fst file) -> Forall key_ok (dkeys applied) ->
  Forall key_ok (dkeys (dupdate (file_values file h) applied)).
Proof.
  intros F A. apply key_ok_update; [|exact A]. rewrite Forall_forall in *. intros k I. apply F.
  exact (file_values_keys _ _ _ I).
Qed.
Lemma key_ok_not {A} (d : dict A) :
  Forall key_ok (dkeys d) -> dmem "self" d = false /\ dmem "pyfileconf_persist" d = false /\ dget "E" d = None.
Proof.
  intro K. rewrite Forall_forall in K.
  assert (forall k, ~ key_ok k -> dget k d = None) as N.
  { intros k NK. destruct (dget k d) eqn:E; [|reflexivity]. elim NK. apply K. apply In_dkeys_dget. eauto. }
  unfold dmem. repeat split; rewrite ?N; try reflexivity; intros (? & ? & ?); congruence.
Qed.

Local Arguments dcontents : simpl never.
Local Arguments dfilter : simpl never.
Local Arguments dupdate : simpl never.

Lemma step_seen name ref file params body o s :
  ast_ok file s -> Forall key_ok (map fst file) -> aop_ok (h_heap s) o -> changes_nothing o -> (o = ARun -> pure_body body) ->
  seen name ref (fst (h_step file params body o s)) = fst (v_step params (seen_op file o s) (seen name ref s))
  /\ snd (h_step file params body o s) = snd (v_step params (seen_op file o s) (seen name ref s)).
Proof.
  intros A K O N P. pose proof A as [[V1 V2] [A1 [A2 A3]] L F].
  destruct s as [h vals applied loaded calls]; cbn in V1, V2, A1, A2, A3, L, F, O.
  assert (forall n, seen name ref (HS (h ++ n) vals applied loaded calls) = seen name ref (HS h vals applied loaded calls)) as Grow.
  { intro n. unfold seen; cbn. rewrite !dcontents_app by assumption. f_equal.
    destruct loaded as [kw|]; [|reflexivity]. cbn. destruct (L kw eq_refl). now rewrite dcontents_app. }
  destruct o as [d persist| | | |c|l c]; cbn [h_step seen_op v_step]; [| | | | |now elim N].
  - unfold h_update, cfg_checked_update, would_update; cbn. rewrite !dupdate_nil_r.
    destruct (would_update_loop (dcontents h vals) (dcontents h d)) as [[|]|e]; cbn; [|auto|auto].
    split; [|reflexivity]. unfold seen, cfg_update; cbn. rewrite !dupdate_nil_r.
    rewrite dcontents_loaded, dcontents_update. f_equal. f_equal.
    destruct persist; [now rewrite dcontents_update|reflexivity].
  - unfold h_refresh; cbn. destruct (eval_file_new file h F) as (n & new & -> & R1 & C1 & W1).
    rewrite dcontents_update, C1, !dcontents_app by assumption.
    unfold cfg_checked_refresh, change_from_refresh, refresh_updates, would_update; cbn [seen v_cfg c_vals c_applied opt_dict h_heap h_vals h_applied].
    rewrite dupdate_nil_r.
    set (all := dupdate (file_values file h) (dcontents h applied)).
    destruct (would_update_loop (dcontents h vals) all) as [[|]|e] eqn:E; [|split; [apply Grow|reflexivity]..].
    destruct all as [|kv all'] eqn:Eall; [discriminate|]. rewrite <- Eall in *.
    assert (Forall key_ok (dkeys all)) as Ka.
    { unfold all. apply refresh_keys; [exact K|]. now rewrite dcontents_keys. }
    destruct (key_ok_not _ Ka) as (N1 & N2 & N3).
    unfold cfg_refresh, refresh_updates; cbn [c_applied c_vals]. fold all. rewrite N1, N2, N3. cbn [orb].
    destruct (eval_file_new file (h ++ n)) as (n2 & new2 & -> & R2 & C2 & W2); [now apply file_ok_app|].
    cbn [fst snd]. split; [|reflexivity]. unfold seen, cfg_update; cbn.
    assert (dcontents ((h ++ n) ++ n2) (dupdate vals (dupdate new2 applied)) = dupdate (dcontents h vals) all) as Ev.
    { rewrite !dcontents_update, C2, file_values_app by assumption.
      rewrite <- app_assoc, !dcontents_app by assumption. reflexivity. }
    rewrite dcontents_loaded, Ev. rewrite <- app_assoc, !dcontents_app by assumption. f_equal. f_equal.
    destruct loaded as [kw|]; [|reflexivity]. cbn. destruct (L kw eq_refl). now rewrite dcontents_app.
  - unfold h_reset; cbn. destruct (eval_file_new file h F) as (n & new & -> & R1 & C1 & W1).
    rewrite C1, !dcontents_app by assumption.
    unfold would_update; cbn [seen v_cfg c_vals c_applied opt_dict h_heap h_vals h_applied]. rewrite dupdate_nil_r.
    destruct (would_update_loop (dcontents h vals) (file_values file h)) as [[|]|e] eqn:E; [|split; [apply Grow|reflexivity]..].
    split; [|reflexivity]. unfold seen; cbn. rewrite dcontents_loaded, C1. f_equal. f_equal.
    destruct loaded as [kw|]; [|reflexivity]. cbn. destruct (L kw eq_refl). now rewrite dcontents_app.
  - split; [|reflexivity]. unfold h_run. rewrite (P eq_refl). unfold seen, keywords; cbn.
    destruct loaded as [kw|]; cbn; [reflexivity|]. rewrite dcontents_filter. reflexivity.
  - split; [apply Grow|reflexivity].
Qed.

Lemma steps_seen name ref file params body ops : forall s,
  ast_ok file s -> Forall key_ok (map fst file) -> calls_ok file params body ops s ->
  Forall changes_nothing ops -> pure_body body ->
  seen name ref (h_steps file params body ops s) = v_steps params (seen_ops file params body ops s) (seen name ref s).
Proof.
  induction ops as [|o ops IH]; intros s A K C N P; [reflexivity|].
  inversion C; subst. inversion N; subst. cbn.
  rewrite IH by (try assumption; now apply step_ok).
  f_equal. apply step_seen; auto.
Qed.

(** ---- which lists the steps change ---- *)
Lemma step_grows file params body o s :
  ast_ok file s -> (match o with ARun => False | APut _ _ => False | _ => True end) ->
  exists n, h_heap (fst (h_step file params body o s)) = h_heap s ++ n.
Proof.
  intros [_ _ _ F] O. destruct o as [d persist| | | |c|l c]; cbn [h_step]; try contradiction.
  - unfold h_update. destruct (would_update_loop _ _) as [[|]|e]; exists []; cbn; now rewrite app_nil_r.
  - unfold h_refresh. destruct (eval_file_new file (h_heap s) F) as (n & new & -> & R1 & C1 & W1).
    destruct (would_update_loop _ _) as [[|]|e]; [|exists n; reflexivity..].
    destruct (eval_file_new file (h_heap s ++ n)) as (n2 & new2 & -> & R2 & C2 & W2); [now apply file_ok_app|].
    exists (n ++ n2). cbn. now rewrite app_assoc.
  - unfold h_reset. destruct (eval_file_new file (h_heap s) F) as (n & new & -> & R1 & C1 & W1).
    exists n. now destruct (would_update_loop _ _) as [[|]|e].
  - now exists [c].
Qed.

Lemma change_args_other kw l ch : ~ holds kw l -> forall h, nth l (fold_left (change_arg kw) ch h) [] = nth l h [].
Proof.
  intro N. induction ch as [|[k c] ch IH]; intro h; [reflexivity|]. cbn. rewrite IH.
  unfold change_arg; cbn. destruct (dget k kw) as [[v|l']|] eqn:E; [reflexivity| |reflexivity].
  apply put_other. intros ->. apply N. exists k. now apply dget_Some_In.
Qed.

(** ---- the loaded item has the config's objects ---- *)
Lemma dget_apply c : forall kw k, dwf c ->
  dget k (h_apply kw c) = if dmem k kw then match dget k c with Some v => Some v | None => dget k kw end else None.
Proof.
  induction c as [|[k' x] c IH]; intros kw k W; cbn [h_apply].
  - unfold dmem. cbn. now destruct (dget k kw).
  - inversion W as [|? ? N W']; subst. fold (dkeys c) in W'. rewrite IH by exact W'. cbn [dget].
    assert (dget k' c = None) as Nk.
    { apply dget_None. exact N. }
    destruct (dmem k' kw) eqn:M.
    + unfold dmem in *. rewrite dget_dset. destruct (String.eqb_spec k k') as [->|D].
      * rewrite Nk. now destruct (dget k' kw).
      * reflexivity.
    + destruct (String.eqb_spec k k') as [->|D]; [|reflexivity]. now rewrite M.
Qed.

Record inv_loaded (file : list (string * fx)) (params : list string) (s : hst) : Prop := {
  il_keys : forall k, In k (map fst file) -> dmem k (h_vals s) = true;
  il_kw : forall kw k, h_loaded s = Some kw ->
            dget k kw = if existsb (String.eqb k) params then dget k (h_vals s) else None }.

Lemma il_apply (file : list (string * fx)) params vals loaded vals' :
  dwf vals' ->
  (forall k, In k params -> In k (map fst file)) ->
  (forall k, In k (map fst file) -> dmem k vals = true) ->
  (forall kw k, loaded = Some kw -> dget k kw = if existsb (String.eqb k) params then dget k vals else None) ->
  (forall k, In k (map fst file) -> dmem k vals' = true) ->
  forall kw k, apply_loaded loaded vals' = Some kw -> dget k kw = if existsb (String.eqb k) params then dget k vals' else None.
Proof.
  intros W Sub K1 L K2 kw k E. destruct loaded as [kw0|]; [|discriminate]. cbn in E. injection E as <-.
  rewrite dget_apply by exact W. unfold dmem. rewrite (L kw0 k eq_refl).
  destruct (existsb (String.eqb k) params) eqn:P; [|reflexivity].
  assert (In k (map fst file)) as I.
  { apply Sub. apply existsb_exists in P. destruct P as (x & Ix & Ex). apply eqb_eq_s in Ex. now subst. }
  specialize (K1 k I). specialize (K2 k I). unfold dmem in *.
  destruct (dget k vals); [|discriminate]. now destruct (dget k vals').
Qed.

Lemma dmem_update {A} k (d e : dict A) : dmem k d = true -> dmem k (dupdate d e) = true.
Proof.
  intro M. apply dmem_In. apply In_dkeys_dupdate. left. now apply dmem_In.
Qed.
Lemma dmem_update_r {A} k (d e : dict A) : dmem k e = true -> dmem k (dupdate d e) = true.
Proof.
  intro M. apply dmem_In. apply In_dkeys_dupdate. right. now apply dmem_In.
Qed.

Lemma file_keys file h n new k : dcontents (h ++ n) new = file_values file h -> In k (map fst file) -> dmem k new = true.
Proof.
  intros E I. rewrite <- (dcontents_mem (h ++ n)), E. unfold file_values, dict_of. apply dmem_update_r.
  apply dmem_In. unfold dkeys. rewrite map_map. exact I.
Qed.

Lemma inv_loaded_step file params body o s :
  (forall k, In k params -> In k (map fst file)) ->
  ast_ok file s -> aop_ok (h_heap s) o -> inv_loaded file params s ->
  inv_loaded file params (fst (h_step file params body o s)).
Proof.
  intros Sub A O I. pose proof A as [[V1 V2] [A1 [A2 A3]] L F]. pose proof I as [K1 KL].
  destruct s as [h vals applied loaded calls]; cbn in V1, V2, A1, A2, A3, L, F, O, K1, KL.
  destruct o as [d persist| | | |c|l c]; cbn [h_step].
  - unfold h_update; cbn. destruct (would_update_loop _ _) as [[|]|e]; cbn; [|exact I|exact I].
    assert (forall k, In k (map fst file) -> dmem k (dupdate vals d) = true) as K2 by (intros k Ik; now apply dmem_update, K1).
    constructor; cbn; [exact K2|]. apply (il_apply file params vals); auto. now apply dupdate_wf.
  - unfold h_refresh; cbn. destruct (eval_file_new file h F) as (n & new & -> & R1 & C1 & W1).
    destruct (would_update_loop _ _) as [[|]|e]; cbn; [|constructor; assumption..].
    destruct (eval_file_new file (h ++ n)) as (n2 & new2 & -> & R2 & C2 & W2); [now apply file_ok_app|]. cbn.
    assert (forall k, In k (map fst file) -> dmem k (dupdate vals (dupdate new2 applied)) = true) as K2
      by (intros k Ik; now apply dmem_update, K1).
    constructor; cbn; [exact K2|]. apply (il_apply file params vals); auto. now apply dupdate_wf.
  - unfold h_reset; cbn. destruct (eval_file_new file h F) as (n & new & -> & R1 & C1 & W1).
    destruct (would_update_loop _ _) as [[|]|e]; cbn; [|constructor; assumption..].
    assert (forall k, In k (map fst file) -> dmem k new = true) as K2 by (intros k Ik; eapply file_keys; eassumption).
    constructor; cbn; [exact K2|]. apply (il_apply file params vals); auto.
  - constructor; cbn; [exact K1|]. intros kw k [= <-]. unfold keywords; cbn.
    destruct loaded as [kw|]; [now apply KL|]. rewrite dget_dfilter. reflexivity.
  - constructor; cbn; assumption.
  - constructor; cbn; assumption.
Qed.

Lemma inv_loaded_load file params h : file_ok h file -> inv_loaded file params (h_load file h).
Proof.
  intro F. unfold h_load. destruct (eval_file_new file h F) as (n & new & -> & R1 & C1 & W1).
  constructor; cbn; [intros k I; eapply file_keys; eassumption|discriminate].
Qed.

Lemma inv_loaded_steps file params body ops : forall s,
  (forall k, In k params -> In k (map fst file)) ->
  ast_ok file s -> calls_ok file params body ops s -> inv_loaded file params s ->
  inv_loaded file params (h_steps file params body ops s).
Proof.
  induction ops as [|o ops IH]; intros s Sub A C I; [exact I|].
  inversion C; subst. cbn. apply IH; [assumption|now apply step_ok|assumption|now apply inv_loaded_step].
Qed.

(** ---- lists made by executing the file ---- *)
Definition only_one (b : nat) (d : dict hv) : Prop :=
  forall k k' l, b <= l -> dget k d = Some (HRef l) -> dget k' d = Some (HRef l) -> k = k'.
Definition bounded (h : heap) (d : dict hv) : Prop := forall k l, dget k d = Some (HRef l) -> l < length h.

Lemma eval_file_one b file : forall h d, b <= length h ->
  Forall (fun ke => match snd ke with FxName l => l < b | _ => True end) file ->
  bounded h d -> only_one b d -> only_one b (snd (eval_file file h d)).
Proof.
  induction file as [|[k e] file IH]; intros h d B F Bd O; [exact O|].
  inversion F as [|? ? E F']; subst. cbn in E. cbn [eval_file].
  destruct e as [v|c|l]; cbn [eval_fx].
  - apply IH; auto.
    + intros k1 l1. rewrite dget_dset. destruct (String.eqb k1 k); [discriminate|apply Bd].
    + intros k1 k2 l1 L1. rewrite !dget_dset. destruct (String.eqb k1 k); [discriminate|].
      destruct (String.eqb k2 k); [discriminate|]. now apply O.
  - apply IH; auto.
    + rewrite app_length; cbn; lia.
    + intros k1 l1. rewrite dget_dset, app_length; cbn. destruct (String.eqb k1 k).
      * intros [= <-]. lia.
      * intro G. specialize (Bd _ _ G). lia.
    + intros k1 k2 l1 L1. rewrite !dget_dset.
      destruct (String.eqb_spec k1 k) as [->|N1]; destruct (String.eqb_spec k2 k) as [->|N2]; intros G1 G2; auto.
      * injection G1 as <-. specialize (Bd _ _ G2). lia.
      * injection G2 as <-. specialize (Bd _ _ G1). lia.
      * exact (O _ _ _ L1 G1 G2).
  - apply IH; auto.
    + intros k1 l1. rewrite dget_dset. destruct (String.eqb k1 k); [intros [= <-]; lia|apply Bd].
    + intros k1 k2 l1 L1. rewrite !dget_dset. destruct (String.eqb k1 k); [intros [= <-]; lia|].
      destruct (String.eqb k2 k); [intros _ [= <-]; lia|]. now apply O.
Qed.

Lemma eval_file_get file : forall h d k,
  dget k (snd (eval_file file h d)) = dget k d /\ assigned file k = None
  \/ (exists v, assigned file k = Some (FxVal v) /\ dget k (snd (eval_file file h d)) = Some (HVal v))
  \/ (exists l, assigned file k = Some (FxName l) /\ dget k (snd (eval_file file h d)) = Some (HRef l))
  \/ (exists c l, assigned file k = Some (FxList c) /\ dget k (snd (eval_file file h d)) = Some (HRef l) /\ length h <= l).
Proof.
  induction file as [|[k0 e] file IH]; intros h d k; [left; auto|].
  cbn [eval_file assigned].
  destruct (eval_fx h e) as [h' x] eqn:Ex.
  assert (length h <= length h') as Lh.
  { destruct e; cbn in Ex; injection Ex as <- <-; [lia|rewrite app_length; lia|lia]. }
  destruct (IH h' (dset k0 x d) k) as [[G N]|[(v & -> & G)|[(l & -> & G)|(c & l & -> & G & B)]]].
  - rewrite N, G, dget_dset. destruct (String.eqb k k0); [|left; auto]. right.
    destruct e as [v|c|l]; cbn in Ex; injection Ex as <- <-; [left; eauto|right; right; eauto|right; left; eauto].
  - right; left; eauto.
  - right; right; left; eauto.
  - right; right; right. exists c, l. repeat split; [exact G|lia].
Qed.

Lemma eval_file_lists file h : file_ok h file ->
  (forall k c, assigned file k = Some (FxList c) ->
     exists l, dget k (snd (eval_file file h [])) = Some (HRef l) /\ length h <= l)
  /\ (forall k k' l, length h <= l ->
        dget k (snd (eval_file file h [])) = Some (HRef l) -> dget k' (snd (eval_file file h [])) = Some (HRef l) -> k = k').
Proof.
  intro F. split.
  - intros k c E. destruct (eval_file_get file h [] k) as [[G N]|[(v & N & G)|[(l & N & G)|(c' & l & N & G & B)]]];
      rewrite E in N; try discriminate. eauto.
  - intros k k' l L. apply (eval_file_one (length h) file h []); [lia| | | |exact L].
    + exact F.
    + intros ? ?; discriminate.
    + intros ? ? ? ? ?; discriminate.
Qed.

(** ---- the checks look at contents ---- *)
Lemma wul_same h vals d :
  (forall k x, In (k, x) d -> dget k vals = Some x /\ plain (contents h x) = true) ->
  would_update_loop (dcontents h vals) (dcontents h d) = Ok false.
Proof.
  induction d as [|[k x] d IH]; intro H; [reflexivity|].
  change (dcontents h ((k, x) :: d)) with ((k, contents h x) :: dcontents h d). cbn [would_update_loop].
  destruct (H k x (or_introl eq_refl)) as [G P]. rewrite dcontents_get, G. cbn [option_map].
  rewrite values_refl_plain by exact P. apply IH. intros k' x' I. apply H. now right.
Qed.

(** ---- lists that are not held ---- *)
Record sim (file : list (string * fx)) (l : nat) (s1 s2 : hst) : Prop := {
  sim_len : length (h_heap s1) = length (h_heap s2);
  sim_nth : forall l', l' <> l -> nth l' (h_heap s1) [] = nth l' (h_heap s2) [];
  sim_vals : h_vals s1 = h_vals s2;
  sim_applied : h_applied s1 = h_applied s2;
  sim_loaded : h_loaded s1 = h_loaded s2;
  sim_calls : h_calls s1 = h_calls s2;
  sim_old : l < length (h_heap s1);
  sim_held : ~ held file s1 l }.

Definition same_but (l : nat) (h1 h2 : heap) : Prop :=
  length h1 = length h2 /\ (forall l', l' <> l -> nth l' h1 [] = nth l' h2 []) /\ l < length h1.

Lemma same_but_contents l h1 h2 d : same_but l h1 h2 -> ~ holds d l -> dcontents h1 d = dcontents h2 d.
Proof.
  intros (_ & S & _) N. unfold dcontents. apply map_ext_in. intros [k [v|l']] I; cbn; [reflexivity|].
  rewrite S; [reflexivity|]. intros ->. apply N. now exists k.
Qed.
Lemma same_but_app l h1 h2 n : same_but l h1 h2 -> same_but l (h1 ++ n) (h2 ++ n).
Proof.
  intros (L & S & B). repeat split.
  - now rewrite !app_length, L.
  - intros l' D. destruct (Nat.lt_ge_cases l' (length h1)).
    + rewrite !app_nth1 by lia. now apply S.
    + rewrite !app_nth2 by lia. now rewrite L.
  - rewrite app_length. lia.
Qed.
Lemma holds_set k x d l : holds (dset k x d) l -> x = HRef l \/ holds d l.
Proof. intros (k' & I). destruct (In_dset _ _ _ _ I) as [<-|J]; [now left|right; now exists k']. Qed.
Lemma holds_update e : forall d l, holds (dupdate d e) l -> holds e l \/ holds d l.
Proof.
  induction e as [|[k x] e IH]; intros d l H; [now right|].
  change (dupdate d ((k, x) :: e)) with (dupdate (dset k x d) e) in H.
  destruct (IH _ _ H) as [(k' & I)|H']; [left; exists k'; now right|].
  destruct (holds_set _ _ _ _ H') as [->|H2]; [left; exists k; now left|now right].
Qed.
Lemma holds_apply c : forall kw l, holds (h_apply kw c) l -> holds c l \/ holds kw l.
Proof.
  induction c as [|[k x] c IH]; intros kw l H; [now right|]. cbn [h_apply] in H.
  destruct (IH _ _ H) as [(k' & I)|H']; [left; exists k'; now right|].
  destruct (dmem k kw); [|now right].
  destruct (holds_set _ _ _ _ H') as [->|H2]; [left; exists k; now left|now right].
Qed.
Lemma holds_filter p d l : holds (dfilter p d) l -> holds d l.
Proof. intros (k & I). apply filter_In in I. exists k. exact (proj1 I). Qed.

Lemma eval_file_same l file : forall h1 h2 d, same_but l h1 h2 ->
  same_but l (fst (eval_file file h1 d)) (fst (eval_file file h2 d))
  /\ snd (eval_file file h1 d) = snd (eval_file file h2 d).
Proof.
  induction file as [|[k e] file IH]; intros h1 h2 d S; [auto|]. cbn [eval_file].
  destruct e as [v|c|l']; cbn [eval_fx].
  - now apply IH.
  - pose proof S as (L & _). rewrite L. apply IH. now apply same_but_app.
  - now apply IH.
Qed.
Lemma eval_file_holds l file : forall h d, l < length h -> (forall k, ~ In (k, FxName l) file) ->
  ~ holds d l -> ~ holds (snd (eval_file file h d)) l.
Proof.
  induction file as [|[k e] file IH]; intros h d B F N; [exact N|]. cbn [eval_file].
  assert (forall k, ~ In (k, FxName l) file) as F' by (intros k' I; apply (F k'); now right).
  destruct e as [v|c|l']; cbn [eval_fx]; apply IH; auto.
  - intro H. destruct (holds_set _ _ _ _ H); [discriminate|auto].
  - rewrite app_length. lia.
  - intro H. destruct (holds_set _ _ _ _ H) as [E|E]; [injection E as <-; lia|auto].
  - intro H. destruct (holds_set _ _ _ _ H) as [E|E]; [injection E as ->; apply (F k); now left|auto].
Qed.

Lemma same_but_put l l' c h1 h2 : l' <> l -> l' < length h1 -> same_but l h1 h2 -> same_but l (put l' c h1) (put l' c h2).
Proof.
  intros D B (L & S & Bl). repeat split.
  - now rewrite !put_length.
  - intros l1 D1. rewrite !put_nth by lia. destruct (Nat.eqb l1 l'); [reflexivity|now apply S].
  - now rewrite put_length.
Qed.
Lemma same_but_args l kw ch : ~ holds kw l -> forall h1 h2, refs_ok h1 kw -> same_but l h1 h2 ->
  same_but l (fold_left (change_arg kw) ch h1) (fold_left (change_arg kw) ch h2).
Proof.
  intro N. induction ch as [|[k c] ch IH]; intros h1 h2 R S; [exact S|]. cbn.
  apply IH.
  - eapply refs_ok_len; [apply change_arg_length|exact R].
  - unfold change_arg; cbn. destruct (dget k kw) as [[v|l']|] eqn:E; [exact S| |exact S].
    pose proof (dget_Some_In _ _ _ E) as I. apply same_but_put; [| |exact S].
    + intros ->. apply N. now exists k.
    + exact (proj1 (Forall_forall _ _) R _ I).
Qed.

Lemma sim_step file params body l o s1 s2 :
  ast_ok file s1 -> aop_ok (h_heap s1) o -> ~ mentions o l -> sim file l s1 s2 ->
  sim file l (fst (h_step file params body o s1)) (fst (h_step file params body o s2))
  /\ snd (h_step file params body o s1) = snd (h_step file params body o s2).
Proof.
  intros A O M S. pose proof A as [[V1 V2] [A1 [A2 A3]] L F].
  destruct s1 as [h vals applied loaded calls], s2 as [h2 vals2 applied2 loaded2 calls2].
  destruct S as [S1 S2 S3 S4 S5 S6 S7 S8]; cbn in S1, S2, S3, S4, S5, S6, S7. subst vals2 applied2 loaded2 calls2.
  cbn in V1, V2, A1, A2, A3, L, F, O.
  assert (same_but l h h2) as Sb by (repeat split; assumption).
  unfold held in S8; cbn in S8.
  assert (~ holds vals l) as Nv by tauto. assert (~ holds applied l) as Na by tauto.
  assert (forall kw, loaded = Some kw -> ~ holds kw l) as Nl.
  { intros kw E H. apply S8. right; right; left. eauto. }
  assert (forall k, ~ In (k, FxName l) file) as Nf.
  { intros k I. apply S8. right; right; right. eauto. }
  assert (forall h1 h2 vals' applied' loaded', same_but l h1 h2 -> ~ holds vals' l -> ~ holds applied' l ->
            (forall kw, loaded' = Some kw -> ~ holds kw l) -> forall calls',
            sim file l (HS h1 vals' applied' loaded' calls') (HS h2 vals' applied' loaded' calls')) as Mk.
  { intros h1' h2' vals' applied' loaded' (L1 & L2 & L3) B1 B2 B3 calls'. constructor; cbn; try assumption; try reflexivity.
    unfold held; cbn. intros [H|[H|[(kw & E & H)|(k & H)]]]; [auto|auto|exact (B3 kw E H)|exact (Nf k H)]. }
  assert (forall vals', ~ holds vals' l -> forall kw, apply_loaded loaded vals' = Some kw -> ~ holds kw l) as Al.
  { intros vals' B kw E H. destruct loaded as [kw0|]; [|discriminate]. cbn in E. injection E as <-.
    destruct (holds_apply _ _ _ H); [auto|]. exact (Nl kw0 eq_refl H0). }
  destruct o as [d persist| | | |c|l' c]; cbn [h_step]; cbn in M.
  - unfold h_update; cbn. rewrite !(same_but_contents l h h2) by assumption.
    destruct (would_update_loop _ _) as [[|]|e]; cbn; split; try reflexivity; apply Mk; auto.
    + intro H. destruct (holds_update _ _ _ H); auto.
    + destruct persist; [|exact Na]. intro H. destruct (holds_update _ _ _ H); auto.
    + apply Al. intro H. destruct (holds_update _ _ _ H); auto.
  - unfold h_refresh; cbn.
    destruct (eval_file_same l file h h2 [] Sb) as [E1 E2].
    assert (~ holds (snd (eval_file file h [])) l) as Nn.
    { apply eval_file_holds; auto. intros (k & []). }
    destruct (eval_file file h []) as [g new], (eval_file file h2 []) as [g2 new2]; cbn in E1, E2, Nn; subst new2.
    assert (~ holds (dupdate new applied) l) as Nu by (intro H; destruct (holds_update _ _ _ H); auto).
    rewrite !(same_but_contents l g g2) by assumption.
    destruct (would_update_loop _ _) as [[|]|e]; [|split; [now apply Mk|reflexivity]..].
    destruct (eval_file_same l file g g2 [] E1) as [E3 E4].
    assert (~ holds (snd (eval_file file g [])) l) as Nn'.
    { pose proof E1 as (_ & _ & Bg). apply eval_file_holds; auto. intros (k & []). }
    destruct (eval_file file g []) as [g' new'], (eval_file file g2 []) as [g2' new2']; cbn in E3, E4, Nn'; subst new2'.
    assert (~ holds (dupdate new' applied) l) as Nu' by (intro H; destruct (holds_update _ _ _ H); auto).
    cbn. split; [|reflexivity]. apply Mk; auto.
    + intro H. destruct (holds_update _ _ _ H); auto.
    + apply Al. intro H. destruct (holds_update _ _ _ H); auto.
  - unfold h_reset; cbn.
    destruct (eval_file_same l file h h2 [] Sb) as [E1 E2].
    assert (~ holds (snd (eval_file file h [])) l) as Nn.
    { apply eval_file_holds; auto. intros (k & []). }
    destruct (eval_file file h []) as [g new], (eval_file file h2 []) as [g2 new2]; cbn in E1, E2, Nn; subst new2.
    rewrite !(same_but_contents l g g2) by assumption.
    destruct (would_update_loop _ _) as [[|]|e]; split; try reflexivity; apply Mk; auto.
    + intros (k & []).
    + now apply Al.
  - split; [|reflexivity]. unfold h_run. cbn [fst].
    set (kw := keywords params (HS h vals applied loaded calls)).
    assert (keywords params (HS h2 vals applied loaded calls) = kw) as -> by reflexivity.
    assert (~ holds kw l) as Nk.
    { unfold kw, keywords; cbn. destruct loaded as [kw0|]; [now apply Nl|]. intro H. apply Nv. eapply holds_filter; exact H. }
    destruct (keywords_ok file params _ A) as [_ Kr]. fold kw in Kr. cbn in Kr.
    cbn. rewrite (same_but_contents l h h2 kw) by assumption. apply Mk; auto.
    + now apply same_but_args.
    + intros kw' [= <-]. exact Nk.
  - split; [|reflexivity]. cbn. apply Mk; auto. now apply same_but_app.
  - split; [|reflexivity]. cbn. cbn in O. apply Mk; auto. now apply same_but_put.
Qed.

Lemma sim_steps file params body l ops : forall s1 s2,
  ast_ok file s1 -> calls_ok file params body ops s1 -> Forall (fun o => ~ mentions o l) ops -> sim file l s1 s2 ->
  sim file l (h_steps file params body ops s1) (h_steps file params body ops s2).
Proof.
  induction ops as [|o ops IH]; intros s1 s2 A C M S; [exact S|].
  inversion C; subst. inversion M; subst. cbn. apply IH; [now apply step_ok|assumption|assumption|].
  now apply sim_step.
Qed.

Lemma sim_put file l c s : l < length (h_heap s) -> ~ held file s l ->
  sim file l s (HS (put l c (h_heap s)) (h_vals s) (h_applied s) (h_loaded s) (h_calls s)).
Proof.
  intros B N. constructor; cbn; try reflexivity; try assumption.
  - now rewrite put_length.
  - intros l' D. now rewrite put_other.
Qed.

Lemma reached_ok file params body s : reached file params body s -> ast_ok file s.
Proof. intros (h & ops & F & C & ->). apply steps_ok; [now apply load_ok|exact C]. Qed.
Lemma reached_loaded file params body s : (forall k, In k params -> In k (map fst file)) ->
  reached file params body s -> inv_loaded file params s.
Proof.
  intros Sub (h & ops & F & C & ->). apply inv_loaded_steps; [exact Sub|now apply load_ok|exact C|now apply inv_loaded_load].
Qed.
Lemma steps_keys file params body ops : forall s, ast_ok file s -> calls_ok file params body ops s ->
  (forall k, In k (map fst file) -> dmem k (h_vals s) = true) ->
  forall k, In k (map fst file) -> dmem k (h_vals (h_steps file params body ops s)) = true.
Proof.
  induction ops as [|o ops IH]; intros s A C K; [exact K|].
  inversion C; subst. cbn [h_steps]. apply IH; [now apply step_ok|assumption|]. intros k I.
  pose proof A as [_ _ _ F]. destruct o; cbn [h_step fst]; try now apply K.
  - unfold h_update. destruct (would_update_loop _ _) as [[|]|]; cbn; auto. apply dmem_update; auto.
  - unfold h_refresh. destruct (eval_file_new file (h_heap s) F) as (n & new & -> & _ & _ & _).
    destruct (would_update_loop _ _) as [[|]|]; cbn; auto.
    destruct (eval_file file (h_heap s ++ n) []). cbn. apply dmem_update; auto.
  - unfold h_reset. destruct (eval_file_new file (h_heap s) F) as (n & new & -> & _ & C1 & _).
    destruct (would_update_loop _ _) as [[|]|]; cbn; auto. eapply file_keys; eassumption.
Qed.
Lemma reached_keys file params body s : reached file params body s ->
  forall k, In k (map fst file) -> dmem k (h_vals s) = true.
Proof.
  intros (h & ops & F & C & ->). apply steps_keys; [now apply load_ok|exact C|].
  exact (il_keys _ [] _ (inv_loaded_load file [] h F)).
Qed.

(** ---- examples ---- *)
Ltac ok_calls := repeat first
  [ apply calls_nil
  | apply calls_cons; [vm_compute; repeat split; repeat constructor; try discriminate; intuition discriminate|] ].
