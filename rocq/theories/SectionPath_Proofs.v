(** Lemmas about section paths (C01-C04). *)
From Verif Require Import SectionPath_Model.

Lemma sections_join_id s : join "." (sections (mk_sp s)) = s.
Proof. apply (join_split dot). Qed.

Lemma from_list_sections l :
  l <> [] -> Forall (fun x => has_char dot x = false) l ->
  sections (from_section_str_list l) = l.
Proof. intros H1 H2. cbn. now apply (split_join dot). Qed.

Lemma sections_dotfree s : Forall (fun x => has_char dot x = false) (sections (mk_sp s)).
Proof. apply split_parts_no_sep. Qed.

Lemma sections_ne s : sections (mk_sp s) <> [].
Proof. apply split_nonempty. Qed.

Lemma sp_join_str a b :
  path_str (sp_join (mk_sp a) (mk_sp b)) = (a ++ "." ++ b)%string.
Proof.
  cbn [sp_join from_section_str_list mk_sp path_str]. unfold section_strs_to_section_path_str.
  rewrite join_app by apply sections_ne. unfold sdot. now rewrite !sections_join_id.
Qed.

Lemma sp_join_sections a b :
  sections (sp_join (mk_sp a) (mk_sp b)) = sections (mk_sp a) ++ sections (mk_sp b).
Proof.
  unfold sp_join. apply from_list_sections.
  - intro H. apply app_eq_nil in H as [H _]. now apply (sections_ne a).
  - apply Forall_app; split; apply sections_dotfree.
Qed.

Lemma sp_join_mk a b : sp_join (mk_sp a) (mk_sp b) = mk_sp (a ++ "." ++ b).
Proof.
  rewrite <- (sp_join_str a b). reflexivity.
Qed.

Lemma sp_join_assoc a b c :
  sp_join (sp_join (mk_sp a) (mk_sp b)) (mk_sp c) = sp_join (mk_sp a) (sp_join (mk_sp b) (mk_sp c)).
Proof. rewrite !sp_join_mk. now rewrite !app_assoc_s. Qed.

Lemma sp_eqb_iff a b : sp_eqb (mk_sp a) (mk_sp b) = true <-> sections (mk_sp a) = sections (mk_sp b).
Proof.
  unfold sp_eqb; cbn. rewrite String.eqb_eq. split; [now intros ->|apply split_inj].
Qed.

(** endswith *)
Lemma match_loop_prefix ms qs : match_loop ms qs = true <-> exists r, qs = ms ++ r.
Proof.
  revert qs; induction ms as [|m ms IH]; intros qs; cbn.
  - split; [intros _; now exists qs|reflexivity].
  - destruct qs as [|q qs]; [split; [discriminate|intros [r H]; discriminate]|].
    destruct (String.eqb m q) eqn:E; cbn.
    + apply String.eqb_eq in E; subst q. rewrite IH. split; intros [r H]; exists r.
      * now rewrite H.
      * now injection H.
    + split; [discriminate|]. intros [r H]. injection H as H _. subst.
      now rewrite String.eqb_refl in E.
Qed.

Lemma sp_endswith_long a b :
  length (sections b) <= length (sections a) ->
  (sp_endswith a b = true <-> exists pre, sections a = pre ++ sections b).
Proof.
  intro Hlen. unfold sp_endswith, last_n. rewrite match_loop_prefix.
  set (la := sections a) in *. set (lb := sections b) in *.
  assert (Hl : length (skipn (length la - length lb) la) = length lb).
  { rewrite skipn_length. lia. }
  split.
  - intros [r H]. exists (firstn (length la - length lb) la).
    assert (r = []) as ->.
    { destruct r; [reflexivity|]. apply (f_equal (@length _)) in H. rewrite app_length in H. cbn in H. lia. }
    rewrite app_nil_r in H.
    rewrite <- (firstn_skipn (length la - length lb) la) at 1. f_equal. symmetry; exact H.
  - intros [pre H]. exists []. rewrite app_nil_r. rewrite H.
    rewrite app_length. replace (length pre + length lb - length lb) with (length pre) by lia.
    rewrite skipn_app, Nat.sub_diag, skipn_all. reflexivity.
Qed.

Lemma sp_endswith_short a b :
  length (sections a) < length (sections b) ->
  (sp_endswith a b = true <-> exists post, sections b = sections a ++ post).
Proof.
  intro Hlen. unfold sp_endswith, last_n.
  replace (length (sections a) - length (sections b)) with 0 by lia. cbn [skipn].
  apply match_loop_prefix.
Qed.

Lemma sp_endswith_suffix a b pre :
  sections a = pre ++ sections b -> sp_endswith a b = true.
Proof.
  intro H. apply sp_endswith_long; [rewrite H, app_length; lia|]. now exists pre.
Qed.

(* ------------------------------------------------------------------ *)
(** posixpath normal forms *)

Definition good_comp (s : string) : Prop :=
  s <> ""%string /\ s <> "."%string /\ s <> ".."%string /\ has_char slash s = false.

Lemma norm_step_good abs acc c : good_comp c -> norm_step abs acc c = c :: acc.
Proof.
  intros (H0 & H1 & H2 & _). unfold norm_step.
  apply eqb_neq_s in H0, H1, H2. now rewrite H0, H1, H2.
Qed.

Lemma norm_fold_good abs cs acc :
  Forall good_comp cs -> fold_left (norm_step abs) cs acc = rev cs ++ acc.
Proof.
  intro H; revert acc; induction H as [|c cs Hc Hcs IH]; intro acc; cbn; [reflexivity|].
  rewrite (norm_step_good _ _ _ Hc), IH. now rewrite <- app_assoc.
Qed.

Lemma norm_comps_app abs a cs :
  Forall good_comp cs -> norm_comps abs (a ++ cs) = norm_comps abs a ++ cs.
Proof.
  intro H. unfold norm_comps. rewrite fold_left_app, (norm_fold_good _ _ _ H), rev_app_distr.
  now rewrite rev_involutive.
Qed.

(** components kept by normpath *)
Definition kept (s : string) : Prop := s <> ""%string /\ has_char slash s = false.

Lemma norm_step_kept abs acc c :
  has_char slash c = false -> Forall kept acc -> Forall kept (norm_step abs acc c).
Proof.
  intros Hc Ha. unfold norm_step.
  destruct (String.eqb c "" || String.eqb c ".") eqn:E; [exact Ha|].
  apply orb_false_iff in E as [E _]. apply eqb_neq_s in E.
  destruct (_ || _).
  - constructor; [now split|exact Ha].
  - destruct acc; [constructor|]. now inversion Ha.
Qed.

Lemma norm_comps_kept abs cs :
  Forall (fun c => has_char slash c = false) cs -> Forall kept (norm_comps abs cs).
Proof.
  unfold norm_comps. intro H. apply Forall_rev.
  assert (G : forall acc, Forall kept acc -> Forall kept (fold_left (norm_step abs) cs acc)).
  { induction H as [|c cs Hc Hcs IH]; intros acc Ha; cbn; [exact Ha|].
    apply IH. now apply norm_step_kept. }
  apply G. constructor.
Qed.

(** absolute input path *)
Lemma normpath_abs p : isabs p = true ->
  normpath p = (repeat_str (initial_slashes p) sslash
                ++ join sslash (norm_comps true (split slash p)))%string.
Proof.
  intro H. unfold normpath, isabs in *. destruct p as [|c p]; [discriminate|].
  replace (String.eqb (String c p) "") with false by reflexivity.
  assert (initial_slashes (String c p) = 1 \/ initial_slashes (String c p) = 2) as [E|E].
  { unfold initial_slashes. rewrite H. destruct (_ && _); [now right|now left]. }
  all: rewrite E; cbn [Nat.eqb negb repeat_str]; unfold sslash; cbn [append String.eqb]; reflexivity.
Qed.

Lemma initial_slashes_pos p : isabs p = true -> 1 <= initial_slashes p <= 2.
Proof. unfold isabs, initial_slashes. intros ->. destruct (_ && _); lia. Qed.

Lemma filter_kept l : Forall kept l -> filter nonempty_s l = l.
Proof.
  induction 1 as [|x l [Hx _] Hl IH]; cbn; [reflexivity|].
  unfold nonempty_s at 1. apply eqb_neq_s in Hx. rewrite Hx; cbn. now rewrite IH.
Qed.

Lemma split_slash_join l : Forall kept l ->
  filter nonempty_s (split slash (join sslash l)) = l.
Proof.
  intro H. destruct l as [|x l]; [reflexivity|].
  unfold sslash. rewrite split_join; [now apply filter_kept|discriminate|].
  eapply Forall_impl; [|exact H]. now intros a [_ Ha].
Qed.

Lemma split_slashes n s :
  filter nonempty_s (split slash (repeat_str n sslash ++ s)) = filter nonempty_s (split slash s).
Proof. induction n as [|n IH]; [reflexivity|]. cbn. exact IH. Qed.

Lemma comps_normpath p : isabs p = true ->
  filter nonempty_s (split slash (normpath p)) = norm_comps true (split slash p).
Proof.
  intro H. rewrite (normpath_abs _ H), split_slashes. apply split_slash_join.
  apply norm_comps_kept, split_parts_no_sep.
Qed.

Definition absin (cwd p : string) : string := if isabs p then p else path_join cwd p.

Lemma isabs_app a b : isabs a = true -> isabs (a ++ b) = true.
Proof.
  unfold isabs. destruct a as [|c a]; [discriminate|]. intro H. exact H.
Qed.

Lemma isabs_ne a : isabs a = true -> a <> ""%string.
Proof. now destruct a. Qed.

Lemma isabs_path_join a b : isabs a = true -> isabs (path_join a b) = true.
Proof.
  intro H. unfold path_join. destruct (startswith b sslash) eqn:E; [exact E|].
  destruct (_ || _); now apply isabs_app.
Qed.

Lemma absin_abs cwd p : isabs cwd = true -> isabs (absin cwd p) = true.
Proof.
  intro H. unfold absin. destruct (isabs p) eqn:E; [exact E|]. now apply isabs_path_join.
Qed.

(** joining a relative non-empty path appends its components *)
Lemma path_join_rel_cases a b : isabs b = false -> a <> ""%string ->
  exists pre, path_join a b = (pre ++ b)%string /\
    ((pre = a /\ exists a', a = (a' ++ sslash)%string) \/ pre = (a ++ sslash)%string).
Proof.
  intros Hb Ha. unfold path_join. unfold isabs in Hb. rewrite Hb.
  apply eqb_neq_s in Ha. rewrite Ha. cbn [orb].
  destruct (endswith a sslash) eqn:E.
  - exists a. split; [reflexivity|left; split; [reflexivity|]]. now apply endswith_iff in E.
  - exists (a ++ sslash)%string. split; [now rewrite app_assoc_s|now right].
Qed.

Lemma norm_step_empty abs acc : norm_step abs acc "" = acc.
Proof. reflexivity. Qed.

Lemma norm_comps_join_rel a b :
  isabs b = false -> a <> ""%string ->
  norm_comps true (split slash (path_join a b))
  = rev (fold_left (norm_step true) (split slash b)
                   (fold_left (norm_step true) (split slash a) [])).
Proof.
  intros Hb Ha. unfold norm_comps. f_equal.
  destruct (path_join_rel_cases a b Hb Ha) as (pre & -> & [[-> [a' ->]]| ->]); unfold sslash.
  - rewrite app_assoc_s. cbn [append]. rewrite split_app, fold_left_app.
    rewrite split_app, fold_left_app. cbn [split fold_left]. rewrite norm_step_empty. reflexivity.
  - rewrite app_assoc_s. cbn [append]. rewrite split_app, fold_left_app. reflexivity.
Qed.

Lemma endswith_app_r a b p : endswith b p = true -> endswith (a ++ b) p = true.
Proof. rewrite !endswith_iff. intros [r ->]. exists (a ++ r)%string. now rewrite app_assoc_s. Qed.

Definition abs_acc (cwd p : string) : list string :=
  fold_left (norm_step true) (split slash (absin cwd p)) [].

Lemma abs_comps cwd p : isabs cwd = true ->
  filter nonempty_s (split slash (abspath cwd p)) = rev (abs_acc cwd p).
Proof.
  intro H. unfold abspath. change (if isabs p then p else path_join cwd p) with (absin cwd p).
  rewrite comps_normpath by (now apply absin_abs). reflexivity.
Qed.

Lemma abs_acc_join cwd base rel :
  isabs cwd = true -> isabs rel = false ->
  abs_acc cwd (path_join base rel) = fold_left (norm_step true) (split slash rel) (abs_acc cwd base).
Proof.
  intros Hc Hr. unfold abs_acc.
  assert (E : rev (rev (fold_left (norm_step true) (split slash (absin cwd (path_join base rel))) []))
              = fold_left (norm_step true) (split slash rel)
                  (fold_left (norm_step true) (split slash (absin cwd base)) [])).
  2:{ now rewrite rev_involutive in E. }
  destruct (String.eqb base "") eqn:Eb.
  - apply eqb_eq_s in Eb; subst base.
    assert (path_join "" rel = rel) as ->.
    { unfold path_join. unfold isabs in Hr. now rewrite Hr. }
    unfold absin. rewrite Hr. cbn [isabs startswith sslash].
    change (isabs "") with false. cbn iota.
    change (rev (fold_left (norm_step true) (split slash (path_join cwd rel)) []))
      with (norm_comps true (split slash (path_join cwd rel))).
    rewrite norm_comps_join_rel by (try assumption; now apply isabs_ne).
    rewrite rev_involutive. f_equal.
    assert (E2 := norm_comps_join_rel cwd "" eq_refl (isabs_ne _ Hc)).
    unfold norm_comps in E2. apply (f_equal (@rev _)) in E2. rewrite !rev_involutive in E2.
    rewrite E2. cbn [split fold_left]. now rewrite norm_step_empty.
  - apply eqb_neq_s in Eb. unfold absin.
    assert (Hiso : isabs (path_join base rel) = isabs base).
    { unfold path_join. unfold isabs in *. rewrite Hr. destruct base as [|c base]; [easy|].
      cbn. destruct (_ || _); cbn; reflexivity. }
    rewrite Hiso. destruct (isabs base) eqn:Eab.
    + change (rev (fold_left (norm_step true) (split slash (path_join base rel)) []))
        with (norm_comps true (split slash (path_join base rel))).
      rewrite norm_comps_join_rel by assumption. now rewrite rev_involutive.
    + (* relative base *)
      assert (Eq : path_join cwd (path_join base rel) = path_join (path_join cwd base) rel).
      { unfold path_join at 2 4. unfold isabs in Hr, Eab. rewrite Hr, Eab.
        apply eqb_neq_s in Eb. rewrite Eb. cbn [orb].
        unfold path_join.
        assert (HR : startswith rel sslash = false) by exact Hr. rewrite HR.
        assert (Hcne := isabs_ne _ Hc). apply eqb_neq_s in Hcne. rewrite Hcne. cbn [orb].
        assert (Hb1 : startswith (base ++ rel) sslash = false).
        { destruct base; [now rewrite String.eqb_refl in Eb|]. cbn in *. exact Eab. }
        assert (Hb2 : startswith (base ++ sslash ++ rel) sslash = false).
        { destruct base; [now rewrite String.eqb_refl in Eb|]. cbn in *. exact Eab. }
        apply eqb_neq_s in Eb.
        assert (Hends : forall x, endswith (x ++ base) sslash = endswith base sslash).
        { intro x. destruct (endswith base sslash) eqn:E; [now apply endswith_app_r|].
          destruct (endswith (x ++ base) sslash) eqn:E2; [|reflexivity].
          exfalso. apply endswith_iff in E2 as [r H2].
          assert (exists base' c, base = (base' ++ String c "")%string) as (base' & ch & Hbase).
          { clear -Eb. induction base as [|c b IH]; [easy|]. destruct b as [|d b].
            - exists ""%string, c. reflexivity.
            - destruct IH as (b' & ch & H); [discriminate|]. exists (String c b'), ch.
              cbn. now rewrite <- H. }
          subst base. rewrite <- app_assoc_s in H2.
          assert (Hlast : forall a b (c d : ascii), (a ++ String c "")%string = (b ++ String d "")%string -> c = d).
          { clear. intros a; induction a as [|e a IH]; intros [|f b] c d H; cbn in H.
            - now injection H.
            - injection H as _ H. destruct b; discriminate.
            - injection H as _ H. destruct a; discriminate.
            - injection H as _ H. now apply (IH b). }
          apply Hlast in H2. subst ch.
          assert (endswith (base' ++ "/") sslash = true); [|congruence].
          apply endswith_iff. now exists base'. }
        assert (Hne : forall x, String.eqb (x ++ base)%string "" = false).
        { intro x. apply eqb_neq_s. destruct x, base; try discriminate; easy. }
        destruct (endswith base sslash) eqn:E1; rewrite ?Hb1, ?Hb2.
        - destruct (endswith cwd sslash) eqn:E2.
          + rewrite Hne, Hends. cbn [orb]. now rewrite app_assoc_s.
          + rewrite <- (app_assoc_s cwd sslash base), Hne, Hends. cbn [orb].
            now rewrite !app_assoc_s.
        - destruct (endswith cwd sslash) eqn:E2.
          + rewrite Hne, Hends. cbn [orb]. now rewrite !app_assoc_s.
          + rewrite <- (app_assoc_s cwd sslash base), Hne, Hends. cbn [orb].
            now rewrite !app_assoc_s. }
      rewrite Eq.
      change (rev (fold_left (norm_step true) (split slash (path_join (path_join cwd base) rel)) []))
        with (norm_comps true (split slash (path_join (path_join cwd base) rel))).
      rewrite norm_comps_join_rel; [now rewrite rev_involutive|assumption|].
      apply isabs_ne. now apply isabs_path_join.
Qed.

Lemma startswith_slash_free x : has_char slash x = false -> startswith x sslash = false.
Proof.
  destruct x as [|c x]; [reflexivity|]. intro H. cbn [has_char] in H.
  apply orb_false_iff in H as [H _]. unfold sslash. cbn [startswith].
  rewrite Ascii.eqb_sym. unfold slash in H. rewrite H. reflexivity.
Qed.

Lemma startswith_slash_free_app x t :
  x <> ""%string -> has_char slash x = false -> startswith (x ++ t) sslash = false.
Proof.
  destruct x as [|c x]; [easy|]. intros _ H. cbn [has_char] in H.
  apply orb_false_iff in H as [H _]. unfold sslash. cbn [startswith append].
  rewrite Ascii.eqb_sym. unfold slash in H. rewrite H. reflexivity.
Qed.

Lemma common_prefix_app a b : common_prefix a (a ++ b) = a.
Proof. induction a as [|x a IH]; cbn; [now destruct b|]. now rewrite String.eqb_refl, IH. Qed.

Lemma fold_path_join l a :
  a <> ""%string -> has_char slash a = false \/ endswith a sslash = false ->
  Forall kept l -> endswith a sslash = false ->
  fold_left path_join l a = join sslash (a :: l).
Proof.
  intros Ha _ Hl; revert a Ha; induction Hl as [|x l [Hx Hxs] Hl IH]; intros a Ha Hend; [reflexivity|].
  cbn [fold_left]. rewrite join_cons.
  assert (Hns : startswith x sslash = false).
  { now apply startswith_slash_free. }
  assert (Hp : path_join a x = (a ++ sslash ++ x)%string).
  { unfold path_join. rewrite Hns. apply eqb_neq_s in Ha. now rewrite Ha, Hend. }
  rewrite Hp. rewrite IH.
  - destruct l as [|y l]; [reflexivity|]. rewrite !join_cons. now rewrite !app_assoc_s.
  - destruct a; [easy|discriminate].
  - destruct (endswith (a ++ sslash ++ x) sslash) eqn:E; [|reflexivity]. exfalso.
    apply endswith_iff in E as [r Hr].
    assert (Hlast : forall a b (c d : ascii), (a ++ String c "")%string = (b ++ String d "")%string -> c = d).
    { clear. intros a; induction a as [|e a IH]; intros [|f b] c d H; cbn in H.
      - now injection H.
      - injection H as _ H. destruct b; discriminate.
      - injection H as _ H. destruct a; discriminate.
      - injection H as _ H. now apply (IH b). }
    assert (exists x' c, x = (x' ++ String c "")%string) as (x' & ch & Hx').
    { clear -Hx. induction x as [|c b IH]; [easy|]. destruct b as [|d b].
      - exists ""%string, c. reflexivity.
      - destruct IH as (b' & ch & H); [discriminate|]. exists (String c b'), ch.
        cbn. now rewrite <- H. }
    subst x. rewrite <- !app_assoc_s in Hr. apply Hlast in Hr. subst ch.
    rewrite has_char_app in Hxs. cbn in Hxs. rewrite orb_true_r in Hxs. discriminate.
Qed.

Lemma endswith_slash_free s : has_char slash s = false -> endswith s sslash = false.
Proof.
  intro H. destruct (endswith s sslash) eqn:E; [|reflexivity].
  apply endswith_iff in E as [r ->]. rewrite has_char_app in H. cbn in H.
  now rewrite orb_true_r in H.
Qed.

(** the round trip *)
Definition part_ok (s : string) : Prop := s <> ""%string /\ has_char slash s = false.

Fixpoint add_ext_last (l : list string) : list string :=
  match l with
  | [] => []
  | x :: r => match r with [] => [(x ++ ".py")%string] | _ => x :: add_ext_last r end
  end.

Lemma join_add_ext l : l <> [] ->
  (join sslash l ++ ".py")%string = join sslash (add_ext_last l).
Proof.
  induction l as [|x l IH]; [easy|]. intros _. destruct l as [|y l]; [reflexivity|].
  rewrite join_cons. rewrite !app_assoc_s, IH by discriminate.
  cbn [add_ext_last]. destruct l; reflexivity.
Qed.

Lemma strip_add_ext l : map_last strip_py (add_ext_last l) = l.
Proof.
  induction l as [|x l IH]; [reflexivity|]. destruct l as [|y l].
  - cbn [add_ext_last map_last]. f_equal. unfold strip_py.
    assert (endswith (x ++ ".py") ".py" = true) as -> by (apply endswith_iff; now exists x).
    apply (drop_last_app x ".py").
  - cbn [add_ext_last map_last] in *. destruct l as [|z l]; cbn [add_ext_last map_last] in *; now rewrite IH.
Qed.

Lemma good_ext l :
  Forall part_ok l -> Forall (fun x => has_char dot x = false) l ->
  Forall good_comp (add_ext_last l).
Proof.
  intros H1 H2. induction l as [|x l IH]; [constructor|].
  inversion H1 as [|? ? [Hx Hxs] Hl]; inversion H2 as [|? ? Hxd Hld]; subst.
  destruct l as [|y l].
  - constructor; [|constructor]. repeat split.
    + destruct x; discriminate.
    + destruct x as [|a [|b [|c x]]]; intro E; discriminate E.
    + destruct x as [|a [|b [|c x]]]; intro E; discriminate E.
    + rewrite has_char_app, Hxs. reflexivity.
  - constructor; [|apply IH; assumption]. repeat split; try assumption.
    + intros ->. discriminate.
    + intros ->. discriminate.
Qed.

Lemma add_ext_ne l : l <> [] -> add_ext_last l <> [].
Proof. destruct l as [|x [|y l]]; cbn; easy. Qed.

Lemma good_comp_kept l : Forall good_comp l -> Forall kept l.
Proof. apply Forall_impl. intros a (H1 & _ & _ & H4). now split. Qed.

Lemma join_good_not_abs l : l <> [] -> Forall good_comp l -> isabs (join sslash l) = false.
Proof.
  intros Hne H. destruct H as [|x l (Hx & _ & _ & Hs) Hl]; [easy|].
  assert (forall t, isabs (x ++ t) = false) as G.
  { intro t. unfold isabs. now apply startswith_slash_free_app. }
  destruct l; [|rewrite join_cons; apply G]. cbn. rewrite <- (app_nil_r_s x). apply G.
Qed.

Lemma join_ne l : l <> [] -> Forall good_comp l -> join sslash l <> ""%string.
Proof.
  intros Hne H. destruct H as [|x l (Hx & _) Hl]; [easy|]. destruct l; [exact Hx|].
  rewrite join_cons. destruct x; [easy|discriminate].
Qed.

Lemma path_join_app_ext base rel : isabs rel = false -> rel <> ""%string ->
  (path_join base rel ++ ".py")%string = path_join base (rel ++ ".py").
Proof.
  intros H Hne. unfold path_join.
  assert (startswith (rel ++ ".py") sslash = startswith rel sslash) as ->.
  { destruct rel; [easy|]. reflexivity. }
  unfold isabs in H. rewrite H. destruct (_ || _); now rewrite !app_assoc_s.
Qed.

Lemma filepath_roundtrip cwd base s :
  isabs cwd = true ->
  Forall part_ok (sections (mk_sp s)) ->
  from_filepath cwd base (to_filepath (mk_sp s) base ++ ".py") = Ok (mk_sp s).
Proof.
  intros Hc Hok. set (parts := sections (mk_sp s)) in *.
  assert (Hne : parts <> []) by apply sections_ne.
  assert (Hdf : Forall (fun x => has_char dot x = false) parts) by apply sections_dotfree.
  assert (Hgood := good_ext _ Hok Hdf).
  set (parts' := add_ext_last parts) in *.
  assert (Hne' : parts' <> []) by (now apply add_ext_ne).
  assert (Hrel0 : isabs (join sslash parts) = false).
  { assert (G := join_good_not_abs _ Hne' Hgood). unfold parts' in G.
    rewrite <- (join_add_ext _ Hne) in G. unfold isabs in *.
    destruct (join sslash parts); [reflexivity|exact G]. }
  assert (Hrelne : join sslash parts <> ""%string).
  { inversion Hok as [E|x l [Hx _] Hl E]; [congruence|]. destruct l; [exact Hx|].
    rewrite join_cons. destruct x; [easy|discriminate]. }
  unfold from_filepath, to_filepath. change (sections (mk_sp s)) with parts.
  rewrite path_join_app_ext by assumption. rewrite (join_add_ext _ Hne).
  change (add_ext_last parts) with parts'.
  assert (Hrel' : isabs (join sslash parts') = false) by (now apply join_good_not_abs).
  unfold relpath.
  assert (String.eqb (path_join base (join sslash parts')) "" = false) as ->.
  { apply eqb_neq_s. unfold path_join. unfold isabs in Hrel'. rewrite Hrel'.
    assert (J := join_ne _ Hne' Hgood).
    destruct (_ || _); destruct base; cbn; try discriminate; exact J. }
  rewrite !abs_comps by assumption. rewrite abs_acc_join by assumption.
  assert (split slash (join sslash parts') = parts') as ->.
  { unfold sslash. apply split_join; [exact Hne'|]. eapply Forall_impl; [|exact Hgood].
    now intros a (_ & _ & _ & H). }
  rewrite (norm_fold_good _ _ _ Hgood), rev_app_distr, rev_involutive.
  rewrite common_prefix_app, Nat.sub_diag. cbn [repeat app].
  rewrite skipn_app, Nat.sub_diag, skipn_all. cbn [app skipn].
  destruct parts' as [|x l] eqn:Ep; [easy|].
  assert (Hpj : path_join_list (x :: l) = join sslash (x :: l)).
  { cbn [path_join_list]. inversion Hgood as [|? ? (Hx & _ & _ & Hxs) Hl]; subst.
    apply fold_path_join; [exact Hx|now left|now apply good_comp_kept|now apply endswith_slash_free]. }
  rewrite Hpj. f_equal. unfold relative_filepath_to_section_path.
  assert (split slash (join sslash (x :: l)) = x :: l) as ->.
  { unfold sslash. apply split_join; [discriminate|]. eapply Forall_impl; [|exact Hgood].
    now intros a (_ & _ & _ & H). }
  rewrite <- Ep. unfold parts'. rewrite strip_add_ext.
  unfold parts. unfold section_strs_to_section_path_str, sdot. now rewrite sections_join_id.
Qed.

(** two different section paths never share a file *)
Lemma to_filepath_inj cwd base s1 s2 :
  isabs cwd = true ->
  Forall part_ok (sections (mk_sp s1)) -> Forall part_ok (sections (mk_sp s2)) ->
  (to_filepath (mk_sp s1) base = to_filepath (mk_sp s2) base) -> s1 = s2.
Proof.
  intros Hc H1 H2 E.
  assert (R1 := filepath_roundtrip cwd base s1 Hc H1).
  assert (R2 := filepath_roundtrip cwd base s2 Hc H2).
  rewrite E in R1. rewrite R1 in R2. injection R2 as R2. exact R2.
Qed.

(** module search *)
Lemma get_module_iff skip has search m :
  get_module_imported_from skip has search = Ok m <->
  exists before after, search = before ++ m :: after /\
    has m = true /\ should_skip_module skip m = false /\
    Forall (fun x => should_skip_module skip x = true \/ has x = false) before.
Proof.
  induction search as [|x search IH]; cbn.
  - split; [discriminate|]. intros (b & a & H & _). now destruct b.
  - destruct (should_skip_module skip x) eqn:Es.
    + rewrite IH. split.
      * intros (b & a & -> & H1 & H2 & H3). exists (x :: b), a. repeat split; try assumption.
        constructor; [now left|exact H3].
      * intros (b & a & H & H1 & H2 & H3). destruct b as [|y b]; cbn in H; injection H as -> ->.
        -- congruence.
        -- exists b, a. inversion H3; subst. now repeat split.
    + destruct (has x) eqn:Eh.
      * split.
        -- intros [= ->]. exists [], search. repeat split; try assumption. constructor.
        -- intros (b & a & H & H1 & H2 & H3). destruct b as [|y b]; cbn in H; injection H as -> ->; [reflexivity|].
           inversion H3 as [|? ? [H|H] ?]; subst; congruence.
      * rewrite IH. split.
        -- intros (b & a & -> & H1 & H2 & H3). exists (x :: b), a. repeat split; try assumption.
           constructor; [now right|exact H3].
        -- intros (b & a & H & H1 & H2 & H3). destruct b as [|y b]; cbn in H; injection H as -> ->.
           ++ congruence.
           ++ exists b, a. inversion H3; subst. now repeat split.
Qed.

Lemma from_ambiguous_view_strip m rest base :
  has_char dot m = false ->
  from_ambiguous (LView (m ++ "." ++ rest)) true base
  = Ok (match base with Some b => mk_sp (b ++ "." ++ rest) | None => mk_sp rest end).
Proof.
  intro Hm. cbn [from_ambiguous]. 
  assert (E : from_section_str_list (tl (sections (mk_sp (m ++ "." ++ rest)))) = mk_sp rest).
  { change (m ++ "." ++ rest)%string with (m ++ String dot rest)%string.
    cbn [sections mk_sp]. unfold section_path_str_to_section_strs.
    rewrite split_app, (split_no_sep _ _ Hm). cbn [app tl].
    unfold from_section_str_list, section_strs_to_section_path_str. f_equal.
    apply (join_split dot). }
  rewrite E. destruct base as [b|]; [|reflexivity]. now rewrite sp_join_mk.
Qed.

Lemma list_from_ambiguous_length items base strip out :
  list_from_ambiguous items base strip = Ok out -> length out = length items.
Proof.
  revert out; induction items as [|i items IH]; cbn; intros out H.
  - now injection H as <-.
  - destruct (from_ambiguous i strip base); [|discriminate].
    destruct (list_from_ambiguous items base strip); [|discriminate].
    injection H as <-. cbn. now rewrite (IH _ eq_refl).
Qed.
