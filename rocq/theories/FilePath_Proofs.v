From Verif Require Export FilePath_Spec SectionPath_Proofs.
From Coq Require Import Lia.
Import SectionPath_Model.
Local Open Scope list_scope.

Lemma follow_app d a b : follow d (a ++ b) = follow (follow d a) b.
Proof. apply fold_left_app. Qed.

Lemma eqb_comp c : (String.eqb c "" || String.eqb c ".") = true <-> c = ""%string \/ c = "."%string.
Proof. rewrite orb_true_iff, !String.eqb_eq. reflexivity. Qed.

(** ** absolute paths *)
Definition clean (acc : list string) : Prop :=
  Forall (fun c => c <> ""%string /\ c <> "."%string /\ c <> ".."%string) acc.

Lemma norm_step_abs acc c : clean acc ->
  rev (norm_step true acc c) = go (rev acc) c /\ clean (norm_step true acc c).
Proof.
  intro H. unfold norm_step, go.
  destruct (String.eqb c "" || String.eqb c ".") eqn:E; [now split|].
  apply orb_false_iff in E as [E0 E1]. apply eqb_neq_s in E0, E1.
  destruct (String.eqb c "..") eqn:E2; cbn [negb andb orb].
  - destruct acc as [|x acc]; [now split|]. inversion H as [|? ? (X0 & X1 & X2) HA]; subst.
    apply eqb_neq_s in X2. rewrite X2. cbn [rev]. rewrite removelast_last. now split.
  - cbn [rev]. split; [reflexivity|]. constructor; [|exact H].
    apply eqb_neq_s in E2. now repeat split.
Qed.

Lemma norm_fold_abs cs acc : clean acc ->
  rev (fold_left (norm_step true) cs acc) = follow (rev acc) cs
  /\ clean (fold_left (norm_step true) cs acc).
Proof.
  revert acc. induction cs as [|c cs IH]; intros acc H; cbn; [now split|].
  destruct (norm_step_abs acc c H) as [E C]. unfold follow in *. rewrite <- E. apply (IH _ C).
Qed.

Lemma norm_comps_abs cs : norm_comps true cs = follow [] cs.
Proof. unfold norm_comps. exact (proj1 (norm_fold_abs cs [] (Forall_nil _))). Qed.

Lemma follow_names d cs : Forall (fun c => has_char slash c = false) cs -> Forall a_name d ->
  Forall a_name (follow d cs).
Proof.
  revert d. induction cs as [|c cs IH]; intros d Hc Hd; cbn; [exact Hd|].
  inversion Hc as [|? ? C1 C2]; subst. apply IH; [exact C2|]. unfold go.
  destruct (String.eqb c "" || String.eqb c ".") eqn:E; [exact Hd|].
  apply orb_false_iff in E as [E0 E1]. apply eqb_neq_s in E0, E1.
  destruct (String.eqb c "..") eqn:E2.
  - clear -Hd. induction d as [|x d IH]; [exact Hd|]. inversion Hd; subst.
    destruct d; [constructor|]. cbn [removelast]. constructor; [assumption|]. now apply IH.
  - apply eqb_neq_s in E2. apply Forall_app. split; [exact Hd|]. constructor; [|constructor].
    now repeat split.
Qed.

Lemma leads_names d p : Forall a_name d -> Forall a_name (leads_to d p).
Proof.
  intro H. unfold leads_to. apply follow_names; [apply split_parts_no_sep|].
  destruct (isabs p); [constructor|exact H].
Qed.

Lemma place_names cwd p : Forall a_name (place cwd p).
Proof. apply leads_names, leads_names. constructor. Qed.

Lemma name_kept l : Forall a_name l -> Forall kept l.
Proof. intro H. eapply Forall_impl; [|exact H]. intros x (A & _ & _ & B). now split. Qed.

(** the working directory followed by a relative path *)
Lemma follow_absin cwd p : isabs cwd = true ->
  follow [] (split slash (absin cwd p)) = place cwd p.
Proof.
  intro Hc. unfold place, leads_to, absin. rewrite Hc. destruct (isabs p) eqn:E; [reflexivity|].
  rewrite <- norm_comps_abs, (norm_comps_join_rel _ _ E (isabs_ne _ Hc)).
  destruct (norm_fold_abs (split slash cwd) [] (Forall_nil _)) as [E1 C1].
  rewrite (proj1 (norm_fold_abs (split slash p) _ C1)), E1. reflexivity.
Qed.

Lemma initial_slashes_join a b : isabs a = true -> isabs b = false ->
  initial_slashes (path_join a b) = initial_slashes a.
Proof.
  intros H Hb. pose proof (isabs_path_join a b H) as HJ. unfold initial_slashes.
  unfold isabs in H, Hb, HJ. rewrite H, HJ. unfold path_join. rewrite Hb.
  assert (L : forall c s, startswith (String c s) sslash = Ascii.eqb "/" c).
  { intros c s. unfold sslash. cbn [startswith]. now destruct (Ascii.eqb "/" c). }
  destruct a as [|c1 [|c2 [|c3 a]]].
  - discriminate.
  - rewrite L in H. apply Ascii.eqb_eq in H. subst c1. cbn [String.eqb orb].
    change (endswith "/" sslash) with true. cbn iota. cbn [append startswith].
    destruct b as [|c b]; [reflexivity|]. rewrite L in Hb. cbn [startswith]. now rewrite Hb.
  - rewrite L in H. apply Ascii.eqb_eq in H. subst c1. cbn [String.eqb orb].
    destruct (endswith (String "/" (String c2 "")) sslash) eqn:E; cbn [append startswith];
      destruct (Ascii.eqb "/" c2) eqn:E2; try reflexivity.
    + destruct b as [|c b]; [reflexivity|]. rewrite L in Hb.
      cbn [append startswith]. now rewrite Hb.
    + apply Ascii.eqb_eq in E2. subst c2. discriminate E.
  - cbn [String.eqb orb]. destruct (endswith _ _); cbn [append startswith]; reflexivity.
Qed.

Lemma slashes_absin cwd p : isabs cwd = true ->
  repeat_str (initial_slashes (absin cwd p)) sslash = slashes_of cwd p.
Proof.
  intro H. unfold absin, slashes_of. destruct (isabs p) eqn:E; [reflexivity|].
  now rewrite (initial_slashes_join _ _ H E).
Qed.

(** the text of an absolute path in normal form *)
Lemma abspath_text cwd p : isabs cwd = true ->
  abspath cwd p = (slashes_of cwd p ++ join sslash (place cwd p))%string.
Proof.
  intro H. unfold abspath. change (if isabs p then p else path_join cwd p) with (absin cwd p).
  rewrite (normpath_abs _ (absin_abs _ p H)), norm_comps_abs, (follow_absin _ _ H).
  now rewrite (slashes_absin _ _ H).
Qed.

Lemma abs_places cwd p : isabs cwd = true ->
  filter nonempty_s (split slash (abspath cwd p)) = place cwd p.
Proof.
  intro H. rewrite (abs_comps _ _ H). unfold abs_acc.
  rewrite (proj1 (norm_fold_abs _ [] (Forall_nil _))). apply (follow_absin _ _ H).
Qed.

(** ** relative paths *)
Lemma go_kept d x : kept x -> x <> "."%string -> x <> ".."%string -> go d x = d ++ [x].
Proof.
  intros [K _] N1 N2. unfold go. apply eqb_neq_s in K, N1, N2. now rewrite K, N1, N2.
Qed.

Definition steps (acc : list string) : Prop := Forall (fun c => c <> ""%string /\ c <> "."%string) acc.

Lemma norm_step_rel d acc c : steps acc ->
  follow d (rev (norm_step false acc c)) = go (follow d (rev acc)) c /\ steps (norm_step false acc c).
Proof.
  intro H. unfold norm_step.
  destruct (String.eqb c "" || String.eqb c ".") eqn:E.
  { split; [|exact H]. unfold go. now rewrite E. }
  assert (P : follow d (rev (c :: acc)) = go (follow d (rev acc)) c).
  { cbn [rev]. now rewrite follow_app. }
  assert (S' : steps (c :: acc)).
  { apply orb_false_iff in E as [E0 E1]. apply eqb_neq_s in E0, E1. constructor; [now split|exact H]. }
  destruct (String.eqb c "..") eqn:E2; cbn [negb andb orb]; [|now split].
  destruct acc as [|x acc]; cbn [orb]; [now split|].
  destruct (String.eqb x "..") eqn:E3; [now split|].
  inversion H as [|? ? [X0 X1] HA]; subst. split; [|exact HA].
  apply eqb_neq_s in X0, X1.
  unfold go at 1. rewrite E, E2. cbn [rev]. rewrite follow_app. cbn [follow fold_left].
  unfold go. rewrite X0, X1, E3. cbn [orb]. now rewrite removelast_last.
Qed.

Lemma norm_fold_rel d cs acc : steps acc ->
  follow d (rev (fold_left (norm_step false) cs acc)) = follow (follow d (rev acc)) cs
  /\ steps (fold_left (norm_step false) cs acc).
Proof.
  revert acc. induction cs as [|c cs IH]; intros acc H; cbn [fold_left]; [now split|].
  destruct (norm_step_rel d acc c H) as [E S']. destruct (IH _ S') as [E2 S2]. split; [|exact S2].
  rewrite E2, E. reflexivity.
Qed.

Lemma norm_comps_rel d cs : follow d (norm_comps false cs) = follow d cs.
Proof. unfold norm_comps. exact (proj1 (norm_fold_rel d cs [] (Forall_nil _))). Qed.

(** first the steps up, then the names *)
Definition in_order (acc : list string) : Prop :=
  exists n l, rev acc = repeat ".."%string n ++ l /\ Forall a_name l.

Lemma repeat_snoc {A} (x : A) n : repeat x (S n) = repeat x n ++ [x].
Proof. induction n as [|n IH]; [reflexivity|]. cbn [repeat app] in *. now rewrite <- IH. Qed.

Lemma norm_step_order acc c : has_char slash c = false -> in_order acc -> in_order (norm_step false acc c).
Proof.
  intros Hs (n & l & E & L). unfold norm_step.
  destruct (String.eqb c "" || String.eqb c ".") eqn:E0; [now exists n, l|].
  apply orb_false_iff in E0 as [C0 C1]. apply eqb_neq_s in C0, C1.
  destruct (String.eqb c "..") eqn:E2; cbn [negb andb orb].
  - apply String.eqb_eq in E2. subst c.
    assert (L' : l = [] \/ exists l' y, l = l' ++ [y]).
    { destruct (rev l) as [|y r] eqn:R.
      - left. apply (f_equal (@rev _)) in R. now rewrite rev_involutive in R.
      - right. exists (rev r), y. apply (f_equal (@rev _)) in R. now rewrite rev_involutive in R. }
    destruct acc as [|x acc]; cbn [orb].
    + exists 1, []. now split.
    + cbn [rev] in E. destruct L' as [->|(l' & y & ->)].
      * rewrite app_nil_r in E.
        assert (X : x = ".."%string).
        { assert (I : In x (repeat ".."%string n)) by (rewrite <- E; apply in_app_iff; right; now left).
          now apply repeat_spec in I. }
        subst x. change (String.eqb ".." "..") with true. cbn iota. exists (S n), []. split; [|constructor].
        cbn [rev]. rewrite app_nil_r, repeat_snoc, E. reflexivity.
      * rewrite app_assoc in E. apply app_inj_tail in E as [E ->].
        apply Forall_app in L as [L Y]. inversion Y as [|? ? (_ & _ & Y2 & _) _]; subst.
        apply eqb_neq_s in Y2. rewrite Y2. exists n, l'. now split.
  - apply eqb_neq_s in E2. exists n, (l ++ [c]). cbn [rev]. rewrite E, app_assoc. split; [reflexivity|].
    apply Forall_app. split; [exact L|]. constructor; [|constructor]. now repeat split.
Qed.

Lemma norm_comps_order cs : Forall (fun c => has_char slash c = false) cs ->
  exists n l, norm_comps false cs = repeat ".."%string n ++ l /\ Forall a_name l.
Proof.
  intro H. unfold norm_comps.
  assert (G : forall acc, in_order acc -> in_order (fold_left (norm_step false) cs acc)).
  { induction H as [|c cs Hc Hcs IH]; intros acc A; cbn [fold_left]; [exact A|].
    apply IH. now apply norm_step_order. }
  apply G. exists 0, []. now split.
Qed.

Lemma dotdot_kept n l : Forall a_name l -> Forall kept (repeat ".."%string n ++ l).
Proof.
  intro H. apply Forall_app. split; [|now apply name_kept].
  apply Forall_forall. intros x I. apply repeat_spec in I. subst x. split; [discriminate|reflexivity].
Qed.

Lemma join_slash_nil l : Forall kept l -> join sslash l = ""%string -> l = [].
Proof.
  intros H E. destruct l as [|x l]; [reflexivity|]. exfalso. inversion H as [|? ? [X _] _]; subst.
  destruct x; [easy|]. destruct l; [discriminate|]. rewrite join_cons in E. discriminate.
Qed.

Lemma normpath_rel p : isabs p = false ->
  exists n l, normpath p = rel_text n l /\ Forall a_name l
              /\ forall d, follow d (repeat ".."%string n ++ l) = follow d (split slash p).
Proof.
  intro H. unfold normpath.
  destruct (String.eqb p "") eqn:E.
  { apply String.eqb_eq in E. subst p. exists 0, []. repeat split; constructor. }
  assert (I0 : initial_slashes p = 0) by (unfold initial_slashes; unfold isabs in H; now rewrite H).
  rewrite I0. cbn [Nat.eqb negb repeat_str append].
  destruct (norm_comps_order (split slash p) (split_parts_no_sep _ _)) as (n & l & En & L).
  exists n, l. pose proof (dotdot_kept n l L) as K. split; [|split; [exact L|]].
  - rewrite En. unfold rel_text. destruct (repeat ".."%string n ++ l) as [|x r] eqn:R; [reflexivity|].
    destruct (String.eqb (join sslash (x :: r)) "") eqn:Q; [|reflexivity].
    apply String.eqb_eq in Q. now apply (join_slash_nil _ K) in Q.
  - intro d. rewrite <- En. apply norm_comps_rel.
Qed.

Lemma join_not_abs l : Forall kept l -> isabs (join sslash l) = false.
Proof.
  intro H. destruct l as [|x l]; [reflexivity|]. inversion H as [|? ? [X0 X1] _]; subst.
  unfold isabs. destruct l; [now apply startswith_slash_free|]. rewrite join_cons.
  now apply startswith_slash_free_app.
Qed.

Lemma rel_text_comps n l : Forall a_name l ->
  isabs (rel_text n l) = false
  /\ forall d, follow d (split slash (rel_text n l)) = follow d (repeat ".."%string n ++ l).
Proof.
  intro L. pose proof (dotdot_kept n l L) as K. unfold rel_text.
  destruct (repeat ".."%string n ++ l) as [|x r]; [split; reflexivity|].
  split; [now apply join_not_abs|]. intro d. unfold sslash at 1.
  rewrite split_join; [reflexivity|discriminate|].
  eapply Forall_impl; [|exact K]. now intros a [_ A].
Qed.

Lemma fold_names l acc : Forall a_name l -> fold_left (norm_step false) l acc = rev l ++ acc.
Proof. intro H. apply norm_fold_good. exact H. Qed.

Lemma fold_ups n k : fold_left (norm_step false) (repeat ".."%string n) (repeat ".."%string k)
  = repeat ".."%string (n + k).
Proof.
  revert k. induction n as [|n IH]; intro k; [reflexivity|]. cbn [repeat fold_left].
  replace (norm_step false (repeat ".."%string k) "..") with (repeat ".."%string (S k)).
  - rewrite IH. f_equal. lia.
  - destruct k; reflexivity.
Qed.

Lemma rev_repeat' {A} (x : A) n : rev (repeat x n) = repeat x n.
Proof.
  induction n as [|n IH]; [reflexivity|]. cbn [repeat rev]. rewrite IH. symmetry. apply (repeat_snoc x n).
Qed.

Lemma norm_comps_normal n l : Forall a_name l ->
  norm_comps false (repeat ".."%string n ++ l) = repeat ".."%string n ++ l.
Proof.
  intro L. unfold norm_comps. rewrite fold_left_app.
  change (@nil string) with (repeat ".."%string 0) at 1. rewrite fold_ups, (fold_names _ _ L).
  rewrite rev_app_distr, rev_involutive, rev_repeat'. now rewrite Nat.add_0_r.
Qed.

Lemma normpath_rel_text n l : Forall a_name l -> normpath (rel_text n l) = rel_text n l.
Proof.
  intro L. pose proof (dotdot_kept n l L) as K. pose proof (norm_comps_normal n l L) as NN.
  unfold rel_text. destruct (repeat ".."%string n ++ l) as [|x r] eqn:R; [reflexivity|].
  unfold normpath. destruct (String.eqb (join sslash (x :: r)) "") eqn:Q.
  { apply String.eqb_eq in Q. now apply (join_slash_nil _ K) in Q. }
  assert (I0 : initial_slashes (join sslash (x :: r)) = 0).
  { unfold initial_slashes. pose proof (join_not_abs _ K) as A. unfold isabs in A. now rewrite A. }
  assert (SJ : split slash (join sslash (x :: r)) = x :: r).
  { apply split_join; [discriminate|]. eapply Forall_impl; [|exact K]. now intros a [_ A]. }
  rewrite I0. cbn [Nat.eqb negb repeat_str append]. rewrite SJ, NN, Q. reflexivity.
Qed.

Lemma slashes_join k l : 1 <= k <= 2 -> Forall kept l ->
  initial_slashes (repeat_str k sslash ++ join sslash l) = k.
Proof.
  intros Hk K. assert (A := join_not_abs _ K). unfold isabs in A.
  generalize dependent (join sslash l). intros s A.
  assert (S0 : s = ""%string \/ exists c s', s = String c s' /\ Ascii.eqb "/" c = false).
  { destruct s as [|c s]; [now left|]. right. exists c, s. split; [reflexivity|].
    unfold sslash in A. cbn [startswith] in A. now destruct (Ascii.eqb "/" c). }
  destruct S0 as [->|(c & s' & -> & E)]; destruct k as [|[|[|]]]; try lia; try reflexivity;
    unfold initial_slashes, sslash; cbn [repeat_str append startswith]; rewrite ?E; reflexivity.
Qed.

Lemma normpath_idem p : normpath (normpath p) = normpath p.
Proof.
  destruct (isabs p) eqn:A.
  - pose proof (normpath_abs _ A) as E. rewrite norm_comps_abs in E.
    assert (N : Forall a_name (follow [] (split slash p)))
      by (apply follow_names; [apply split_parts_no_sep|constructor]).
    pose proof (initial_slashes_pos _ A) as P.
    assert (A2 : isabs (normpath p) = true).
    { rewrite E. unfold isabs. destruct (initial_slashes p) as [|k]; [lia|]. reflexivity. }
    rewrite (normpath_abs _ A2), norm_comps_abs. rewrite E at 3.
    f_equal.
    + rewrite E, (slashes_join _ _ P (name_kept _ N)). reflexivity.
    + f_equal. rewrite E. rewrite <- norm_comps_abs.
      assert (F : forall q, norm_comps true (split slash q) = norm_comps true (filter nonempty_s (split slash q))).
      { intro q. unfold norm_comps. f_equal. generalize (split slash q) (@nil string).
        induction l as [|c l IH]; intro acc; [reflexivity|]. cbn [filter fold_left]. unfold nonempty_s at 1.
        destruct (String.eqb c "") eqn:Ec; cbn [negb].
        - apply String.eqb_eq in Ec. subst c. apply IH.
        - cbn [fold_left]. apply IH. }
      rewrite F, split_slashes, (split_slash_join _ (name_kept _ N)).
      exact (norm_comps_app true [] _ N).
  - destruct (normpath_rel _ A) as (n & l & -> & L & _). now apply normpath_rel_text.
Qed.

(** ** relative paths from one place to another *)
Lemma common_prefix_spec a b : longest_common a b (common_prefix a b).
Proof.
  revert b. induction a as [|x a IH]; intro b.
  { cbn [common_prefix]. split; [now exists []|]. split; [now exists b|].
    intros c' [r E] _. destruct c'; [cbn; lia|discriminate]. }
  destruct b as [|y b]; cbn [common_prefix].
  { split; [now exists (x :: a)|]. split; [now exists []|].
    intros c' _ [r E]. destruct c'; [cbn; lia|discriminate]. }
  destruct (String.eqb_spec x y) as [->|N].
  - destruct (IH b) as ([r1 E1] & [r2 E2] & M). split; [exists r1; cbn; now rewrite <- E1|].
    split; [exists r2; cbn; now rewrite <- E2|]. intros c' [s1 F1] [s2 F2].
    destruct c' as [|z c']; [cbn; lia|]. cbn in F1, F2. injection F1 as -> F1. injection F2 as F2.
    cbn [length]. apply le_n_S, M; [now exists s1|now exists s2].
  - split; [now exists (x :: a)|]. split; [now exists (y :: b)|].
    intros c' [s1 F1] [s2 F2]. destruct c' as [|z c']; [cbn; lia|]. cbn in F1, F2. congruence.
Qed.

Lemma longest_unique a b c c' : longest_common a b c -> longest_common a b c' -> c = c'.
Proof.
  intros ([r E] & B & M) ([r' E'] & B' & M').
  assert (length c = length c') as L.
  { apply Nat.le_antisymm; [apply M'|apply M]; auto; [now exists r|now exists r']. }
  clear -E E' L. revert c' a r r' E E' L. induction c as [|x c IH]; intros [|x' c'] a r r' E E' L;
    try discriminate; [reflexivity|]. destruct a as [|z a]; [discriminate|]. cbn in *.
  injection E as -> E. injection E' as -> E'. injection L as L. f_equal. eauto.
Qed.

Lemma follow_ups n d : follow d (repeat ".."%string n) = firstn (length d - n) d.
Proof.
  revert d. induction n as [|n IH]; intro d.
  - cbn [repeat follow fold_left]. rewrite Nat.sub_0_r. now rewrite firstn_all.
  - cbn [repeat]. unfold follow in *. cbn [fold_left]. rewrite IH. unfold go.
    change (String.eqb ".." "" || String.eqb ".." ".") with false. rewrite String.eqb_refl. cbn iota.
    destruct (rev d) as [|y r] eqn:R.
    + apply (f_equal (@rev _)) in R. rewrite rev_involutive in R. subst d. reflexivity.
    + apply (f_equal (@rev _)) in R. rewrite rev_involutive in R. cbn [rev] in R. subst d.
      rewrite removelast_last, app_length. cbn [length].
      replace (length (rev r) + 1 - S n) with (length (rev r) - n) by lia.
      rewrite firstn_app. replace (length (rev r) - n - length (rev r)) with 0 by lia.
      cbn [firstn]. now rewrite app_nil_r.
Qed.

Lemma follow_names_only l d : Forall a_name l -> follow d l = d ++ l.
Proof.
  intro H. revert d. induction H as [|x l (A & B & C & D) H IH]; intro d; cbn; [now rewrite app_nil_r|].
  unfold follow in IH. rewrite IH. rewrite go_kept by (try split; assumption). now rewrite <- app_assoc.
Qed.

Lemma relpath_text cwd path start : isabs cwd = true -> path <> ""%string ->
  exists c a b, longest_common (place cwd start) (place cwd path) c
    /\ place cwd start = c ++ a /\ place cwd path = c ++ b
    /\ relpath cwd path start = Ok (rel_text (length a) b).
Proof.
  intros Hc Hp. unfold relpath. apply eqb_neq_s in Hp. rewrite Hp.
  rewrite !(abs_places _ _ Hc).
  pose proof (common_prefix_spec (place cwd start) (place cwd path)) as LC.
  set (c := common_prefix (place cwd start) (place cwd path)) in *.
  destruct LC as ([a A] & [b B] & M). exists c, a, b.
  split; [split; [now exists a|split; [now exists b|exact M]]|]. split; [exact A|]. split; [exact B|].
  assert (NB : Forall a_name b).
  { pose proof (place_names cwd path) as N. rewrite B in N. now apply Forall_app in N. }
  assert (Ea : length (place cwd start) - length c = length a) by (rewrite A, app_length; lia).
  assert (Eb : skipn (length c) (place cwd path) = b).
  { rewrite B, skipn_app, skipn_all, Nat.sub_diag. reflexivity. }
  rewrite Ea, Eb. pose proof (dotdot_kept (length a) b NB) as K. unfold rel_text.
  destruct (repeat ".."%string (length a) ++ b) as [|x r]; [reflexivity|].
  inversion K as [|? ? [X0 X1] KR]; subst. f_equal. cbn [path_join_list].
  apply fold_path_join; [exact X0|now left|exact KR|now apply endswith_slash_free].
Qed.

(** ** section paths of files *)
Lemma split_rel_text n l : Forall a_name l ->
  split slash (rel_text n l) = match repeat ".."%string n ++ l with [] => ["."%string] | x => x end.
Proof.
  intro L. pose proof (dotdot_kept n l L) as K. unfold rel_text.
  destruct (repeat ".."%string n ++ l) as [|x r]; [reflexivity|].
  apply split_join; [discriminate|]. eapply Forall_impl; [|exact K]. now intros a [_ A].
Qed.

Lemma place_join cwd base q : isabs cwd = true -> isabs q = false ->
  place cwd (path_join base q) = follow (place cwd base) (split slash q).
Proof.
  intros Hc Hq. rewrite <- !(follow_absin _ _ Hc).
  pose proof (abs_acc_join cwd base q Hc Hq) as E. unfold abs_acc in E.
  destruct (norm_fold_abs (split slash (absin cwd base)) [] (Forall_nil _)) as [E1 C1].
  destruct (norm_fold_abs (split slash (absin cwd (path_join base q))) [] (Forall_nil _)) as [E2 _].
  cbn [rev] in E1, E2. rewrite <- E2, E, (proj1 (norm_fold_abs _ _ C1)), E1. reflexivity.
Qed.

(** ** names *)
Lemma last_split_join l : Forall a_name l -> last (split slash (join sslash l)) ""%string = last l ""%string.
Proof.
  intro L. destruct l as [|x l]; [reflexivity|]. unfold sslash.
  rewrite split_join; [reflexivity|discriminate|]. eapply Forall_impl; [|exact L]. now intros a (_ & _ & _ & A).
Qed.

Lemma last_split_slashes k s : last (split slash (repeat_str k sslash ++ s)) ""%string = last (split slash s) ""%string.
Proof.
  induction k as [|k IH]; [reflexivity|]. rewrite <- IH. cbn [repeat_str]. unfold sslash at 1. cbn [append].
  change (String "/" (repeat_str k sslash ++ s)) with ("" ++ String slash (repeat_str k sslash ++ s))%string.
  rewrite split_app. cbn [split app]. cbn [last].
  destruct (split slash (repeat_str k sslash ++ s)) eqn:E; [now apply split_nonempty in E|reflexivity].
Qed.

Lemma section_name_last cwd p : isabs cwd = true ->
  config_section_name cwd p = last (place cwd p) ""%string.
Proof.
  intro H. unfold config_section_name, basename.
  rewrite (abspath_text _ _ H), <- (slashes_absin _ _ H), last_split_slashes. apply last_split_join, place_names.
Qed.

Lemma from_filepath_any cwd base file : isabs cwd = true -> file <> ""%string ->
  exists c a b, longest_common (place cwd base) (place cwd file) c
    /\ place cwd base = c ++ a /\ place cwd file = c ++ b
    /\ from_filepath cwd base file
       = Ok (mk_sp (join sdot (map_last strip_py
               (match (repeat ".."%string (length a) ++ b)%list with [] => ["."%string] | x => x end)))).
Proof.
  intros Hc Hf. destruct (relpath_text cwd file base Hc Hf) as (c & a & b & L & A & B & E).
  exists c, a, b. split; [exact L|]. split; [exact A|]. split; [exact B|].
  unfold from_filepath. rewrite E. unfold relative_filepath_to_section_path, section_strs_to_section_path_str.
  rewrite split_rel_text; [reflexivity|]. pose proof (place_names cwd file) as N. rewrite B in N.
  now apply Forall_app in N.
Qed.

Lemma longest_all a r : longest_common a (a ++ r) a.
Proof.
  split; [exists []; now rewrite app_nil_r|]. split; [now exists r|].
  intros c' [s E] _. rewrite E, app_length. lia.
Qed.

Lemma place_nil cwd : isabs cwd = true -> place cwd "" = place cwd cwd.
Proof.
  intro H. unfold place, leads_to. rewrite H. reflexivity.
Qed.

Lemma from_filepath_inside cwd base file rel : isabs cwd = true -> file <> ""%string ->
  place cwd file = place cwd base ++ rel -> rel <> [] ->
  from_filepath cwd base file = Ok (mk_sp (join sdot (map_last strip_py rel))).
Proof.
  intros Hc Hf P N. destruct (from_filepath_any cwd base file Hc Hf) as (c & a & b & L & A & B & E).
  rewrite E. pose proof (longest_all (place cwd base) rel) as L2. rewrite <- P in L2.
  pose proof (longest_unique _ _ _ _ L L2) as EC. rewrite EC in A, B.
  assert (a = []) as ->.
  { rewrite <- (app_nil_r (place cwd base)) in A at 1. now apply app_inv_head in A. }
  rewrite P in B. apply app_inv_head in B. subst b. cbn [length repeat app].
  destruct rel; [easy|reflexivity].
Qed.

Lemma from_filepath_same cwd base file : isabs cwd = true -> file <> ""%string ->
  place cwd file = place cwd base -> from_filepath cwd base file = Ok (mk_sp ".").
Proof.
  intros Hc Hf P. destruct (from_filepath_any cwd base file Hc Hf) as (c & a & b & L & A & B & E).
  rewrite E. pose proof (longest_all (place cwd base) []) as L2. rewrite app_nil_r in L2. rewrite P in L, B.
  pose proof (longest_unique _ _ _ _ L L2) as EC. rewrite EC in A, B.
  assert (a = []) as ->.
  { rewrite <- (app_nil_r (place cwd base)) in A at 1. now apply app_inv_head in A. }
  assert (b = []) as ->.
  { rewrite <- (app_nil_r (place cwd base)) in B at 1. now apply app_inv_head in B. }
  reflexivity.
Qed.

Lemma from_filepath_outside cwd base file : isabs cwd = true -> file <> ""%string ->
  (forall rel, place cwd file <> place cwd base ++ rel) ->
  exists sp, from_filepath cwd base file = Ok sp /\ nth_error (sections sp) 0 = Some ""%string
             /\ nth_error (sections sp) 1 = Some ""%string.
Proof.
  intros Hc Hf N. destruct (from_filepath_any cwd base file Hc Hf) as (c & a & b & L & A & B & E).
  rewrite E. eexists. split; [reflexivity|]. destruct a as [|x a].
  { rewrite app_nil_r in A. subst c. now elim (N b). }
  cbn [length repeat app]. set (l := repeat ".."%string (length a) ++ b).
  destruct l as [|y l]; [split; reflexivity|].
  change (map_last strip_py (".."%string :: y :: l)) with (".."%string :: map_last strip_py (y :: l)).
  destruct (map_last strip_py (y :: l)).
  - split; reflexivity.
  - rewrite join_cons. split; reflexivity.
Qed.

Lemma comes_back cwd base file parts : isabs cwd = true -> file <> ""%string -> parts <> [] ->
  Forall part_ok parts -> Forall (fun x => has_char dot x = false) parts ->
  place cwd file = place cwd base ++ add_ext_last parts ->
  from_filepath cwd base file = Ok (mk_sp (join sdot parts))
  /\ place cwd (to_filepath (mk_sp (join sdot parts)) base ++ ".py") = place cwd file.
Proof.
  intros Hc Hf Hne Hok Hdf P. pose proof (good_ext _ Hok Hdf) as Hgood. pose proof (add_ext_ne _ Hne) as Hne'.
  split.
  - rewrite (from_filepath_inside _ _ _ _ Hc Hf P Hne'), strip_add_ext. reflexivity.
  - assert (ES : sections (mk_sp (join sdot parts)) = parts).
    { unfold mk_sp, section_path_str_to_section_strs, sdot. cbn [sections]. now apply split_join. }
    unfold to_filepath. rewrite ES.
    assert (Hrel' : isabs (join sslash (add_ext_last parts)) = false) by (now apply join_good_not_abs).
    assert (Hrel0 : isabs (join sslash parts) = false).
    { rewrite <- (join_add_ext _ Hne) in Hrel'. unfold isabs in *.
      destruct (join sslash parts); [reflexivity|exact Hrel']. }
    assert (Hrelne : join sslash parts <> ""%string).
    { inversion Hok as [E|x l [Hx _] Hl E]; [congruence|]. destruct l; [exact Hx|].
      rewrite join_cons. destruct x; [easy|discriminate]. }
    rewrite path_join_app_ext by assumption. rewrite (join_add_ext _ Hne).
    rewrite (place_join _ _ _ Hc Hrel'), P. unfold sslash.
    rewrite split_join; [now apply follow_names_only|exact Hne'|].
    eapply Forall_impl; [|exact Hgood]. now intros a (_ & _ & _ & A).
Qed.

(** ** two paths with the same normal form *)
Lemma abspath_inj cwd a b : isabs cwd = true -> slashes_of cwd a = slashes_of cwd b ->
  (abspath cwd a = abspath cwd b <-> place cwd a = place cwd b).
Proof.
  intros Hc S0. split.
  - intro E. rewrite <- !(abs_places _ _ Hc). now rewrite E.
  - intro E. rewrite !(abspath_text _ _ Hc). now rewrite S0, E.
Qed.

Lemma leads_abspath cwd p d : isabs cwd = true -> leads_to d (abspath cwd p) = place cwd p.
Proof.
  intro Hc.
  assert (A : isabs (abspath cwd p) = true).
  { rewrite (abspath_text _ _ Hc), <- (slashes_absin _ _ Hc).
    pose proof (initial_slashes_pos _ (absin_abs _ p Hc)) as P. unfold isabs.
    destruct (initial_slashes (absin cwd p)); [lia|reflexivity]. }
  unfold leads_to. rewrite A. rewrite <- norm_comps_abs. rewrite <- (comps_normpath _ A).
  unfold abspath. rewrite normpath_idem. fold (abspath cwd p). apply (abs_places _ _ Hc).
Qed.

Lemma leads_normpath d p : leads_to d (normpath p) = leads_to d p.
Proof.
  destruct (isabs p) eqn:A.
  - assert (A2 : isabs (normpath p) = true).
    { rewrite (normpath_abs _ A). unfold isabs. pose proof (initial_slashes_pos _ A) as P.
      destruct (initial_slashes p) as [|k]; [lia|]. reflexivity. }
    unfold leads_to. rewrite A, A2. rewrite <- !norm_comps_abs, <- !comps_normpath by assumption.
    now rewrite normpath_idem.
  - destruct (normpath_rel _ A) as (n & l & -> & L & F). destruct (rel_text_comps n l L) as [A2 F2].
    unfold leads_to. rewrite A, A2, F2. apply F.
Qed.

(** the owner of a file in a manager's folder *)
Lemma frame_of_file cwd r m file sp : get_manager_by_filepath cwd r file = Ok m ->
  from_filepath cwd (default_config_path m) file = Ok sp ->
  frame_section_path_of_file cwd r file = Ok (sp_join (mk_sp (m_name m)) sp).
Proof. intros E F. unfold frame_section_path_of_file. now rewrite E, F. Qed.
