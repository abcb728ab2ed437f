(** Proofs for [Layout_Props]. *)
From Verif Require Import PySource_Proofs Layout_Spec.
Local Open Scope string_scope.
Local Open Scope list_scope.

Lemma blanks_cons c b : blanks (String c b) -> (c = " "%char \/ c = ascii_of_nat 9 \/ c = ascii_of_nat 12) /\ blanks b.
Proof.
  intro H. split; [apply H; cbn; now rewrite Ascii.eqb_refl|].
  intros c' H'. apply H. cbn. destruct (Ascii.eqb c c') eqn:E; [reflexivity|]. cbn in H'. now rewrite H', ?Bool.orb_true_r.
Qed.
Lemma plain_cons c x : plain_code (String c x) ->
  quote_char c = false /\ Ascii.eqb c bs_c = false /\ Ascii.eqb c "#" = false /\ plain_code x.
Proof.
  unfold plain_code, quote_char, sq_c, dq_c, bs_c. cbn [has_char]. rewrite !Bool.orb_false_iff.
  intuition.
Qed.

Lemma lex_one_blank d w c s : c = " "%char \/ c = ascii_of_nat 9 \/ c = ascii_of_nat 12 ->
  lex Code d w (String c s) = match lex Code d "" s with Some (l, st, b) => Some (flush w l, st, b) | None => None end.
Proof. intros [->|[->| ->]]; reflexivity. Qed.
Lemma flush_nil l : flush "" l = l.
Proof. reflexivity. Qed.
Lemma lex_skip d b s : blanks b -> lex Code d "" (b ++ s)%string = lex Code d "" s.
Proof.
  induction b as [|c b IH]; intro B; [reflexivity|]. apply blanks_cons in B as [C B]. cbn [append].
  rewrite (lex_one_blank _ _ _ _ C), IH by exact B. now destruct (lex Code d "" s) as [[[l st] e]|].
Qed.
Lemma lex_blanks d w b s : blanks b -> b <> "" ->
  lex Code d w (b ++ s)%string = match lex Code d "" s with Some (l, st, e) => Some (flush w l, st, e) | None => None end.
Proof.
  intros B N. destruct b as [|c b]; [easy|]. apply blanks_cons in B as [C B]. cbn [append].
  now rewrite (lex_one_blank _ _ _ _ C), lex_skip.
Qed.
Lemma lex_comment d w c : lex Code d w (String "#" c) = lex Code d w "".
Proof. reflexivity. Qed.

(** two continuations that read the same in code read the same after plain code *)
Lemma lex_after x s1 s2 : plain_code x -> (forall d w, lex Code d w s1 = lex Code d w s2) -> forall d w,
  lex Code d w (x ++ s1)%string = lex Code d w (x ++ s2)%string.
Proof.
  intros P E. induction x as [|c x IH]; [exact E|]. intros d w. cbn [append lex].
  apply plain_cons in P as (Q & B & H & P). specialize (IH P). rewrite Q, B, H.
  destruct (word_char c); [apply IH|].
  destruct (blank_char c); [now rewrite IH|]. destruct (Nat.ltb (nat_of_ascii c) 32); [reflexivity|].
  destruct (open_char c); [now rewrite IH|]. destruct (close_char c); [|now rewrite IH].
  destruct d as [|d]; [reflexivity|]. now rewrite IH.
Qed.

Lemma logical_app pre : forall open ls rest, logical open pre = Some ls ->
  logical open (pre ++ rest) = match logical None rest with Some l => Some (ls ++ l) | None => None end.
Proof.
  induction pre as [|x pre IH]; intros open ls rest H; cbn [logical app] in *.
  - destruct open; [discriminate|]. injection H as <-. cbn. now destruct (logical None rest).
  - destruct (match open with None => (lstart, []) | Some y => y end) as [st cur].
    destruct (lex (ls_mode st) (ls_depth st) (ls_lit st) x) as [[[toks st'] b]|]; [|discriminate].
    destruct (goes_on st' b); [now apply IH|].
    destruct (logical None pre) as [l|] eqn:E; [|discriminate]. injection H as <-. rewrite (IH None l rest E).
    now destruct (logical None rest).
Qed.
Lemma logical_line l1 l2 rest : lex Code 0 "" l1 = lex Code 0 "" l2 -> logical None (l1 :: rest) = logical None (l2 :: rest).
Proof. intro E. cbn [logical lstart ls_mode ls_depth ls_lit]. now rewrite E. Qed.
Lemma parse_line pre l1 l2 rest : complete pre -> lex Code 0 "" l1 = lex Code 0 "" l2 ->
  parse_lines (pre ++ l1 :: rest) = parse_lines (pre ++ l2 :: rest).
Proof.
  intros [ls C] E. unfold parse_lines. rewrite !(logical_app _ _ _ _ C), (logical_line l1 l2 rest E). reflexivity.
Qed.

(* ------------------------------------------------------------------ *)
(** * Strings *)

Lemma inside_cons q c s : inside q (String c s) -> Ascii.eqb c q = false /\ Ascii.eqb c bs_c = false /\ inside q s.
Proof. unfold inside, bs_c. cbn [has_char]. rewrite !Bool.orb_false_iff. intuition. Qed.
Lemma not_backslash q : quote_mark q -> Ascii.eqb q bs_c = false.
Proof. now intros [->| ->]. Qed.

Lemma lex_str q d s : quote_mark q -> forall w, inside q s ->
  lex (Str q) d w (s ++ String q "")%string = Some ([TLit (w ++ s ++ String q "")%string], LS Code d "", false).
Proof.
  intro Q. induction s as [|c s IH]; intros w I.
  - cbn [append lex]. rewrite (not_backslash q Q), Ascii.eqb_refl. cbn [lex flush]. unfold snoc. reflexivity.
  - apply inside_cons in I as (A & B & I). cbn [append lex]. rewrite A, B, (IH _ I). now rewrite snoc_app.
Qed.
Lemma lex_quoted q d s : quote_mark q -> inside q s ->
  lex Code d "" (quoted q s) = Some ([TLit (quoted q s)], LS Code d "", false).
Proof.
  intros Q I. unfold quoted. assert (L := lex_str q d s Q (String q "") I).
  assert (E : lex Code d "" (String q (s ++ String q "")) =
              match lex (Str q) d (String q "") (s ++ String q "") with Some (l, st, b) => Some (flush "" l, st, b) | None => None end).
  { assert (X : forall c1 c2 r2, (s ++ String q "")%string = String c1 (String c2 r2) -> Ascii.eqb c1 q = false).
    { intros c1 c2 r2 H. destruct s as [|c s]; [discriminate|]. injection H as <- _. now apply inside_cons in I as (A & _). }
    remember (s ++ String q "")%string as r eqn:Er. clear Er L. cbn [lex].
    assert (K : word_char q = false /\ blank_char q = false /\ Ascii.eqb q "#" = false /\ quote_char q = true)
      by (destruct Q as [->| ->]; repeat split; reflexivity).
    destruct K as (-> & -> & -> & ->). destruct r as [|c1 [|c2 r2]]; try reflexivity.
    now rewrite (X _ _ _ eq_refl). }
  rewrite E, L. reflexivity.
Qed.

Lemma lex_tri_line q d l : quote_mark q -> forall w, inside q l -> lex (Tri q) d w l = Some ([], LS (Tri q) d (w ++ l ++ String nl_c "")%string, false).
Proof.
  intro Q. induction l as [|c l IH]; intros w I; [reflexivity|].
  apply inside_cons in I as (A & B & I). cbn [append lex]. rewrite A, B, (IH _ I). now rewrite snoc_app.
Qed.
Lemma lex_tri_end q d l : quote_mark q -> forall w, inside q l ->
  exists s, lex (Tri q) d w (l ++ triple q)%string = Some ([TLit s], LS Code d "", false).
Proof.
  intro Q. induction l as [|c l IH]; intros w I.
  - unfold triple. cbn [append lex]. rewrite (not_backslash q Q), !Ascii.eqb_refl. cbn [andb lex flush]. eauto.
  - apply inside_cons in I as (A & B & I). cbn [append lex]. rewrite A, B. apply IH, I.
Qed.
Lemma lex_tri_start q d l : quote_mark q -> lex Code d "" (triple q ++ l)%string = lex (Tri q) d (triple q) l.
Proof.
  intro Q. unfold triple. cbn [append lex].
  assert (K : word_char q = false /\ blank_char q = false /\ Ascii.eqb q "#" = false /\ quote_char q = true)
    by (destruct Q as [->| ->]; repeat split; reflexivity).
  destruct K as (-> & -> & -> & ->). rewrite Ascii.eqb_refl. cbn [andb]. now destruct (lex _ d _ l) as [[[? ?] ?]|].
Qed.

Lemma logical_tri q : quote_mark q -> forall ls l w cur, Forall (inside q) (l :: ls) ->
  exists s, logical (Some (LS (Tri q) 0 w, cur)) (until_triple q l ls) = Some [cur ++ [TLit s]].
Proof.
  intro Q. induction ls as [|l' ls IH]; intros l w cur F; inversion F; subst; cbn [until_triple logical ls_mode ls_depth ls_lit].
  - destruct (lex_tri_end q 0 l Q w) as [s E]; [assumption|]. rewrite E. cbn. eauto.
  - rewrite (lex_tri_line q 0 l Q w) by assumption. cbn [goes_on ls_mode ls_depth]. rewrite app_nil_r. now apply IH.
Qed.
Lemma logical_docstring q l ls : quote_mark q -> Forall (inside q) (l :: ls) ->
  exists s, logical None (docstring q l ls) = Some [[TLit s]].
Proof.
  intros Q F. unfold docstring. destruct ls as [|l' ls]; inversion F; subst; cbn [until_triple logical lstart ls_mode ls_depth ls_lit];
    rewrite (lex_tri_start q 0 _ Q).
  - destruct (lex_tri_end q 0 l Q (triple q)) as [s E]; [assumption|]. rewrite E. cbn. eauto.
  - rewrite (lex_tri_line q 0 l Q) by assumption. cbn [goes_on ls_mode ls_depth app].
    destruct (logical_tri q Q ls l' (triple q ++ l ++ String nl_c "")%string [] ltac:(assumption)) as [s E]. exists s. exact E.
Qed.

Lemma assign_line_stmt x t : is_name x = true -> is_op "=" t = false -> is_op ";" t = false ->
  stmt_of [TWord x; TOp "="; t] = Ok (SAssign (Asgn (TgName x) None (Some [t]))).
Proof.
  intros N E S. assert (K := fun k => is_name_not_keyword x k N).
  unfold stmt_of. assert (F : find_op ";" 0 [TWord x; TOp "="; t] = None) by (cbn -[depth_after is_op]; now rewrite S, ?Bool.andb_false_l; destruct t).
  rewrite F. rewrite !K by (cbn; tauto).
  assert (C : existsb (String.eqb x) clause_keywords = false).
  { apply Bool.not_true_iff_false. intro H. apply existsb_exists in H as (k & Hk & Ek). rewrite K in Ek; [discriminate|].
    cbn in Hk |- *. tauto. }
  assert (C' : existsb (String.eqb x) keywords = false).
  { apply Bool.not_true_iff_false. intro H. apply existsb_exists in H as (k & Hk & Ek). rewrite K in Ek by exact Hk. discriminate. }
  rewrite C, C'. unfold plain_stmt, assign_of, target_of. cbn [find_eq]. change (is_op "=" (TWord x)) with false. change (is_op "=" (TOp "=")) with true.
  rewrite E. cbn. rewrite E. cbn. rewrite N. reflexivity.
Qed.

(** * Names *)
Lemma digit_eq c : has_char c digits = is_digit c.
Proof. destruct c as [[] [] [] [] [] [] [] []]; vm_compute; reflexivity. Qed.
Lemma word_char_eq c : word_char c = has_char c name_letters || has_char c digits || Nat.leb 128 (nat_of_ascii c).
Proof. destruct c as [[] [] [] [] [] [] [] []]; vm_compute; reflexivity. Qed.
Lemma word_char_iff c : word_char c = true <-> has_char c name_letters = true \/ has_char c digits = true \/ 128 <= nat_of_ascii c.
Proof. rewrite word_char_eq, !orb_true_iff, Nat.leb_le. tauto. Qed.
Lemma all_chars_iff p s : all_chars p s = true <-> forall c, has_char c s = true -> p c = true.
Proof.
  induction s as [|d s IH]; [split; [intros _ c H; discriminate H|reflexivity]|]. cbn [all_chars has_char]. rewrite andb_true_iff, IH. split.
  - intros [H1 H2] c H. apply orb_true_iff in H as [H|H]; [apply Ascii.eqb_eq in H; now subst|now apply H2].
  - intro H. split; [apply H; now rewrite Ascii.eqb_refl|]. intros c Hc. apply H. now rewrite Hc, orb_true_r.
Qed.
Lemma is_name_identifier w : is_name w = true <-> identifier w.
Proof.
  assert (K : negb (existsb (String.eqb w) keywords) = true <-> ~ In w python_keywords).
  { change python_keywords with keywords. rewrite negb_true_iff, <- not_true_iff_false, existsb_exists. split.
    - intros H I. apply H. exists w. split; [exact I|apply String.eqb_refl].
    - intros H (x & I & E). apply String.eqb_eq in E. now subst x. }
  unfold identifier. destruct w as [|c r]; [split; [discriminate|intros [H _]; now elim H]|].
  unfold is_name. rewrite !andb_true_iff, K, all_chars_iff, negb_true_iff, <- digit_eq. split.
  - intros [[D W] Kw]. split; [discriminate|]. split; [intros d Hd; now apply word_char_iff, W|]. split; [|exact Kw]. intros d s [= <- <-]. exact D.
  - intros (_ & W & D & Kw). split; [split|exact Kw]; [now apply (D c r)|]. intros d Hd. now apply word_char_iff, W.
Qed.
