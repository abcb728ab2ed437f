(** Proofs about the splitting of config files by lines (C111). *)
From Verif Require Export Lines_Spec FileStr_Proofs.
From Coq Require Import Lia.
Local Open Scope string_scope.
Local Open Scope list_scope.

Lemma app_nil_str s : (s ++ "")%string = s. Proof. induction s as [|c s IH]; [reflexivity|]. cbn. now rewrite IH. Qed.
Lemma app_assoc_str (a b c : string) : ((a ++ b) ++ c)%string = (a ++ b ++ c)%string. Proof. induction a as [|x a IH]; [reflexivity|]. cbn. now rewrite IH. Qed.

Lemma lstrip_app p a t : all_chars p a = true -> lstrip_by p (a ++ t) = lstrip_by p t.
Proof. induction a as [|c a IH]; [reflexivity|]. cbn. intro H. apply andb_prop in H as [-> H]. now apply IH. Qed.
Lemma rstrip_all p b : all_chars p b = true -> rstrip_by p b = "".
Proof. induction b as [|c b IH]; [reflexivity|]. cbn. intro H. apply andb_prop in H as [H1 H2]. now rewrite IH, H1. Qed.
Lemma rstrip_app p t b : all_chars p b = true -> rstrip_by p (t ++ b) = rstrip_by p t.
Proof. intro H. induction t as [|c t IH]; [now apply rstrip_all|]. cbn. now rewrite IH. Qed.
Lemma rstrip_bare p t : (forall r c, t = (r ++ String c "")%string -> p c = false) -> rstrip_by p t = t.
Proof.
  induction t as [|c t IH]; [reflexivity|]. intro H. cbn [rstrip_by]. rewrite IH.
  - destruct t; [|reflexivity]. now rewrite (H "" c eq_refl).
  - intros r d ->. now apply (H (String c r) d).
Qed.
Lemma lstrip_split p s : exists a, s = (a ++ lstrip_by p s)%string /\ all_chars p a = true /\ forall c r, lstrip_by p s = String c r -> p c = false.
Proof.
  induction s as [|c s (a & E & H1 & H2)]; [exists ""; split; [reflexivity|]; split; [reflexivity|discriminate]|]. cbn [lstrip_by]. destruct (p c) eqn:Ep.
  - exists (String c a). cbn. rewrite Ep. split; [now rewrite <- E|]. auto.
  - exists "". split; [reflexivity|]. split; [reflexivity|]. now intros d r [= <- _].
Qed.
Lemma rstrip_split p s : exists b, s = (rstrip_by p s ++ b)%string /\ all_chars p b = true /\ forall r c, rstrip_by p s = (r ++ String c "")%string -> p c = false.
Proof.
  induction s as [|c s (b & E & H1 & H2)]; [exists ""; split; [reflexivity|]; split; [reflexivity|]; intros [|? r] d; discriminate|]. cbn [rstrip_by].
  destruct (rstrip_by p s) as [|d t] eqn:Er; [destruct (p c) eqn:Ep|].
  - exists (String c b). cbn in *. subst b. rewrite Ep. split; [reflexivity|]. split; [exact H1|]. intros [|? r] d; discriminate.
  - exists b. split; [cbn in *; now rewrite <- E|]. split; [exact H1|]. intros [|x r] d [= <-]; [exact Ep|]. destruct r; discriminate.
  - exists b. split; [cbn in *; now rewrite <- E|]. split; [exact H1|]. intros [|x r] y; [discriminate|]. intros [= <- Ey]. now apply (H2 r y).
Qed.
Lemma strip_by_iff p s t : strip_by p s = t <-> stripped p s t.
Proof.
  split.
  - intros <-. unfold strip_by. destruct (lstrip_split p s) as (a & E1 & A & L). destruct (rstrip_split p (lstrip_by p s)) as (b & E2 & B & R).
    exists a, b. split; [now rewrite <- E2|]. split; [exact A|]. split; [exact B|]. split; [|exact R].
    intros c r E. apply (L c (r ++ b)%string). rewrite E2, E. reflexivity.
  - intros (a & b & -> & A & B & H1 & H2). unfold strip_by. rewrite lstrip_app by exact A. destruct t as [|c t].
    + cbn [append]. replace b with (b ++ "")%string by apply app_nil_str. now rewrite lstrip_app by exact B.
    + cbn [append lstrip_by]. rewrite (H1 c t eq_refl). change (String c (t ++ b)) with (String c t ++ b)%string. rewrite rstrip_app by exact B. now apply rstrip_bare.
Qed.

Lemma blank_iff l : blank_line l = true <-> blank l.
Proof.
  unfold blank_line, strip, blank. rewrite String.eqb_eq, strip_by_iff. assert (X : all_chars is_space l = true <-> forall c, has_char c l = true -> is_space c = true).
  { induction l as [|d l IH]; cbn; [split; [discriminate | reflexivity]|]. rewrite andb_true_iff, IH. split.
    - intros [H1 H2] c. rewrite orb_true_iff, Ascii.eqb_eq. intros [->|H]; auto.
    - intro H. split; [apply H; now rewrite Ascii.eqb_refl|]. intros c Hc. apply H. rewrite Hc. apply orb_true_r. }
  rewrite <- X. split.
  - intros (a & b & -> & A & B & _). cbn [append]. now rewrite all_chars_app, A, B.
  - intro A. exists l, "". cbn. rewrite app_nil_str. split; [reflexivity|]. split; [exact A|]. split; [reflexivity|]. split; [discriminate|]. intros [|? ?] ? H; discriminate.
Qed.
Lemma of_imports_iff l : contains l "import" || blank_line l = true <-> of_imports l.
Proof. unfold of_imports. now rewrite orb_true_iff, blank_iff, contains_iff. Qed.

Lemma split_loop_off st i a lines : split_loop st false i a lines = (i, a ++ map (fun l => if st then strip_newlines l else l) lines).
Proof. revert a. induction lines as [|l lines IH]; intro a; cbn [split_loop map]; [now rewrite app_nil_r|]. now rewrite IH, <- app_assoc. Qed.
Lemma split_loop_divided st i lines : exists i' a, split_loop st true i [] lines = (i ++ i', a) /\ divided (map (fun l => if st then strip_newlines l else l) lines) i' a.
Proof.
  revert i. induction lines as [|l lines IH]; intro i; cbn [split_loop map].
  - exists [], []. rewrite app_nil_r. repeat split; constructor.
  - set (l' := if st then strip_newlines l else l). destruct (contains l' "import" || blank_line l') eqn:E.
    + destruct (IH (i ++ [l'])) as (i' & a & -> & E1 & F & N). exists (l' :: i'), a. rewrite <- app_assoc. split; [reflexivity|].
      split; [cbn; now rewrite E1|]. split; [|exact N]. constructor; [now apply of_imports_iff | exact F].
    + rewrite split_loop_off. exists [], ([l'] ++ map (fun l => if st then strip_newlines l else l) lines). rewrite app_nil_r. split; [reflexivity|].
      split; [reflexivity|]. split; [constructor|]. cbn. rewrite <- of_imports_iff, E. discriminate.
Qed.
Lemma divided_unique l i a i' a' : divided l i a -> divided l i' a' -> i = i' /\ a = a'.
Proof.
  intros (-> & F & N) (E & F' & N'). revert i' F' E. induction F as [|x i Hx _ IH]; intros i' F' E; destruct F' as [|y i' Hy F']; cbn in E.
  - auto.
  - subst a. contradiction.
  - subst a'. contradiction.
  - injection E as <- E. destruct (IH i' F' E) as [-> ->]. auto.
Qed.

Lemma break_at_shift k l : l <> [] -> break_at k l = k + break_at 0 l.
Proof.
  revert k. induction l as [|x [|y l] IH]; intros k H; [contradiction|cbn; lia|].
  assert (X : forall j, break_at j (x :: y :: l) = if negb (blank_line x) then j else break_at (S j) (y :: l)) by reflexivity. rewrite !X. destruct (negb (blank_line x)); [lia|].
  rewrite (IH (S k)), (IH 1) by discriminate. lia.
Qed.
Lemma break_at_spec l : l <> [] -> exists b r, l = b ++ r /\ skipn (break_at 0 l) l = r /\ Forall blank b /\
  ((exists x r', r = x :: r' /\ ~ blank x) \/ (exists x, r = [x] /\ blank x)).
Proof.
  induction l as [|x [|y l] IH]; intro H; [contradiction| |].
  - exists [], [x]. split; [reflexivity|]. split; [reflexivity|]. split; [constructor|]. destruct (blank_line x) eqn:E.
    + right. exists x. split; [reflexivity|]. now apply blank_iff.
    + left. exists x, []. split; [reflexivity|]. rewrite <- blank_iff, E. discriminate.
  - destruct (blank_line x) eqn:E.
    + destruct (IH ltac:(discriminate)) as (b & r & E1 & E2 & F & C). exists (x :: b), r. rewrite E1. split; [reflexivity|].
      split; [|split; [constructor; [now apply blank_iff | exact F] | exact C]]. rewrite <- E1. change (break_at 0 (x :: y :: l)) with (if negb (blank_line x) then 0 else break_at 1 (y :: l)).
      rewrite E. cbn [negb]. rewrite break_at_shift by discriminate. exact E2.
    + exists [], (x :: y :: l). split; [reflexivity|]. split; [cbn; now rewrite E|]. split; [constructor|]. left. exists x, (y :: l). split; [reflexivity|]. rewrite <- blank_iff, E. discriminate.
Qed.
Lemma strip_end_spec l : exists b, l = strip_end l ++ b /\ Forall blank b /\
  (l = [] \/ (exists r x, strip_end l = r ++ [x] /\ ~ blank x) \/ (exists x, strip_end l = [x] /\ blank x)).
Proof.
  destruct l as [|x l]; [exists []; split; [reflexivity|]; split; [constructor|]; now left|]. unfold strip_end. set (m := x :: l).
  assert (N : rev m <> []) by (intro E; apply (f_equal (@length string)) in E; rewrite rev_length in E; discriminate).
  destruct (break_at_spec (rev m) N) as (b & r & E1 & E2 & F & C). rewrite E2. exists (rev b). split; [rewrite <- rev_app_distr, <- E1; now rewrite rev_involutive|].
  split; [now apply Forall_rev|]. right. destruct C as [(y & r' & -> & H)|(y & -> & H)]; [left | right].
  - exists (rev r'), y. split; [reflexivity | exact H].
  - exists y. split; [reflexivity | exact H].
Qed.

Lemma first_sign line a b : line = (a ++ "=" ++ b)%string -> has_char eq_c a = false -> split_assignment line = Some (strip a, strip b).
Proof.
  intros -> H. unfold split_assignment. change ("=" ++ b)%string with (String eq_c b). rewrite has_char_app. cbn [has_char]. rewrite Ascii.eqb_refl, orb_true_r. cbn [negb orb].
  rewrite split_app, (split_no_sep _ _ H). cbn [app]. assert (J := join_split eq_c b). destruct (split eq_c b) as [|y [|z r]] eqn:E; [now apply split_nonempty in E| |].
  - cbn [join] in J. now rewrite J.
  - now rewrite J.
Qed.
Lemma has_sign line : has_char eq_c line = true -> exists a b, line = (a ++ "=" ++ b)%string /\ has_char eq_c a = false.
Proof.
  induction line as [|c r IH]; [discriminate|]. cbn [has_char]. destruct (Ascii.eqb c eq_c) eqn:E; cbn [orb].
  - apply Ascii.eqb_eq in E as ->. intros _. exists "", r. auto.
  - intro H. destruct (IH H) as (a & b & -> & Ha). exists (String c a), b. split; [reflexivity|]. cbn [has_char]. now rewrite E, Ha.
Qed.
Lemma split_file_lines lines : snd (split_file true lines) = snd (split_lines (map strip_newlines lines)).
Proof.
  unfold split_file. destruct (split_loop_divided true [] lines) as (i & a & -> & D). cbn [app snd].
  assert (X : divided (map strip_newlines lines) (fst (split_lines (map strip_newlines lines))) (snd (split_lines (map strip_newlines lines)))).
  { set (ls := map strip_newlines lines). assert (W : forall l, is_whitespace_line l = blank_line l).
    { intro l. destruct (blank_line l) eqn:E.
      - apply blank_iff in E. unfold blank in E. unfold is_whitespace_line. clear -E. induction l as [|c l IH]; [reflexivity|]. cbn.
        rewrite (E c) by (cbn; now rewrite Ascii.eqb_refl). apply IH. intros d H. apply E. cbn. rewrite H. apply orb_true_r.
      - destruct (is_whitespace_line l) eqn:F; [|reflexivity]. exfalso. assert (blank_line l = true); [|congruence]. unfold is_whitespace_line in F. unfold blank_line, strip.
        apply String.eqb_eq, strip_by_iff. exists l, "". cbn. rewrite app_nil_str. split; [reflexivity|]. split; [exact F|]. split; [reflexivity|]. split; [discriminate|]. intros [|? ?] ? H; discriminate. }
    clear -W. induction ls as [|l ls IH]; [repeat split; constructor|]. cbn [split_lines]. rewrite W. destruct (contains l "import" || blank_line l) eqn:E.
    - destruct (split_lines ls) as [i a]. cbn [fst snd] in *. destruct IH as (-> & F & N). split; [reflexivity|]. split; [|exact N]. constructor; [now apply of_imports_iff | exact F].
    - split; [reflexivity|]. split; [constructor|]. cbn. rewrite <- of_imports_iff, E. discriminate. }
  now destruct (divided_unique _ _ _ _ _ D X).
Qed.
