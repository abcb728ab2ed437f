(** Proofs about containers. *)
From Coq Require Import Lia.
From Verif Require Export Container_Spec.
From Verif Require Import Imports_Proofs.
Local Open Scope string_scope.
Local Open Scope list_scope.

Section Container.
Context {A : Type}.
Variable same : A -> A -> bool.
Variable begin : A -> bool.
Notation add := (add_missing same begin).

Lemma has_iff l x : has same l x = true <-> exists y, In y l /\ same x y = true.
Proof. unfold has. apply existsb_exists. Qed.
Lemma has_false l x : has same l x = false <-> forall y, In y l -> same x y = false.
Proof.
  split.
  - intros H y Hy. destruct (same x y) eqn:E; [|reflexivity]. assert (has same l x = true) by (apply has_iff; now exists y). congruence.
  - intros H. destruct (has same l x) eqn:E; [|reflexivity]. apply has_iff in E as (y & Hy & E). now rewrite (H y Hy) in E.
Qed.
Lemma insert_front l (x : A) : insert_at 0 x l = x :: l.
Proof. unfold insert_at. cbn [Z.ltb Z.compare]. rewrite Z.min_r by lia. reflexivity. Qed.
Lemma add_one l x : add l x = if has same l x then l else if begin x then x :: l else l ++ [x].
Proof. unfold add_missing, insert_if_missing, append_if_missing. destruct (begin x), (has same l x); try reflexivity. apply insert_front. Qed.
Lemma has_add l x y : has same l y = true -> has same (add l x) y = true.
Proof.
  rewrite add_one. destruct (has same l x); [auto|]. rewrite !has_iff. intros (z & Hz & E). exists z. split; [|exact E]. destruct (begin x); [now right|apply in_or_app; now left].
Qed.
Lemma has_add_self l x : same x x = true -> has same (add l x) x = true.
Proof. intros R. rewrite add_one. destruct (has same l x) eqn:E; [exact E|]. apply has_iff. exists x. split; [|exact R]. destruct (begin x); [now left|apply in_or_app; right; now left]. Qed.
Lemma has_all xs l y : has same l y = true -> has same (fold_left add xs l) y = true.
Proof. revert l. induction xs as [|x xs IH]; intros l H; [exact H|]. cbn. apply IH. now apply has_add. Qed.
Lemma distinct_app l x : (forall y, same x y = same y x) -> distinct same l -> has same l x = false -> distinct same (l ++ [x]).
Proof.
  intros S D N. rewrite has_false in N. induction D as [|y l H D IH]; [constructor; [intros ? []|constructor]|]. cbn. constructor.
  - intros z Hz. apply in_app_or in Hz as [Hz|[<-|[]]]; [now apply H|]. rewrite <- S. apply N. now left.
  - apply IH. intros z Hz. apply N. now right.
Qed.
Lemma distinct_add l x : (forall y, same x y = same y x) -> distinct same l -> distinct same (add l x).
Proof.
  intros S D. rewrite add_one. destruct (has same l x) eqn:E; [exact D|]. destruct (begin x); [|now apply distinct_app]. constructor; [now apply has_false|exact D].
Qed.
Lemma selection_nil (l : list A) : selection [] l.
Proof. induction l; constructor; auto. Qed.

(** the items added to the front, in the order of adding, and those added to the end *)
Lemma add_all xs : forall l, exists b e, fold_left add xs l = rev b ++ l ++ e /\ selection b (filter begin xs) /\ selection e (filter (fun x => negb (begin x)) xs).
Proof.
  induction xs as [|x xs IH]; intros l; [exists [], []; split; [now rewrite app_nil_r|split; constructor]|]. cbn [fold_left filter]. destruct (IH (add l x)) as (b & e & E & B & F). rewrite E, add_one.
  destruct (has same l x); [exists b, e; split; [reflexivity|]; destruct (begin x); cbn; split; (assumption || now constructor)|].
  destruct (begin x); cbn [negb].
  - exists (x :: b), e. split; [cbn; now rewrite <- app_assoc|]. split; [now constructor|exact F].
  - exists b, (x :: e). split; [now rewrite <- app_assoc|]. split; [exact B|now constructor].
Qed.
End Container.

(** * Renames *)
Lemma last_pair {B} (f : string * string -> string) (g : string * string -> B) r k v :
  dget k (dict_of (map (fun q => (f q, g q)) r)) = Some v <-> exists a q b, r = a ++ q :: b /\ f q = k /\ g q = v /\ ~ In k (map f b).
Proof.
  unfold dict_of. rewrite dget_dupdate_rev. cbn [dget]. rewrite <- map_rev. split.
  - intros H. assert (exists a q b, rev r = a ++ q :: b /\ f q = k /\ g q = v /\ ~ In k (map f a)) as (a & q & b & E & K & G & N).
    { destruct (dget k (map (fun q => (f q, g q)) (rev r))) as [w|] eqn:E; [|discriminate]. injection H as <-. induction (rev r) as [|q l IH]; [discriminate|]. cbn in E.
      destruct (String.eqb k (f q)) eqn:Q.
      - apply eqb_eq_s in Q. injection E as <-. exists [], q, l. cbn. auto.
      - destruct (IH E) as (a & p & b & -> & K & G & N). exists (q :: a), p, b. cbn. repeat split; auto. intros [X|X]; [apply eqb_neq_s in Q; congruence|auto]. }
    exists (rev b), q, (rev a). split; [|split; [exact K|split; [exact G|]]].
    + rewrite <- (rev_involutive r), E, rev_app_distr. cbn. now rewrite <- app_assoc.
    + rewrite map_rev. intros X. apply N. now apply in_rev.
  - intros (a & q & b & -> & K & G & N). rewrite rev_app_distr. cbn [rev]. rewrite <- app_assoc. cbn [app]. rewrite map_app, dget_app.
    assert (dget k (map (fun q => (f q, g q)) (rev b)) = None) as ->.
    { apply dget_None. unfold dkeys. rewrite map_map. cbn. rewrite map_rev. intros X. apply N. now apply in_rev. }
    cbn. rewrite K, String.eqb_refl, G. reflexivity.
Qed.

(** * Positions *)
Lemma lower_letter c d : In d (list_ascii_of_string "beginnstart") -> Ascii.eqb (lower_char c) d = Ascii.eqb c d || Ascii.eqb c (upper_of d).
Proof.
  intros H. cbn in H. repeat (destruct H as [<-|H]; [destruct c as [[] [] [] [] [] [] [] []]; vm_compute; reflexivity|]). destruct H.
Qed.
Lemma lower_space c : is_space (lower_char c) = is_space c.
Proof. destruct c as [[] [] [] [] [] [] [] []]; vm_compute; reflexivity. Qed.
Lemma lower_spelled x : (forall d, In d (list_ascii_of_string x) -> In d (list_ascii_of_string "beginnstart")) -> forall w, lower w = x <-> spelled w x.
Proof.
  induction x as [|d x IH]; intros L [|c w]; cbn [lower spelled]; split; try easy.
  - intros E. injection E as E1 E2. split; [|apply IH; [intros e H; apply L; now right|exact E2]].
    assert (Ascii.eqb (lower_char c) d = true) as H by (apply Ascii.eqb_eq; exact E1). rewrite lower_letter in H by (apply L; now left). apply orb_true_iff in H as [H|H]; apply Ascii.eqb_eq in H; auto.
  - intros [H S]. apply IH in S; [|intros e He; apply L; now right]. rewrite S. f_equal. apply Ascii.eqb_eq. rewrite lower_letter by (apply L; now left). apply orb_true_iff. destruct H as [-> | ->]; rewrite Ascii.eqb_refl; auto.
Qed.
Lemma lstrip_split s : exists a, s = (a ++ lstrip s)%string /\ blank a.
Proof.
  induction s as [|c s (a & E & B)]; [now exists ""|]. cbn [lstrip]. destruct (is_space c) eqn:S; [|now exists ""]. exists (String c a). cbn. split; [now f_equal|]. unfold blank. cbn. now rewrite S.
Qed.
Lemma rstrip_split s : exists b, s = (rstrip s ++ b)%string /\ blank b.
Proof.
  induction s as [|c s (b & E & B)]; [now exists ""|]. cbn [rstrip]. destruct (rstrip s) as [|d t] eqn:R.
  - destruct (is_space c) eqn:S; [|exists b; cbn; split; [now rewrite E at 1|exact B]]. exists (String c b). cbn. cbn in E. split; [now rewrite <- E|]. unfold blank. cbn. now rewrite S.
  - exists b. cbn. cbn in E. split; [now rewrite E at 1|exact B].
Qed.
Definition solid (w : string) : Prop := all_chars (fun c => negb (is_space c)) w = true.
Lemma lstrip_solid a w : blank a -> solid w -> w <> "" -> forall b, lstrip (a ++ w ++ b) = (w ++ b)%string.
Proof.
  intros B S N b. induction a as [|c a IH]; cbn.
  - destruct w as [|c w]; [now destruct N|]. unfold solid in S. cbn in S. apply andb_true_iff in S as [S _]. cbn. now destruct (is_space c).
  - unfold blank in B. cbn in B. apply andb_true_iff in B as [-> B]. now apply IH.
Qed.
Lemma rstrip_blank b : blank b -> rstrip b = "".
Proof. induction b as [|c b IH]; intros B; [reflexivity|]. unfold blank in B. cbn in B. apply andb_true_iff in B as [S B]. cbn. now rewrite (IH B), S. Qed.
Lemma rstrip_solid w b : blank b -> solid w -> rstrip (w ++ b) = w.
Proof.
  intros B. induction w as [|c w IH]; intros S; cbn [append]; [now apply rstrip_blank|]. unfold solid in S. cbn in S. apply andb_true_iff in S as [S1 S]. cbn. rewrite (IH S).
  destruct w; [|reflexivity]. now destruct (is_space c).
Qed.
Lemma solid_lower w : solid (lower w) <-> solid w.
Proof. unfold solid. induction w as [|c w IH]; [easy|]. cbn. rewrite lower_space, !andb_true_iff, IH. easy. Qed.
Lemma pairs_id (r : list (string * string)) : map (fun q => (fst q, snd q)) r = r.
Proof. induction r as [|[x y] r IH]; [reflexivity|]. cbn. now rewrite IH. Qed.
