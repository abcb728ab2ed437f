(** Python [str] operations used by the modelled code, on Coq's [string].
    A Python [str] is modelled as a list of 8-bit characters; nothing in the modelled
    code depends on the character set beyond equality of characters. *)
From Coq Require Export String Ascii List Bool Arith Lia.
Export ListNotations.
Open Scope string_scope.
Open Scope list_scope.
Open Scope nat_scope.

(** [s.split(sep)] for a one-character separator. *)
Fixpoint split (sep : ascii) (s : string) : list string :=
  match s with
  | EmptyString => [""%string]
  | String c r =>
      if Ascii.eqb c sep then ""%string :: split sep r
      else match split sep r with
           | [] => [String c ""]          (* unreachable: split never returns [] *)
           | h :: t => String c h :: t
           end
  end.

(** [sep.join(l)] *)
Fixpoint join (sep : string) (l : list string) : string :=
  match l with
  | [] => ""
  | x :: r => match r with
              | [] => x
              | _ :: _ => (x ++ sep ++ join sep r)%string
              end
  end.

(** [s.startswith(p)] *)
Fixpoint startswith (s p : string) {struct p} : bool :=
  match p, s with
  | EmptyString, _ => true
  | String _ _, EmptyString => false
  | String a p', String b s' => Ascii.eqb a b && startswith s' p'
  end.

(** [s.endswith(p)] *)
Fixpoint endswith (s p : string) : bool :=
  String.eqb s p ||
  match s with
  | EmptyString => false
  | String _ s' => endswith s' p
  end.

(** [p in s] for strings *)
Fixpoint contains (s p : string) : bool :=
  startswith s p ||
  match s with
  | EmptyString => false
  | String _ s' => contains s' p
  end.

(** [c in s] for a character *)
Fixpoint has_char (c : ascii) (s : string) : bool :=
  match s with
  | EmptyString => false
  | String d s' => Ascii.eqb d c || has_char c s'
  end.

(** all characters of [s] satisfy [f] *)
Fixpoint all_chars (f : ascii -> bool) (s : string) : bool :=
  match s with
  | EmptyString => true
  | String d s' => f d && all_chars f s'
  end.

(** [s[:-n]] for [n > 0] (the last [n] characters dropped) *)
Definition drop_last (n : nat) (s : string) : string :=
  substring 0 (String.length s - n) s.

Definition nl : string := String (ascii_of_nat 10) "".
Definition quote : string := String (ascii_of_nat 34) "".

(** Python's [str.isspace()] characters below 128 *)
Definition is_space (c : ascii) : bool :=
  let n := nat_of_ascii c in
  (Nat.leb 9 n && Nat.leb n 13) || (Nat.leb 28 n && Nat.leb n 32).

(* ------------------------------------------------------------------ *)
(** * Lemmas *)

Lemma app_nil_r_s (s : string) : (s ++ "")%string = s.
Proof. induction s as [|c s IH]; cbn; [reflexivity|]; now rewrite IH. Qed.

Lemma app_assoc_s (a b c : string) : ((a ++ b) ++ c)%string = (a ++ b ++ c)%string.
Proof. induction a as [|x a IH]; cbn; [reflexivity|]; now rewrite IH. Qed.

Lemma app_inv_l (a b c : string) : (a ++ b)%string = (a ++ c)%string -> b = c.
Proof.
  induction a as [|x a IH]; cbn; intro H; [exact H|].
  apply IH. now injection H.
Qed.

Lemma length_app_s (a b : string) :
  String.length (a ++ b) = String.length a + String.length b.
Proof. induction a as [|x a IH]; cbn; [reflexivity|]; now rewrite IH. Qed.

Lemma app_inv_r (a b c : string) : (a ++ c)%string = (b ++ c)%string -> a = b.
Proof.
  revert b; induction a as [|x a IH]; intros [|y b] H; cbn in H.
  - reflexivity.
  - apply (f_equal String.length) in H. cbn in H. rewrite length_app_s in H. lia.
  - apply (f_equal String.length) in H. cbn in H. rewrite length_app_s in H. lia.
  - injection H as Hx Hr. subst y. f_equal. now apply IH.
Qed.

Lemma eqb_eq_s (a b : string) : String.eqb a b = true <-> a = b.
Proof. apply String.eqb_eq. Qed.

Lemma eqb_refl_s (a : string) : String.eqb a a = true.
Proof. apply String.eqb_refl. Qed.

Lemma eqb_neq_s (a b : string) : String.eqb a b = false <-> a <> b.
Proof. apply String.eqb_neq. Qed.

Lemma split_nonempty sep s : split sep s <> [].
Proof.
  destruct s as [|c s]; cbn; [discriminate|].
  destruct (Ascii.eqb c sep); [discriminate|].
  destruct (split sep s); discriminate.
Qed.

Lemma split_no_sep sep s : has_char sep s = false -> split sep s = [s].
Proof.
  induction s as [|c s IH]; cbn; intro H; [reflexivity|].
  apply orb_false_iff in H as [Hc Hs].
  rewrite Hc, (IH Hs). reflexivity.
Qed.

Lemma split_parts_no_sep sep s : Forall (fun x => has_char sep x = false) (split sep s).
Proof.
  induction s as [|c s IH]; cbn.
  - constructor; [reflexivity|constructor].
  - destruct (Ascii.eqb c sep) eqn:E.
    + constructor; [reflexivity|exact IH].
    + destruct (split sep s) as [|h t].
      * constructor; [|constructor]. cbn. now rewrite E.
      * inversion IH; subst. constructor; [|assumption]. cbn. now rewrite E.
Qed.

Lemma split_app sep a b :
  split sep (a ++ String sep b) = split sep a ++ split sep b.
Proof.
  induction a as [|c a IH]; cbn.
  - now rewrite Ascii.eqb_refl.
  - destruct (Ascii.eqb c sep) eqn:E; cbn.
    + now rewrite IH.
    + rewrite IH. destruct (split sep a) as [|h t] eqn:Ea; cbn; [|reflexivity].
      exfalso. now apply (split_nonempty sep a).
Qed.

Lemma join_cons sep x y l : join sep (x :: y :: l) = (x ++ sep ++ join sep (y :: l))%string.
Proof. reflexivity. Qed.

Lemma join_cons_ne sep x l : l <> [] -> join sep (x :: l) = (x ++ sep ++ join sep l)%string.
Proof. destruct l; [easy|reflexivity]. Qed.

Lemma join_app sep l1 l2 : l1 <> [] -> l2 <> [] ->
  join sep (l1 ++ l2) = (join sep l1 ++ sep ++ join sep l2)%string.
Proof.
  intros H1 H2. induction l1 as [|x l1 IH]; [easy|].
  destruct l1 as [|y l1].
  - cbn [app]. now rewrite join_cons_ne.
  - change ((x :: y :: l1) ++ l2) with (x :: ((y :: l1) ++ l2)).
    rewrite join_cons_ne by discriminate. rewrite IH by discriminate.
    rewrite join_cons. now rewrite !app_assoc_s.
Qed.

(** [sep.join(s.split(sep)) == s] *)
Lemma join_split sep s : join (String sep "") (split sep s) = s.
Proof.
  induction s as [|c s IH]; cbn [split]; [reflexivity|].
  destruct (Ascii.eqb c sep) eqn:E.
  - apply Ascii.eqb_eq in E; subst c.
    rewrite join_cons_ne by apply split_nonempty. cbn. now rewrite IH.
  - destruct (split sep s) as [|h t] eqn:Es; [exfalso; now apply (split_nonempty sep s)|].
    destruct t as [|h' t].
    + cbn in *. now rewrite IH.
    + rewrite join_cons in IH |- *. cbn [append] in IH |- *. now rewrite IH.
Qed.

(** [sep.join(l).split(sep) == l] for a non-empty list of separator-free strings *)
Lemma split_join sep l : l <> [] -> Forall (fun x => has_char sep x = false) l ->
  split sep (join (String sep "") l) = l.
Proof.
  induction l as [|x l IH]; [easy|]. intros _ H. inversion H as [|? ? Hx Hl]; subst.
  destruct l as [|y l].
  - cbn [join]. now apply split_no_sep.
  - rewrite join_cons. cbn [append]. rewrite split_app, (split_no_sep _ _ Hx).
    rewrite IH by (try discriminate; assumption). reflexivity.
Qed.

Lemma split_inj sep a b : split sep a = split sep b -> a = b.
Proof. intro H. rewrite <- (join_split sep a), <- (join_split sep b). now rewrite H. Qed.

Lemma startswith_iff s p : startswith s p = true <-> exists r, s = (p ++ r)%string.
Proof.
  revert s; induction p as [|a p IH]; intros s; cbn.
  - split; [intros _; now exists s|reflexivity].
  - destruct s as [|b s]; cbn.
    + split; [discriminate|intros [r H]; discriminate].
    + rewrite andb_true_iff, Ascii.eqb_eq, IH. split.
      * intros [-> [r ->]]. now exists r.
      * intros [r H]. injection H as -> ->. split; [reflexivity|now exists r].
Qed.

Lemma endswith_iff s p : endswith s p = true <-> exists r, s = (r ++ p)%string.
Proof.
  induction s as [|c s IH]; cbn [endswith].
  - rewrite orb_false_r, String.eqb_eq. split.
    + intros <-. now exists "".
    + intros [[|? ?] H]; cbn in H; [exact H|discriminate].
  - rewrite orb_true_iff, String.eqb_eq, IH. split.
    + intros [H|[r ->]]; [now exists ""|now exists (String c r)].
    + intros [[|d r] H]; cbn in H; [now left|right]. injection H as -> ->. now exists r.
Qed.

Lemma contains_iff s p : contains s p = true <-> exists a b, s = (a ++ p ++ b)%string.
Proof.
  induction s as [|c s IH]; cbn [contains].
  - rewrite orb_false_r, startswith_iff. split.
    + intros [r H]. now exists "", r.
    + intros (a & b & H). destruct a; [|discriminate]. now exists b.
  - rewrite orb_true_iff, startswith_iff, IH. split.
    + intros [[r H]|(a & b & ->)]; [now exists "", r|now exists (String c a), b].
    + intros ([|d a] & b & H); cbn in H; [left; now exists b|right].
      injection H as -> ->. now exists a, b.
Qed.

Lemma has_char_app c a b : has_char c (a ++ b) = has_char c a || has_char c b.
Proof. induction a as [|x a IH]; cbn; [reflexivity|]. now rewrite IH, orb_assoc. Qed.

Lemma substring_0_app a b : substring 0 (String.length a) (a ++ b) = a.
Proof. induction a as [|x a IH]; cbn; [now destruct b|]. now rewrite IH. Qed.

Lemma drop_last_app a b : drop_last (String.length b) (a ++ b) = a.
Proof.
  unfold drop_last. rewrite length_app_s.
  replace (_ + _ - _) with (String.length a) by lia. apply substring_0_app.
Qed.

Lemma all_chars_app f a b : all_chars f (a ++ b) = all_chars f a && all_chars f b.
Proof. induction a as [|x a IH]; cbn; [reflexivity|]. now rewrite IH, andb_assoc. Qed.

Lemma has_char_all_chars c s :
  has_char c s = negb (all_chars (fun d => negb (Ascii.eqb d c)) s).
Proof.
  induction s as [|d s IH]; cbn; [reflexivity|]. rewrite IH.
  now destruct (Ascii.eqb d c), (all_chars _ s).
Qed.

Lemma has_char_false_app c a b :
  has_char c (a ++ b) = false <-> has_char c a = false /\ has_char c b = false.
Proof. rewrite has_char_app. apply orb_false_iff. Qed.

Lemma has_char_join c sep l :
  Forall (fun x => has_char c x = false) l -> has_char c sep = false ->
  has_char c (join sep l) = false.
Proof.
  intros Hl Hs. induction Hl as [|x l Hx Hl IH]; [reflexivity|].
  destruct l as [|y l]; [exact Hx|].
  rewrite join_cons, !has_char_app, Hx, Hs, IH. reflexivity.
Qed.
