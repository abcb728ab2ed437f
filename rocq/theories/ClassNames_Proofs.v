(** Proofs about the names of the items of class dicts. *)
From Verif Require Import ClassNames_Spec PipeDict_Proofs.
From Coq Require Import Lia.
Local Open Scope string_scope.
Local Open Scope list_scope.

(* ------------------------------------------------------------------ *)
(** * The map of names *)

Lemma last_now_app h x l1 l2 : last_now h x (l1 ++ l2) = match last_now h x l2 with Some e => Some e | None => last_now h x l1 end.
Proof. induction l1 as [|a l1 IH]; cbn; [now destruct (last_now h x l2)|]. rewrite IH. now destruct (last_now h x l2). Qed.

Lemma name_map_app h l1 : forall n l2 d, name_map h n (l1 ++ l2) d = name_map h (n + List.length l1) l2 (name_map h n l1 d).
Proof.
  induction l1 as [|a l1 IH]; intros n l2 d; cbn; [now rewrite Nat.add_0_r|]. rewrite IH. f_equal; lia.
Qed.

(** the position the map gives is that of the last entry of the name *)
Lemma name_map_spec h x l : forall n d,
  match last_now h x l with
  | Some e => exists m, dget x (name_map h n l d) = Some (n + m) /\ nth_error l m = Some e /\ now h e = x
  | None => dget x (name_map h n l d) = dget x d
  end.
Proof.
  induction l as [|a l IH]; intros n d; cbn [last_now name_map]; [reflexivity|].
  specialize (IH (S n) (dset (now h a) n d)). destruct (last_now h x l) as [e|].
  - destruct IH as (m & A & B & C). exists (S m). split; [rewrite A; f_equal; lia|]. split; [exact B|exact C].
  - rewrite IH. destruct (String.eqb_spec x (now h a)) as [->|Ne].
    + exists 0. rewrite dget_dset_eq. split; [f_equal; lia|]. split; reflexivity.
    + apply dget_dset_neq. congruence.
Qed.

Lemma new_index h n l x : match last_now h x l with
                          | Some e => exists m, dget x (cc_index (cc_new h n l)) = Some m /\ nth_error l m = Some e /\ now h e = x
                          | None => dget x (cc_index (cc_new h n l)) = None
                          end.
Proof. cbn. pose proof (name_map_spec h x l 0 []) as H. destruct (last_now h x l); [exact H|exact H]. Qed.

Lemma new_getattr h n l x : mem x coll_reserved = false ->
  cc_getattr (cc_new h n l) x = match last_now h x l with Some e => Ok (found_of e) | None => Raise AttributeError end.
Proof.
  intro R. unfold cc_getattr. rewrite R. pose proof (new_index h n l x) as H. destruct (last_now h x l) as [e|].
  - destruct H as (m & A & B & _). rewrite A. cbn [cc_entries cc_new]. rewrite B. now destruct e.
  - now rewrite H.
Qed.

Lemma new_sane h n l : (forall c, In (MSec c) l -> sane c) -> sane (cc_new h n l).
Proof.
  intro H. constructor; [|exact H]. intros x m G. pose proof (name_map_spec h x l 0 []) as K. destruct (last_now h x l) as [e|].
  - destruct K as (m' & A & B & C). rewrite A in G. injection G as <-. exists e. split; [exact B|]. destruct e; [exact I|exact C].
  - rewrite K in G. discriminate.
Qed.

Lemma fresh_sane h c : fresh h c -> sane c.
Proof. induction 1 as [n l H IH]. now apply new_sane. Qed.

(* ------------------------------------------------------------------ *)
(** * Other heaps *)

Lemma name_map_ext h h' l : (forall e, In e l -> now h e = now h' e) -> forall n d, name_map h n l d = name_map h' n l d.
Proof.
  induction l as [|a l IH]; intros H n d; cbn; [reflexivity|]. rewrite (H a (or_introl eq_refl)). apply IH. intros e He. apply H. now right.
Qed.

Definition agree (k : nat) (h h' : heap) : Prop := forall i, i < k -> h' i = h i.

Lemma now_agree k h h' l : agree k h h' -> (forall i, In (MItem i) l -> i < k) -> forall e, In e l -> now h e = now h' e.
Proof. intros A H [i|c] He; cbn; [symmetry; apply A; now apply H|reflexivity]. Qed.

Lemma below_mono k k' c : k <= k' -> below k c -> below k' c.
Proof. intros L. induction 1 as [n l d Hi _ IH]. constructor; [intros i Hn; specialize (Hi i Hn); lia|exact IH]. Qed.

Lemma fresh_agree k h h' c : agree k h h' -> below k c -> fresh h c -> fresh h' c.
Proof.
  intros A B. induction B as [n l d Hi _ IH]. intro F. inversion F as [n0 l0 Hs]; subst.
  rewrite (name_map_ext h h' l (now_agree k h h' l A Hi)). apply (Fresh h' n l). intros c Hc. apply IH; auto.
Qed.

Fixpoint seen_entries (kc : nat -> callable) (h : heap) (l : list cent) : list entry :=
  match l with
  | [] => []
  | MItem i :: l' => EItem (h i) (TInst (kc i)) :: seen_entries kc h l'
  | MSec c' :: l' => EColl (seen kc h c') :: seen_entries kc h l'
  end.
Lemma seen_eq kc h n l d : seen kc h (CC n l d) = Coll n (seen_entries kc h l).
Proof. cbn [seen]. f_equal. induction l as [|[i|c] l IH]; cbn; [reflexivity| |]; now rewrite IH. Qed.
Definition seen_entry (kc : nat -> callable) (h : heap) (e : cent) : entry :=
  match e with MItem i => EItem (h i) (TInst (kc i)) | MSec c => EColl (seen kc h c) end.
Lemma seen_entries_map kc h l : seen_entries kc h l = map (seen_entry kc h) l.
Proof. induction l as [|[i|c] l IH]; cbn; [reflexivity| |]; now rewrite IH. Qed.

Lemma seen_name kc h c : coll_name (seen kc h c) = cc_name c.
Proof. destruct c. now rewrite seen_eq. Qed.
Lemma seen_entry_name kc h e : entry_name (seen_entry kc h e) = now h e.
Proof. destruct e as [i|c]; cbn [seen_entry entry_name now]; [reflexivity|apply seen_name]. Qed.

Lemma seen_agree kc k h h' c : agree k h h' -> below k c -> seen kc h' c = seen kc h c.
Proof.
  intros A B. induction B as [n l d Hi _ IH]. rewrite !seen_eq. f_equal. rewrite !seen_entries_map. apply map_ext_in.
  intros [i|c] He; cbn; [now rewrite (A i (Hi i He))|now rewrite IH].
Qed.

(* ------------------------------------------------------------------ *)
(** * Lookups in a tree that is up to date *)

Lemma last_seen kc h x l : last_entry x (map (seen_entry kc h) l) = match last_now h x l with Some e => Some (seen_entry kc h e) | None => None end.
Proof.
  induction l as [|a l IH]; cbn [map last_entry last_now]; [reflexivity|]. rewrite IH. destruct (last_now h x l); [reflexivity|].
  rewrite seen_entry_name. now destruct (String.eqb x (now h a)).
Qed.

Lemma getattr_seen kc h n l x : coll_getattr (seen kc h (cc_new h n l)) x = seen_res kc h (cc_getattr (cc_new h n l) x).
Proof.
  unfold cc_new at 1. rewrite seen_eq, seen_entries_map. destruct (mem x coll_reserved) eqn:R.
  - unfold coll_getattr, cc_getattr. now rewrite R.
  - rewrite (new_getattr h n l x R). unfold coll_getattr. rewrite R. cbn [coll_entries]. rewrite last_seen.
    destruct (last_now h x l) as [[i|c]|]; reflexivity.
Qed.

Lemma last_now_in h x l e : last_now h x l = Some e -> In e l /\ now h e = x.
Proof.
  induction l as [|a l IH]; cbn; [discriminate|]. destruct (last_now h x l) as [e'|].
  - intro E. destruct (IH E) as [A B]. split; [now right|exact B].
  - destruct (String.eqb_spec x (now h a)) as [->|]; [|discriminate]. intros [= <-]. split; [now left|reflexivity].
Qed.

Lemma getattr_in h n l x f : cc_getattr (cc_new h n l) x = Ok f -> f = MOther \/ exists e, f = found_of e /\ last_now h x l = Some e /\ In e l.
Proof.
  destruct (mem x coll_reserved) eqn:R.
  - unfold cc_getattr. rewrite R. intros [= <-]. now left.
  - rewrite (new_getattr h n l x R). destruct (last_now h x l) as [e|] eqn:L; [|discriminate]. intros [= <-]. right. exists e.
    repeat split. exact (proj1 (last_now_in h x l e L)).
Qed.

Lemma get_seen kc h path : forall c, fresh h c -> coll_get (seen kc h c) path = seen_res kc h (cc_get c path).
Proof.
  induction path as [|x rest IH]; intros c F; cbn [coll_get cc_get]; [reflexivity|]. destruct F as [n l Hs]. rewrite getattr_seen.
  destruct (cc_getattr (cc_new h n l) x) as [f|e] eqn:G; cbn [seen_res]; [|reflexivity]. destruct f as [i|c'|]; cbn [seen_found].
  - now destruct rest.
  - apply IH. destruct (getattr_in h n l x _ G) as [E|(e & E & _ & He)]; [discriminate|]. destruct e as [i|c2]; cbn in E; [discriminate|].
    injection E as ->. now apply Hs.
  - now destruct rest.
Qed.

(* ------------------------------------------------------------------ *)
(** * Loading *)

Section Load.
Variable u_new : pd -> res string.
Variable k : callable.
Let kc : nat -> callable := fun _ => k.
Let view := view_of u_new k.

Definition good_cpre (n : nat) (h : heap) (p : cpre) : Prop := match p with CPreColl c => fresh h c /\ below n c | CPreItem _ => True end.
Definition seen_pre (h : heap) (p : cpre) : pre := match p with CPreColl c => PreColl (seen kc h c) | CPreItem v => PreItem v end.

Lemma good_cpre_agree n n' h h' l : agree n h h' -> n <= n' -> Forall (good_cpre n h) l -> Forall (good_cpre n' h') l.
Proof.
  intros A L. apply Forall_impl. intros [c|v]; cbn; [|easy]. intros [F B]. split; [now apply (fresh_agree n h h')|now apply (below_mono n)].
Qed.
Lemma seen_pre_agree n h h' l : agree n h h' -> Forall (good_cpre n h) l -> map (seen_pre h') l = map (seen_pre h) l.
Proof.
  intros A. induction 1 as [|p l Hp _ IH]; cbn; [reflexivity|]. rewrite IH. f_equal. destruct p as [c|v]; cbn; [|reflexivity].
  f_equal. now apply (seen_agree kc n); [|apply Hp].
Qed.
Lemma agree_trans n m h1 h2 h3 : n <= m -> agree n h1 h2 -> agree m h2 h3 -> agree n h1 h3.
Proof. intros L A B i Hi. rewrite (B i ltac:(lia)). now apply A. Qed.
Lemma agree_refl n h : agree n h h. Proof. intros i _. reflexivity. Qed.
Lemma agree_set n h x : agree n h (set_name n x h).
Proof. intros i Hi. unfold set_name. destruct (Nat.eqb_spec n i); [lia|reflexivity]. Qed.
Lemma set_name_same n h x : set_name n x h n = x.
Proof. unfold set_name. now rewrite Nat.eqb_refl. Qed.

(** transforming the elements *)
Lemma ctransform_spec l : forall h n, Forall (good_cpre n h) l ->
  match ctransform u_new l h n with
  | Ok (es, h', n') => transform view (map (seen_pre h) l) = Ok (map (seen_entry kc h') es) /\ n <= n' /\ agree n h h' /\
      (forall i, In (MItem i) es -> i < n') /\ (forall c, In (MSec c) es -> fresh h' c /\ below n' c)
  | Raise e => transform view (map (seen_pre h) l) = Raise e
  end.
Proof.
  induction l as [|p l IH]; intros h n H; cbn [ctransform map transform].
  { repeat split; try easy. }
  inversion H as [|p' l' Hp Hl]; subst. destruct p as [c|v]; cbn [seen_pre].
  - specialize (IH h n Hl). destruct (ctransform u_new l h n) as [[[es h'] n']|e].
    + destruct IH as (T & L & A & I & S). rewrite T. cbn in Hp. split; [cbn; now rewrite (seen_agree kc n h h' c A (proj2 Hp))|]. split; [exact L|]. split; [exact A|]. split.
      * intros i [E|Hi]; [discriminate|now apply I].
      * intros c' [E|Hc]; [|now apply S]. injection E as <-. split; [now apply (fresh_agree n h h')|now apply (below_mono n)].
    + now rewrite IH.
  - unfold make, view, view_of. destruct (u_new v) as [x|e]; [|reflexivity].
    assert (Hl' : Forall (good_cpre (S n) (set_name n x h)) l) by (apply (good_cpre_agree n (S n) h); [apply agree_set|lia|exact Hl]).
    specialize (IH (set_name n x h) (S n) Hl').
    rewrite (seen_pre_agree n h (set_name n x h) l (agree_set n h x) Hl) in IH.
    destruct (ctransform u_new l (set_name n x h) (S n)) as [[[es h'] n']|e].
    + destruct IH as (T & L & A & I & S). unfold view, view_of in T. rewrite T. split; [|split; [lia|split; [|split]]].
      * cbn [map seen_entry]. rewrite (A n ltac:(lia)), set_name_same. reflexivity.
      * apply (agree_trans n (Datatypes.S n) h (set_name n x h)); [lia|apply agree_set|exact A].
      * intros i [E|Hi]; [injection E as <-; lia|now apply I].
      * intros c' [E|Hc]; [discriminate|now apply S].
    + unfold view, view_of in IH. now rewrite IH.
Qed.

Definition built (name : string) (r : res (ccoll * heap * nat)) (h : heap) (n : nat) (st : res coll) : Prop :=
  match r with
  | Ok (c, h', n') => st = Ok (seen kc h' c) /\ fresh h' c /\ n <= n' /\ agree n h h' /\ below n' c
  | Raise e => st = Raise e
  end.

Lemma cmk_built name l h n : Forall (good_cpre n h) l -> built name (cmk u_new name l h n) h n (mk_coll view name (map (seen_pre h) l)).
Proof.
  intro H. unfold cmk, mk_coll. pose proof (ctransform_spec l h n H) as K. destruct (ctransform u_new l h n) as [[[es h'] n']|e]; cbn [built].
  - destruct K as (T & L & A & I & S). rewrite T. split; [unfold cc_new; rewrite seen_eq, seen_entries_map; reflexivity|].
    split; [constructor; intros c Hc; apply S, Hc|]. split; [exact L|]. split; [exact A|]. constructor; [exact I|]. intros c Hc. apply S, Hc.
  - now rewrite K.
Qed.

Definition collected (r : res (list cpre * heap * nat)) (h : heap) (n : nat) (st : res (list pre)) : Prop :=
  match r with
  | Ok (ps, h', n') => st = Ok (map (seen_pre h') ps) /\ n <= n' /\ agree n h h' /\ Forall (good_cpre n' h') ps
  | Raise e => st = Raise e
  end.

Definition claim (v : pd) : Prop := forall name h n, built name (cfrom u_new name v h n) h n (from_pd view name v).

Lemma cfrom_spec v : claim v /\ match v with PDict l => Forall (fun kv => claim (snd kv)) l | _ => True end.
Proof.
  induction v as [s|s|s|l IH|l IH] using pd_ind2.
  1-3: split; [|exact I]; intros name h n; cbn; repeat split; try easy; try (apply (Fresh h name []); intros c []); try (constructor; easy).
  - split; [|exact I]. intros name h n. cbn [cfrom from_pd].
    match goal with |- built _ (match ?f l h n with _ => _ end) _ _ (match ?g l with _ => _ end) => set (F := f); set (G := g) end.
    assert (K : forall h n, collected (F l h n) h n (G l)).
    { clear h n name. induction IH as [|x l [Cx Dx] _ IHl]; intros h n; [cbn; repeat split; try easy; constructor|].
      cbn [F G]. fold F G.
      assert (K : collected (match x with
                             | PDict d => (fix go' (d : list (string * pd)) (h : heap) (next : nat) : res (list cpre * heap * nat) :=
                                 match d with
                                 | [] => Ok ([], h, next)
                                 | (k, y) :: d' =>
                                     match (match y with
                                            | PDict _ | PList _ =>
                                                match cfrom u_new k y h next with Ok (c, h1, n1) => Ok (CPreColl c, h1, n1) | Raise e => Raise e end
                                            | _ => Ok (CPreItem y, h, next)
                                            end) with
                                     | Raise e => Raise e
                                     | Ok (p, h1, n1) => match go' d' h1 n1 with Ok (ps, h2, n2) => Ok (p :: ps, h2, n2) | Raise e => Raise e end
                                     end
                                 end) d h n
                             | _ => Ok ([CPreItem x], h, n) end) h n
                            (match x with
                            | PDict d =>
                                (fix go' (d : list (string * pd)) : res (list pre) :=
                                   match d with
                                   | [] => Ok []
                                   | (k, y) :: d' =>
                                       match (match y with
                                              | PDict _ | PList _ =>
                                                  match from_pd view k y with Ok c => Ok (PreColl c) | Raise e => Raise e end
                                              | _ => Ok (PreItem y)
                                              end) with
                                       | Raise e => Raise e
                                       | Ok p => match go' d' with Ok ps => Ok (p :: ps) | Raise e => Raise e end
                                       end
                                   end) d
                            | _ => Ok [PreItem x]
                            end)).
      { destruct x as [s|s|s|lx|d]; try (cbn; repeat split; try easy; try lia; repeat constructor).
        match goal with |- collected (?f d h n) _ _ (?g d) => set (F' := f); set (G' := g) end. clear Cx.
        revert h n. induction Dx as [|[k' y] d Cy _ IHd]; intros h n; [cbn; repeat split; try easy; constructor|].
        cbn [F' G']. fold F' G'. cbn [snd] in Cy.
        assert (K : match (match y with
                           | PDict _ | PList _ => match cfrom u_new k' y h n with Ok (c, h1, n1) => Ok (CPreColl c, h1, n1) | Raise e => Raise e end
                           | _ => Ok (CPreItem y, h, n) end) with
                    | Ok (p, h1, n1) => match y with PDict _ | PList _ => match from_pd view k' y with Ok c => Ok (PreColl c) | Raise e => Raise e end
                                                    | _ => Ok (PreItem y) end = Ok (seen_pre h1 p) /\ n <= n1 /\ agree n h h1 /\ good_cpre n1 h1 p
                    | Raise e => match y with PDict _ | PList _ => match from_pd view k' y with Ok c => Ok (PreColl c) | Raise e => Raise e end
                                                    | _ => Ok (PreItem y) end = Raise e
                    end).
        { specialize (Cy k' h n). destruct y; try (cbn; repeat split; try easy; lia).
          - destruct (cfrom u_new k' (PList l0) h n) as [[[c h1] n1]|e]; cbn [built] in Cy; [|now rewrite Cy].
            destruct Cy as (E & Fr & L & A & B). rewrite E. repeat split; assumption.
          - destruct (cfrom u_new k' (PDict l0) h n) as [[[c h1] n1]|e]; cbn [built] in Cy; [|now rewrite Cy].
            destruct Cy as (E & Fr & L & A & B). rewrite E. repeat split; assumption. }
        destruct (match y with
                           | PDict _ | PList _ => match cfrom u_new k' y h n with Ok (c, h1, n1) => Ok (CPreColl c, h1, n1) | Raise e => Raise e end
                           | _ => Ok (CPreItem y, h, n) end) as [[[p h1] n1]|e]; [|rewrite K; reflexivity].
        destruct K as (K1 & K2 & K3 & K4). rewrite K1. specialize (IHd h1 n1). destruct (F' d h1 n1) as [[[ps h2] n2]|e]; cbn [collected] in *.
        - destruct IHd as (E & L & A & Fs). rewrite E. split; [|split; [lia|split]].
          + cbn [map]. f_equal. f_equal. destruct p as [c|v]; cbn; [|reflexivity]. f_equal. symmetry. apply (seen_agree kc n1); [exact A|apply K4].
          + now apply (agree_trans n n1 h h1).
          + constructor; [|exact Fs]. pose proof (good_cpre_agree n1 n2 h1 h2 [p] A L (Forall_cons _ K4 (Forall_nil _))) as Q. now inversion Q.
        - now rewrite IHd. }
      match type of K with collected ?a h n ?b => destruct a as [[[ps h1] n1]|e]; cbn [collected] in K; [|rewrite K; reflexivity]; destruct K as (K1 & K2 & K3 & K4); rewrite K1 end.
      specialize (IHl h1 n1). destruct (F l h1 n1) as [[[ps' h2] n2]|e]; cbn [collected] in *.
      - destruct IHl as (E & L & A & Fs). rewrite E. split; [|split; [lia|split]].
        + rewrite map_app. f_equal. f_equal. symmetry. now apply (seen_pre_agree n1).
        + now apply (agree_trans n n1 h h1).
        + apply Forall_app. split; [now apply (good_cpre_agree n1 n2 h1 h2)|exact Fs].
      - now rewrite IHl. }
    specialize (K h n). destruct (F l h n) as [[[ps h1] n1]|e]; cbn [collected] in K; [|rewrite K; reflexivity].
    destruct K as (K1 & K2 & K3 & K4). rewrite K1. pose proof (cmk_built name ps h1 n1 K4) as Q.
    destruct (cmk u_new name ps h1 n1) as [[[c h2] n2]|e]; cbn [built] in *; [|exact Q].
    destruct Q as (Q1 & Q2 & Q3 & Q4 & Q5). repeat split; auto; [lia|now apply (agree_trans n n1 h h1)].
  - assert (D : Forall (fun kv => claim (snd kv)) l) by (revert IH; apply Forall_impl; intros a Ha; apply Ha).
    split; [|exact D]. intros name h n. cbn [cfrom from_pd].
    match goal with |- built _ (match ?f l h n with _ => _ end) _ _ (match ?g l with _ => _ end) => set (F := f); set (G := g) end.
    assert (K : forall h n, collected (F l h n) h n (G l)).
    { clear h n name IH. induction D as [|[k' y] d Cy _ IHd]; intros h n; [cbn; repeat split; try easy; constructor|].
      cbn [F G]. fold F G. cbn [snd] in Cy. specialize (Cy k' h n). destruct y as [s|s|s|ly|dy]; try apply IHd.
      - destruct (cfrom u_new k' (PList ly) h n) as [[[c h1] n1]|e]; cbn [built] in Cy; [|rewrite Cy; reflexivity].
        destruct Cy as (E & Fr & L & A & B). rewrite E. specialize (IHd h1 n1). destruct (F d h1 n1) as [[[ps h2] n2]|e]; cbn [collected] in *.
        + destruct IHd as (E' & L' & A' & Fs). rewrite E'. split; [|split; [lia|split]].
          * cbn. now rewrite (seen_agree kc n1 h1 h2 c A' B).
          * now apply (agree_trans n n1 h h1).
          * constructor; [|exact Fs]. split; [now apply (fresh_agree n1 h1 h2)|now apply (below_mono n1)].
        + now rewrite IHd.
      - destruct (cfrom u_new k' (PDict dy) h n) as [[[c h1] n1]|e]; cbn [built] in Cy; [|rewrite Cy; reflexivity].
        destruct Cy as (E & Fr & L & A & B). rewrite E. specialize (IHd h1 n1). destruct (F d h1 n1) as [[[ps h2] n2]|e]; cbn [collected] in *.
        + destruct IHd as (E' & L' & A' & Fs). rewrite E'. split; [|split; [lia|split]].
          * cbn. now rewrite (seen_agree kc n1 h1 h2 c A' B).
          * now apply (agree_trans n n1 h h1).
          * constructor; [|exact Fs]. split; [now apply (fresh_agree n1 h1 h2)|now apply (below_mono n1)].
        + now rewrite IHd. }
    specialize (K h n). destruct (F l h n) as [[[ps h1] n1]|e]; cbn [collected] in K; [|rewrite K; reflexivity].
    destruct K as (K1 & K2 & K3 & K4). rewrite K1. pose proof (cmk_built name ps h1 n1 K4) as Q.
    destruct (cmk u_new name ps h1 n1) as [[[c h2] n2]|e]; cbn [built] in *; [|exact Q].
    destruct Q as (Q1 & Q2 & Q3 & Q4 & Q5). repeat split; auto; [lia|now apply (agree_trans n n1 h h1)].
Qed.

Lemma cload_spec name d :
  match cload u_new name d with
  | Ok s => from_dict view name d = Ok (seen kc (k_names s) (k_coll s)) /\ fresh (k_names s) (k_coll s) /\ below (k_next s) (k_coll s)
  | Raise e => from_dict view name d = Raise e
  end.
Proof.
  pose proof (proj1 (cfrom_spec (PDict d)) name (fun _ => "") 0) as K. unfold cload, from_dict.
  destruct (cfrom u_new name (PDict d) (fun _ => "") 0) as [[[c h] n]|e]; cbn [built k_names k_coll k_next] in *; [|exact K].
  now destruct K as (A & B & _ & _ & C).
Qed.
End Load.

(* ------------------------------------------------------------------ *)
(** * Adding an item *)

Lemma nth_replace_eq n e l : n < List.length l -> nth_error (replace_nth n e l) n = Some e.
Proof. revert n. induction l as [|a l IH]; intros [|n] H; cbn in *; [lia|lia|reflexivity|]. apply IH. lia. Qed.
Lemma nth_replace_neq n m e l : n <> m -> nth_error (replace_nth n e l) m = nth_error l m.
Proof. revert n m. induction l as [|a l IH]; intros [|n] [|m] H; cbn; try reflexivity; [lia|]. apply IH. lia. Qed.
Lemma in_replace n e l a : In a (replace_nth n e l) -> a = e \/ In a l.
Proof.
  revert n. induction l as [|b l IH]; intros [|n]; cbn; [easy|easy| |].
  - intros [->|H]; [now left|right; now right].
  - intros [->|H]; [right; now left|]. destruct (IH n H) as [E|E]; [now left|right; now right].
Qed.
Lemma nth_lt (l : list cent) n e : nth_error l n = Some e -> n < List.length l.
Proof. intro H. apply nth_error_Some. congruence. Qed.

Lemma getattr_sec c x c1 : cc_getattr c x = Ok (MFSec c1) ->
  mem x coll_reserved = false /\ exists n, dget x (cc_index c) = Some n /\ nth_error (cc_entries c) n = Some (MSec c1).
Proof.
  unfold cc_getattr. destruct (mem x coll_reserved); [discriminate|]. destruct (dget x (cc_index c)) as [n|] eqn:D; [|discriminate].
  destruct (nth_error (cc_entries c) n) as [[i|c0]|] eqn:N; try discriminate. intros [= <-]. split; [reflexivity|]. exists n. now split.
Qed.

Lemma cc_set_eq h c x rest e :
  cc_set h c (x :: rest) e =
  match cc_getattr c x with
  | Ok (MFSec c') => match cc_set h c' rest e, dget x (cc_index c) with
                     | Ok c2, Some n => Ok (CC (cc_name c) (replace_nth n (MSec c2) (cc_entries c)) (cc_index c))
                     | Raise r, _ => Raise r
                     | _, None => Raise AttributeError
                     end
  | Ok _ => Raise AttributeError
  | Raise _ => match cc_set h (cc_new h x []) rest e with Ok c2 => Ok (cc_append h c (MSec c2)) | Raise r => Raise r end
  end.
Proof. reflexivity. Qed.

Lemma set_name_of h path : forall c e c', cc_set h c path e = Ok c' -> cc_name c' = cc_name c.
Proof.
  destruct path as [|x rest]; intros c e c' H.
  - injection H as <-. reflexivity.
  - rewrite cc_set_eq in H. destruct (cc_getattr c x) as [[i|c1|]|r]; try discriminate.
    + destruct (cc_set h c1 rest e) as [c2|]; [|discriminate]. destruct (dget x (cc_index c)); [|discriminate]. now injection H as <-.
    + destruct (cc_set h (cc_new h x []) rest e) as [c2|]; [|discriminate]. now injection H as <-.
Qed.

Definition sane_entry (e : cent) : Prop := match e with MSec c => sane c | MItem _ => True end.

Lemma sane_inv c : sane c -> (forall x m, dget x (cc_index c) = Some m -> exists e, nth_error (cc_entries c) m = Some e /\ match e with MSec c' => cc_name c' = x | MItem _ => True end) /\
  (forall c', In (MSec c') (cc_entries c) -> sane c').
Proof. intros [n l d A B]. now split. Qed.

Lemma append_sane h c e : sane c -> sane_entry e -> sane (cc_append h c e).
Proof.
  intros S E. apply new_sane. intros c' Hc. apply in_app_iff in Hc as [Hc|[->|[]]]; [|exact E]. now apply (proj2 (sane_inv c S)).
Qed.

Lemma set_at h path : forall c e c', sane c -> sane_entry e -> cc_set h c path e = Ok c' ->
  sane c' /\ exists s e', cc_get c (grown c path) = Ok (MFSec s) /\ cc_get c' (grown c path) = Ok (MFSec (cc_append h s e')) /\
    added (skipn (List.length (grown c path)) path) e e' /\
    forall q i, (~ exists r, q = grown c path ++ r) -> (cc_get c' q = Ok (MFItem i) <-> cc_get c q = Ok (MFItem i)).
Proof.
  induction path as [|x rest IH]; intros c e c' S Se H.
  - injection H as <-. split; [now apply append_sane|]. exists c, e. repeat split; try reflexivity; intros; exfalso; apply H; now exists q.
  - rewrite cc_set_eq in H. cbn [grown]. destruct (cc_getattr c x) as [[i|c1|]|r] eqn:G; try discriminate.
    + destruct (getattr_sec c x c1 G) as (R & n & D & N). rewrite D in H. destruct (sane_inv c S) as [S1 S2].
      assert (Sc1 : sane c1) by (apply S2; eapply nth_error_In; exact N).
      assert (Nm : cc_name c1 = x) by (destruct (S1 x n D) as (e0 & N0 & K); rewrite N in N0; injection N0 as <-; exact K).
      destruct (cc_set h c1 rest e) as [c2|r] eqn:E2; [|discriminate]. injection H as <-.
      destruct (IH c1 e c2 Sc1 Se E2) as (Sc2 & s & e' & A1 & A2 & A3 & A4).
      assert (Nm2 : cc_name c2 = x) by now rewrite (set_name_of h rest c1 e c2 E2).
      set (c' := CC (cc_name c) (replace_nth n (MSec c2) (cc_entries c)) (cc_index c)).
      assert (G' : cc_getattr c' x = Ok (MFSec c2)).
      { unfold cc_getattr. rewrite R. cbn [c' cc_index cc_entries]. rewrite D, nth_replace_eq; [reflexivity|]. now apply nth_lt in N. }
      assert (Go : forall y, y <> x -> cc_getattr c' y = cc_getattr c y).
      { intros y Ny. unfold cc_getattr. destruct (mem y coll_reserved); [reflexivity|]. cbn [c' cc_index cc_entries].
        destruct (dget y (cc_index c)) as [m|] eqn:Dy; [|reflexivity]. rewrite nth_replace_neq; [reflexivity|]. intros <-.
        destruct (S1 y n Dy) as (e0 & N0 & K). rewrite N in N0. injection N0 as <-. congruence. }
      split; [|exists s, e'; split; [|split; [|split]]].
      * constructor; cbn.
        -- intros y m Dy. destruct (Nat.eq_dec n m) as [<-|Nm'].
           ++ exists (MSec c2). split; [apply nth_replace_eq; now apply nth_lt in N|]. destruct (S1 y n Dy) as (e0 & N0 & K). rewrite N in N0. injection N0 as <-. congruence.
           ++ rewrite nth_replace_neq by assumption. now apply S1.
        -- intros c0 Hc. apply in_replace in Hc as [[= ->]|Hc]; [exact Sc2|now apply S2].
      * cbn [cc_get]. now rewrite G.
      * cbn [cc_get]. now rewrite G'.
      * exact A3.
      * intros [|y q] i Nq; [cbn; split; discriminate|]. cbn [cc_get]. destruct (String.eqb_spec y x) as [->|Ny].
        -- rewrite G, G'. apply A4. intros [r ->]. apply Nq. now exists r.
        -- now rewrite (Go y Ny).
    + destruct (cc_set h (cc_new h x []) rest e) as [c2|r2] eqn:E2; [|discriminate]. injection H as <-.
      assert (S0 : sane (cc_new h x [])) by (apply new_sane; intros c0 []).
      destruct (IH _ e c2 S0 Se E2) as (Sc2 & _). pose proof (set_name_of h rest _ e c2 E2) as Nm. cbn in Nm.
      split; [now apply append_sane|]. exists c, (MSec c2). split; [reflexivity|]. split; [reflexivity|]. split; [now exists c2|].
      intros q i Nq. exfalso. apply Nq. now exists q.
Qed.

(** the section of the new item is there afterwards, with the item as its last *)
Lemma set_there h path : forall c e c', sane c -> cc_set h c path e = Ok c' ->
  exists s, cc_get c' path = Ok (MFSec (cc_append h s e)) /\ (grown c path = path -> cc_get c path = Ok (MFSec s)) /\ (grown c path <> path -> cc_entries s = []).
Proof.
  induction path as [|x rest IH]; intros c e c' S H.
  - injection H as <-. exists c. split; [reflexivity|]. split; [reflexivity|]. intro K. now contradiction K.
  - rewrite cc_set_eq in H. cbn [grown]. destruct (cc_getattr c x) as [[i|c1|]|r] eqn:G; try discriminate.
    + destruct (getattr_sec c x c1 G) as (R & n & D & N). rewrite D in H. destruct (sane_inv c S) as [S1 S2].
      assert (Sc1 : sane c1) by (apply S2; eapply nth_error_In; exact N).
      destruct (cc_set h c1 rest e) as [c2|r] eqn:E2; [|discriminate]. injection H as <-.
      destruct (IH c1 e c2 Sc1 E2) as (s & A1 & A2 & A3). exists s. split; [|split].
      * cbn [cc_get]. unfold cc_getattr. rewrite R. cbn [cc_index cc_entries]. rewrite D, nth_replace_eq; [exact A1|]. now apply nth_lt in N.
      * intro E. cbn [cc_get]. rewrite G. apply A2. now injection E.
      * intro E. apply A3. intro K. apply E. now rewrite K.
    + destruct (cc_set h (cc_new h x []) rest e) as [c2|r2] eqn:E2; [|discriminate]. injection H as <-.
      assert (S0 : sane (cc_new h x [])) by (apply new_sane; intros c0 []).
      destruct (IH _ e c2 S0 E2) as (s & A1 & A2 & A3). pose proof (set_name_of h rest _ e c2 E2) as Nm. cbn in Nm. exists s.
      assert (R : mem x coll_reserved = false) by (unfold cc_getattr in G; destruct (mem x coll_reserved); [discriminate|reflexivity]).
      split; [|split; [discriminate|]].
      * cbn [cc_get]. unfold cc_append. rewrite (new_getattr h _ _ x R), last_now_app. cbn [last_now now]. rewrite Nm, String.eqb_refl. exact A1.
      * intros _. destruct rest as [|y rest']; [|].
        -- specialize (A2 eq_refl). cbn in A2. injection A2 as <-. reflexivity.
        -- apply A3. cbn [grown]. unfold cc_getattr. destruct (mem y coll_reserved); cbn [cc_new cc_index name_map dget]; discriminate.
Qed.

Definition below_entry (k : nat) (e : cent) : Prop := match e with MSec c => below k c | MItem i => i < k end.
Lemma below_inv k c : below k c -> forall e, In e (cc_entries c) -> below_entry k e.
Proof. intros [n l d A B] [i|c'] H; [now apply A|now apply B]. Qed.
Lemma below_intro k c : (forall e, In e (cc_entries c) -> below_entry k e) -> below k c.
Proof. destruct c as [n l d]. intro H. constructor; [intros i Hi; exact (H _ Hi)|intros c Hc; exact (H _ Hc)]. Qed.

Lemma set_below h k path : forall c e c', below k c -> below_entry k e -> cc_set h c path e = Ok c' -> below k c'.
Proof.
  assert (Ap : forall c e, below k c -> below_entry k e -> below k (cc_append h c e)).
  { intros c e B E. apply below_intro. intros a Ha. cbn in Ha. apply in_app_iff in Ha as [Ha|[->|[]]]; [now apply (below_inv k c)|exact E]. }
  induction path as [|x rest IH]; intros c e c' B E H.
  - injection H as <-. now apply Ap.
  - rewrite cc_set_eq in H. destruct (cc_getattr c x) as [[i|c1|]|r] eqn:G; try discriminate.
    + destruct (getattr_sec c x c1 G) as (R & n & D & N). rewrite D in H. destruct (cc_set h c1 rest e) as [c2|r] eqn:E2; [|discriminate]. injection H as <-.
      apply below_intro. intros a Ha. cbn in Ha. apply in_replace in Ha as [->|Ha]; [|now apply (below_inv k c)].
      apply (IH c1 e c2); auto. exact (below_inv k c B _ (nth_error_In _ _ N)).
    + destruct (cc_set h (cc_new h x []) rest e) as [c2|r2] eqn:E2; [|discriminate]. injection H as <-. apply Ap; [exact B|].
      apply (IH (cc_new h x []) e c2); auto. apply below_intro. intros a [].
Qed.

(* ------------------------------------------------------------------ *)
(** * Adding an item to a tree that is up to date *)

Lemma name_map_names h l : forall l' n d, map (now h) l = map (now h) l' -> name_map h n l d = name_map h n l' d.
Proof.
  induction l as [|a l IH]; intros [|b l'] n d H; cbn in *; try discriminate; [reflexivity|]. injection H as E H. rewrite E. now apply IH.
Qed.
Lemma names_replace h n e l a : nth_error l n = Some a -> now h a = now h e -> map (now h) (replace_nth n e l) = map (now h) l.
Proof.
  revert n. induction l as [|b l IH]; intros [|n] N E; cbn in *; try discriminate.
  - injection N as ->. now rewrite E.
  - now rewrite (IH n).
Qed.

Lemma replace_last_seen kc h x e' l : forall n d m, last_now h x l <> None -> dget x (name_map h n l d) = Some (n + m) ->
  replace_last x (seen_entry kc h e') (map (seen_entry kc h) l) = map (seen_entry kc h) (replace_nth m e' l).
Proof.
  induction l as [|a l IH]; intros n d m L D; [now contradiction L|]. cbn [map replace_last]. rewrite last_seen. cbn [last_now name_map] in L, D.
  pose proof (name_map_spec h x l (S n) (dset (now h a) n d)) as K. destruct (last_now h x l) as [e|] eqn:E.
  - destruct K as (m' & A & B & C). rewrite A in D. injection D as D. destruct m as [|m]; [lia|]. cbn [replace_nth map]. f_equal.
    apply (IH (S n) (dset (now h a) n d)); [discriminate|]. rewrite A. f_equal. lia.
  - rewrite seen_entry_name. destruct (String.eqb_spec x (now h a)) as [->|Ne]; [|now contradiction L].
    rewrite K, dget_dset_eq in D. injection D as D. destruct m as [|m]; [reflexivity|lia].
Qed.

Definition fresh_entry (h : heap) (e : cent) : Prop := match e with MSec c => fresh h c | MItem _ => True end.

Lemma append_fresh h c e : fresh h c -> fresh_entry h e -> fresh h (cc_append h c e).
Proof.
  intros [n l F] E. apply Fresh. intros c' Hc. apply in_app_iff in Hc as [Hc|[->|[]]]; [now apply F|exact E].
Qed.
Lemma append_seen kc h c e : seen kc h (cc_append h c e) = coll_append (seen kc h c) (seen_entry kc h e).
Proof. destruct c as [n l d]. unfold cc_append, cc_new, coll_append. rewrite !seen_eq, !seen_entries_map. cbn. now rewrite map_app. Qed.

Lemma set_seen kc h path : forall c e, fresh h c -> fresh_entry h e ->
  match cc_set h c path e with
  | Ok c' => fresh h c' /\ coll_set (seen kc h c) path (seen_entry kc h e) = Ok (seen kc h c')
  | Raise r => coll_set (seen kc h c) path (seen_entry kc h e) = Raise r
  end.
Proof.
  induction path as [|x rest IH]; intros c e F E.
  - cbn [cc_set coll_set]. split; [now apply append_fresh|]. now rewrite append_seen.
  - rewrite cc_set_eq, coll_set_eq. destruct F as [n l Fl]. rewrite (getattr_seen kc h n l x).
    destruct (cc_getattr (cc_new h n l) x) as [[i|c1|]|r] eqn:G; cbn [seen_res seen_found]; try reflexivity.
    + destruct (getattr_sec _ x c1 G) as (R & m & D & N). rewrite D.
      assert (F1 : fresh h c1) by (apply Fl; eapply nth_error_In; exact N).
      assert (Nm : cc_name c1 = x /\ last_now h x l <> None).
      { pose proof (new_index h n l x) as K. destruct (last_now h x l) as [e0|]; [|rewrite K in D; discriminate].
        destruct K as (m' & A & B & C). rewrite D in A. injection A as <-. cbn in N. rewrite N in B. injection B as <-. split; [exact C|discriminate]. }
      specialize (IH c1 e F1 E). destruct (cc_set h c1 rest e) as [c2|r] eqn:E2; [|now rewrite IH].
      destruct IH as [F2 S2]. rewrite S2. pose proof (set_name_of h rest c1 e c2 E2) as Nm2. cbn [cc_new cc_name cc_entries cc_index] in *.
      assert (Ni : name_map h 0 l [] = name_map h 0 (replace_nth m (MSec c2) l) []).
      { apply name_map_names. symmetry. apply (names_replace h m (MSec c2) l (MSec c1) N). cbn. congruence. }
      split.
      * rewrite Ni. apply (Fresh h n). intros c0 Hc. apply in_replace in Hc as [[= ->]|Hc]; [exact F2|now apply Fl].
      * unfold cc_new. rewrite !seen_eq, !seen_entries_map. cbn [coll_name coll_entries]. f_equal. f_equal.
        apply (replace_last_seen kc h x (MSec c2) l 0 []); [exact (proj2 Nm)|exact D].
    + assert (F0 : fresh h (cc_new h x [])) by (apply Fresh; intros c0 []).
      specialize (IH _ e F0 E). change (seen kc h (cc_new h x [])) with (Coll x []) in IH.
      destruct (cc_set h (cc_new h x []) rest e) as [c2|r2] eqn:E2; [|now rewrite IH]. destruct IH as [F2 S2]. rewrite S2.
      split; [|now rewrite append_seen]. apply append_fresh; [now apply Fresh|exact F2].
Qed.

(* ------------------------------------------------------------------ *)
(** * Files *)

Lemma cc_files_eq h base n l d : cc_files h base (CC n l d) =
  flat_map (fun e => match e with MItem i => [base ++ [(h i ++ ".py")%string]] | MSec c => cc_files h (base ++ [cc_name c]) c end) l.
Proof. cbn [cc_files]. induction l as [|[i|c] l IH]; cbn; [reflexivity| |]; now rewrite IH. Qed.

Section CcollInd.
Variable P : ccoll -> Prop.
Hypothesis H : forall n l d, (forall c, In (MSec c) l -> P c) -> P (CC n l d).
Fixpoint ccoll_ind2 (c : ccoll) : P c :=
  match c with
  | CC n l d => H n l d ((fix go (l : list cent) : forall c, In (MSec c) l -> P c :=
      match l with
      | [] => fun c f => match f with end
      | e :: l' => fun c f => match f with
                              | or_introl E => match e return e = MSec c -> P c with
                                               | MItem _ => fun E => match E in _ = y return match y with MItem _ => True | MSec _ => P c end with eq_refl => I end
                                               | MSec c' => fun E => eq_ind c' P (ccoll_ind2 c') c (f_equal (fun e => match e with MSec a => a | MItem _ => c' end) E)
                                               end E
                              | or_intror f' => go l' c f'
                              end
      end) l)
  end.
End CcollInd.

Lemma files_lies h c : forall base f, In f (cc_files h base c) <-> exists p i, lies c p i /\ f = base ++ p ++ [(h i ++ ".py")%string].
Proof.
  induction c as [n l d IH] using ccoll_ind2. intros base f. rewrite cc_files_eq, in_flat_map. split.
  - intros (e & He & Hf). destruct e as [i|c].
    + destruct Hf as [<-|[]]. exists [], i. split; [now constructor|reflexivity].
    + apply (IH c He) in Hf as (p & i & L & ->). exists (cc_name c :: p), i. split; [now constructor|]. now rewrite <- app_assoc.
  - intros (p & i & L & ->). inversion L as [n0 l0 d0 i0 Hi|n0 l0 d0 c p0 i0 Hc Hl]; subst.
    + exists (MItem i). split; [exact Hi|]. now left.
    + exists (MSec c). split; [exact Hc|]. apply (IH c Hc). exists p0, i. split; [exact Hl|]. now rewrite <- app_assoc.
Qed.

(* ------------------------------------------------------------------ *)
(** * Sessions *)

Section Class.
Variable u_new : pd -> res string.

Lemma create_spec path item s :
  ccreate u_new path item s =
  match u_new (PStr item) with
  | Raise e => Raise e
  | Ok n => let h := set_name (k_next s) n (k_names s) in
            match cc_set h (k_coll s) path (MItem (k_next s)) with
            | Raise e => Raise e
            | Ok c => match cc_get c path with
                      | Ok (MFSec c') => Ok (MSt c h (S (k_next s)), cc_files h path c')
                      | Ok _ => Raise AttributeError
                      | Raise e => Raise e
                      end
            end
  end.
Proof. unfold ccreate, make. now destruct (u_new (PStr item)). Qed.

Lemma create_Ok path item s s' fs : sane (k_coll s) -> ccreate u_new path item s = Ok (s', fs) ->
  exists n c, u_new (PStr item) = Ok n /\ let h := set_name (k_next s) n (k_names s) in
    cc_set h (k_coll s) path (MItem (k_next s)) = Ok (k_coll s') /\ k_names s' = h /\ k_next s' = S (k_next s) /\
    cc_get (k_coll s') path = Ok (MFSec c) /\ fs = cc_files h path c.
Proof.
  intros S H. rewrite create_spec in H. destruct (u_new (PStr item)) as [n|]; [|discriminate]. cbv zeta in H.
  destruct (cc_set (set_name (k_next s) n (k_names s)) (k_coll s) path (MItem (k_next s))) as [c|] eqn:E; [|discriminate].
  destruct (cc_get c path) as [[i|c'|]|] eqn:G; try discriminate. injection H as <- <-. exists n, c'. now repeat split.
Qed.

(** creating fails only because of the class or the path *)
Lemma create_fails path item s e : sane (k_coll s) -> ccreate u_new path item s = Raise e ->
  u_new (PStr item) = Raise e \/
  exists n, u_new (PStr item) = Ok n /\ cc_set (set_name (k_next s) n (k_names s)) (k_coll s) path (MItem (k_next s)) = Raise e.
Proof.
  intros S H. rewrite create_spec in H. destruct (u_new (PStr item)) as [n|e']; [|left; congruence]. right. cbv zeta in H.
  exists n. split; [reflexivity|].
  destruct (cc_set (set_name (k_next s) n (k_names s)) (k_coll s) path (MItem (k_next s))) as [c|e'] eqn:E; [|congruence].
  destruct (set_there _ path (k_coll s) _ c S E) as (s0 & A & _). rewrite A in H. discriminate.
Qed.

Lemma step_sane s e : sane (k_coll s) -> sane (k_coll (step u_new s e)).
Proof.
  intro S. destruct e as [i n|path item]; [exact S|]. cbn. destruct (ccreate u_new path item s) as [[s' fs]|r] eqn:E; [|exact S].
  destruct (create_Ok path item s s' fs S E) as (n & c & _ & Hs & _). exact (proj1 (set_at _ path _ (MItem _) _ S I Hs)).
Qed.

Lemma session_keeps l : forall s q i, sane (k_coll s) -> quiet u_new q l s ->
  (cc_get (k_coll (session u_new l s)) q = Ok (MFItem i) <-> cc_get (k_coll s) q = Ok (MFItem i)).
Proof.
  induction l as [|e l IH]; intros s q i S Q; [reflexivity|]. destruct Q as [Qe Q]. unfold session. cbn [fold_left].
  change (fold_left (step u_new) l (step u_new s e)) with (session u_new l (step u_new s e)).
  rewrite (IH _ q i (step_sane s e S) Q). destruct e as [j n|path item]; [reflexivity|]. cbn [step].
  destruct (ccreate u_new path item s) as [[s' fs]|r] eqn:E; [|reflexivity].
  destruct (create_Ok path item s s' fs S E) as (n & c & _ & Hs & _).
  destruct (set_at _ path _ (MItem _) _ S I Hs) as (_ & s0 & e' & _ & _ & _ & K). now apply K.
Qed.

Lemma agree_same i n h m : n = h i -> agree m h (set_name i n h).
Proof. intros -> j _. unfold set_name. destruct (Nat.eqb_spec i j) as [->|]; reflexivity. Qed.

Lemma session_static k l : forall s, fresh (k_names s) (k_coll s) -> below (k_next s) (k_coll s) -> keeps_names u_new l s ->
  let s' := session u_new l s in
  fresh (k_names s') (k_coll s') /\ below (k_next s') (k_coll s') /\
  seen (fun _ => k) (k_names s') (k_coll s') = fold_left (static_step u_new k) l (seen (fun _ => k) (k_names s) (k_coll s)).
Proof.
  induction l as [|e l IH]; intros s F B K; [now repeat split|]. destruct K as [Ke K]. cbv zeta. unfold session. cbn [fold_left].
  change (fold_left (step u_new) l (step u_new s e)) with (session u_new l (step u_new s e)).
  assert (Q : fresh (k_names (step u_new s e)) (k_coll (step u_new s e)) /\ below (k_next (step u_new s e)) (k_coll (step u_new s e)) /\
              seen (fun _ => k) (k_names (step u_new s e)) (k_coll (step u_new s e)) = static_step u_new k (seen (fun _ => k) (k_names s) (k_coll s)) e).
  { destruct e as [i n|path item]; cbn [step static_step rename k_names k_coll k_next].
    - pose proof (agree_same i n (k_names s) (k_next s) Ke) as A. split; [now apply (fresh_agree (k_next s) (k_names s))|]. split; [exact B|].
      now apply (seen_agree _ (k_next s)).
    - rewrite create_spec. destruct (u_new (PStr item)) as [n|r]; [|now repeat split]. cbv zeta.
      pose proof (agree_set (k_next s) (k_names s) n) as A. set (h := set_name (k_next s) n (k_names s)) in *.
      assert (Fh : fresh h (k_coll s)) by now apply (fresh_agree (k_next s) (k_names s)).
      pose proof (set_seen (fun _ => k) h path (k_coll s) (MItem (k_next s)) Fh I) as T.
      rewrite (seen_agree _ (k_next s) (k_names s) h (k_coll s) A B) in T. cbn [seen_entry] in T.
      assert (Hn : h (k_next s) = n) by apply set_name_same. rewrite Hn in T.
      destruct (cc_set h (k_coll s) path (MItem (k_next s))) as [c|r] eqn:E; [|rewrite T; now repeat split].
      destruct T as [Fc T]. destruct (set_there h path (k_coll s) _ c (fresh_sane h _ Fh) E) as (s0 & G & _). rewrite G. cbn [k_names k_coll k_next]. rewrite T.
      split; [exact Fc|]. split; [|reflexivity]. apply (set_below h (S (k_next s)) path (k_coll s) (MItem (k_next s))); [|cbn; lia|exact E].
      apply (below_mono (k_next s)); [lia|exact B]. }
  destruct Q as (Q1 & Q2 & Q3). rewrite <- Q3. now apply IH.
Qed.
End Class.
