(** The examples. *)
From Verif Require Import SetupEx_Spec SetupFiles_Proofs SetupLoad_Proofs Project_Proofs ProjectWalk_Proofs ProjectEx_Proofs ConfigTree_Proofs.
From Coq Require Import Lia.
Local Open Scope string_scope.
Local Open Scope list_scope.

(* ------------------------------------------------------------------ *)
(** * Scanning *)

Section Scan.
Variable exec : path -> string -> res (dict pyval).
Variable names : list string.

Lemma dget_picks {A} (g : string -> option A) x : dget x (picks names g) = if in_dec string_dec x names then g x else None.
Proof.
  unfold picks. induction names as [|n l IH]; [reflexivity|]. cbn [flat_map]. rewrite dget_app, IH. clear IH. destruct (string_dec n x) as [->|N].
  - destruct (in_dec string_dec x (x :: l)) as [_|C]; [|exfalso; apply C; now left]. destruct (g x) as [v|] eqn:G; [cbn; now rewrite String.eqb_refl|]. cbn. destruct (in_dec string_dec x l); now rewrite ?G.
  - assert (E : dget x match g n with Some v => [(n, v)] | None => [] end = None). { destruct (g n); [|reflexivity]. cbn. destruct (String.eqb_spec x n); [congruence|reflexivity]. }
    unfold dict in *. rewrite E. destruct (in_dec string_dec x l) as [I|I], (in_dec string_dec x (n :: l)) as [J|J]; try reflexivity; exfalso; [apply J; now right|destruct J; auto].
Qed.
Lemma picks_wf {A} (g : string -> option A) : NoDup names -> dwf (picks names g).
Proof.
  unfold picks, dwf, dkeys. induction names as [|n l IH]; [constructor|]. intros H. inversion H as [|? ? N1 N2]; subst. cbn [flat_map]. rewrite map_app. destruct (g n); cbn [map app fst]; [|now apply IH].
  constructor; [|now apply IH]. intros C. apply N1. clear - C. induction l as [|m l IH]; [destruct C|]. cbn [flat_map] in C. rewrite map_app in C. apply in_app_iff in C as [C|C]; [|right; now apply IH]. destruct (g m); [|destruct C]. destruct C as [<-|[]]. now left.
Qed.

Variables (f : fs) (base : path).
Lemma wf_above p q : wf f -> f (p ++ q) <> None -> q <> [] -> f p = Some Dir.
Proof.
  intros [_ W]. induction q as [|x q IH] using rev_ind; [congruence|]. intros H _. rewrite app_assoc in H. apply W in H. destruct q as [|y q]; [now rewrite app_nil_r in H|]. apply IH; [congruence|discriminate].
Qed.

Variable depth : nat.
Hypothesis W : wf f.
Hypothesis ND : NoDup names.
Hypothesis B : forall p, f (base ++ p) <> None -> Forall (fun x => In x names) p /\ List.length p <= depth.

Lemma scan_find folders : forall k rel, k + List.length rel = depth -> f (base ++ rel) = Some Dir ->
  f (base ++ rel ++ folders) = Some Dir <-> find_dir (scan exec names f base k rel) folders = Some (scan exec names f base (k - List.length folders) (rel ++ folders)).
Proof.
  induction folders as [|x folders IH]; intros k rel K D.
  - cbn [find_dir List.length]. rewrite !app_nil_r, Nat.sub_0_r. now split.
  - assert (X : f (base ++ rel ++ x :: folders) = Some Dir -> f (base ++ rel ++ [x]) = Some Dir).
    { intros H. destruct folders as [|y folders]; [exact H|]. apply (wf_above _ (y :: folders)); [exact W| |discriminate]. rewrite <- !app_assoc. cbn [app]. congruence. }
    destruct k as [|k].
    + cbn [scan find_dir dir_subs dget]. split; [|discriminate]. intros H. exfalso. destruct (B (rel ++ x :: folders)) as [_ L]; [congruence|]. rewrite app_length in L. cbn in L. lia.
    + cbn [scan find_dir dir_subs]. rewrite dget_picks. destruct (in_dec string_dec x names) as [I|I].
      * destruct (f (base ++ rel ++ [x])) as [[|s]|] eqn:E.
        -- specialize (IH k (rel ++ [x])). rewrite <- app_assoc in IH. cbn [app] in IH. rewrite IH; [|rewrite app_length; cbn; lia|exact E]. cbn [List.length Nat.sub]. reflexivity.
        -- split; [|discriminate]. intros H. apply X in H. congruence.
        -- split; [|discriminate]. intros H. apply X in H. congruence.
      * split; [|discriminate]. intros H. exfalso. apply I. destruct (B (rel ++ x :: folders)) as [L _]; [congruence|]. apply Forall_app in L as [_ L]. now inversion L.
Qed.
Lemma scan_found folders d' : forall k rel, k + List.length rel = depth -> f (base ++ rel) = Some Dir ->
  find_dir (scan exec names f base k rel) folders = Some d' -> f (base ++ rel ++ folders) = Some Dir.
Proof.
  induction folders as [|x folders IH]; intros k rel K D; [now rewrite !app_nil_r|].
  destruct k as [|k]; cbn [scan find_dir dir_subs]; [discriminate|]. rewrite dget_picks. destruct (in_dec string_dec x names) as [I|I]; [|discriminate].
  destruct (f (base ++ rel ++ [x])) as [[|s]|] eqn:E; try discriminate. intros H. apply IH in H; [|rewrite app_length; cbn; lia|exact E]. now rewrite <- app_assoc in H.
Qed.
Lemma scan_ok : forall k rel, dir_ok (scan exec names f base k rel).
Proof.
  induction k as [|k IH]; intros rel; cbn [scan]; constructor; try apply picks_wf; auto; [constructor|intros n d []|].
  intros n d H. unfold picks in H. apply in_flat_map in H as (m & _ & H). destruct (f (base ++ rel ++ [m])) as [[|]|]; [|destruct H|destruct H]. destruct H as [[= _ <-]|[]]. apply IH.
Qed.

(** any folder with finitely many names and levels can be described as the config manager sees it *)
Lemma scan_mirrors : f base = Some Dir -> mirrors exec f base (scan exec names f base depth []).
Proof.
  intros D. assert (D' : f (base ++ []) = Some Dir) by now rewrite app_nil_r. split; [apply scan_ok|]. split.
  - intros folders. split.
    + intros (d' & H). exact (scan_found folders d' depth [] (Nat.add_0_r depth) D' H).
    + intros H. eexists. exact (proj1 (scan_find folders depth [] (Nat.add_0_r depth) D') H).
  - intros folders d' x r H. pose proof (scan_found folders d' depth [] (Nat.add_0_r depth) D' H) as H1. cbn [app] in H1. apply (scan_find folders depth [] (Nat.add_0_r depth) D') in H1. cbn [app] in H1. rewrite H in H1. injection H1 as ->.
    assert (E : dir_files (scan exec names f base (depth - List.length folders) folders) = picks names (fun n => match f (base ++ folders ++ [n]) with Some (File s) => Some (exec (folders ++ [n]) s) | _ => None end)) by (destruct (depth - List.length folders); reflexivity).
    rewrite E, dget_picks. destruct (in_dec string_dec x names) as [I|I].
    + destruct (f (base ++ folders ++ [x])) as [[|s]|]; split; try discriminate; try (intros (s' & ? & _); discriminate).
      * intros [= <-]. eauto.
      * intros (s' & [= <-] & ->). reflexivity.
    + split; [discriminate|]. intros (s & Hs & _). exfalso. apply I. destruct (B (folders ++ [x])) as [L _]; [congruence|]. apply Forall_app in L as [_ L]. now inversion L.
Qed.
End Scan.

(* ------------------------------------------------------------------ *)
(** * Tables *)

Lemma fs_of_in l q : fs_of l q <> None -> In q (map fst l).
Proof.
  induction l as [|[p n] l IH]; cbn [fs_of map fst]; [congruence|]. unfold put, path_eqb. destruct (list_eq_dec string_dec p q) as [->|N]; [now left|]. intros H. right. now apply IH.
Qed.
Definition table_ok (l : list (path * node)) : bool :=
  match fs_of l [] with Some Dir => true | _ => false end &&
  forallb (fun q => match q with [] => true | _ => match fs_of l (removelast q) with Some Dir => true | _ => false end end) (map fst l).
Lemma table_wf l : table_ok l = true -> wf (fs_of l).
Proof.
  unfold table_ok. intros H. apply andb_prop in H as [H1 H2]. rewrite forallb_forall in H2. split; [destruct (fs_of l []) as [[|]|]; try discriminate; reflexivity|].
  intros p x H. apply fs_of_in, H2 in H. rewrite removelast_last in H. destruct (p ++ [x]) eqn:E; [destruct p; discriminate|]. destruct (fs_of l p) as [[|]|]; try discriminate; reflexivity.
Qed.
Definition table_bound (l : list (path * node)) (base : path) (names : list string) (depth : nat) : bool :=
  forallb (fun q => if prefixb base q then forallb (fun x => if in_dec string_dec x names then true else false) (skipn (List.length base) q) && Nat.leb (List.length (skipn (List.length base) q)) depth else true) (map fst l).
Lemma table_bounded l base names depth : table_bound l base names depth = true -> forall p, fs_of l (base ++ p) <> None -> Forall (fun x => In x names) p /\ List.length p <= depth.
Proof.
  unfold table_bound. intros H p Hp. rewrite forallb_forall in H. apply fs_of_in, H in Hp.
  assert (E : prefixb base (base ++ p) = true). { unfold prefixb. rewrite firstn_app, Nat.sub_diag, firstn_all. cbn [firstn]. rewrite app_nil_r. now destruct (list_eq_dec string_dec base base). }
  rewrite E, skipn_app, Nat.sub_diag, skipn_all in Hp. cbn [app skipn] in Hp. apply andb_prop in Hp as [H1 H2]. split; [|now apply Nat.leb_le]. rewrite forallb_forall in H1. apply Forall_forall. intros x Hx. apply H1 in Hx. now destruct (in_dec string_dec x names).
Qed.

(** nothing happens if everything is there already *)
Lemma nothing_to_do cfg acts : forall f g, runs cfg f acts g -> wf f ->
  (forall a, In a acts -> f (act_path a) <> None /\ match a with AUpd b p n t => cfg b n t (content f p) = match f p with Some (File s) => Ok s | _ => Raise OSError end | _ => True end) ->
  same g f.
Proof.
  induction acts as [|a acts IH]; intros f g R W H; inversion R as [|? ? f1 ? ? Ca Da Ra]; subst; [now intros q|]. clear R.
  assert (S : same f1 f).
  { destruct (H a (or_introl eq_refl)) as [H1 H2]. destruct a as [p|p s|b p n t]; cbn [done act_path] in *.
    - intros q. rewrite (Da q). destruct (f q) as [m|] eqn:E; [reflexivity|]. destruct (prefixb q p) eqn:Q; [|reflexivity]. exfalso. unfold prefixb in Q. destruct (list_eq_dec string_dec (firstn (List.length q) p) q) as [Eq|]; [|discriminate].
      rewrite <- (firstn_skipn (List.length q) p), Eq in H1. destruct (skipn (List.length q) p) as [|y r] eqn:K; [rewrite app_nil_r in H1; congruence|]. rewrite (wf_above f q (y :: r) W H1) in E by discriminate. discriminate.
    - destruct (f p); [exact Da|congruence].
    - destruct Da as (s & C & S). rewrite H2 in C. destruct (f p) as [[|s']|] eqn:E; try discriminate. injection C as ->. intros q. rewrite S. unfold put, path_eqb. destruct (list_eq_dec string_dec p q) as [<-|]; congruence. }
  intros q. rewrite <- (S q). revert q. apply IH; [exact Ra| |].
  - destruct W as [W1 W2]. split; [now rewrite (S [])|]. intros p x. rewrite (S (p ++ [x])), (S p). apply W2.
  - intros b Hb. destruct (H b (or_intror Hb)) as [H1 H2]. rewrite (S (act_path b)). split; [exact H1|]. destruct b as [p|p s|g0 p n t]; auto. cbn [act_path] in *. unfold content in *. rewrite (S p). exact H2.
Qed.

(* ------------------------------------------------------------------ *)
(** * The example *)

Lemma ex_wf : wf ex_disk.
Proof. apply table_wf. vm_compute. reflexivity. Qed.
Lemma load_result cs f p : snd (ex_load cs f p) = Ok tt -> ex_load cs f p = (fst (fst (ex_load cs f p)), snd (fst (ex_load cs f p)), Ok tt).
Proof. destruct (ex_load cs f p) as [[l p'] o]. cbn. now intros ->. Qed.
Lemma ex_loads : exists l r, ex_load [] ex_disk new_pm = (l, PM (Some ex_items) (Some (ex_items, r)), Ok tt) /\ same (final ex_disk l) ex_disk.
Proof.
  assert (H : snd (ex_load [] ex_disk new_pm) = Ok tt) by (vm_compute; reflexivity). apply load_result in H.
  destruct (load_ok _ _ _ _ _ _ _ _ _ _ _ H) as (i & r & c & Ei & Ec & Es & _ & _).
  assert (I : i = ex_items). { assert (K : p_items (snd (fst (ex_load [] ex_disk new_pm))) = Some ex_items) by (vm_compute; reflexivity). rewrite Ei in K. now injection K. }
  subst i. rewrite Ei in H. exists (fst (fst (ex_load [] ex_disk new_pm))), r. split; [exact H|].
  rewrite scaffold_all_acts in Es. destruct (run_ok ex_cfg _ _ _ ex_wf Es) as [R _]. apply (nothing_to_do ex_cfg _ _ _ R ex_wf).
  intros a Ha. repeat (destruct Ha as [<-|Ha]; [vm_compute; split; [discriminate|try exact I; reflexivity]|]). destruct Ha.
Qed.
Lemma same_wf f g : same f g -> wf g -> wf f.
Proof. intros S [W1 W2]. split; [now rewrite (S [])|]. intros p x. rewrite (S (p ++ [x])), (S p). apply W2. Qed.
Lemma ex_mirrors f : same f ex_disk -> mirrors ex_exec f ["proj"; "defaults"] (ex_config f).
Proof.
  intros S. apply scan_mirrors.
  - now apply (same_wf f ex_disk), ex_wf.
  - unfold ex_names. repeat constructor; cbn; intuition discriminate.
  - intros p. rewrite (S (["proj"; "defaults"] ++ p)). apply table_bounded. vm_compute. reflexivity.
  - rewrite (S ["proj"; "defaults"]). reflexivity.
Qed.
Lemma ex_exec_wf rel t v : ex_exec rel t = Ok v -> dwf v.
Proof.
  unfold ex_exec. intros H. repeat (destruct (String.eqb t _) in H; [try discriminate; injection H as <-; unfold dwf, dkeys; cbn; repeat constructor; cbn; intuition discriminate|]).
  injection H as <-. constructor.
Qed.
Lemma ex_tidy : tidy_items ex_items.
Proof.
  split; [constructor|]. split; [intros r []|]. constructor; [repeat constructor; intros []|intros _ [H|[]]; discriminate|].
  intros c [[= <-]|[]]. constructor; [repeat constructor; intros []|intros _ [H|[]]; discriminate|]. intros c [H|[]]; discriminate.
Qed.
