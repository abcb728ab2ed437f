(** Proofs for C96. *)
From Verif Require Import LastSet_Spec OneArg_Spec Iterate_Spec Config_Proofs ConfigTree_Proofs ConfigOps_Proofs ConfigLoad_Proofs ConfigWf_Proofs Runner_Proofs Run_Proofs SectionPath_Proofs RunnerOps_Proofs Iterate_Proofs IterateSame_Proofs Isolation_Proofs IsolationTwin_Proofs IsolationRun_Proofs LastSet_Proofs.
From Coq Require Import Lia ZArith.
Local Open Scope string_scope.
Local Open Scope list_scope.
Local Open Scope monad_scope.

(** * Values *)
Lemma norm_py_eq x : forall y, plain x = true -> plain y = true -> same_value x y -> py_eq x y = EqBool true.
Proof.
  unfold same_value. induction x as [|b|z|t|l IH|q|n|n| | |] using pyval_ind2; intros y Hx Hy H; cbn in Hx; try discriminate;
    destruct y as [|b'|z'|t'|l'|q'|n'|n'|n' c'|n'|n']; cbn in Hy; try discriminate; cbn [norm] in H; try discriminate; cbn [py_eq];
    try (injection H as H); subst; rewrite ?Z.eqb_refl, ?eqb_refl_s, ?Nat.eqb_refl; try reflexivity.
  - destruct b, b'; cbn in H; try discriminate; reflexivity.
  - assert (E : List.length l = List.length l') by (rewrite <- (map_length norm l), <- (map_length norm l'); now rewrite H). rewrite E, Nat.eqb_refl.
    clear E. revert l' Hy H. induction IH as [|a l Ha IHl IHf]; intros l' Hy H; destruct l' as [|b l']; try discriminate; [reflexivity|].
    cbn [map] in H. injection H as H1 H2. cbn [forallb] in Hx, Hy. apply andb_prop in Hx as [X1 X2]. apply andb_prop in Hy as [Y1 Y2].
    assert (G := IHf X2 l' Y2 H2). destruct (py_is a b); [exact G|]. now rewrite (Ha b X1 Y1 H1).
Qed.
Lemma equal_iff v w : plain v = true -> plain w = true -> (equal v w = true <-> same_value v w).
Proof.
  intros P Q. unfold equal. split.
  - destruct (py_eq v w) as [[]| |] eqn:E; try discriminate. intros _. now apply py_eq_norm.
  - intro S. now rewrite norm_py_eq.
Qed.
Lemma plain_values v w : plain v = true -> plain w = true -> values_are_equal v w = Ok (equal v w).
Proof.
  intros P Q. unfold equal. destruct (py_eq_plain_bool v w P Q) as [b E]. rewrite E. unfold values_are_equal.
  destruct v; try discriminate P; destruct w; try discriminate Q; rewrite ?E; reflexivity.
Qed.
Lemma equal_same v v' w : plain v = true -> plain w = true -> same_value v' v -> equal v' w = equal v w.
Proof.
  intros P Q S. assert (P' : plain v' = true) by now rewrite (same_plain _ _ S). apply Bool.eq_iff_eq_true. rewrite !equal_iff by assumption.
  split; intro H; [exact (same_trans _ _ _ (same_sym _ _ S) H)|exact (same_trans _ _ _ S H)].
Qed.

Definition plain_opt (o : option pyval) : Prop := match o with Some v => plain v = true | None => True end.
Lemma same_opt_refl o : same_opt o o. Proof. destruct o; [apply same_refl|exact I]. Qed.
Lemma same_opt_none o : same_opt o None -> o = None. Proof. now destruct o. Qed.
Lemma same_opt_some o w : same_opt o (Some w) -> exists v, o = Some v /\ same_value v w. Proof. destruct o; [eauto|easy]. Qed.
Lemma same_either o o' a a' : same_opt o a -> same_opt o' a' -> same_opt (either o o') (either a a').
Proof. destruct o, a; easy. Qed.

(** ** Which updates change anything *)
Lemma would_iff vals us b : dwf us -> would_update_loop vals us = Ok b ->
  (b = true <-> exists k old new, dget k vals = Some old /\ dget k us = Some new /\ values_are_equal old new <> Ok true).
Proof.
  intros W H. destruct b.
  - split; [|reflexivity]. intros _. apply wul_true in H as (before & k & v & old & after & -> & H1 & H2 & _). exists k, old, v. split; [exact H1|].
    split; [|congruence]. apply In_dget; [exact W|]. apply in_or_app. right. now left.
  - split; [discriminate|]. intros (k & old & new & H1 & H2 & H3). exfalso. apply H3. exact (proj1 (wul_false _ _) H k new old (dget_Some_In _ _ _ H2) H1).
Qed.
Definition here (k : string) (vals us : dict pyval) : bool :=
  match dget k vals, dget k us with Some old, Some new => negb (equal old new) | _, _ => false end.
Lemma would_split k vals us b : dwf us -> would_update_loop vals us = Ok b -> plain_opt (dget k vals) -> plain_opt (dget k us) ->
  (b = true <-> others_change k vals us \/ here k vals us = true).
Proof.
  intros W H P Q. rewrite (would_iff vals us b W H). unfold here. split.
  - intros (k' & old & new & H1 & H2 & H3). destruct (string_dec k' k) as [->|N].
    + right. rewrite H1, H2 in *. cbn [plain_opt] in P, Q. rewrite plain_values in H3 by assumption. destruct (equal old new); [congruence|reflexivity].
    + left. exists k', old, new. auto.
  - intros [(k' & old & new & _ & H1 & H2 & H3)|E]; [eauto 6|]. destruct (dget k vals) as [old|] eqn:H1; [|discriminate].
    destruct (dget k us) as [new|] eqn:H2; [|discriminate]. exists k, old, new. split; [exact H1|]. split; [exact H2|]. cbn [plain_opt] in P, Q.
    rewrite plain_values by assumption. destruct (equal old new); [discriminate|congruence].
Qed.
Lemma here_same k vals us a : same_opt (dget k vals) (Some a) -> plain a = true -> plain_opt (dget k us) ->
  here k vals us = match dget k us with Some v => negb (equal a v) | None => false end.
Proof.
  intros S P Q. apply same_opt_some in S as (v & E & S). unfold here. rewrite E. destruct (dget k us) as [w|]; [|reflexivity].
  now rewrite (equal_same a v w P Q S).
Qed.

Lemma checked_update_split k c d persist kw c' b more : dwf kw -> dwf (opt_dict d) -> cfg_checked_update c d persist kw = Ok (c', b) ->
  plain_opt (dget k (c_vals c)) -> plain_opt (gives k d kw) ->
  (more = true <-> others_change k (c_vals c) (dupdate (opt_dict d) kw)) ->
  b = (more || here k (c_vals c) (dupdate (opt_dict d) kw))%bool /\ c' = if b then cfg_update c d persist kw else c.
Proof.
  intros Wk Wd H P Q M. unfold cfg_checked_update in H. destruct (dmem "config_" kw); [discriminate|].
  destruct (would_update c _ _) as [w|] eqn:Ew; [|discriminate]. unfold would_update in Ew. cbn [opt_dict] in Ew. rewrite dupdate_nil_r in Ew.
  assert (E := would_split k _ _ _ (dupdate_wf _ _ Wd) Ew P ltac:(now rewrite <- gives_all)). rewrite <- M, <- Bool.orb_true_iff in E.
  apply Bool.eq_iff_eq_true in E. rewrite <- E. destruct w; [|now injection H as <- <-]. destruct (dmem "E" kw); [discriminate|]. now injection H as <- <-.
Qed.
Lemma checked_refresh_split k c content c' b ups more : dwf content -> dwf (c_applied c) -> k <> "E" ->
  cfg_checked_refresh c content = Ok (c', b, ups) -> plain_opt (dget k (c_vals c)) -> plain_opt (dget k (dupdate content (c_applied c))) ->
  (more = true <-> others_change k (c_vals c) (dupdate content (c_applied c))) ->
  b = (more || here k (c_vals c) (dupdate content (c_applied c)))%bool /\
  c_applied c' = c_applied c /\ c_file c' = c_file c /\
  dget k (c_vals c') = if b then either (dget k (dupdate content (c_applied c))) (dget k (c_vals c)) else dget k (c_vals c).
Proof.
  intros Wc Wa Nk H P Q M. unfold cfg_checked_refresh, change_from_refresh in H. unfold refresh_updates in *.
  set (us := dupdate content (c_applied c)) in *. assert (Wu : dwf us) by now apply dupdate_wf.
  destruct (would_update c (Some us) []) as [w|] eqn:Ew; [|discriminate]. unfold would_update in Ew. cbn [opt_dict] in Ew. rewrite dupdate_nil_r in Ew.
  assert (E := would_split k _ _ _ Wu Ew P Q). rewrite <- M, <- Bool.orb_true_iff in E. apply Bool.eq_iff_eq_true in E. rewrite <- E.
  assert (Z : w = false \/ w = true /\ exists x l, us = x :: l).
  { destruct w; [|now left]. right. split; [reflexivity|]. destruct us as [|x l] eqn:E0; [cbn in Ew; discriminate Ew|eauto]. }
  destruct Z as [->|(-> & x & l & Eu)].
  - injection H as <- <- _. auto.
  - assert (H' : match cfg_refresh c content with Ok (c', u) => Ok (c', true, u) | Raise e => Raise e end = Ok (c', b, ups)).
    { rewrite Eu in H. exact H. }
    clear H. rename H' into H.
    unfold cfg_refresh, refresh_updates in H. fold us in H. destruct (dmem "self" us || dmem "pyfileconf_persist" us)%bool; [discriminate|].
    destruct (dget "E" us) as [[]|]; try discriminate; injection H as <- <- _; (split; [reflexivity|]); (split; [reflexivity|]); (split; [reflexivity|]);
      cbn [cfg_update c_vals opt_dict]; rewrite dupdate_nil_r.
    + rewrite dget_dupdate by now apply ddel_wf. rewrite dget_ddel_neq by exact Nk. now destruct (dget k us).
    + rewrite dget_dupdate by exact Wu. now destruct (dget k us).
Qed.

(** * Reading a section again *)
Lemma begins_iff q p : begins q p = true <-> exists t, p = q ++ t.
Proof.
  unfold begins. destruct (list_eq_dec string_dec (firstn (List.length q) p) q) as [E|E].
  - split; [|reflexivity]. intros _. exists (skipn (List.length q) p). rewrite <- E at 1. symmetry. apply firstn_skipn.
  - split; [discriminate|]. intros (t & ->). exfalso. apply E. rewrite firstn_app, Nat.sub_diag, firstn_all. apply app_nil_r.
Qed.
(** the folders on the way to a file *)
Lemma walk q : forall reserved name rel d t ref m, q <> [] -> t <> [] -> disk_seen reserved name rel d (q ++ t) = Some (SFile ref m) ->
  exists d', find_dir d q = Some d' /\ forall t', disk_seen reserved name rel d (q ++ t') = disk_seen sec_reserved (last q name) (rel ++ q) d' t'.
Proof.
  induction q as [|y q IH]; intros reserved name rel d t ref m Nq Nt H; [contradiction|]. cbn [app disk_seen] in H. cbn [find_dir].
  destruct (mem y reserved) eqn:Em; [discriminate|].
  assert (Nr : q ++ t <> []) by (intro Z; apply app_eq_nil in Z as (_ & Z); contradiction).
  assert (X : (match folder_config name rel d with Some _ => String.eqb y name | None => false end) = false).
  { destruct (folder_config name rel d); [|reflexivity]. destruct (String.eqb y name); [|reflexivity]. destruct (q ++ t); [contradiction|discriminate]. }
  assert (D : exists d1, (if hidden y then None else dget y (dir_subs d)) = Some d1 /\ disk_seen sec_reserved y (rel ++ [y]) d1 (q ++ t) = Some (SFile ref m)).
  { assert (B : match (if hidden y then None else dget y (dir_subs d)) with
              | Some d' => disk_seen sec_reserved y (rel ++ [y]) d' (q ++ t)
              | None => if String.eqb y "section" then None
                        else if dmem (y ++ ".py")%string (dir_files d)
                             then match q ++ t with [] => Some (SFile (rel, (y ++ ".py")%string) y) | _ => None end
                             else None
              end = Some (SFile ref m)) by (destruct (folder_config name rel d); [rewrite X in H|]; exact H).
    destruct (if hidden y then None else dget y (dir_subs d)) as [d1|]; [eauto|]. exfalso. destruct (String.eqb y "section"); [discriminate|].
    destruct (dmem (y ++ ".py")%string (dir_files d)); [|discriminate]. destruct (q ++ t); [contradiction|discriminate]. }
  destruct D as (d1 & E1 & H1). assert (Eg : dget y (dir_subs d) = Some d1) by (destruct (hidden y); [discriminate|exact E1]). rewrite Eg.
  assert (Step : forall t', disk_seen reserved name rel d ((y :: q) ++ t') = disk_seen sec_reserved y (rel ++ [y]) d1 (q ++ t')).
  { intro t'. cbn [app disk_seen]. rewrite Em, E1. destruct (folder_config name rel d); [now rewrite X|reflexivity]. }
  destruct q as [|z q].
  - exists d1. split; [reflexivity|]. intro t'. rewrite Step. reflexivity.
  - destruct (IH _ _ _ _ _ _ _ ltac:(discriminate) Nt H1) as (d' & F & S). exists d'. split; [exact F|]. intro t'. rewrite Step, S, <- app_assoc.
    change (last (y :: z :: q) name) with (last (z :: q) name). now rewrite (last_change (z :: q) ltac:(discriminate) y name).
Qed.
Lemma own_file q : forall reserved name rel d n c, disk_seen reserved name rel d q = Some (SSec n (Some c)) ->
  exists m content, c = loaded_config m (rel ++ q, "section.py") content /\ read_file d (q, "section.py") = Ok content.
Proof.
  assert (Fc : forall name rel d c, folder_config name rel d = Some c ->
    exists content, c = loaded_config name (rel, "section.py") content /\ read_file d ([], "section.py") = Ok content).
  { intros name rel d c H. unfold folder_config in H. unfold read_file. cbn [fst snd find_dir].
    destruct (dget "section.py" (dir_files d)) as [[ct|]|]; try discriminate. injection H as <-. eauto. }
  induction q as [|y rest IH]; intros reserved name rel d n c H.
  - cbn [disk_seen] in H. injection H as _ H. apply Fc in H as (ct & -> & H). rewrite app_nil_r. eauto.
  - cbn [disk_seen] in H. destruct (mem y reserved); [discriminate|].
    assert (B : match (if hidden y then None else dget y (dir_subs d)) with
              | Some d' => disk_seen sec_reserved y (rel ++ [y]) d' rest
              | None => if String.eqb y "section" then None
                        else if dmem (y ++ ".py")%string (dir_files d)
                             then match rest with [] => Some (SFile (rel, (y ++ ".py")%string) y) | _ => None end
                             else None
              end = Some (SSec n (Some c)) -> exists m content, c = loaded_config m (rel ++ y :: rest, "section.py") content /\ read_file d (y :: rest, "section.py") = Ok content).
    { destruct (hidden y).
      - destruct (String.eqb y "section"); [discriminate|]. destruct (dmem (y ++ ".py")%string (dir_files d)); [|discriminate]. destruct rest; discriminate.
      - destruct (dget y (dir_subs d)) as [d'|] eqn:Ed.
        + intro B. apply IH in B as (m & ct & -> & B). exists m, ct. rewrite <- app_assoc. split; [reflexivity|]. unfold read_file in *. cbn [fst snd find_dir] in *. rewrite Ed. exact B.
        + destruct (String.eqb y "section"); [discriminate|]. destruct (dmem (y ++ ".py")%string (dir_files d)); [|discriminate]. destruct rest; discriminate. }
    destruct (folder_config name rel d) as [c0|]; [|exact (B H)].
    destruct (String.eqb y name); [destruct rest; discriminate|exact (B H)].
Qed.
Lemma section_cinv base q a n own : see a (path_parts q) = Some (SSec n own) -> cinv base a -> cinv base (fst (cm_reset base (Some q) false a)).
Proof.
  intros S I. assert (K := cm_reset_keeps base (Some q) false a). destruct (cm_reset base (Some q) false a) as [a' o] eqn:E. cbn [fst] in *.
  assert (R := cm_reset_section _ _ _ _ _ _ _ S E). destruct own as [c|]; [destruct R as (-> & _); exact I|].
  destruct (from_files_at base (cs_disk a) (path_parts q)) as [s|e] eqn:F; [|destruct R as (-> & _); exact I].
  destruct R as (_ & _ & Out & In). split; [apply K, I|]. intros x c Hx. destruct (begins (path_parts q) x) eqn:B.
  - apply begins_iff in B as (t & ->). rewrite In in Hx. destruct I as ((_ & _ & Dok) & _).
    destruct (files_self _ _ _ _ _ _ Dok F Hx) as (Nt & Hl). rewrite last_app by exact Nt. rewrite removelast_app by exact Nt. rewrite last_default. exact Hl.
  - rewrite Out in Hx; [exact (proj2 I x c Hx)|]. intros t ->. assert (begins (path_parts q) (path_parts q ++ t) = true) by (apply begins_iff; eauto). congruence.
Qed.

(** * The configs *)
Section Item.
Variables (base : string) (its : items) (u : user) (path k : string) (x : callable) (content : dict pyval) (file : pyval).
Let p := path_parts path.

Definition ref_file (r : cref) : option fileref := match r with CLocal => None | CItem q => Some (item_file q) | CSec q => Some (q, "section.py") end.
Definition lay_ok (r : cref) (disk : dir) (l : lay) (oc : option config) : Prop :=
  match oc with
  | Some c => lay_shows k disk l c /\ plain_opt (l_val l) /\ plain_opt (l_kept l) /\ plain_opt (l_file l) /\
              (l_val l = None -> l_kept l = None /\ l_file l = None) /\ c_file c = ref_file r
  | None => l_val l = None
  end.
Definition ok_item (a : arg) (st : cms) : Prop :=
  exists c, current st (CItem p) = Some c /\ c_file c = Some (item_file p) /\
    same_opt (dget k (c_vals c)) (Some (a_own a)) /\ same_opt (dget k (c_applied c)) (a_kept a).
Definition ok_around (a : arg) (st : cms) : Prop :=
  forall r, near p r -> r <> CItem p -> lay_ok r (cs_disk st) (a_around a r) (current st r).
(** what the files say, for resets of sections *)
Definition says (disk : dir) (q : list string) (o : option pyval) : Prop :=
  match disk_seen mgr_reserved base [] disk q with
  | Some (SSec _ (Some c)) => o = dget k (c_vals c) /\ plain_opt o
  | _ => o = None
  end.
Definition filed (disk : dir) (ar : cref -> lay) : Prop :=
  (exists m, disk_seen mgr_reserved base [] disk p = Some (SFile (item_file p) m)) /\
  forall q, near p (CSec q) -> says disk q (l_file (ar (CSec q))).
Lemma filed_same disk ar ar' : (forall q, near p (CSec q) -> l_file (ar' (CSec q)) = l_file (ar (CSec q))) -> filed disk ar -> filed disk ar'.
Proof. intros E (H1 & H2). split; [exact H1|]. intros q N. rewrite E by exact N. now apply H2. Qed.
Definition ok_arg (a : arg) (st : cms) : Prop :=
  ok_item a st /\ ok_around a st /\ read_file (cs_disk st) (item_file p) = Ok content /\ plain (a_own a) = true /\ plain_opt (a_kept a) /\
  filed (cs_disk st) (a_around a).

Lemma refs_near r : In r (refs p) -> near p r /\ r <> CItem p.
Proof.
  unfold refs. intros [<-|I]; [split; [exact Logic.I|discriminate]|]. apply in_app_or in I as [I|[<-|[]]].
  - apply in_map_iff in I as (q & <- & I). apply in_rev in I. apply prefixes_in in I as (_ & t & Nt & Eq). split; [|discriminate]. exists t. auto.
  - split; [|discriminate]. exists p. split; [apply path_parts_nonempty|reflexivity].
Qed.
Definition rvals (st : cms) (r : cref) : dict pyval := match current st r with Some c => c_vals c | None => [] end.
Lemma section_rvals st q : section_values st q = rvals st (CSec q).
Proof. unfold section_values, rvals. cbn [current]. destruct (see st q) as [[c|ref n|n [c|]|c]|]; reflexivity. Qed.
Lemma layers_refs st : overriding_layers st p = map (rvals st) (refs p).
Proof.
  unfold overriding_layers, refs. cbn [map]. rewrite map_app, map_map. cbn [map]. rewrite section_rvals. f_equal. f_equal. apply map_ext. intro. apply section_rvals.
Qed.
Lemma over_ok a st : ok_around a st -> same_opt (first_of k (overriding_layers st p)) (over p a).
Proof.
  intro H. rewrite layers_refs. unfold over. assert (R := refs_near). induction (refs p) as [|r l IH]; [exact Logic.I|]. cbn [map first_of fold_right].
  change (match dget k (rvals st r) with Some v => Some v | None => first_of k (map (rvals st) l) end) with (either (dget k (rvals st r)) (first_of k (map (rvals st) l))).
  apply same_either; [|apply IH; intros; apply R; now right]. destruct (R r (or_introl eq_refl)) as (N & Nr). specialize (H r N Nr).
  unfold rvals. destruct (current st r) as [c|]; cbn [lay_ok] in H; [apply H|]. rewrite H. exact Logic.I.
Qed.
Lemma over_plain a st v : ok_around a st -> over p a = Some v -> plain v = true.
Proof.
  intros H. unfold over. assert (R := refs_near). induction (refs p) as [|r l IH]; [discriminate|]. cbn [fold_right].
  destruct (R r (or_introl eq_refl)) as (N & Nr). specialize (H r N Nr). destruct (l_val (a_around a r)) as [w|] eqn:E; cbn [either].
  - intros [= <-]. destruct (current st r); cbn [lay_ok] in H; [|congruence]. destruct H as (_ & H & _). now rewrite E in H.
  - apply IH. intros. apply R. now right.
Qed.

Lemma around_own a a' st st' : touches (CItem p) st st' -> a_around a' = a_around a -> ok_around a st -> ok_around a' st'.
Proof.
  intros T E H r N Nr. rewrite E. assert (D : cs_disk st' = cs_disk st) by apply T. rewrite D, (touches_current _ _ _ _ T Nr). now apply H.
Qed.
Lemma arg_own a a' st st' c' : ok_arg a st -> touches (CItem p) st st' -> current st' (CItem p) = Some c' -> c_file c' = Some (item_file p) ->
  same_opt (dget k (c_vals c')) (Some (a_own a')) -> same_opt (dget k (c_applied c')) (a_kept a') -> a_around a' = a_around a ->
  plain (a_own a') = true -> plain_opt (a_kept a') -> ok_arg a' st'.
Proof.
  intros (_ & A & R & _ & _ & Fl) T Hc F V K E P Q. split; [exists c'; auto|]. split; [eapply around_own; eassumption|].
  rewrite E. split; [destruct T as (_ & _ & _ & ->); exact R|]. destruct T as (_ & _ & _ & ->). auto.
Qed.
Lemma arg_obj a a' st : ok_arg a st -> a_own a' = a_own a -> a_kept a' = a_kept a -> a_around a' = a_around a -> ok_arg a' st.
Proof.
  intros ((c & H1 & H2 & H3 & H4) & A & R & P & Q & Fl) Eo Ek Ea. split; [exists c; rewrite Eo, Ek; auto|]. split; [|rewrite Eo, Ek, Ea; auto].
  intros r N Nr. rewrite Ea. now apply A.
Qed.
Lemma arg_around a st st' r l : ok_arg a st -> touches r st st' -> near p r -> r <> CItem p -> lay_ok r (cs_disk st) l (current st' r) ->
  (r = CLocal \/ l_file l = l_file (a_around a r)) -> ok_arg (put_around r l a) st'.
Proof.
  intros ((c & H1 & H2 & H3 & H4) & A & R & P & Q & Fl) T N Nr L El. assert (D : cs_disk st' = cs_disk st) by apply T.
  assert (Fl' : filed (cs_disk st) (a_around (put_around r l a))).
  { apply (filed_same _ (a_around a)); [|exact Fl]. intros q _. cbn [put_around a_around]. destruct (ref_dec (CSec q) r) as [<-|]; [|reflexivity].
    destruct El as [El|El]; [discriminate|exact El]. }
  split; [|split; [|rewrite D; auto]].
  - exists c. split; [|auto]. rewrite <- H1. apply (touches_current _ _ _ _ T). congruence.
  - intros r' N' Nr'. cbn [put_around a_around]. rewrite D. destruct (ref_dec r' r) as [->|Ne]; [exact L|].
    rewrite (touches_current _ _ _ _ T Ne). now apply A.
Qed.
Lemma arg_frame a st st' : ok_arg a st -> cframe p st st' -> ok_arg a st'.
Proof.
  intros ((c & H1 & H2 & H3 & H4) & A & R & P & Q & Fl) (D & T & Sp & N). split; [|split; [|rewrite D; auto]].
  - exists c. split; [|auto]. rewrite <- H1. cbn [current]. now rewrite Sp, D.
  - intros r Nr Ni. rewrite D. assert (E : current st' r = current st r); [|rewrite E; now apply A]. assert (L := N r Nr). destruct r as [|q|q].
    + cbn [read_cref current] in *. exact L.
    + exfalso. apply Ni. cbn in Nr. now rewrite Nr.
    + rewrite !read_cref_see in L. cbn [current] in *. destruct (see st' q) as [[]|], (see st q) as [[]|]; cbn in *; congruence.
Qed.

(** ** Looking the config up *)
Lemma merge_kept st c q : q <> CItem p -> dwf (match read_cref st q with Some d => c_vals d | None => [] end) ->
  dget k (c_applied (merge_from st (CItem p) c (Some q))) = either (dget k (layer st (CItem p) (Some q))) (dget k (c_applied c)).
Proof.
  intros Nq W. unfold merge_from, cfg_update, layer. cbn [c_applied]. rewrite dupdate_nil_r. cbn [source_vals].
  destruct (cref_eq_dec q (CItem p)); [contradiction|]. destruct (read_cref st q); [|reflexivity]. cbn [opt_dict]. rewrite dget_dupdate by exact W. now destruct (dget k _).
Qed.
Lemma chain_kept st chain : (forall r' c', read_cref st r' = Some c' -> dwf (c_vals c')) -> (forall q, In (Some q) chain -> q <> CItem p) ->
  forall c, dget k (c_applied (fold_left (merge_from st (CItem p)) chain c)) = first_of k (rev (map (layer st (CItem p)) chain) ++ [c_applied c]).
Proof.
  intros W. induction chain as [|q chain IH]; intros H c; [cbn; now destruct (dget k (c_applied c))|]. cbn [fold_left map rev].
  rewrite IH by (intros; apply H; now right). rewrite !first_of_app. cbn [first_of].
  destruct (first_of k (rev (map (layer st (CItem p)) chain))); [reflexivity|]. destruct q as [q|].
  - rewrite merge_kept; [|apply H; now left|].
    + unfold either. destruct (dget k (layer st (CItem p) (Some q))); [reflexivity|]. now destruct (dget k (c_applied c)).
    + destruct (read_cref st q) eqn:E; [now apply (W q)|apply NoDup_nil].
  - unfold merge_from, cfg_update. cbn [c_applied source_vals opt_dict]. now rewrite !dupdate_nil_r.
Qed.
Lemma get_kept st st' o c c' : cms_wf st -> target st p = Some (CItem p) -> current st (CItem p) = Some c -> c_vals c <> [] -> cm_get path st = (st', o) ->
  read_cref st' (CItem p) = Some c' -> dget k (c_applied c') = either (first_of k (overriding_layers st p)) (dget k (c_applied c)).
Proof.
  intros W Ht Hc Hv H Hr. rewrite cm_get_tail in H. fold p in H. unfold bind at 1 in H. destruct (get_func_or_section_configs p st) as [s1 o1] eqn:E1.
  assert (G := gf_spec st p s1 o1 E1). destruct o1 as [[r|]|e].
  - destruct G as (Ht' & T1 & L1 & Tr1 & Hl & c0 & Hc0 & Hr1). rewrite Ht in Ht'. injection Ht' as <-. rewrite Hc in Hc0. injection Hc0 as <-.
    destruct (see s1 p) as [v|] eqn:Ev.
    2:{ rewrite read_cref_see, Ev in Hr1. discriminate. }
    destruct (get_tail_chain s1 p v (Some (CItem p)) Ev) as (own & Et & Hown). rewrite Et in H.
    unfold bind at 1 in H. rewrite (deref_read _ _ _ Hr1) in H. destruct (c_vals c) as [|kv vs] eqn:Evs; [contradiction|].
    assert (Ho : own = []) by (rewrite read_cref_see, Ev in Hr1; destruct v; try discriminate; exact Hown). subst own. rewrite Ho, app_nil_r in H.
    destruct (chain_spec s1 (CItem p) (sec_ref s1 [] :: map (sec_ref s1) (prefixes p)) c Hr1) as (s2 & E2 & T2 & _ & R2).
    unfold bind at 1 in H. rewrite E2 in H.
    destruct (update_from_spec s2 (CItem p) (Some CLocal) _ R2) as (s3 & E3 & T3 & _ & R3). unfold bind at 1 in H. rewrite E3 in H. injection H as <- _.
    rewrite R3 in Hr. injection Hr as <-.
    assert (Ws1 : forall r' c', read_cref s1 r' = Some c' -> dwf (c_vals c')).
    { intros r' c' Hc'. destruct (cref_eq_dec r' (CItem p)) as [->|Hne].
      - rewrite Hr1 in Hc'. injection Hc' as <-. apply (proj2 W) in Hc. apply Hc.
      - rewrite (touches_read _ _ _ _ T1 Hne) in Hc'. apply read_current in Hc'. apply (proj2 W) in Hc'. apply Hc'. }
    assert (L2 : cs_local s2 = cs_local st).
    { transitivity (cs_local s1); [apply T2; discriminate|apply T1; discriminate]. }
    rewrite merge_kept; [|discriminate|].
    2:{ cbn [read_cref]. rewrite L2. apply (proj2 W CLocal). reflexivity. }
    assert (O : overriding_layers s1 p = overriding_layers st p).
    { apply (overriding_touches st s1 (CItem p) T1); [discriminate|]. apply path_parts_nonempty. }
    rewrite <- O. unfold overriding_layers. cbn [first_of].
    assert (L1' : cs_local s1 = cs_local st) by (apply T1; discriminate).
    unfold layer at 1. destruct (cref_eq_dec CLocal (CItem p)); [discriminate|]. cbn [read_cref]. rewrite L2, L1'.
    destruct (dget k (c_vals (cs_local st))); [reflexivity|]. cbn [either].
    etransitivity; [refine (chain_kept s1 (sec_ref s1 [] :: map (sec_ref s1) (prefixes p)) Ws1 _ c)|].
    { intros q I. assert (X : exists q', Some q = sec_ref s1 q').
        { destruct I as [I|I]; [exists []; now rewrite I|]. apply in_map_iff in I as (q' & I & _). exists q'. now rewrite I. }
        destruct X as (q' & X). unfold sec_ref in X. destruct (see s1 q') as [[| |? [|]|]|]; try discriminate. injection X as ->. discriminate. }
    assert (P : map (layer s1 (CItem p)) (sec_ref s1 [] :: map (sec_ref s1) (prefixes p)) = section_values s1 [] :: map (section_values s1) (prefixes p)).
    { cbn [map]. rewrite map_map. f_equal; [|apply map_ext; intro q]; rewrite layer_sec_ref; destruct (cref_eq_dec _ (CItem p)); congruence. }
    rewrite P. cbn [rev]. rewrite <- map_rev, <- app_assoc. rewrite !first_of_app. cbn [first_of app].
    destruct (first_of k (map (section_values s1) (rev (prefixes p)))); [reflexivity|]. cbn [either].
    destruct (dget k (section_values s1 [])); [reflexivity|]. cbn [either]. now destruct (dget k (c_applied c)).
  - destruct G as (-> & n & E). unfold target in Ht. rewrite E in Ht. discriminate.
  - subst s1. injection H as <- _. assert (Ht' := Ht). destruct (stored_current st (Some path) (CItem p) c Ht Hc) as [sx Ex]. cbn [stored_config] in Ex. fold p in Ex. congruence.
Qed.

Lemma look_ok a st st' o : cms_wf st -> target st p = Some (CItem p) -> ok_arg a st -> cm_get path st = (st', o) ->
  o = Ok (Some (CItem p)) /\ ok_arg (look p a) st' /\
  exists c, read_cref st' (CItem p) = Some c /\ cfg_wf c /\ same_opt (dget k (c_vals c)) (Some (a_own (look p a))).
Proof.
  intros W Ht H E. assert (S := cm_get_spec _ _ _ _ W E). fold p in S. rewrite Ht in S. destruct S as (T & _ & S).
  assert (H' := H). destruct H' as ((c & A1 & A2 & A3 & A4) & Ar & R & Po & Pk & Fl). rewrite A1 in S. destruct S as (-> & c' & Rc & Wc & _ & Fc & V).
  assert (Ne : c_vals c <> []) by (intro Z; rewrite Z in A3; exact A3).
  assert (K := get_kept st st' _ c c' W Ht A1 Ne E Rc). assert (Ov := over_ok a st Ar).
  assert (Vk : dget k (c_vals c') = either (first_of k (overriding_layers st p)) (dget k (c_vals c))).
  { rewrite V. cbn [rpath]. unfold effective. destruct (c_vals c) as [|kv vs]; [contradiction|]. rewrite first_of_app. cbn [first_of].
    destruct (first_of k (overriding_layers st p)); [reflexivity|]. cbn [either]. now destruct (dget k (kv :: vs)). }
  assert (X : same_opt (dget k (c_vals c')) (Some (a_own (look p a))) /\ same_opt (dget k (c_applied c')) (a_kept (look p a)) /\
              a_around (look p a) = a_around a /\ plain (a_own (look p a)) = true /\ plain_opt (a_kept (look p a))).
  { rewrite Vk, K. unfold look. destruct (over p a) as [v|] eqn:Eo.
    - apply same_opt_some in Ov as (w & -> & Sw). cbn [either a_own a_kept a_around]. assert (Pv := over_plain a st v Ar Eo). auto.
    - apply same_opt_none in Ov as ->. cbn [either]. auto. }
  destruct X as (X1 & X2 & X3 & X4 & X5). split; [reflexivity|]. split; [|exists c'; auto].
  eapply (arg_own a (look p a) st st' c'); try eassumption; [now apply read_current|congruence].
Qed.

(** * The runner *)
Definition ok_obj (a : arg) (s : rs) : Prop :=
  match dget path (r_loaded s), a_obj a with Some o, Some v => holds k x v o | None, None => True | _, _ => False end.
Definition okr (a : arg) (s : rs) : Prop := rinv base path s /\ ok_arg a (r_cms s) /\ ok_obj a s.

Hypotheses (Hx : mem k (f_args x) = true) (Hpre : u_pre_run u = []).

Lemma look_obj a : a_obj (look p a) = a_obj a. Proof. unfold look. now destruct (over p a). Qed.
Lemma look_idem a : look p (look p a) = look p a.
Proof.
  unfold look at 2 3. destruct (over p a) as [v|] eqn:E.
  - unfold look. change (over p {| a_own := v; a_kept := Some v; a_obj := a_obj a; a_around := a_around a |}) with (over p a). now rewrite E.
  - unfold look. now rewrite E.
Qed.
Lemma okr_cms a a' s st' : okr a s -> cinv base st' -> target st' p = target (r_cms s) p -> ok_arg a' st' -> a_obj a' = a_obj a ->
  okr a' (RS st' (r_loaded s) (r_next s) (r_calls s)).
Proof.
  intros ((I1 & I2 & I3) & C & L) I T C' E. split; [split; [exact I|]; split; [cbn [r_cms]; fold p; rewrite T; exact I2|exact I3]|].
  split; [exact C'|]. unfold ok_obj in *. cbn [r_loaded]. now rewrite E.
Qed.
Lemma okr_set a s o i calls v : rinv base path s -> ok_arg a (r_cms s) -> a_obj a = Some v -> holds k x v o ->
  okr a (RS (r_cms s) (dset path o (r_loaded s)) i calls).
Proof.
  intros (I1 & I2 & I3) C E H. split; [split; [exact I1|]; split; [exact I2|]|].
  - intros q A N. cbn [r_loaded]. rewrite dget_dset_neq by exact N. now apply I3.
  - split; [exact C|]. unfold ok_obj. cbn [r_loaded]. rewrite dget_dset_eq, E. exact H.
Qed.
Lemma loaded_arg a st : ok_arg a st -> ok_arg (load a) st.
Proof. intro H. now apply (arg_obj a). Qed.

Lemma config_ok a s : okr a s -> exists st c, get_config path s = (RS st (r_loaded s) (r_next s) (r_calls s), Ok c) /\
  okr (look p a) (RS st (r_loaded s) (r_next s) (r_calls s)) /\ cfg_wf c /\ same_opt (dget k (c_vals c)) (Some (a_own (look p a))).
Proof.
  intro H. assert (H' := H). destruct H' as ((I1 & I2 & I3) & C & L). unfold get_config, bind, on_cms.
  assert (Ci := get_cinv base path (r_cms s) I1). assert (W := tree_cms_wf _ (proj1 I1)).
  destruct (cm_get path (r_cms s)) as [st o] eqn:E. cbn [fst] in Ci.
  destruct (look_ok a _ _ _ W I2 C E) as (-> & C' & c & R & Wc & V). exists st, c. cbn [r_cms r_loaded r_next r_calls].
  rewrite (deref_read _ _ _ R). split; [reflexivity|]. split; [|auto]. apply (okr_cms a (look p a) s); auto; [|apply look_obj].
  assert (Sg := cm_get_spec _ _ _ _ W E). rewrite I2 in Sg. apply (proj1 Sg).
Qed.

Section Kind.
Variables (b : bool) (th : thing).
Hypothesis Hf : get_func_or_collection its path = Ok (b, FThing th).
Hypothesis Hinit : th = TFunc x \/ forall args, u_init u x args = None.

Lemma filtered_ok c v args : same_opt (dget k (c_vals c)) (Some v) -> mem k args = true -> same_opt (dget k (for_function c args)) (Some v).
Proof. intros H M. unfold for_function. now rewrite dget_dfilter, M. Qed.
Lemma mem_class_args : mem k (class_args x) = true.
Proof. unfold class_args. cbn [mem existsb]. unfold mem in Hx. rewrite Hx. apply Bool.orb_true_r. Qed.
Lemma gfc_ok a s : okr a s -> th = TFunc x \/ th = TClass x ->
  exists st b' kw, get_func_and_config its path s = (RS st (r_loaded s) (r_next s) (r_calls s), Ok (x, b', kw)) /\
    okr (look p a) (RS st (r_loaded s) (r_next s) (r_calls s)) /\ same_opt (dget k kw) (Some (a_own (look p a))).
Proof.
  intros H K. destruct (config_ok a s H) as (st & c & E & H' & Wc & V). unfold get_func_and_config, bind at 1. rewrite E.
  unfold bind, lift. rewrite Hf. cbn [snd]. destruct K as [-> | ->]; cbn [ret]; exists st; eexists; eexists;
    (split; [reflexivity|]); (split; [exact H'|]); apply filtered_ok; auto. apply mem_class_args.
Qed.
Lemma gcc_ok a s : okr a s -> th = TClass x \/ th = TInst x ->
  exists st b' kw, get_class_and_config its path s = (RS st (r_loaded s) (r_next s) (r_calls s), Ok (x, b', kw)) /\
    okr (look p a) (RS st (r_loaded s) (r_next s) (r_calls s)) /\ same_opt (dget k kw) (Some (a_own (look p a))).
Proof.
  intros H K. destruct (config_ok a s H) as (st & c & E & H' & Wc & V). unfold get_class_and_config, bind at 1. rewrite E.
  unfold bind, lift. rewrite Hf. cbn [snd]. destruct K as [-> | ->]; cbn [ret]; exists st; eexists; eexists;
    (split; [reflexivity|]); (split; [exact H'|]); apply filtered_ok; auto using mem_class_args.
Qed.
(** the item's object, made if it is not there yet *)
Definition obtain (a : arg) : arg := match a_obj a with Some _ => a | None => load (look p a) end.
Lemma func_ok a s : okr a s -> th = TFunc x ->
  exists s' o v, get_one_func_with_config its path s = (s', Ok o) /\ okr (obtain a) s' /\ a_obj (obtain a) = Some v /\ holds k x v o /\ r_calls s' = r_calls s.
Proof.
  intros H K. assert (H' := H). destruct H' as (I & C & L). unfold get_one_func_with_config, bind at 1, gets, obtain. unfold ok_obj in L.
  destruct (dget path (r_loaded s)) as [o|] eqn:El; destruct (a_obj a) as [v|] eqn:Ea; try contradiction.
  - exists s, o, v. repeat split; auto; apply H || apply L || exact (proj2 L).
  - destruct (gfc_ok a s H (or_introl K)) as (st & b' & kw & E & (J & C' & _) & V). unfold bind at 1. rewrite E. cbn.
    assert (Ho : holds k x (a_own (look p a)) (LPartial (r_next s) x b' kw)) by (split; [reflexivity|]; now apply same_opt_some in V).
    eexists. eexists. exists (a_own (look p a)). split; [reflexivity|]. split; [|split; [reflexivity|split; [exact Ho|reflexivity]]].
    refine (okr_set (load (look p a)) (RS st (r_loaded s) (r_next s) (r_calls s)) _ _ _ (a_own (look p a)) J _ _ Ho); [now apply loaded_arg|reflexivity].
Qed.
Lemma obj_ok a s : okr a s -> th = TClass x \/ th = TInst x ->
  exists s' o v, get_one_obj_with_config its u path s = (s', Ok o) /\ okr (obtain a) s' /\ a_obj (obtain a) = Some v /\ holds k x v o /\ r_calls s' = r_calls s.
Proof.
  intros H K. assert (H' := H). destruct H' as (I & C & L). unfold get_one_obj_with_config, bind at 1, gets, obtain. unfold ok_obj in L.
  destruct (dget path (r_loaded s)) as [o|] eqn:El; destruct (a_obj a) as [v|] eqn:Ea; try contradiction.
  - exists s, o, v. repeat split; auto; apply H || apply L || exact (proj2 L).
  - unfold bind at 1, lift. rewrite Hf. destruct (gcc_ok a s H K) as (st & b' & kw & E & (J & C' & _) & V). unfold bind at 1. rewrite E. cbn zeta.
    set (args := if b' then kw else relevant_config x kw).
    assert (Va : same_opt (dget k args) (Some (a_own (look p a)))).
    { unfold args. destruct b'; [exact V|]. unfold relevant_config. now rewrite dget_dfilter, Hx. }
    assert (Ei : u_init u x args = None) by (destruct Hinit as [E1|E1]; [destruct K as [K|K]; rewrite K in E1; discriminate|apply E1]). rewrite Ei. cbn.
    assert (Ho : holds k x (a_own (look p a)) (LInst (r_next s) x [args])) by (split; [reflexivity|]; now apply same_opt_some in Va).
    eexists. eexists. exists (a_own (look p a)). split; [reflexivity|]. split; [|split; [reflexivity|split; [exact Ho|reflexivity]]].
    refine (okr_set (load (look p a)) (RS st (r_loaded s) (r_next s) (r_calls s)) _ _ _ (a_own (look p a)) J _ _ Ho); [now apply loaded_arg|reflexivity].
Qed.
Lemma obtain_look a : obtain (look p a) = match a_obj a with Some _ => look p a | None => load (look p a) end.
Proof. unfold obtain. rewrite look_obj, look_idem. reflexivity. Qed.
Lemma head_ok a s : okr a s -> th = TFunc x \/ th = TClass x \/ th = TInst x ->
  exists s' o v, run_head its u path th s = (s', Ok o) /\ okr (obtain (look p a)) s' /\ a_obj (obtain (look p a)) = Some v /\ holds k x v o /\ r_calls s' = r_calls s.
Proof.
  intros H [K|K].
  - destruct (gfc_ok a s H (or_introl K)) as (st & b' & kw & E & H' & V). destruct (func_ok _ _ H' K) as (s' & o & v & E' & H2 & Ho & Hh & Cs).
    clear Hf. rewrite K in *. cbn [run_head]. unfold bind. rewrite E, E'. exists s', o, v. auto.
  - assert (X : exists s1, okr (look p a) s1 /\ r_calls s1 = r_calls s /\
       (forall (A : Type) (m : M rs A), (match th with TInst _ => get_class_and_config its path ;;; m | _ => get_func_and_config its path ;;; m end) s = m s1)).
    { destruct K as [K|K].
      - destruct (gfc_ok a s H (or_intror K)) as (st & b' & kw & E & H' & V). eexists. split; [exact H'|]. split; [reflexivity|]. intros A m. rewrite K. unfold bind. now rewrite E.
      - destruct (gcc_ok a s H (or_intror K)) as (st & b' & kw & E & H' & V). eexists. split; [exact H'|]. split; [reflexivity|]. intros A m. rewrite K. unfold bind. now rewrite E. }
    destruct X as (s1 & H1 & C1 & X). destruct (obj_ok _ s1 H1 K) as (s' & o & v & E' & H2 & Ho & Hh & Cs). exists s', o, v.
    split; [|split; [exact H2|split; [exact Ho|split; [exact Hh|congruence]]]].
    rewrite <- E', <- (X lobj). destruct K as [-> | ->]; reflexivity.
Qed.
Lemma get_ok a s : okr a s -> th = TFunc x \/ th = TClass x \/ th = TInst x -> okr (obtain a) (fst (runner_get its u path s)).
Proof.
  intros H K. unfold runner_get, bind at 1, lift. rewrite Hf. cbn [snd]. destruct K as [K|K].
  - destruct (func_ok a s H K) as (s' & o & v & E & H' & _). rewrite K. unfold bind. rewrite E. exact H'.
  - destruct (obj_ok a s H K) as (s' & o & v & E & H' & _). destruct K as [-> | ->]; unfold bind; rewrite E; exact H'.
Qed.
Lemma okr_calls a s calls : okr a s -> okr a (RS (r_cms s) (r_loaded s) (r_next s) calls).
Proof. intros ((I1 & I2 & I3) & C & L). split; [split; [exact I1|split; [exact I2|exact I3]]|]. split; [exact C|exact L]. Qed.
Lemma run_ok a s set : okr a s -> th = TFunc x \/ th = TClass x \/ th = TInst x ->
  okr (obtain (look p a)) (fst (pm_run its u set (AStr path) s)) /\
  exists o v, r_calls (fst (pm_run its u set (AStr path) s)) = r_calls s ++ [(path, o)] /\ a_obj (obtain (look p a)) = Some v /\ holds k x v o.
Proof.
  intros H K. rewrite (pm_run_eq its u path set s Hpre). cbn [fst]. rewrite (run_one_eq its u path b th s Hf). unfold bind.
  destruct (head_ok a s H K) as (s' & o & v & E & H' & Ho & Hh & Cs). rewrite E. cbn. split; [now apply okr_calls|]. exists o, v. rewrite Cs. auto.
Qed.
End Kind.

(** * Updates *)
Definition updated (d : option (dict pyval)) (persist : bool) (kw : dict pyval) (more : bool) (a : arg) : arg :=
  match gives k d kw with
  | Some v => if (more || negb (equal (a_own a) v))%bool then hand_on (Arg v (remember persist v (a_kept a)) (a_obj a) (a_around a)) else a
  | None => if more then hand_on a else a
  end.
Lemma update_ok a s d persist kw more c : okr a s -> dwf kw -> dwf (opt_dict d) -> plain_opt (gives k d kw) ->
  current (r_cms s) (CItem p) = Some c -> (more = true <-> others_change k (c_vals c) (dupdate (opt_dict d) kw)) ->
  snd (runner_update u d (Some path) persist kw s) = Ok tt ->
  okr (updated d persist kw more a) (fst (runner_update u d (Some path) persist kw s)).
Proof.
  intros (I & C & L) Wk Wd G Hc M Hok. assert (I' := I). destruct I' as (I1 & I2 & I3).
  assert (Ri := proj1 (any_unit base path (fun _ _ => True) _ _ s s (update_agree base u path d (Some path) persist kw s s
     (ex_intro _ [] (eq_sym (app_nil_r _)))
     (conj I (conj I (conj (conj eq_refl (conj I2 (conj I2 (conj eq_refl (fun _ _ => eq_refl)))))
       (match dget path (r_loaded s) as o return alike_opt o o with Some o => alike_refl o | None => Logic.I end))))))).
  destruct (runner_update u d (Some path) persist kw s) as [s' o] eqn:E. cbn [fst snd] in *. subst o.
  assert (S := runner_update_spec _ _ _ _ _ _ _ _ E). cbv zeta in S. rewrite I2 in S. destruct S as (T & _ & _ & S). fold p in T, S.
  assert (C' := C). destruct C' as ((c0 & A1 & A2 & A3 & A4) & Ar & R & Po & Pk & Fl). assert (c0 = c) by congruence. subst c0. rewrite A1 in S.
  assert (Wc : cfg_wf c) by exact (proj2 (tree_cms_wf _ (proj1 I1)) _ _ A1).
  destruct (cfg_checked_update c d persist kw) as [[c' b]|er] eqn:Ec; [|destruct S; discriminate]. destruct S as (Hc' & S).
  assert (Wc' := checked_update_wf _ _ _ _ _ _ Wc Ec).
  assert (Pv : plain_opt (dget k (c_vals c))) by (apply same_opt_some in A3 as (v & -> & Sv); cbn; now rewrite (same_plain _ _ Sv)).
  destruct (checked_update_split k c d persist kw c' b more Wk Wd Ec Pv G M) as (Eb & Ec').
  assert (Eh : here k (c_vals c) (dupdate (opt_dict d) kw) = match gives k d kw with Some v => negb (equal (a_own a) v) | None => false end).
  { rewrite (here_same k _ _ (a_own a) A3 Po); rewrite <- gives_all by exact Wk; [reflexivity|exact G]. }
  rewrite Eh in Eb. clear Eh. destruct b.
  - (* the config changes *)
    set (a1 := match gives k d kw with Some v => Arg v (remember persist v (a_kept a)) (a_obj a) (a_around a) | None => a end).
    assert (Eu : updated d persist kw more a = hand_on a1).
    { unfold updated, a1. destruct (gives k d kw); rewrite <- ?Eb; [reflexivity|]. rewrite Bool.orb_false_r in Eb. now rewrite <- Eb. }
    assert (V : same_opt (dget k (c_vals c')) (Some (a_own a1)) /\ same_opt (dget k (c_applied c')) (a_kept a1) /\ plain (a_own a1) = true /\ plain_opt (a_kept a1) /\
                a_around a1 = a_around a /\ a_obj a1 = a_obj a).
    { subst c'. unfold a1. destruct (gives k d kw) as [v|] eqn:Eg; cbn [a_own a_kept a_around a_obj plain_opt] in *.
      - destruct (updated_here c d persist kw k v Wk Wd Eg) as (B1 & B2). rewrite B1. split; [apply same_refl|].
        split; [|split; [exact G|split; [|auto]]].
        + destruct persist; cbn [remember]; [rewrite B2 by reflexivity; apply same_refl|exact A4].
        + destruct persist; [exact G|exact Pk].
      - destruct (updated_other c d persist kw k Wk Wd Eg) as (B1 & B2). rewrite B1, B2. auto 8. }
    destruct V as (V1 & V2 & V3 & V4 & V5 & V6).
    assert (Oa : ok_arg a1 (r_cms s')).
    { eapply (arg_own a a1 (r_cms s) (r_cms s') c'); try eassumption. subst c'. exact A2. }
    rewrite Eu. unfold hand_on. rewrite V6. unfold ok_obj in L. destruct (dget path (r_loaded s)) as [ob|] eqn:El; destruct (a_obj a) as [v0|] eqn:Eo; try contradiction.
    + destruct (applied_to u ob (c_vals c')) as [ob'|er] eqn:Ea; [|destruct S; discriminate]. destruct S as (Sl & _).
      split; [exact Ri|]. split; [now apply loaded_arg|]. unfold ok_obj. rewrite Sl, dget_dset_eq. cbn [load a_obj].
      apply same_opt_some in V1 as (v' & V1 & Sv). exact (applied_holds u k x Hx ob _ ob' v0 (a_own a1) v' (proj1 Wc') Ea L V1 Sv).
    + destruct S as (_ & Sl & _). split; [exact Ri|]. split; [exact Oa|]. unfold ok_obj. rewrite Sl, El, V6. exact Logic.I.
  - (* nothing changes *)
    assert (Eu : updated d persist kw more a = a).
    { unfold updated. destruct (gives k d kw); rewrite <- ?Eb; [reflexivity|]. rewrite Bool.orb_false_r in Eb. now rewrite <- Eb. }
    rewrite Eu. subst c'. destruct S as (_ & Ls & _). split; [exact Ri|]. split.
    + eapply (arg_own a a (r_cms s) (r_cms s') c); try eassumption. reflexivity.
    + unfold ok_obj in *. now rewrite Ls.
Qed.

(** configs around the item *)
Definition set_lay (d : option (dict pyval)) (persist : bool) (kw : dict pyval) (more : bool) (r : cref) (a : arg) : arg :=
  match gives k d kw with Some v => set_around more r v persist a | None => a end.
Lemma set_lay_obj d persist kw more r a : a_obj (set_lay d persist kw more r a) = a_obj a.
Proof. unfold set_lay, set_around. destruct (gives k d kw); [|reflexivity]. now destruct (_ || _)%bool. Qed.
Lemma arg_same a a' st : ok_arg a st -> a_own a' = a_own a -> a_kept a' = a_kept a -> (forall r, a_around a' r = a_around a r) -> ok_arg a' st.
Proof.
  intros ((c & H1 & H2 & H3 & H4) & A & R & P & Q & Fl) Eo Ek Ea. split; [exists c; rewrite Eo, Ek; auto|]. split.
  - intros r N Nr. rewrite Ea. now apply A.
  - rewrite Eo, Ek. repeat (split; [assumption|]). apply (filed_same _ (a_around a)); [|exact Fl]. intros. now rewrite Ea.
Qed.
(** the config around stays the same *)
Lemma arg_around_same a st st' r c : ok_arg a st -> touches r st st' -> near p r -> r <> CItem p -> current st r = Some c -> current st' r = Some c -> ok_arg a st'.
Proof.
  intros H T N Nr Hc Hc'. assert (X : ok_arg (put_around r (a_around a r) a) st').
  { apply (arg_around a st); auto. rewrite Hc', <- Hc. apply H; auto. }
  apply (arg_same _ a st' X); try reflexivity. intro r'. cbn [put_around a_around]. destruct (ref_dec r' r) as [->|]; reflexivity.
Qed.
Lemma lay_update r st c d persist kw more l c' b : dwf kw -> dwf (opt_dict d) -> plain_opt (gives k d kw) ->
  (more = true <-> others_change k (c_vals c) (dupdate (opt_dict d) kw)) -> cfg_checked_update c d persist kw = Ok (c', b) ->
  lay_ok r (cs_disk st) l (Some c) ->
  match gives k d kw with
  | Some v => if (more || match l_val l with Some old => negb (equal old v) | None => false end)%bool
              then lay_ok r (cs_disk st) (Lay (Some v) (remember persist v (l_kept l)) (l_file l)) (Some c') else c' = c
  | None => lay_ok r (cs_disk st) l (Some c')
  end.
Proof.
  intros Wk Wd G M H ((S1 & S2 & S3) & P1 & P2 & P3 & N & Fr).
  assert (Pv : plain_opt (dget k (c_vals c))).
  { destruct (dget k (c_vals c)) as [v|], (l_val l) as [w|]; cbn [same_opt plain_opt] in *; try easy. now rewrite (same_plain _ _ S1). }
  destruct (checked_update_split k c d persist kw c' b more Wk Wd H Pv G M) as (Eb & Ec).
  destruct (gives k d kw) as [v|] eqn:Eg.
  - assert (Eh : here k (c_vals c) (dupdate (opt_dict d) kw) = match l_val l with Some old => negb (equal old v) | None => false end).
    { unfold here. rewrite <- gives_all, Eg by exact Wk. destruct (dget k (c_vals c)) as [w|], (l_val l) as [w'|]; cbn [same_opt plain_opt] in *; try easy.
      now rewrite (equal_same w' w v P1 G S1). }
    rewrite Eh in Eb. rewrite <- Eb. destruct b; [|exact Ec]. subst c'.
    destruct (updated_here c d persist kw k v Wk Wd Eg) as (B1 & B2). split.
    + split; [rewrite B1; apply same_refl|]. split; [|exact S3]. cbn [l_kept]. destruct persist; cbn [remember]; [rewrite B2 by reflexivity; apply same_refl|].
      exact S2.
    + split; [exact G|]. split; [destruct persist; [exact G|exact P2]|]. split; [exact P3|]. split; [discriminate|exact Fr].
  - assert (Es : dget k (c_vals c') = dget k (c_vals c) /\ dget k (c_applied c') = dget k (c_applied c) /\ c_file c' = c_file c).
    { rewrite Ec. destruct b; [|auto]. destruct (updated_other c d persist kw k Wk Wd Eg) as (-> & ->). auto. }
    destruct Es as (E1 & E2 & E3). split; [|rewrite E3; auto]. split; [now rewrite E1|]. split; [now rewrite E2|]. now rewrite E3.
Qed.
Lemma update_around a s d q persist kw more r c : okr a s -> outer path q -> dwf kw -> dwf (opt_dict d) -> plain_opt (gives k d kw) ->
  path_target (r_cms s) q = Some r -> current (r_cms s) r = Some c ->
  (more = true <-> others_change k (c_vals c) (dupdate (opt_dict d) kw)) ->
  snd (runner_update u d q persist kw s) = Ok tt ->
  okr (set_lay d persist kw more r a) (fst (runner_update u d q persist kw s)).
Proof.
  intros H O Wk Wd G Er Ecur M. assert (H' := H). destruct H' as (I & C & L). assert (I' := I). destruct I' as (I1 & I2 & I3).
  rewrite runner_update_eq. unfold bind at 1 2, on_cms. assert (Ci := update_cinv base d q persist kw (r_cms s) I1).
  destruct (cm_update d q persist kw (r_cms s)) as [st o] eqn:E. cbn [fst] in Ci.
  assert (S := cm_update_spec _ _ _ _ _ _ _ E). rewrite Er in S. destruct S as (T & S). rewrite Ecur in S.
  assert (N : near p r /\ r <> CItem p).
  { destruct q as [q|]; cbn [path_target outer] in *; [destruct O; eapply around_ref; eassumption|]. injection Er as <-. split; [exact Logic.I|discriminate]. }
  destruct N as (N & Nr).
  destruct (cfg_checked_update c d persist kw) as [[c1 b]|er] eqn:Ek; [|destruct S as (-> & _); discriminate].
  destruct S as (-> & Rc & _). apply read_current in Rc. intros _.
  assert (X : okr (set_lay d persist kw more r a) (RS st (r_loaded s) (r_next s) (r_calls s))).
  { apply (okr_cms a _ s st H Ci); [apply T| |apply set_lay_obj].
    assert (Lr : lay_ok r (cs_disk (r_cms s)) (a_around a r) (Some c)) by (rewrite <- Ecur; now apply C).
    assert (Y := lay_update r (r_cms s) c d persist kw more (a_around a r) c1 b Wk Wd G M Ek Lr). unfold set_lay, set_around. destruct (gives k d kw) as [v|].
    - destruct (more || _)%bool.
      + apply (arg_around a (r_cms s)); auto. now rewrite Rc.
      + subst c1. eapply arg_around_same; eassumption.
    - assert (Z : ok_arg (put_around r (a_around a r) a) st) by (apply (arg_around a (r_cms s)); auto; now rewrite Rc).
      apply (arg_same _ a st Z); try reflexivity. intro r'. cbn [put_around a_around]. destruct (ref_dec r' r) as [->|]; reflexivity. }
  unfold after_update, bind, loaded_at, gets. cbn [r_loaded]. rewrite (outer_loaded base path s q I O). exact X.
Qed.

(** * Refreshes *)
Definition kept_or_file (a : arg) : pyval := match a_kept a with Some w => w | None => file end.
Definition refreshed (more : bool) (a : arg) : arg :=
  if (more || negb (equal (a_own a) (kept_or_file a)))%bool
  then let b := Arg (kept_or_file a) (a_kept a) (a_obj a) (a_around a) in match a_obj a with Some _ => load (look p b) | None => b end
  else a.
Lemma refresh_updates_kept c a : dwf (c_applied c) -> dget k content = Some file -> same_opt (dget k (c_applied c)) (a_kept a) ->
  same_opt (dget k (dupdate content (c_applied c))) (Some (kept_or_file a)).
Proof.
  intros W F S. rewrite dget_dupdate by exact W. unfold kept_or_file. destruct (dget k (c_applied c)) as [v|], (a_kept a) as [w|]; cbn [same_opt] in *; try easy.
  rewrite F. apply same_refl.
Qed.
Lemma equal_sym_same v w w' : plain v = true -> plain w = true -> same_value w' w -> equal v w' = equal v w.
Proof.
  intros P Q S. assert (P' : plain w' = true) by (now rewrite (same_plain _ _ S)). apply Bool.eq_iff_eq_true. rewrite !equal_iff by assumption.
  split; intro H; [exact (same_trans _ _ _ H S)|exact (same_trans _ _ _ H (same_sym _ _ S))].
Qed.
Lemma refresh_ok a s more c : okr a s -> k <> "E" -> dget k content = Some file -> plain file = true ->
  current (r_cms s) (CItem p) = Some c -> (more = true <-> others_change k (c_vals c) (dupdate content (c_applied c))) ->
  snd (runner_refresh u path s) = Ok tt -> okr (refreshed more a) (fst (runner_refresh u path s)).
Proof.
  intros H Nk Hfile Pf Hc M. assert (H' := H). destruct H' as (I & C & L). assert (I' := I). destruct I' as (I1 & I2 & I3).
  destruct (runner_refresh u path s) as [s' rr] eqn:Er. cbn [fst snd]. intros ->.
  rewrite runner_refresh_eq in Er. unfold bind at 1, on_cms at 1 in Er. assert (Ci := refresh_cinv base path (r_cms s) I1).
  assert (W := tree_cms_wf _ (proj1 I1)).
  destruct (cm_refresh path (r_cms s)) as [st o] eqn:E. cbn [fst] in Ci.
  assert (S := cm_refresh_spec _ _ _ _ E). rewrite I2 in S. destruct S as (T & S). fold p in T, S.
  assert (C' := C). destruct C' as ((c0 & A1 & A2 & A3 & A4) & Ar & R & Po & Pk & Fl). assert (c0 = c) by congruence. subst c0.
  rewrite A1, A2, R in S. destruct (cfg_checked_refresh c content) as [[[c' b] ups]|er] eqn:Ek.
  2:{ destruct S as (-> & _). discriminate Er. }
  destruct S as (-> & Rc & _). apply read_current in Rc. assert (Wc : cfg_wf c) by exact (proj2 W _ _ A1).
  assert (Wct : dwf content) by exact (proj1 W _ _ R).
  assert (Pv : plain_opt (dget k (c_vals c))) by (apply same_opt_some in A3 as (v & -> & Sv); cbn; now rewrite (same_plain _ _ Sv)).
  assert (Pko : plain (kept_or_file a) = true) by (unfold kept_or_file; destruct (a_kept a); [exact Pk|exact Pf]).
  assert (Ru := refresh_updates_kept c a (proj2 Wc) Hfile A4).
  assert (Pu : plain_opt (dget k (dupdate content (c_applied c)))) by (apply same_opt_some in Ru as (v & -> & Sv); cbn; now rewrite (same_plain _ _ Sv)).
  destruct (checked_refresh_split k c content c' b ups more Wct (proj2 Wc) Nk Ek Pv Pu M) as (Eb & E1 & E2 & E3).
  assert (Eh : here k (c_vals c) (dupdate content (c_applied c)) = negb (equal (a_own a) (kept_or_file a))).
  { rewrite (here_same k _ _ (a_own a) A3 Po Pu). apply same_opt_some in Ru as (w & -> & Sw). f_equal. exact (equal_sym_same _ _ _ Po Pko Sw). }
  rewrite Eh in Eb. unfold refreshed. rewrite <- Eb. destruct b.
  - set (a1 := Arg (kept_or_file a) (a_kept a) (a_obj a) (a_around a)).
    assert (C1 : ok_arg a1 st).
    { eapply (arg_own a a1 (r_cms s) st c' C T Rc); try reflexivity; [congruence| | |exact Pko|exact Pk].
      - rewrite E3. apply same_opt_some in Ru as (w & -> & Sw). exact Sw.
      - rewrite E1. exact A4. }
    assert (X : okr a1 (RS st (r_loaded s) (r_next s) (r_calls s))) by (apply (okr_cms a a1 s st H Ci (proj1 T p) C1); reflexivity).
    unfold after_refresh in Er. unfold bind at 1, loaded_at, gets in Er. cbn [r_loaded] in Er. unfold ok_obj in L.
    destruct (dget path (r_loaded s)) as [ob|] eqn:El; destruct (a_obj a) as [v0|] eqn:Eo; try contradiction; [|injection Er as <-; exact X].
    destruct (config_ok a1 _ X) as (st2 & c2 & Eg & X2 & Wc2 & V). cbn [r_loaded r_next r_calls] in Eg, X2. unfold bind at 1 in Er. rewrite Eg in Er.
    unfold bind in Er. rewrite apply_config_eq in Er. destruct (applied_to u ob (c_vals c2)) as [ob'|er] eqn:Ea; [|discriminate]. cbn in Er. injection Er as <-.
    destruct X2 as (J & C2 & L2). apply same_opt_some in V as (v & V & Sv).
    assert (Ho : holds k x (a_own (look p a1)) ob') by exact (applied_holds u k x Hx ob _ ob' v0 (a_own (look p a1)) v (proj1 Wc2) Ea L V Sv).
    assert (Y := okr_set (load (look p a1)) _ ob' (r_next s) (r_calls s) (a_own (look p a1)) J (loaded_arg _ _ C2) eq_refl Ho). cbn [r_cms r_loaded] in Y.
    destruct Y as ((J1 & J2 & J3) & Y3 & Y4). split; [split; [exact J1|split; [exact J2|exact J3]]|]. split; [exact Y3|exact Y4].
  - assert (C1 : ok_arg a st).
    { eapply (arg_own a a (r_cms s) st c' C T Rc); try reflexivity; [congruence| | |exact Po|exact Pk].
      - rewrite E3. exact A3.
      - rewrite E1. exact A4. }
    assert (X : okr a (RS st (r_loaded s) (r_next s) (r_calls s))) by (apply (okr_cms a a s st H Ci (proj1 T p) C1); reflexivity).
    unfold after_refresh, bind, loaded_at, gets in Er. cbn [r_loaded] in Er. destruct (dget path (r_loaded s)); injection Er as <-; exact X.
Qed.
Lemma put_obj r l a : a_obj (put_around r l a) = a_obj a. Proof. reflexivity. Qed.
Definition refreshed_lay (l : lay) : lay := Lay (either (l_kept l) (either (l_file l) (l_val l))) (l_kept l) (l_file l).
Lemma lay_refresh r disk c ref ct l c' b ups : (forall f d, read_file disk f = Ok d -> dwf d) -> cfg_wf c -> k <> "E" ->
  c_file c = Some ref -> read_file disk ref = Ok ct -> cfg_checked_refresh c ct = Ok (c', b, ups) ->
  (exists more : bool, more = true <-> others_change k (c_vals c) (dupdate ct (c_applied c))) ->
  lay_ok r disk l (Some c) -> lay_ok r disk (refreshed_lay l) (Some c').
Proof.
  intros W Wc Nk Ef Er Ek (more & M) ((S1 & S2 & S3) & P1 & P2 & P3 & N & Fr). assert (Sf := S3 ref ct Ef Er).
  assert (Pv : plain_opt (dget k (c_vals c))).
  { destruct (dget k (c_vals c)) as [v|], (l_val l) as [w|]; cbn [same_opt plain_opt] in *; try easy. now rewrite (same_plain _ _ S1). }
  assert (Su : same_opt (dget k (dupdate ct (c_applied c))) (either (l_kept l) (l_file l))).
  { rewrite dget_dupdate by apply Wc. destruct (dget k (c_applied c)) as [v|], (l_kept l) as [w|]; cbn [same_opt either] in *; try easy. }
  assert (Pn : plain_opt (either (l_kept l) (l_file l))) by (destruct (l_kept l); [exact P2|exact P3]).
  assert (Pu : plain_opt (dget k (dupdate ct (c_applied c)))).
  { destruct (dget k (dupdate ct (c_applied c))) as [v|], (either (l_kept l) (l_file l)) as [w|]; cbn [same_opt plain_opt] in *; try easy. now rewrite (same_plain _ _ Su). }
  destruct (checked_refresh_split k c ct c' b ups more (W _ _ Er) (proj2 Wc) Nk Ek Pv Pu M) as (Eb & E1 & E2 & E3).
  assert (En : either (l_kept l) (either (l_file l) (l_val l)) = either (either (l_kept l) (l_file l)) (l_val l)) by (now destruct (l_kept l)).
  unfold refreshed_lay. rewrite En. split; [split; [|split]|].
  - cbn [l_val]. rewrite E3. destruct b.
    + now apply same_either.
    + symmetry in Eb. apply Bool.orb_false_iff in Eb as (_ & Eb). unfold here in Eb. destruct (either (l_kept l) (l_file l)) as [w|] eqn:Ee; cbn [either]; [|exact S1].
      destruct (l_val l) as [w'|] eqn:Ew; [|destruct (N eq_refl) as (Z1 & Z2); rewrite Z1, Z2 in Ee; discriminate].
      destruct (dget k (c_vals c)) as [v|]; [|destruct S1]. destruct (dget k (dupdate ct (c_applied c))) as [v'|]; [|destruct Su]. cbn [same_opt plain_opt] in *.
      apply Bool.negb_false_iff in Eb. apply equal_iff in Eb; [|assumption|assumption]. exact (same_trans _ _ _ Eb Su).
  - cbn [l_kept]. now rewrite E1.
  - cbn [l_file]. rewrite E2. exact S3.
  - cbn [l_val l_kept l_file]. split; [destruct (either (l_kept l) (l_file l)); [exact Pn|exact P1]|]. split; [exact P2|]. split; [exact P3|]. rewrite E2. split; [|exact Fr].
    destruct (l_kept l), (l_file l), (l_val l); cbn; try discriminate; auto.
Qed.
Lemma refresh_around a s q r c : okr a s -> k <> "E" -> q <> path -> (exists t, p = path_parts q ++ t) ->
  target (r_cms s) (path_parts q) = Some r -> current (r_cms s) r = Some c ->
  (forall ref ct, c_file c = Some ref -> read_file (cs_disk (r_cms s)) ref = Ok ct -> exists more : bool, more = true <-> others_change k (c_vals c) (dupdate ct (c_applied c))) ->
  snd (runner_refresh u q s) = Ok tt -> okr (put_around r (refreshed_lay (a_around a r)) a) (fst (runner_refresh u q s)).
Proof.
  intros H Nk Nq A Er Ecur M. assert (H' := H). destruct H' as (I & C & L). assert (I' := I). destruct I' as (I1 & I2 & I3).
  rewrite runner_refresh_eq. unfold bind at 1 2, on_cms at 1 2. assert (Ci := refresh_cinv base q (r_cms s) I1).
  assert (W := tree_cms_wf _ (proj1 I1)).
  destruct (cm_refresh q (r_cms s)) as [st o] eqn:E. cbn [fst] in Ci.
  assert (S := cm_refresh_spec _ _ _ _ E). rewrite Er in S. destruct S as (T & S). rewrite Ecur in S.
  destruct (around_ref path (r_cms s) q r I2 Nq A Er) as (N & Nr).
  destruct (c_file c) as [ref|] eqn:Ef; [|destruct S as (-> & _); discriminate].
  destruct (read_file (cs_disk (r_cms s)) ref) as [ct|er] eqn:Ed; [|destruct S as (-> & _); discriminate].
  specialize (M ref ct eq_refl Ed).
  destruct (cfg_checked_refresh c ct) as [[[c1 b] ups]|er] eqn:Ek; [|destruct S as (-> & _); discriminate].
  destruct S as (-> & Rc & _). apply read_current in Rc. intros _.
  assert (X : okr (put_around r (refreshed_lay (a_around a r)) a) (RS st (r_loaded s) (r_next s) (r_calls s))).
  { apply (okr_cms a _ s st H Ci (proj1 T p)); [|reflexivity]. apply (arg_around a (r_cms s) st r _ C T N Nr); [|now right]. rewrite Rc.
    apply (lay_refresh _ _ c ref ct _ c1 b ups); auto.
    - exact (proj1 W).
    - exact (proj2 W _ _ Ecur).
    - rewrite <- Ecur. now apply C. }
  unfold after_refresh, bind, loaded_at, gets. cbn [r_loaded]. rewrite (loaded_none base path s q I Nq A). exact X.
Qed.

(** * Resets *)
Lemma ddel_absent (n : string) (d : dict pyval) : dget n d = None -> ddel n d = d.
Proof. induction d as [|[k' v'] d IH]; [reflexivity|]. cbn [dget ddel]. destruct (String.eqb n k'); [discriminate|]. intro E. now rewrite IH. Qed.
Definition back (more : bool) (a : arg) : arg :=
  if (more || negb (equal (a_own a) file))%bool then hand_on (Arg file None (a_obj a) (a_around a)) else a.
Lemma reset_ok a s more c : okr a s -> k <> "d_" -> dget k content = Some file -> plain file = true ->
  current (r_cms s) (CItem p) = Some c -> (more = true <-> others_change k (c_vals c) (ddel "d_" content)) ->
  snd (runner_reset base u (Some path) false s) = Ok tt -> okr (back more a) (fst (runner_reset base u (Some path) false s)).
Proof.
  intros H Nk Hfile Pf Hc M. assert (H' := H). destruct H' as (I & C & L). assert (I' := I). destruct I' as (I1 & I2 & I3).
  destruct (runner_reset base u (Some path) false s) as [s' rr] eqn:Er. cbn [fst snd]. intros ->.
  unfold runner_reset, bind at 1, on_cms at 1 in Er. assert (Ci := reset_cinv base path (r_cms s) I2 I1).
  assert (W := tree_cms_wf _ (proj1 I1)).
  destruct (cm_reset base (Some path) false (r_cms s)) as [st o] eqn:E. cbn [fst] in Ci.
  destruct (cm_reset_item _ _ _ _ _ I2 E) as (T & S). fold p in T, S. assert (C' := C). destruct C' as ((c0 & A1 & A2 & A3 & A4) & Ar & R & Po & Pk & Fl).
  assert (c0 = c) by congruence. subst c0.
  rewrite R, A1 in S. assert (Wct : dwf content) by exact (proj1 W _ _ R).
  destruct (value_as_kwargs content) as [ups|er] eqn:Ev.
  2:{ destruct S as (-> & _). discriminate Er. }
  assert (Hu : ups = ddel "d_" content).
  { unfold value_as_kwargs in Ev. destruct (dmem "self" content || _ || _)%bool; [discriminate|].
    destruct (dget "d_" content) as [[]|] eqn:Ed; try discriminate; injection Ev as <-; [reflexivity|]. symmetry. now apply ddel_absent. }
  assert (Pv : plain_opt (dget k (c_vals c))) by (apply same_opt_some in A3 as (v & -> & Sv); cbn; now rewrite (same_plain _ _ Sv)).
  destruct (would_update c (Some ups) []) as [w|er] eqn:Ew.
  2:{ destruct S as (-> & _). discriminate Er. }
  assert (Eu : dget k ups = Some file) by (rewrite Hu, dget_ddel_neq by exact Nk; exact Hfile).
  assert (Wf : w = (more || negb (equal (a_own a) file))%bool).
  { unfold would_update in Ew. cbn [opt_dict] in Ew. rewrite dupdate_nil_r in Ew.
    assert (Wu : dwf ups) by (rewrite Hu; now apply ddel_wf). assert (Pu : plain_opt (dget k ups)) by (rewrite Eu; exact Pf).
    assert (Y := would_split k _ _ _ Wu Ew Pv Pu). rewrite Hu in Y at 1. rewrite <- M, <- Bool.orb_true_iff in Y.
    apply Bool.eq_iff_eq_true in Y. rewrite Y. f_equal. rewrite (here_same k _ _ (a_own a) A3 Po); rewrite Eu; [reflexivity|exact Pf]. }
  unfold back. rewrite <- Wf. destruct w.
  - destruct S as (-> & Rc & _). apply read_current in Rc.
    set (a1 := Arg file None (a_obj a) (a_around a)).
    assert (C1 : ok_arg a1 st).
    { eapply (arg_own a a1 (r_cms s) st (item_default p content) C T Rc); try reflexivity; [|exact Pf].
      change (c_vals (item_default p content)) with content. rewrite Hfile. apply same_refl. }
    assert (J : rinv base path (RS st (r_loaded s) (r_next s) (r_calls s))).
    { split; [exact Ci|]. split; [cbn [r_cms]; rewrite (proj1 T); exact I2|exact I3]. }
    unfold bind at 1, loaded_at, gets in Er. cbn [r_loaded] in Er. unfold hand_on. cbn [a_obj a1]. unfold ok_obj in L.
    destruct (dget path (r_loaded s)) as [ob|] eqn:El; destruct (a_obj a) as [v0|] eqn:Eo; try contradiction.
    + cbn [opt_path] in Er. change (c_vals (item_default p content)) with content in Er. unfold bind at 1 in Er. rewrite apply_config_eq in Er.
      destruct (applied_to u ob content) as [ob'|er] eqn:Ea; [|discriminate Er]. cbn [r_cms r_loaded r_next r_calls] in Er.
      assert (Ho : holds k x file ob') by exact (applied_holds u k x Hx ob _ ob' v0 file file Wct Ea L Hfile (same_refl _)).
      assert (Y := okr_set (load a1) (RS st (r_loaded s) (r_next s) (r_calls s)) ob' (r_next s) (r_calls s) file J (loaded_arg _ _ C1) eq_refl Ho). cbn [r_cms r_loaded] in Y.
      unfold bind, lift in Er. destruct (post_reset_updates content) as [us|er]; [|discriminate Er]. injection Er as <-.
      destruct Y as ((J1 & J2 & J3) & Y3 & Y4). split; [split; [exact J1|split; [exact J2|exact J3]]|]. split; [exact Y3|exact Y4].
    + injection Er as <-. split; [exact J|]. split; [exact C1|]. unfold ok_obj. cbn [r_loaded a_obj a1]. now rewrite El.
  - destruct S as (-> & Rc & _). apply read_current in Rc.
    assert (C1 : ok_arg a st) by (eapply (arg_own a a (r_cms s) st c C T Rc); eauto).
    assert (X : okr a (RS st (r_loaded s) (r_next s) (r_calls s))) by (apply (okr_cms a a s st H Ci (proj1 T p) C1); reflexivity).
    unfold bind, loaded_at, gets in Er. cbn [r_loaded] in Er. destruct (dget path (r_loaded s)); injection Er as <-; exact X.
Qed.
Lemma reset_local_ok a s ac : okr a s -> okr (put_around CLocal (Lay None None None) a) (fst (runner_reset base u None ac s)).
Proof.
  intros H. assert (H' := H). destruct H' as (I & C & L). assert (I' := I). destruct I' as (I1 & I2 & I3).
  unfold runner_reset. unfold bind at 1, on_cms. assert (Ci := reset_local_cinv base ac (r_cms s) I1).
  assert (T : touches CLocal (r_cms s) (fst (cm_reset base None ac (r_cms s)))) by (cbn; repeat split; congruence).
  assert (D : cs_local (fst (cm_reset base None ac (r_cms s))) = empty_config) by reflexivity.
  destruct (cm_reset base None ac (r_cms s)) as [st o]. cbn [fst] in *.
  assert (X : okr (put_around CLocal (Lay None None None) a) (RS st (r_loaded s) (r_next s) (r_calls s))).
  { apply (okr_cms a _ s st H Ci (proj1 T p)); [|reflexivity]. apply (arg_around a (r_cms s) st CLocal _ C T Logic.I); [discriminate| |now left].
    cbn [current]. rewrite D. repeat split. intros ref ct F. discriminate F. }
  destruct o as [[df b]|]; exact X.
Qed.

Lemma reset_section a s q : okr a s -> dget k content = Some file -> plain file = true -> q <> path -> (exists t, p = path_parts q ++ t) ->
  snd (runner_reset base u (Some q) false s) = Ok tt -> okr (read_again (path_parts q) file a) (fst (runner_reset base u (Some q) false s)).
Proof.
  intros H Hfile Pf Nq A. assert (H' := H). destruct H' as (I & C & L). assert (I' := I). destruct I' as (I1 & I2 & I3).
  assert (Nt : exists t, t <> [] /\ p = path_parts q ++ t).
  { destruct A as (t & E). exists t. split; [|exact E]. intros ->. apply Nq. rewrite app_nil_r in E. change (split dot path = split dot q) in E.
    rewrite <- (join_split dot q), <- (join_split dot path). now rewrite E. }
  destruct Nt as (t & Nt & Ep).
  assert (Sp : exists v, see (r_cms s) p = Some v) by (fold p in I2; unfold target in I2; destruct (see (r_cms s) p); [eauto|discriminate]). destruct Sp as (v & Sp).
  destruct (prefix_is_section (r_cms s) p (path_parts q) v Sp) as (n & own & Sq); [eauto|].
  destruct (runner_reset base u (Some q) false s) as [s' rr] eqn:Er. cbn [fst snd]. intros ->.
  unfold runner_reset, bind at 1, on_cms at 1 in Er. assert (Ci := section_cinv base q (r_cms s) n own Sq I1).
  destruct (cm_reset base (Some q) false (r_cms s)) as [st o] eqn:E. cbn [fst] in Ci. assert (S := cm_reset_section _ _ _ _ _ _ _ Sq E).
  destruct own as [c|]; [destruct S as (_ & ->); discriminate Er|].
  destruct (from_files_at base (cs_disk (r_cms s)) (path_parts q)) as [sc|e] eqn:F; [|destruct S as (_ & ->); discriminate Er].
  destruct S as (-> & (El & Ed & _) & Out & In). destruct C as ((c & A1 & A2 & A3 & A4) & Ar & R & Po & Pk & (m & Fp) & Fl).
  assert (Dok : disk_ok (cs_disk (r_cms s))) by apply I1.
  assert (Fp' := Fp). rewrite Ep in Fp'. destruct (walk _ _ _ _ _ _ _ _ (path_parts_nonempty q) Nt Fp') as (d' & Fd & W). cbn [app] in W.
  assert (Sn : forall t', see st (path_parts q ++ t') = disk_seen mgr_reserved base [] (cs_disk (r_cms s)) (path_parts q ++ t')).
  { intro t'. rewrite In, W. unfold from_files_at in F. rewrite Fd in F. exact (from_files_seen t' sec_reserved _ _ _ _ (proj1 (find_dir_ok _ _ _ Dok Fd)) F). }
  assert (Sp' : see st p = Some (SFile (item_file p) m)) by (rewrite Ep, Sn, <- Ep; exact Fp).
  assert (X : okr (read_again (path_parts q) file a) (RS st (r_loaded s) (r_next s) (r_calls s))).
  { split; [split; [exact Ci|split; [cbn [r_cms]; fold p; unfold target; now rewrite Sp'|exact I3]]|]. split; [|exact L]. cbn [r_cms].
    split; [|split; [|split; [rewrite Ed; exact R|split; [exact Pf|split; [exact Logic.I|]]]]].
    - exists (loaded_config m (item_file p) content). cbn [current]. rewrite Sp', Ed, R. split; [reflexivity|]. split; [reflexivity|].
      cbn [loaded_config c_vals c_applied read_again a_own a_kept]. rewrite Hfile. split; [apply same_refl|exact Logic.I].
    - intros r N Nr. cbn [read_again a_around]. rewrite Ed. destruct (below (path_parts q) r) eqn:B.
      + destruct r as [|y|y]; try discriminate. apply begins_iff in B as (t' & ->). specialize (Fl _ N). cbn [current]. rewrite Sn. unfold says in Fl.
        destruct (disk_seen mgr_reserved base [] (cs_disk (r_cms s)) (path_parts q ++ t')) as [[c0|ref n0|n0 [c0|]|c0]|] eqn:Es; try exact Fl.
        destruct Fl as (F1 & F2). destruct (own_file _ _ _ _ _ _ _ Es) as (m' & ct & -> & Rf). cbn [loaded_config c_vals] in F1.
        split; [|cbn [l_val l_kept l_file]; split; [exact F2|split; [exact Logic.I|split; [exact F2|auto]]]].
        rewrite F1. split; [apply same_opt_refl|]. split; [exact Logic.I|]. cbn [loaded_config c_file l_file]. intros ref ct' [= <-] Rf'. cbn [app] in Rf'.
        rewrite Rf in Rf'. injection Rf' as <-. apply same_opt_refl.
      + assert (Ec : current st r = current (r_cms s) r); [|rewrite Ec; exact (Ar r N Nr)].
        destruct r as [|y|y]; cbn [current]; [now rewrite El| |].
        * exfalso. apply Nr. f_equal. exact N.
        * rewrite Out; [reflexivity|]. intros t' ->. cbn [below] in B. assert (begins (path_parts q) (path_parts q ++ t') = true) by (apply begins_iff; eauto). congruence.
    - rewrite Ed. apply (filed_same _ (a_around a)); [|split; [now exists m|exact Fl]]. intros y _. cbn [read_again a_around]. now destruct (below (path_parts q) (CSec y)). }
  unfold bind, loaded_at, gets in Er. cbn [r_loaded] in Er. rewrite (loaded_none base path s q I Nq A) in Er. injection Er as <-. exact X.
Qed.

(** * Whole histories *)
Lemma foreign_ok a s op : foreign base p op -> okr a s -> okr a (rop_run base its u s op).
Proof.
  intros F (I & C & L). destruct (foreign_rstp base its u path op s Hpre F I) as (I' & Fr & Lr). split; [exact I'|].
  split; [exact (arg_frame _ _ _ C Fr)|]. unfold ok_obj in *. now rewrite Lr.
Qed.

Lemma put_far r l a s : ~ near p r -> okr a s -> okr (put_around r l a) s.
Proof.
  intros F (I & C & L). split; [exact I|]. split; [|exact L]. destruct C as ((c & H1 & H2 & H3 & H4) & A & R & P & Q & Fl).
  split; [exists c; auto|]. split.
  - intros r' N Nr. cbn [put_around a_around]. destruct (ref_dec r' r) as [->|]; [contradiction|]. now apply A.
  - repeat (split; [assumption|]). apply (filed_same _ (a_around a)); [|exact Fl]. intros q N. cbn [put_around a_around]. destruct (ref_dec (CSec q) r) as [<-|]; [contradiction|reflexivity].
Qed.
Lemma foreign_move a s op more : foreign base p op -> okr a s -> okr (move path k file more op a) s.
Proof.
  intros F H. assert (Ne : forall q, (forall t, p <> path_parts q ++ t) -> String.eqb q path = false).
  { intros q Nq. destruct (String.eqb_spec q path) as [->|]; [|reflexivity]. exfalso. apply (Nq []). now rewrite app_nil_r. }
  assert (Fr : forall q, (forall t, p <> path_parts q ++ t) -> ~ near p (CSec (path_parts q))).
  { intros q Nq (t & _ & E). exact (Nq t E). }
  destruct op as [q|set [q|l]|d [q|] persist kw|[q|] [|]|q]; cbn [foreign move] in *; try contradiction; try exact H;
    try (destruct F as (F & _); rewrite (Ne q F)); try exact H.
  - destruct (gives k d kw) as [v|]; [|exact H]. unfold set_around. destruct (more || _)%bool; [|exact H]. apply put_far; auto.
  - destruct (begins (path_parts q) (path_parts path)) eqn:B; [|exact H]. exfalso. apply begins_iff in B as (t & B). exact (F t B).
  - apply put_far; auto.
Qed.
Lemma near_section st q : target st p = Some (CItem p) -> q <> path -> (exists t, p = path_parts q ++ t) ->
  target st (path_parts q) = Some (CSec (path_parts q)).
Proof.
  intros Ht Nq (t & E). destruct t as [|y t].
  - exfalso. apply Nq. rewrite app_nil_r in E. change (split dot path = split dot q) in E. rewrite <- (join_split dot q), <- (join_split dot path). now rewrite E.
  - assert (Sp : exists v, see st p = Some v) by (unfold target in Ht; destruct (see st p); [eauto|discriminate]). destruct Sp as (v & Sp).
    destruct (prefix_is_section st p (path_parts q) v Sp) as (n & own & Sq); [exists (y :: t); split; [discriminate|exact E]|].
    unfold target. now rewrite Sq.
Qed.
Lemma step_ok a s op more : accepting its u path x -> k <> "d_" -> k <> "E" -> dget k content = Some file -> plain file = true ->
  permitted base path k op -> passes base u path s op -> (more = true <-> changes_more k s op) -> okr a s ->
  okr (move path k file more op a) (rop_run base its u s op).
Proof.
  intros ((b & th & Hf & K) & Ki) Nd NE Hfile Pf A G M H.
  assert (Hinit : th = TFunc x \/ forall args, u_init u x args = None).
  { destruct Ki as [(b' & Hf')|Ki]; [left; congruence|now right]. }
  destruct A as [F|A]; [apply foreign_ok; [exact F|]; now apply foreign_move|].
  assert (H' := H). destruct H' as (I & C & L). assert (I' := I). destruct I' as (I1 & I2 & I3). assert (C' := C).
  destruct C' as ((c & A1 & A2 & A3 & A4) & _ & R & _). assert (A1' : current (r_cms s) (CItem (path_parts path)) = Some c) by exact A1. assert (I2' : target (r_cms s) p = Some (CItem p)) by exact I2.
  destruct op as [q|set [q|l]|d [q|] persist kw|[q|] [|]|q]; cbn [move rop_run passes changes_more permitted] in *; try contradiction.
  - subst q. rewrite String.eqb_refl. exact (get_ok b th Hf Hinit a s H K).
  - subst q. rewrite String.eqb_refl. fold p. rewrite <- obtain_look. exact (proj1 (run_ok b th Hf Hinit a s set H K)).
  - destruct A as (Wk & Wd & Pg & A). assert (G' := G A). clear G.
    assert (Pg' : plain_opt (gives k d kw)) by (destruct (gives k d kw); cbn; auto).
    destruct (String.eqb_spec q path) as [->|Nq].
    + assert (X := update_ok a s d persist kw more c H Wk Wd Pg' A1).
      assert (Y : updated d persist kw more a = match gives k d kw with
        | Some v => if more || negb (equal (a_own a) v) then hand_on (Arg v (remember persist v (a_kept a)) (a_obj a) (a_around a)) else a
        | None => if (true && more)%bool then hand_on a else a end) by (unfold updated; now destruct (gives k d kw)).
      rewrite <- Y. apply X; [|exact G']. rewrite M, I2, A1'. fold (opt_dict d). split; [intros (c0 & [= <-] & Z); exact Z|intro Z; exists c; now split].
    + assert (Tq := near_section (r_cms s) q I2' Nq A). rewrite Tq in M.
      assert (Ec : exists c0, current (r_cms s) (CSec (path_parts q)) = Some c0).
      { destruct (current (r_cms s) (CSec (path_parts q))) as [c0|] eqn:E0; [eauto|]. exfalso. revert G'. rewrite runner_update_eq. unfold bind at 1, on_cms.
        destruct (cm_update d (Some q) persist kw (r_cms s)) as [st o] eqn:E. assert (S := cm_update_spec _ _ _ _ _ _ _ E).
        cbn [path_target] in S. rewrite Tq, E0 in S. destruct S as (_ & _ & e & ->). discriminate. }
      destruct Ec as (c0 & Ec).
      assert (X := update_around a s d (Some q) persist kw more (CSec (path_parts q)) c0 H (conj Nq A) Wk Wd Pg' Tq Ec).
      assert (Y : okr (set_lay d persist kw more (CSec (path_parts q)) a) (fst (runner_update u d (Some q) persist kw s))).
      { apply X; [|exact G']. rewrite M, Ec. fold (opt_dict d). split; [intros (c1 & [= <-] & Z); exact Z|intro Z; exists c0; now split]. }
      unfold set_lay in Y. destruct (gives k d kw); exact Y.
  - destruct A as (Wk & Wd & Pg & A). assert (Pg' : plain_opt (gives k d kw)) by (destruct (gives k d kw); cbn; auto).
    assert (X := update_around a s d None persist kw more CLocal (cs_local (r_cms s)) H Logic.I Wk Wd Pg' eq_refl eq_refl).
    apply X; [|exact (G Logic.I)]. rewrite M. fold (opt_dict d). split; [intros (c1 & [= <-] & Z); exact Z|intro Z; exists (cs_local (r_cms s)); now split].
  - destruct (String.eqb_spec q path) as [->|Nq].
    2:{ assert (B : begins (path_parts q) (path_parts path) = true) by now apply begins_iff. rewrite B. now apply reset_section; auto. }
    apply (reset_ok a s more c H Nd Hfile Pf A1); [|apply G; exists []; now rewrite app_nil_r].
    rewrite M, I2, A1'. split; [intros (c0 & [= <-] & Z); rewrite A2, R in Z; exact Z|]. intro Z. exists c. split; [reflexivity|]. now rewrite A2, R.
  - now apply reset_local_ok.
  - now apply reset_local_ok.
  - assert (G' := G A). clear G. destruct (String.eqb_spec q path) as [->|Nq].
    + apply (refresh_ok a s more c H NE Hfile Pf A1); [|exact G'].
      rewrite M, I2, A1'. split; [intros (c0 & [= <-] & Z); rewrite A2, R in Z; exact Z|]. intro Z. exists c. split; [reflexivity|]. now rewrite A2, R.
    + assert (Tq := near_section (r_cms s) q I2' Nq A). rewrite Tq in M.
      assert (Ec : exists c0, current (r_cms s) (CSec (path_parts q)) = Some c0).
      { destruct (current (r_cms s) (CSec (path_parts q))) as [c0|] eqn:E0; [eauto|]. exfalso. revert G'. rewrite runner_refresh_eq. unfold bind at 1, on_cms.
        destruct (cm_refresh q (r_cms s)) as [st o] eqn:E. assert (S := cm_refresh_spec _ _ _ _ E).
        rewrite Tq, E0 in S. destruct S as (_ & _ & e & ->). discriminate. }
      destruct Ec as (c0 & Ec). apply (refresh_around a s q (CSec (path_parts q)) c0 H NE Nq A Tq Ec); [|exact G'].
      intros ref ct Ef Er. exists more. rewrite M, Ec. split; [intros (c1 & [= <-] & Z); rewrite Ef, Er in Z; exact Z|].
      intro Z. exists c0. split; [reflexivity|]. now rewrite Ef, Er.
Qed.

(** whether more changes can be decided *)
Definition others_b (vals us : dict pyval) : bool :=
  existsb (fun n => (negb (String.eqb n k) && match dget n vals, dget n us with
    | Some v, Some w => match values_are_equal v w with Ok true => false | _ => true end | _, _ => false end)%bool) (dkeys vals).
Lemma others_dec (vals us : dict pyval) : others_b vals us = true <-> others_change k vals us.
Proof.
  unfold others_b. rewrite existsb_exists. split.
  - intros (n & In & E). apply andb_prop in E as (E1 & E2). apply Bool.negb_true_iff, String.eqb_neq in E1.
    destruct (dget n vals) as [v|] eqn:Ev; [|discriminate]. destruct (dget n us) as [w|] eqn:Ew; [|discriminate]. exists n, v, w. repeat split; auto.
    intro Z. rewrite Z in E2. discriminate.
  - intros (n & v & w & N & Ev & Ew & Z). exists n. split; [apply dget_Some_In in Ev; apply in_map_iff; exists (n, v); now split|].
    apply String.eqb_neq in N. rewrite N, Ev, Ew. cbn. destruct (values_are_equal v w) as [[]|]; [congruence|reflexivity|reflexivity].
Qed.
Definition more_b (s : rs) (op : rop) : bool :=
  let st := r_cms s in
  let config_at q := match target st (path_parts q) with Some r => current st r | None => None end in
  let from_file c := match c_file c with Some ref => match read_file (cs_disk st) ref with Ok d => d | Raise _ => [] end | None => [] end in
  let among o f := match o with Some c => others_b (c_vals c) (f c) | None => false end in
  match op with
  | RUpdate d q _ kw => among match q with Some q => config_at q | None => Some (cs_local st) end (fun _ => dupdate match d with Some e => e | None => [] end kw)
  | RReset (Some q) _ => among (config_at q) (fun c => ddel "d_" (from_file c))
  | RRefresh q => among (config_at q) (fun c => dupdate (from_file c) (c_applied c))
  | _ => false
  end.
Lemma more_dec s op : more_b s op = true <-> changes_more k s op.
Proof.
  assert (Some_dec : forall (o : option config) (f : config -> dict pyval),
    match o with Some c => others_b (c_vals c) (f c) | None => false end = true <-> exists c, o = Some c /\ others_change k (c_vals c) (f c)).
  { intros [c|] f; [|split; [discriminate|intros (c & [=] & _)]]. rewrite others_dec.
    split; [intro Z; exists c; now split|]. intros (c' & [= <-] & Z). exact Z. }
  destruct op as [q|set [q|l]|d q persist kw|[q|] ac|q]; cbn [changes_more more_b]; try (split; [discriminate|contradiction]);
    match goal with |- _ <-> exists c, ?o = Some c /\ others_change k (c_vals c) (@?f c) => exact (Some_dec o f) end.
Qed.
Fixpoint flags_of (s : rs) (ops : list rop) : list bool :=
  match ops with [] => [] | op :: rest => more_b s op :: flags_of (rop_run base its u s op) rest end.
Lemma moves_flags ops : forall s a,
  moves base its u path k file s ops a (fold_left (fun a fo => move path k file (fst fo) (snd fo) a) (List.combine (flags_of s ops) ops) a).
Proof.
  induction ops as [|op ops IH]; intros s a; [reflexivity|]. exists (more_b s op). split; [apply more_dec|]. exact (IH _ _).
Qed.
Lemma history_ok ops : accepting its u path x -> k <> "d_" -> k <> "E" -> dget k content = Some file -> plain file = true ->
  forall a s, (forall op, In op ops -> permitted base path k op) -> all_pass base its u path s ops -> okr a s ->
  exists a', moves base its u path k file s ops a a'.
Proof.
  intros Hi Nd NE Hfile Pf. induction ops as [|op ops IH]; intros a s A G H; [exists a; reflexivity|]. destruct G as (G & G').
  set (more := more_b s op). assert (M := more_dec s op). fold more in M. destruct (IH (move path k file more op a) (rop_run base its u s op)) as (a' & Ha); auto.
  - intros o Io. apply A. now right.
  - apply step_ok; auto. apply A. now left.
  - exists a'. cbn [moves]. eauto.
Qed.
Lemma moves_ok ops : accepting its u path x -> k <> "d_" -> k <> "E" -> dget k content = Some file -> plain file = true ->
  forall a s a', (forall op, In op ops -> permitted base path k op) -> all_pass base its u path s ops -> okr a s ->
  moves base its u path k file s ops a a' -> okr a' (fold_left (rop_run base its u) ops s).
Proof.
  intros Hi Nd NE Hfile Pf. induction ops as [|op ops IH]; intros a s a' A G H Mv; [cbn in Mv; now subst a'|]. destruct G as (G & G').
  destruct Mv as (more & M & Mv). apply (IH (move path k file more op a) (rop_run base its u s op)); auto.
  - intros o Io. apply A. now right.
  - apply step_ok; auto. apply A. now left.
Qed.
Lemma okr_shows a s : okr a s -> a_shows path k a s.
Proof.
  intros (I & ((c & H1 & H2 & H3 & H4) & A & R & P & Q & Fl) & L). split; [|split].
  - exists c. auto.
  - intros r cr Ir Hr. destruct (refs_near r Ir) as (N & Nr). assert (X := A r N Nr). rewrite Hr in X. apply X.
  - unfold ok_obj in L. destruct (dget path (r_loaded s)) as [o|], (a_obj a) as [v|]; try contradiction; auto.
    destruct L as (_ & w & Hw & Sw). split; [|discriminate]. rewrite Hw. exact Sw.
Qed.
End Item.

(** * The start *)
Lemma near_refs p r : p <> [] -> near p r -> r <> CItem p -> In r (refs p).
Proof.
  intros Np N Nr. unfold refs. destruct r as [|q|q]; [now left| |].
  - exfalso. apply Nr. f_equal. exact N.
  - right. apply in_or_app. destruct N as (t & Nt & E). destruct q as [|y q]; [right; now left|]. left. apply in_map. apply -> in_rev.
    subst p. clear Nr Np. revert y. induction q as [|z q IH]; intro y.
    + destruct t as [|z t]; [contradiction|]. cbn [app]. now left.
    + change ((y :: z :: q) ++ t) with (y :: (z :: q) ++ t).
      change (prefixes (y :: (z :: q) ++ t)) with ([y] :: map (cons y) (prefixes ((z :: q) ++ t))). right. apply in_map. apply IH.
Qed.
Lemma start_item disk base p st : see st p = disk_seen mgr_reserved base [] disk p -> target st p = Some (CItem p) ->
  exists m, see st p = Some (SFile (item_file p) m).
Proof.
  intros Sn T. assert (Sf : exists ref m, see st p = Some (SFile ref m)).
  { unfold target in T. destruct (see st p) as [[c|ref m|m own|c]|] eqn:Es; try discriminate; [|eauto]. exfalso.
    symmetry in Sn. clear - Sn. revert Sn. generalize mgr_reserved, base, (@nil string), disk. induction p as [|y rest IH]; intros rs nm rel d Sn; [discriminate|].
    cbn [disk_seen] in Sn. destruct (mem y rs); [discriminate|].
    assert (B : match (if hidden y then None else dget y (dir_subs d)) with
              | Some d' => disk_seen sec_reserved y (rel ++ [y]) d' rest
              | None => if String.eqb y "section" then None
                        else if dmem (y ++ ".py")%string (dir_files d)
                             then match rest with [] => Some (SFile (rel, (y ++ ".py")%string) y) | _ => None end
                             else None
              end <> Some (SConf c)).
    { destruct (if hidden y then None else dget y (dir_subs d)) as [d'|]; [exact (IH _ _ _ _)|]. destruct (String.eqb y "section"); [discriminate|].
      destruct (dmem (y ++ ".py")%string (dir_files d)); [|discriminate]. destruct rest; discriminate. }
    destruct (folder_config nm rel d); [|contradiction]. destruct (String.eqb y nm); [destruct rest; discriminate|contradiction]. }
  destruct Sf as (ref & m & Sf). exists m. rewrite Sf. f_equal. f_equal. rewrite Sn in Sf. exact (disk_file _ _ _ _ _ _ _ Sf).
Qed.
Lemma start_ok base path k x content file disk n s : disk_ok disk -> runner_load base disk n = Ok s ->
  target (r_cms s) (path_parts path) = Some (CItem (path_parts path)) -> read_file disk (item_file (path_parts path)) = Ok content ->
  dget k content = Some file -> plain file = true ->
  (forall r c v, In r (refs (path_parts path)) -> current (r_cms s) r = Some c -> dget k (c_vals c) = Some v -> plain v = true) ->
  okr base path k x content (OneArg_Spec.from_files k file (r_cms s)) s.
Proof.
  intros D L T R F P U. destruct (agree_load base path disk n s D L T) as (I & _). split; [exact I|].
  unfold runner_load in L. destruct (cm_load base disk) as [st|] eqn:E; [|discriminate]. injection L as <-. cbn [r_cms r_loaded] in *.
  split; [|exact Logic.I]. unfold cm_load, from_files_at in E. cbn [find_dir last] in E.
  destruct (ConfigTree_Model.from_files base [] disk) as [root|] eqn:Ff; [|discriminate]. injection E as <-.
  set (st := CMS root empty_config disk []) in *. set (p := path_parts path) in *.
  assert (Sn : forall q, see st q = disk_seen mgr_reserved base [] disk q).
  { intro q. rewrite see_eq. unfold lookup_at. cbn [cs_root st]. exact (from_files_seen q mgr_reserved _ _ _ _ (proj1 D) Ff). }
  assert (Np : p <> []) by apply path_parts_nonempty.
  split; [|split; [|split; [exact R|split; [exact P|split; [exact Logic.I|]]]]].
  - destruct (start_item disk base p st (Sn p) T) as (m & Sf). exists (loaded_config m (item_file p) content). cbn [r_cms current]. fold p. rewrite Sf. cbn [cs_disk st]. rewrite R.
    split; [reflexivity|]. split; [reflexivity|]. cbn [loaded_config c_vals c_applied]. rewrite F. split; [apply same_refl|exact Logic.I].
  - intros r N Nr. assert (Ir := near_refs p r Np N Nr). assert (Ur := U r). unfold lay_ok, OneArg_Spec.from_files. cbn [a_around].
    destruct (current st r) as [c|] eqn:Ec; [|reflexivity]. specialize (Ur c). cbn [l_val l_kept l_file].
    assert (Pv : plain_opt (dget k (c_vals c))) by (destruct (dget k (c_vals c)) as [v|]; [exact (Ur v Ir eq_refl eq_refl)|exact Logic.I]).
    assert (Sc : dget k (c_applied c) = None /\ forall ref ct, c_file c = Some ref -> read_file disk ref = Ok ct -> dget k ct = dget k (c_vals c)).
    { destruct r as [|q|q]; [injection Ec as <-; split; [reflexivity|discriminate]|exfalso; apply Nr; f_equal; exact N|].
      cbn [current] in Ec. rewrite Sn in Ec. destruct (disk_seen mgr_reserved base [] disk q) as [[| |m own|]|] eqn:Es; try discriminate. subst own.
      destruct (own_file _ _ _ _ _ _ _ Es) as (m' & ct & -> & Rf). split; [reflexivity|]. cbn [loaded_config c_file c_vals]. intros ref ct' [= <-] Rf'. cbn [app] in Rf'. congruence. }
    assert (Fr : c_file c = ref_file r).
    { destruct r as [|q|q]; [injection Ec as <-; reflexivity|exfalso; apply Nr; f_equal; exact N|].
      cbn [current] in Ec. rewrite Sn in Ec. destruct (disk_seen mgr_reserved base [] disk q) as [[| |m own|]|] eqn:Es; try discriminate. subst own.
      destruct (own_file _ _ _ _ _ _ _ Es) as (m' & ct & -> & Rf). reflexivity. }
    destruct Sc as (S1 & S2). split; [split; [apply same_opt_refl|split; [now rewrite S1|]]|].
    + intros ref ct E1 E2. rewrite (S2 ref ct E1 E2). apply same_opt_refl.
    + cbn [l_val l_kept l_file]. split; [exact Pv|]. split; [exact Logic.I|]. split; [exact Pv|auto].
  - split; [destruct (start_item disk base p st (Sn p) T) as (m & Sf); exists m; now rewrite <- Sn|].
    intros q N. unfold says, OneArg_Spec.from_files. cbn [a_around current r_cms cs_disk st]. fold st. assert (Ir := near_refs p (CSec q) Np N ltac:(discriminate)).
    rewrite <- Sn. assert (Uq := U (CSec q)). cbn [current] in Uq. destruct (see st q) as [[c0|ref n0|n0 [c0|]|c0]|]; try reflexivity. cbn [l_file].
    split; [reflexivity|]. destruct (dget k (c_vals c0)) as [v|] eqn:Ev; [exact (Uq c0 v Ir eq_refl Ev)|exact Logic.I].
Qed.
