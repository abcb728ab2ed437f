From Verif Require Import Isolation_Spec Config_Proofs ConfigTree_Proofs ConfigOps_Proofs ConfigLoad_Proofs ConfigWf_Proofs Runner_Proofs Run_Proofs SectionPath_Proofs RunnerOps_Proofs.
From Coq Require Import Lia.
Local Open Scope string_scope.
Local Open Scope list_scope.
Local Open Scope monad_scope.

(** the config objects that matter for the item at [p] *)
Definition near (p : list string) (r : cref) : Prop :=
  match r with CLocal => True | CItem q => q = p | CSec q => exists t, t <> [] /\ p = q ++ t end.

(** an own config of a section is found under the section's name only *)
Definition named (base : string) (st : cms) : Prop :=
  forall q c, see st q = Some (SSelf c) -> last q "" = last (removelast q) base.

Lemma see_nil st : exists n own, see st [] = Some (SSec n own).
Proof. unfold see. cbn. eauto. Qed.

Lemma self_target st q : (exists c, see st q = Some (SSelf c)) <-> q <> [] /\ target st q = Some (CSec (removelast q)).
Proof.
  split.
  - intros (c & E). split; [intros ->; destruct (see_nil st) as (n & o & E'); congruence|]. unfold target. now rewrite E.
  - intros (N & T). unfold target in T. destruct (see st q) as [[c|ref n|n own|c]|] eqn:E; try discriminate; [|eauto].
    injection T as T. exfalso. rewrite (app_removelast_last "" N) in T at 1. apply (f_equal (@List.length string)) in T.
    rewrite app_length in T. cbn in T. lia.
Qed.

Lemma named_touches base r st st' : touches r st st' -> named base st -> named base st'.
Proof.
  intros (T & _) N q c E. assert (X : exists c, see st' q = Some (SSelf c)) by eauto. apply self_target in X as (Nq & X).
  rewrite T in X. destruct (proj2 (self_target st q) (conj Nq X)) as (c' & E'). exact (N q c' E').
Qed.

(** * One step of another item *)

Definition cinv (base : string) (st : cms) : Prop := tree_wf st /\ named base st.

(** nothing about the item changes *)
Definition cframe (p : list string) (a a' : cms) : Prop :=
  cs_disk a' = cs_disk a /\ target a' p = target a p /\ see a' p = see a p /\ (forall r, near p r -> read_cref a' r = read_cref a r).
Lemma cframe_refl p a : cframe p a a. Proof. repeat split. Qed.
Lemma cframe_trans p a b c : cframe p a b -> cframe p b c -> cframe p a c.
Proof.
  intros (A1 & A2 & A3 & A4) (B1 & B2 & B3 & B4). split; [congruence|]. split; [congruence|]. split; [congruence|].
  intros r N. rewrite B4, A4 by exact N. reflexivity.
Qed.

Lemma cframe_touches p r a a' : target a p = Some (CItem p) -> ~ near p r -> touches r a a' -> cframe p a a'.
Proof.
  intros T N H. assert (H' := H). destruct H' as (H1 & H2 & H3 & H4). split; [exact H4|]. split; [apply H1|].
  split; [apply H2; rewrite T; intros [= <-]; now apply N|]. intros r' N'. apply (touches_read _ _ _ _ H). intros ->. contradiction.
Qed.

Lemma apart_not_near base p a q r : named base a -> apart base p q -> target a q = Some r -> ~ near p r.
Proof.
  intros N (A1 & A2) T X. unfold target in T. destruct (see a q) as [[c|ref n|n own|c]|] eqn:E; try discriminate; injection T as <-; cbn [near] in X.
  - subst q. apply (A1 []). now rewrite app_nil_r.
  - subst q. apply (A1 []). now rewrite app_nil_r.
  - destruct X as (t & _ & X). now apply (A1 t).
  - destruct X as (t & _ & X). apply (A2 (removelast q) t X).
    assert (Nq : q <> []) by (apply (proj1 (self_target a q)); eauto).
    rewrite <- (N q c E). exact (app_removelast_last "" Nq).
Qed.

Definition cstep (base : string) (p : list string) (a a' : cms) : Prop :=
  target a p = Some (CItem p) -> cinv base a -> cinv base a' /\ cframe p a a'.

Lemma touched_step base p a a' q r : apart base p q -> target a q = Some r -> touches r a a' -> (tree_wf a -> tree_wf a') -> cstep base p a a'.
Proof.
  intros A T H W Ti (I1 & I2). split; [split; [auto|eapply named_touches; eassumption]|].
  eapply cframe_touches; [exact Ti| |exact H]. eapply apart_not_near; eassumption.
Qed.
Lemma same_step base p a : cstep base p a a.
Proof. intros _ I. split; [exact I|apply cframe_refl]. Qed.

Lemma get_step base p q a : apart base p (path_parts q) -> cstep base p a (fst (cm_get q a)).
Proof.
  intros A Ti I. assert (K := cm_get_keeps q a). destruct (cm_get q a) as [a' o] eqn:E. cbn [fst] in *.
  assert (S := cm_get_spec _ _ _ _ (tree_cms_wf _ (proj1 I)) E).
  destruct (target a (path_parts q)) as [r|] eqn:T; [|destruct S as (-> & _); exact (same_step base p a Ti I)].
  destruct S as (S & _). exact (touched_step base p a a' _ r A T S K Ti I).
Qed.
Lemma update_step base p d q persist kw a : apart base p (path_parts q) -> cstep base p a (fst (cm_update d (Some q) persist kw a)).
Proof.
  intros A Ti I. assert (K := cm_update_keeps d (Some q) persist kw a). destruct (cm_update d (Some q) persist kw a) as [a' o] eqn:E.
  cbn [fst] in *. assert (S := cm_update_spec _ _ _ _ _ _ _ E). cbn [path_target] in S.
  destruct (target a (path_parts q)) as [r|] eqn:T; [|destruct S as (-> & _); exact (same_step base p a Ti I)].
  destruct S as (S & _). exact (touched_step base p a a' _ r A T S K Ti I).
Qed.
Lemma refresh_step base p q a : apart base p (path_parts q) -> cstep base p a (fst (cm_refresh q a)).
Proof.
  intros A Ti I. assert (K := cm_refresh_keeps q a). destruct (cm_refresh q a) as [a' o] eqn:E.
  cbn [fst] in *. assert (S := cm_refresh_spec _ _ _ _ E).
  destruct (target a (path_parts q)) as [r|] eqn:T; [|destruct S as (-> & _); exact (same_step base p a Ti I)].
  destruct S as (S & _). exact (touched_step base p a a' _ r A T S K Ti I).
Qed.

(** names of sections read from files *)
Lemma disk_self p : forall reserved name rel d c, disk_seen reserved name rel d p = Some (SSelf c) -> p <> [] /\ last p "" = last (removelast p) name.
Proof.
  induction p as [|x rest IH]; intros reserved name rel d c H; [discriminate|]. split; [discriminate|].
  cbn [disk_seen] in H. destruct (mem x reserved); [discriminate|].
  assert (B : match (if hidden x then None else dget x (dir_subs d)) with
              | Some d' => disk_seen sec_reserved x (rel ++ [x]) d' rest
              | None => if String.eqb x "section" then None
                        else if dmem (x ++ ".py")%string (dir_files d)
                             then match rest with [] => Some (SFile (rel, (x ++ ".py")%string) x) | _ => None end
                             else None
              end = Some (SSelf c) -> last (x :: rest) "" = last (removelast (x :: rest)) name).
  { destruct (if hidden x then None else dget x (dir_subs d)) as [d'|].
    - intro B. destruct (IH _ _ _ _ _ B) as (N & E). destruct rest as [|y rest]; [congruence|].
      change (last (x :: y :: rest) "") with (last (y :: rest) ""). rewrite E.
      change (removelast (x :: y :: rest)) with (x :: removelast (y :: rest)).
      destruct (removelast (y :: rest)) as [|z l]; [reflexivity|]. change (last (x :: z :: l) name) with (last (z :: l) name).
      clear. revert z. induction l as [|w l IHl]; intro z; [reflexivity|]. exact (IHl w).
    - destruct (String.eqb x "section"); [discriminate|]. destruct (dmem (x ++ ".py")%string (dir_files d)); [|discriminate].
      destruct rest; discriminate. }
  destruct (folder_config name rel d) as [c0|]; [|exact (B H)].
  destruct (String.eqb_spec x name) as [->|_]; [|exact (B H)]. destruct rest; [reflexivity|discriminate].
Qed.

Lemma last_change (l : list string) : l <> [] -> forall d d', last l d = last l d'.
Proof. induction l as [|x l IH]; [congruence|]. intros _ d d'. destruct l as [|y l]; [reflexivity|]. apply IH. discriminate. Qed.
Lemma last_app (l l' : list string) d : l' <> [] -> last (l ++ l') d = last l' d.
Proof.
  intro N. induction l as [|x l IH]; [reflexivity|]. cbn [app]. destruct (l ++ l') as [|y r] eqn:E; [apply app_eq_nil in E as [_ E]; congruence|].
  change (last (x :: y :: r) d) with (last (y :: r) d). exact IH.
Qed.
Lemma last_default (l l' : list string) d : last (l ++ l') d = last l' (last l d).
Proof.
  destruct l' as [|x l']; [now rewrite app_nil_r|]. rewrite last_app by discriminate. now apply last_change.
Qed.

Lemma files_self base d p s t c : disk_ok d -> from_files_at base d p = Ok s -> see_l (get_nested sec_reserved s t) = Some (SSelf c) ->
  t <> [] /\ last t "" = last (removelast t) (last p base).
Proof.
  intros D F E. unfold from_files_at in F. destruct (find_dir d p) as [d'|] eqn:Fd.
  - assert (D' := find_dir_ok _ _ _ D Fd). rewrite (from_files_seen t sec_reserved _ _ _ _ (proj1 D') F) in E. exact (disk_self _ _ _ _ _ _ E).
  - injection F as <-. destruct t as [|x t]; [discriminate|]. cbn [get_nested] in E. unfold sec_getattr in E.
    destruct (mem x sec_reserved); [destruct t; discriminate|]. cbn in E. discriminate.
Qed.

Lemma load_cinv base disk st : disk_ok disk -> cm_load base disk = Ok st -> cinv base st.
Proof.
  intros D H. split; [eapply cm_load_tree; eassumption|]. intros q c E. unfold cm_load, from_files_at in H. cbn [find_dir last] in H.
  destruct (from_files base [] disk) as [s|] eqn:F; [|discriminate]. injection H as <-. rewrite see_eq in E. unfold lookup_at in E. cbn [cs_root] in E.
  rewrite (from_files_seen q mgr_reserved _ _ _ _ (proj1 D) F) in E. now apply disk_self in E as (_ & E).
Qed.

Lemma reset_step base p q a : apart base p (path_parts q) -> cstep base p a (fst (cm_reset base (Some q) false a)).
Proof.
  intros A Ti I. assert (K := cm_reset_keeps base (Some q) false a). destruct (cm_reset base (Some q) false a) as [a' o] eqn:E.
  cbn [fst] in *. destruct (see a (path_parts q)) as [[c|ref n|n own|c]|] eqn:S.
  - assert (T : target a (path_parts q) = Some (CItem (path_parts q))) by (unfold target; now rewrite S).
    destruct (cm_reset_item _ _ _ _ _ T E) as (R & _). exact (touched_step base p a a' _ _ A T R K Ti I).
  - assert (T : target a (path_parts q) = Some (CItem (path_parts q))) by (unfold target; now rewrite S).
    destruct (cm_reset_item _ _ _ _ _ T E) as (R & _). exact (touched_step base p a a' _ _ A T R K Ti I).
  - assert (R := cm_reset_section _ _ _ _ _ _ _ S E). destruct own as [c|]; [destruct R as (-> & _); exact (same_step base p a Ti I)|].
    destruct (from_files_at base (cs_disk a) (path_parts q)) as [s|e] eqn:F; [|destruct R as (-> & _); exact (same_step base p a Ti I)].
    destruct R as (_ & (L & Dk & _) & Out & In).
    assert (Pre : forall x t, p = x ++ t -> see a' x = see a x).
    { intros x t Hx. apply Out. intros t' ->. apply (proj1 A (t' ++ t)). now rewrite app_assoc. }
    split; [split; [apply K, I|]|].
    + intros x c Hx. destruct (list_eq_dec string_dec (firstn (List.length (path_parts q)) x) (path_parts q)) as [Hp|Hp].
      * assert (Ex : x = path_parts q ++ skipn (List.length (path_parts q)) x) by (rewrite <- Hp at 1; symmetry; apply firstn_skipn).
        rewrite Ex in Hx |- *. rewrite In in Hx. destruct I as ((_ & _ & Dok) & _).
        destruct (files_self _ _ _ _ _ _ Dok F Hx) as (Nt & Hl). rewrite last_app by exact Nt.
        rewrite removelast_app by exact Nt. rewrite last_default. exact Hl.
      * rewrite Out in Hx; [exact (proj2 I x c Hx)|]. intros t ->. apply Hp. rewrite firstn_app, Nat.sub_diag, firstn_all, app_nil_r. reflexivity.
    + assert (Sp : see a' p = see a p) by (apply (Pre p []); now rewrite app_nil_r).
      split; [exact Dk|]. split; [unfold target; now rewrite Sp|]. split; [exact Sp|].
      intros r N. rewrite !read_cref_see. destruct r as [|x|x]; cbn [near] in N; [now rewrite L|subst x; now rewrite Sp|].
      destruct N as (t & _ & N). now rewrite (Pre x t N).
  - destruct (cm_reset_self _ _ _ _ _ _ S E) as (L & Dk & Out & At).
    assert (Pre : forall x t, p = x ++ t -> see a' x = see a x) by (intros x t Hx; apply Out; intros ->; now apply (proj1 A t)).
    split; [split; [apply K, I|]|].
    + intros x c' Hx. destruct (list_eq_dec string_dec x (path_parts q)) as [->|Nx]; [exact (proj2 I _ c S)|].
      rewrite Out in Hx by exact Nx. exact (proj2 I x c' Hx).
    + assert (Sp : see a' p = see a p) by (apply (Pre p []); now rewrite app_nil_r).
      split; [exact Dk|]. split; [unfold target; now rewrite Sp|]. split; [exact Sp|].
      intros r N. rewrite !read_cref_see. destruct r as [|x|x]; cbn [near] in N; [now rewrite L|subst x; now rewrite Sp|].
      destruct N as (t & _ & N). now rewrite (Pre x t N).
  - destruct (cm_reset_none _ _ _ _ _ _ S eq_refl E) as (-> & _). exact (same_step base p a Ti I).
Qed.

(** * The operations on other items *)

Section Foreign.
Variables (base : string) (its : items) (u : user) (path : string).
Let p := path_parts path.

(** the item's path and those of the sections around it *)
Definition around (q : string) : Prop := exists t, p = path_parts q ++ t.
Definition rinv (s : rs) : Prop := cinv base (r_cms s) /\ target (r_cms s) p = Some (CItem p) /\
  (forall q, around q -> q <> path -> dget q (r_loaded s) = None).
Definition rframe (s s' : rs) : Prop := cframe p (r_cms s) (r_cms s') /\ dget path (r_loaded s') = dget path (r_loaded s).
Definition rstp (s s' : rs) : Prop := rinv s -> rinv s' /\ rframe s s'.
Lemma rstp_refl s : rstp s s. Proof. intro I. split; [exact I|]. split; [apply cframe_refl|reflexivity]. Qed.
Lemma rstp_trans a b c : rstp a b -> rstp b c -> rstp a c.
Proof.
  intros A B I. destruct (A I) as (I1 & F1 & L1). destruct (B I1) as (I2 & F2 & L2). split; [exact I2|].
  split; [eapply cframe_trans; eassumption|congruence].
Qed.
Ltac fbind := apply (keeps_bind rstp rstp_trans).
Ltac fdone := first [apply (keeps_ret rstp rstp_refl) | apply (keeps_raise rstp rstp_refl)
                    | apply (keeps_lift rstp rstp_refl) | apply (keeps_gets rstp rstp_refl)].

Definition ok (q : string) : Prop := apart base p (path_parts q).
Lemma ok_neq q : ok q -> ~ around q.
Proof. intros (A & _) (t & E). exact (A t E). Qed.
Lemma around_path : around path.
Proof. exists []. symmetry. apply app_nil_r. Qed.
Lemma ok_sub q n : ok q -> ok (sub_path q n).
Proof.
  intros (A1 & A2). unfold ok, sub_path. fold p.
  replace (path_parts (path_str (sp_join (mk_sp q) (mk_sp n)))) with (path_parts q ++ path_parts n).
  2:{ unfold path_parts. rewrite <- sp_join_sections. rewrite sp_join_str, sp_join_mk. reflexivity. }
  split.
  - intros t E. apply (A1 (path_parts n ++ t)). now rewrite app_assoc.
  - intros r t E X. assert (N : path_parts n <> []) by apply path_parts_nonempty.
    destruct (exists_last N) as (l & x & E'). rewrite E' in X. rewrite app_assoc in X. apply app_inj_tail in X as (X & _).
    apply (A1 (l ++ t)). rewrite E. rewrite <- X. now rewrite app_assoc.
Qed.

Lemma cms_rstp {A} (m : M cms A) : (forall a, cstep base p a (fst (m a))) -> keeps rstp (on_cms m).
Proof.
  intros K s (I & T & L). specialize (K (r_cms s)). unfold on_cms. destruct (m (r_cms s)) as [c r]. cbn [fst] in *.
  destruct (K T I) as (I' & F). split; [|split; [exact F|reflexivity]]. split; [exact I'|]. split; [|exact L]. destruct F as (_ & E & _). cbn [r_cms]. etransitivity; [exact E|exact T].
Qed.
Lemma deref_step r a : cstep base p a (fst (deref r a)).
Proof. unfold deref. destruct (read_cref a r); apply same_step. Qed.
Lemma emit_step e a : cstep base p a (fst (emit e a)).
Proof.
  intros T I. split; [split; [exact (proj1 I)|exact (proj2 I)]|]. cbn. split; [reflexivity|]. split; [reflexivity|]. split; [reflexivity|].
  intros [] _; reflexivity.
Qed.
Lemma set_loaded_rstp q o : ~ around q -> keeps rstp (set_loaded q o).
Proof.
  intros N s (I & T & L). assert (X : forall q', around q' -> dget q' (dset q o (r_loaded s)) = dget q' (r_loaded s)).
  { intros q' A. apply dget_dset_neq. intros ->. contradiction. }
  split; [split; [exact I|]; split; [exact T|]|].
  - intros q' A Nq. cbn. rewrite X by exact A. now apply L.
  - split; [apply cframe_refl|]. cbn. apply X, around_path.
Qed.
Lemma fresh_rstp : keeps rstp fresh.
Proof. intros s I. split; [exact I|]. split; [apply cframe_refl|reflexivity]. Qed.

Lemma get_config_rstp q : ok q -> keeps rstp (get_config q).
Proof.
  intro O. unfold get_config. fbind; [apply cms_rstp; intro; now apply get_step|]. intros [r|]; [|fdone].
  apply cms_rstp. intro. apply deref_step.
Qed.
Lemma gfc_rstp q : ok q -> keeps rstp (get_func_and_config its q).
Proof.
  intro O. unfold get_func_and_config. fbind; [now apply get_config_rstp|]. intro c. fbind; [fdone|]. intros [b f]. cbn [snd].
  destruct f as [|[]|]; fdone.
Qed.
Lemma gcc_rstp q : ok q -> keeps rstp (get_class_and_config its q).
Proof.
  intro O. unfold get_class_and_config. fbind; [now apply get_config_rstp|]. intro c. fbind; [fdone|]. intros [b f]. cbn [snd].
  destruct f as [|[]|]; fdone.
Qed.
Lemma one_func_rstp q : ok q -> keeps rstp (get_one_func_with_config its q).
Proof.
  intro O. unfold get_one_func_with_config. fbind; [fdone|]. intros [o|]; [fdone|]. fbind; [now apply gfc_rstp|]. intros [[f b] kw].
  fbind; [apply fresh_rstp|]. intro i. fbind; [now apply set_loaded_rstp, ok_neq|]. intro. fdone.
Qed.
Lemma one_obj_rstp q : ok q -> keeps rstp (get_one_obj_with_config its u q).
Proof.
  intro O. unfold get_one_obj_with_config. fbind; [fdone|]. intros [o|]; [fdone|]. fbind; [fdone|]. intro. fbind; [now apply gcc_rstp|]. intros [[k b] kw].
  destruct (u_init u k (if b then kw else relevant_config k kw)); [fdone|].
  fbind; [apply fresh_rstp|]. intro i. fbind; [now apply set_loaded_rstp, ok_neq|]. intro. fdone.
Qed.
Lemma call_rstp q o : keeps rstp (call_object u q o).
Proof. intros s I. split; [exact I|]. split; [apply cframe_refl|reflexivity]. Qed.
Lemma run_func_rstp q : ok q -> keeps rstp (run_one_func its u q).
Proof. intro O. fbind; [now apply gfc_rstp|]. intro. fbind; [now apply one_func_rstp|]. intro. apply call_rstp. Qed.
Lemma run_class_rstp q : ok q -> keeps rstp (run_one_class its u q).
Proof. intro O. fbind; [now apply gfc_rstp|]. intro. fbind; [now apply one_obj_rstp|]. intro. apply call_rstp. Qed.
Lemma run_specific_rstp q : ok q -> keeps rstp (run_one_specific_class its u q).
Proof. intro O. fbind; [now apply gcc_rstp|]. intro. fbind; [now apply one_obj_rstp|]. intro. apply call_rstp. Qed.
Lemma run_section_rstp c : forall q, ok q -> keeps rstp (run_section its u c q).
Proof.
  induction c as [n l IH] using coll_ind2. intros q O. rewrite run_section_eq. fbind; [|intro; fdone].
  apply (keeps_mapM rstp rstp_refl rstp_trans). intros e He. destruct e as [x t|c]; cbn [run_entry].
  { destruct t; first [fdone|now apply run_class_rstp|now apply run_specific_rstp|apply run_func_rstp; now apply ok_sub]. }
  destruct (dget (coll_name c) _) as [[m|]|] eqn:E; try fdone. apply sub_thunks_In in E as (c' & Hc & _ & ->). apply IH; [exact Hc|now apply ok_sub].
Qed.
Lemma run_one_rstp q : ok q -> keeps rstp (run_one its u q).
Proof.
  intro O. fbind; [fdone|]. intros [[] [c|[]|]]; first [fdone|now apply run_func_rstp|now apply run_class_rstp|now apply run_specific_rstp|now apply run_section_rstp].
Qed.
Lemma list_entry_rstp q n t rest : ok q -> keeps rstp (list_entry its u q n t rest).
Proof.
  intro O. destruct t; cbn [list_entry]; try fdone; try (fbind; [now apply one_func_rstp, ok_sub|intro; fdone]).
  destruct (existsb _ rest); [fdone|]. fbind; [now apply one_obj_rstp, ok_sub|intro; fdone].
Qed.
Lemma list_entries_rstp q l : ok q -> keeps rstp (list_entries its u q l).
Proof.
  intro O. induction l as [|[n t|c] l IH]; cbn [list_entries]; [fdone| |exact IH].
  fbind; [now apply list_entry_rstp|]. intro. fbind; [exact IH|intro; fdone].
Qed.
Lemma get_section_rstp c : forall q, ok q -> keeps rstp (get_section its u c q).
Proof.
  induction c as [n l IH] using coll_ind2. intros q O. rewrite get_section_eq. destruct (existsb is_coll l).
  - fbind; [|intro; fdone]. apply (keeps_mapM rstp rstp_refl rstp_trans). intros e He.
    destruct e as [x []|c]; cbn [dict_entry]; try fdone. fbind; [|intro; fdone]. unfold sub_got.
    destruct (dget (coll_name c) _) as [[m|]|] eqn:E; try fdone. apply sub_thunks_In in E as (c' & Hc & _ & ->). apply IH; [exact Hc|now apply ok_sub].
  - fbind; [now apply list_entries_rstp|intro; fdone].
Qed.
Lemma get_rstp q : ok q -> keeps rstp (runner_get its u q).
Proof.
  intro O. fbind; [fdone|]. intros [b f]. cbn [snd]. destruct f as [c|[]|]; try fdone;
    try (fbind; [now apply one_func_rstp|intro; fdone]); try (fbind; [now apply one_obj_rstp|intro; fdone]). now apply get_section_rstp.
Qed.

Lemma runner_run_rstp a : (forall q, In q (match a with AStr q => [q] | AList l => l end) -> ok q) -> keeps rstp (runner_run its u a).
Proof.
  intro O. unfold runner_run. fbind.
  - destruct a as [q|l]; [apply run_one_rstp, O; now left|]. fbind; [|intro; fdone].
    apply (keeps_mapM rstp rstp_refl rstp_trans). intros q Hq. apply run_one_rstp. now apply O.
  - intro r. destruct (u_post_run u r), a; try fdone. destruct r; fdone.
Qed.
Lemma force_rstp l : (forall q, In q l -> ok q) -> keeps rstp (force_loop its u l).
Proof.
  induction l as [|q l IH]; intro O; cbn [force_loop]; [fdone|]. fbind.
  - apply keeps_try. apply runner_run_rstp. intros x [<-|[]]. apply O. now left.
  - intro r. fbind; [apply IH; intros; apply O; now right|]. intro re. destruct r; fdone.
Qed.
Lemma run_rstp set a : u_pre_run u = [] -> (forall q, In q (match a with AStr q => [q] | AList l => l end) -> ok q) -> keeps rstp (pm_run its u set a).
Proof.
  intros P O. unfold pm_run. rewrite P.
  assert (O' : forall q, In q (match combine a [] with AStr q => [q] | AList l => l end) -> ok q).
  { unfold combine. rewrite app_nil_r. destruct a as [q|[|x [|y l]]]; exact O. }
  destruct set.
  - now apply runner_run_rstp.
  - fbind; [|intro; fdone]. unfold run_with_force_continue. fbind; [now apply force_rstp|]. intro re.
    destruct (combine a []); [|fdone]. destruct (fst re) as [|x [|y l]]; fdone.
  - fbind; [apply keeps_try; now apply runner_run_rstp|]. intros []; fdone.
Qed.

Lemma apply_rstp q o cfg : ~ around q -> keeps rstp (apply_config u q o cfg).
Proof. intro N. destruct o; cbn [apply_config]; [now apply set_loaded_rstp|]. destruct (u_init u k _); [fdone|now apply set_loaded_rstp]. Qed.

(** the part of update after the configs have been updated *)
Definition after_update (d : option (dict pyval)) (q : option string) (kw : dict pyval) (ru : cref * bool) : M rs unit :=
  let '(r, updated) := ru in
  o <- loaded_at q ;;
  match o with
  | Some o => if updated then
                c <- on_cms (deref r) ;;
                apply_config u (opt_path q) o (c_vals c) ;;;
                if dmem "d" kw then raise TypeError
                else on_cms (emit (EvPost (opt_path q) (dupdate (opt_dict d) kw)))
              else ret tt
  | None => ret tt
  end.
Lemma runner_update_eq d q persist kw : runner_update u d q persist kw = (ru <- on_cms (cm_update d q persist kw) ;; after_update d q kw ru).
Proof. reflexivity. Qed.
Lemma after_update_rstp d q kw ru : ~ around q -> keeps rstp (after_update d (Some q) kw ru).
Proof.
  intro N. destruct ru as [r b]. unfold after_update. fbind; [fdone|]. intros [o|]; [|fdone]. destruct b; [|fdone].
  fbind; [apply cms_rstp; intro; apply deref_step|]. intro c. fbind; [now apply apply_rstp|]. intro. destruct (dmem "d" kw); [fdone|].
  apply cms_rstp. intro. apply emit_step.
Qed.
Lemma update_rstp d q persist kw : ok q -> keeps rstp (runner_update u d (Some q) persist kw).
Proof.
  intro O. rewrite runner_update_eq. fbind; [apply cms_rstp; intro; now apply update_step|]. intro. now apply after_update_rstp, ok_neq.
Qed.
Definition after_refresh (q : string) (rbu : cref * bool * dict pyval) : M rs unit :=
  let '(_, updated, updates) := rbu in
  o <- loaded_at (Some q) ;;
  match o with
  | Some o => if updated then
                c <- get_config q ;;
                apply_config u q o (c_vals c) ;;;
                on_cms (emit (EvPost q updates))
              else ret tt
  | None => ret tt
  end.
Lemma runner_refresh_eq q : runner_refresh u q = (rbu <- on_cms (cm_refresh q) ;; after_refresh q rbu).
Proof. reflexivity. Qed.
Lemma refresh_rstp q : ok q -> keeps rstp (runner_refresh u q).
Proof.
  intro O. rewrite runner_refresh_eq. fbind; [apply cms_rstp; intro; now apply refresh_step|]. intros [[r b] us]. unfold after_refresh.
  fbind; [fdone|]. intros [o|]; [|fdone]. destruct b; [|fdone]. fbind; [now apply get_config_rstp|]. intro c.
  fbind; [now apply apply_rstp, ok_neq|]. intro. apply cms_rstp. intro. apply emit_step.
Qed.
Lemma reset_rstp q : ok q -> keeps rstp (runner_reset base u (Some q) false).
Proof.
  intro O. unfold runner_reset. fbind; [apply cms_rstp; intro; now apply reset_step|]. intros [def b].
  fbind; [fdone|]. intros [o|]; [|fdone]. destruct b; [|fdone]. destruct def as [c|s]; [|fdone].
  fbind; [now apply apply_rstp, ok_neq|]. intro. fbind; [fdone|]. intro. apply cms_rstp. intro. apply emit_step.
Qed.

Lemma foreign_rstp op s : u_pre_run u = [] -> foreign base p op -> rstp s (rop_run base its u s op).
Proof.
  intros P F. destruct op as [q|set [q|l]|d [q|] persist kw|[q|] [|]|q]; cbn [foreign rop_run] in *; try contradiction.
  - now apply get_rstp.
  - apply run_rstp; [exact P|]. intros x [<-|[]]. exact F.
  - now apply run_rstp.
  - now apply update_rstp.
  - now apply reset_rstp.
  - now apply refresh_rstp.
Qed.
End Foreign.
