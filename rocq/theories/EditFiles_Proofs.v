(** Proofs for C99. *)
From Verif Require Import LastSet_Spec OneArg_Spec EditFiles_Spec Iterate_Spec Config_Proofs ConfigTree_Proofs ConfigOps_Proofs ConfigLoad_Proofs ConfigWf_Proofs Runner_Proofs Run_Proofs SectionPath_Proofs RunnerOps_Proofs Iterate_Proofs IterateSame_Proofs Isolation_Proofs IsolationTwin_Proofs IsolationRun_Proofs LastSet_Proofs OneArg_Proofs.
From Coq Require Import Lia ZArith.
Local Open Scope string_scope.
Local Open Scope list_scope.
Local Open Scope monad_scope.

(** * The files *)
Lemma ref_eqb_iff r r' : ref_eqb r r' = true <-> r = r'.
Proof.
  destruct r as [q f], r' as [q' f']. unfold ref_eqb. cbn [fst snd]. destruct (list_eq_dec string_dec q q') as [->|N].
  - rewrite String.eqb_eq. split; [now intros ->|congruence].
  - split; [discriminate|congruence].
Qed.
Lemma edited_read folders : forall d f ct old ref, read_file d (folders, f) = Ok old ->
  read_file (edited_dir d folders f ct) ref = if ref_eqb ref (folders, f) then Ok ct else read_file d ref.
Proof.
  induction folders as [|y rest IH]; intros d f ct old [q g] H; unfold ref_eqb; cbn [fst snd edited_dir].
  - unfold read_file in *. cbn [fst snd find_dir] in *. destruct q as [|z q]; cbn [find_dir].
    + cbn [dir_files]. rewrite dget_dset. destruct (list_eq_dec string_dec [] []) as [_|N]; [|contradiction]. now destruct (String.eqb g f).
    + cbn [dir_subs]. destruct (list_eq_dec string_dec (z :: q) []); [discriminate|reflexivity].
  - unfold read_file in H. cbn [fst snd find_dir] in H. destruct (dget y (dir_subs d)) as [d'|] eqn:Ed; [|discriminate].
    assert (X := fun q => IH d' f ct old (q, g) H). unfold read_file, ref_eqb in *. cbn [fst snd] in *.
    destruct q as [|z q]; cbn [find_dir dir_files dir_subs]; [destruct (list_eq_dec string_dec [] (y :: rest)); [discriminate|reflexivity]|].
    rewrite dget_dset. destruct (String.eqb_spec z y) as [->|N].
    + rewrite X. rewrite Ed. destruct (list_eq_dec string_dec q rest) as [->|Nq].
      * destruct (list_eq_dec string_dec (y :: rest) (y :: rest)); [reflexivity|contradiction].
      * destruct (list_eq_dec string_dec (y :: q) (y :: rest)) as [E|]; [injection E as ->; contradiction|reflexivity].
    + destruct (list_eq_dec string_dec (z :: q) (y :: rest)) as [E|]; [congruence|reflexivity].
Qed.
Lemma edited_dir_ok folders : forall d f ct, dir_ok d -> dir_ok (edited_dir d folders f ct).
Proof.
  induction folders as [|y rest IH]; intros d f ct H; inversion H as [files subs Wf Ws Hs]; subst; cbn [edited_dir dir_files dir_subs].
  - constructor; [now apply dset_wf|exact Ws|exact Hs].
  - destruct (dget y subs) as [d'|] eqn:Ed; [|exact H]. constructor; [exact Wf|now apply dset_wf|].
    intros n e I. apply ConfigWf_Proofs.In_dset in I as [->|I]; [|exact (Hs n e I)]. apply IH. apply (Hs y). now apply dget_Some_In in Ed.
Qed.
Lemma edited_disk_ok d ref ct old : disk_ok d -> read_file d ref = Ok old -> dwf ct -> disk_ok (edited_dir d (fst ref) (snd ref) ct).
Proof.
  intros (D1 & D2) R W. split; [now apply edited_dir_ok|]. intros ref' ct' H. destruct ref as [q f]. cbn [fst snd] in H. rewrite (edited_read q d f ct old) in H by exact R.
  destruct (ref_eqb ref' (q, f)); [congruence|exact (D2 _ _ H)].
Qed.
(** the same sections and items are there *)
Definition shape (v : seen) : seen :=
  match v with SSec n (Some _) => SSec n (Some empty_config) | SSelf _ => SSelf empty_config | _ => v end.
Lemma edited_seen folders : forall d f ct old reserved name rel q, read_file d (folders, f) = Ok old ->
  option_map shape (disk_seen reserved name rel (edited_dir d folders f ct) q) = option_map shape (disk_seen reserved name rel d q).
Proof.
  induction folders as [|y rest IH]; intros d f ct old reserved name rel q H; unfold read_file in H; cbn [fst snd find_dir edited_dir] in *.
  - assert (Fc : option_map (fun _ => empty_config) (folder_config name rel (Dir (dset f (Ok ct) (dir_files d)) (dir_subs d))) = option_map (fun _ => empty_config) (folder_config name rel d)).
    { unfold folder_config. cbn [dir_files]. rewrite dget_dset. destruct (String.eqb_spec "section.py" f) as [<-|]; [|reflexivity].
      destruct (dget "section.py" (dir_files d)) as [[]|]; try discriminate. reflexivity. }
    destruct q as [|z q]; cbn [disk_seen].
    + destruct (folder_config name rel (Dir _ _)), (folder_config name rel d); try discriminate; reflexivity.
    + cbn [dir_files dir_subs]. assert (Mf : dmem (z ++ ".py")%string (dset f (Ok ct) (dir_files d)) = dmem (z ++ ".py")%string (dir_files d)).
      { unfold dmem. rewrite dget_dset. destruct (String.eqb_spec (z ++ ".py")%string f) as [->|]; [|reflexivity]. now destruct (dget f (dir_files d)). }
      rewrite Mf. destruct (mem z reserved); [reflexivity|].
      destruct (folder_config name rel (Dir _ _)), (folder_config name rel d); try discriminate; [|reflexivity]. destruct (String.eqb z name); [now destruct q|reflexivity].
  - destruct (dget y (dir_subs d)) as [d'|] eqn:Ed; [|discriminate].
    assert (Fc : folder_config name rel (Dir (dir_files d) (dset y (edited_dir d' rest f ct) (dir_subs d))) = folder_config name rel d) by reflexivity.
    destruct q as [|z q]; cbn [disk_seen]; rewrite Fc; [reflexivity|]. cbn [dir_files dir_subs]. rewrite dget_dset. destruct (mem z reserved); [reflexivity|].
    destruct (String.eqb_spec z y) as [->|]; [|reflexivity]. rewrite Ed. destruct (hidden y); [reflexivity|].
    assert (X := IH d' f ct old sec_reserved y (rel ++ [y]) q H). destruct (folder_config name rel d); [|exact X]. destruct (String.eqb y name); [reflexivity|exact X].
Qed.
Lemma item_not_section q : forall reserved name rel d ref n, disk_seen reserved name rel d q = Some (SFile ref n) -> snd ref <> "section.py".
Proof.
  induction q as [|y rest IH]; intros reserved name rel d ref n H; [discriminate|]. cbn [disk_seen] in H. destruct (mem y reserved); [discriminate|].
  assert (B : match (if hidden y then None else dget y (dir_subs d)) with
              | Some d' => disk_seen sec_reserved y (rel ++ [y]) d' rest
              | None => if String.eqb y "section" then None
                        else if dmem (y ++ ".py")%string (dir_files d)
                             then match rest with [] => Some (SFile (rel, (y ++ ".py")%string) y) | _ => None end
                             else None
              end = Some (SFile ref n)).
  { destruct (folder_config name rel d); [|exact H]. destruct (String.eqb y name); [destruct rest; discriminate|exact H]. }
  destruct (if hidden y then None else dget y (dir_subs d)) as [d'|]; [exact (IH _ _ _ _ _ _ B)|].
  destruct (String.eqb y "section") eqn:E; [discriminate|]. destruct (dmem (y ++ ".py")%string (dir_files d)); [|discriminate].
  destruct rest; [|discriminate]. injection B as <- _. cbn [snd]. rewrite <- section_py_app in E. now apply String.eqb_neq in E.
Qed.

(** * Edits *)
Section Item.
Variables (base : string) (its : items) (u : user) (path k : string) (x : callable).
Let p := path_parts path.

Lemma edit_cinv s ref ct old : cinv base (r_cms s) -> read_file (cs_disk (r_cms s)) ref = Ok old -> dwf ct -> cinv base (r_cms (edit ref ct s)).
Proof.
  intros ((W1 & W2 & W3) & Nm) R W. split; [|exact Nm]. split; [exact W1|]. split; [exact W2|]. cbn [edit r_cms cs_disk]. now apply (edited_disk_ok _ _ _ old).
Qed.
Definition is_unread (b : bool) (s : rs) : Prop := b = true <-> unread_in path s.
Definition okn (n : known) (s : rs) : Prop :=
  exists content, dget k content = Some (n_file n) /\ plain (n_file n) = true /\ okr base path k x content (n_arg n) s /\ is_unread (n_unread n) s.

Lemma edit_ok n s ref ct : okn n s -> careful path k s ref ct -> okn (on_edit path k ref ct n) (edit ref ct s).
Proof.
  intros (content & Hf & Pf & (I & C & L) & U) (Wct & old & R & Cf). fold p in Cf.
  assert (I' : rinv base path (edit ref ct s)).
  { destruct I as (I1 & I2 & I3). split; [exact (edit_cinv s ref ct old I1 R Wct)|]. split; [exact I2|exact I3]. }
  destruct C as ((c & H1 & H2 & H3 & H4) & A & Rd & Po & Pk & (m & Fm) & Fl). fold p in Rd, Fm, Fl, H1, H2, A.
  assert (Re : forall ref', read_file (cs_disk (r_cms (edit ref ct s))) ref' = if ref_eqb ref' ref then Ok ct else read_file (cs_disk (r_cms s)) ref').
  { intro ref'. destruct ref as [q f]. apply (edited_read q _ f ct old). exact R. }
  assert (Se : forall q, option_map shape (disk_seen mgr_reserved base [] (cs_disk (r_cms (edit ref ct s))) q) = option_map shape (disk_seen mgr_reserved base [] (cs_disk (r_cms s)) q)).
  { intro q. destruct ref as [q0 f]. exact (edited_seen q0 _ f ct old _ _ _ q R). }
  assert (Ni : forall q, item_file p <> (q, "section.py")) by (intros q E; apply (item_not_section _ _ _ _ _ _ _ Fm); now rewrite E).
  assert (Fm' : disk_seen mgr_reserved base [] (cs_disk (r_cms (edit ref ct s))) p = Some (SFile (item_file p) m)).
  { specialize (Se p). rewrite Fm in Se. cbn [option_map shape] in Se.
    destruct (disk_seen mgr_reserved base [] (cs_disk (r_cms (edit ref ct s))) p) as [[| |? []|]|]; try discriminate Se. exact Se. }
  (* what a section's file says now *)
  assert (Sy : forall q o, says base k (cs_disk (r_cms s)) q o -> near p (CSec q) ->
               says base k (cs_disk (r_cms (edit ref ct s))) q (if ref_eqb (q, "section.py") ref then match disk_seen mgr_reserved base [] (cs_disk (r_cms s)) q with Some (SSec _ (Some _)) => dget k ct | _ => o end else o)).
  { intros q o H N. unfold says in *. specialize (Se q).
    destruct (disk_seen mgr_reserved base [] (cs_disk (r_cms s)) q) as [[z0|z1 z2|n0 [c0|]|z3]|] eqn:E0;
      destruct (disk_seen mgr_reserved base [] (cs_disk (r_cms (edit ref ct s))) q) as [[y0|y1 y2|n1 [c1|]|y3]|] eqn:E1; try discriminate Se; try (now destruct (ref_eqb _ _)).
    destruct (own_file _ _ _ _ _ _ _ E0) as (m0 & ct0 & -> & R0). destruct (own_file _ _ _ _ _ _ _ E1) as (m1 & ct1 & -> & R1). cbn [app loaded_config c_vals] in *.
    rewrite Re in R1. destruct (ref_eqb (q, "section.py") ref) eqn:Er.
    - injection R1 as <-. split; [reflexivity|]. apply ref_eqb_iff in Er. destruct (dget k ct) as [v|] eqn:Ev; [|exact Logic.I]. apply (proj2 (Cf (or_intror (ex_intro _ q (conj (near_refs p (CSec q) (path_parts_nonempty path) N ltac:(discriminate)) (eq_sym Er)))))). reflexivity.
    - rewrite R0 in R1. injection R1 as <-. exact H. }
  (* the state is the same but for the files *)
  assert (Un : forall b, is_unread b s -> is_unread b (edit ref ct s)) by (intros b H; exact H).
  unfold on_edit. fold p. destruct (ref_eqb ref (item_file p)) eqn:Er.
  - apply ref_eqb_iff in Er. subst ref. rewrite Rd in R. injection R as <-. destruct (Cf (or_introl eq_refl)) as (Dm & Pv).
    assert (Ev : exists v, dget k ct = Some v). { unfold dmem in Dm. rewrite Hf in Dm. destruct (dget k ct); [eauto|discriminate]. }
    destruct Ev as (v & Ev). rewrite Ev. specialize (Pv v Ev). exists ct. cbn [n_file n_unread n_arg]. split; [exact Ev|]. split; [exact Pv|]. split; [|now apply Un].
    assert (Rd' : read_file (cs_disk (r_cms (edit (item_file p) ct s))) (item_file p) = Ok ct).
    { rewrite Re. assert (Z : ref_eqb (item_file p) (item_file p) = true) by now apply ref_eqb_iff. now rewrite Z. }
    assert (Fs : forall q, ref_eqb (q, "section.py") (item_file p) = false).
    { intro q. destruct (ref_eqb (q, "section.py") (item_file p)) eqn:E; [|reflexivity]. apply ref_eqb_iff in E. now destruct (Ni q). }
    assert (Ar : ok_around path k (n_arg n) (r_cms (edit (item_file p) ct s))).
    { intros r N Nr. specialize (A r N Nr). assert (Ec : current (r_cms (edit (item_file p) ct s)) r = current (r_cms s) r).
      { destruct r as [|q|q]; [reflexivity|exfalso; apply Nr; f_equal; exact N|reflexivity]. }
      rewrite Ec. destruct (current (r_cms s) r) as [cr|]; [|exact A]. destruct A as ((L1 & L2 & L3) & L4 & L5 & L6 & L7 & L8).
      split; [|repeat (split; [assumption|]); exact L8]. split; [exact L1|]. split; [exact L2|]. intros ref' ct' E1 E2. apply (L3 ref' ct' E1). rewrite <- E2, Re.
      rewrite L8 in E1. destruct r as [|q|q]; [discriminate|exfalso; apply Nr; f_equal; exact N|]. injection E1 as <-. now rewrite Fs. }
    assert (Fd : filed base path k (cs_disk (r_cms (edit (item_file p) ct s))) (a_around (n_arg n))).
    { split; [exists m; exact Fm'|]. intros q N. assert (Z := Sy q _ (Fl q N) N). now rewrite Fs in Z. }
    destruct (n_unread n) eqn:Eu.
    + split; [exact I'|]. split; [|exact L]. destruct (proj1 U eq_refl) as (rf & mf & Es). fold p in Es.
      assert (Erf : rf = item_file p /\ dget k (c_applied c) = None).
      { cbn [current] in H1. rewrite Es in H1. destruct (read_file (cs_disk (r_cms s)) rf); [|discriminate]. injection H1 as <-. cbn [loaded_config c_file c_applied] in *. split; [congruence|reflexivity]. }
      destruct Erf as (-> & Ek). rewrite Ek in H4.
      split; [|split; [exact Ar|split; [exact Rd'|split; [exact Pv|split; [exact Pk|exact Fd]]]]].
      exists (loaded_config mf (item_file p) ct). split; [cbn [current]; fold p; change (see (r_cms (edit (item_file p) ct s)) p) with (see (r_cms s) p); rewrite Es, Rd'; reflexivity|].
      split; [reflexivity|]. cbn [loaded_config c_vals c_applied a_own a_kept]. rewrite Ev. split; [apply same_refl|exact H4].
    + split; [exact I'|]. split; [|exact L].
      split; [|split; [exact Ar|split; [exact Rd'|split; [exact Po|split; [exact Pk|exact Fd]]]]].
      exists c. split; [|auto]. cbn [current] in *. fold p. change (see (r_cms (edit (item_file p) ct s)) p) with (see (r_cms s) p).
      destruct (see (r_cms s) p) as [[c0|rf mf|n0 o0|c0]|] eqn:Es; try exact H1. exfalso. assert (Z : false = true) by (apply U; exists rf, mf; exact Es). discriminate.
  - (* another file *)
    assert (Nr0 : ref <> item_file p) by (intro Z; apply ref_eqb_iff in Z; congruence).
    assert (Er2 : ref_eqb (item_file p) ref = false) by (destruct (ref_eqb (item_file p) ref) eqn:Z; [apply ref_eqb_iff in Z; congruence|reflexivity]).
    assert (Rd' : read_file (cs_disk (r_cms (edit ref ct s))) (item_file p) = Ok content) by (rewrite Re, Er2; exact Rd).
    assert (It : ok_item path k (n_arg n) (r_cms (edit ref ct s))).
    { exists c. split; [|auto]. cbn [current] in *. fold p. change (see (r_cms (edit ref ct s)) p) with (see (r_cms s) p).
      destruct (see (r_cms s) p) as [[c0|rf mf|n0 o0|c0]|] eqn:Es; try exact H1. assert (Erf : rf = item_file p).
      { destruct (read_file (cs_disk (r_cms s)) rf); [|discriminate]. injection H1 as <-. cbn [loaded_config c_file] in H2. congruence. }
      subst rf. rewrite Rd'. rewrite Rd in H1. exact H1. }
    destruct (String.eqb_spec (snd ref) "section.py") as [Es|Es].
    + destruct ref as [q0 f]. cbn [fst snd] in *. subst f. exists content. cbn [n_file n_unread n_arg]. split; [exact Hf|]. split; [exact Pf|]. split; [|now apply Un].
      split; [exact I'|]. split; [|exact L].
      set (l := a_around (n_arg n) (CSec q0)). set (l' := {| l_val := l_val l; l_kept := l_kept l; l_file := dget k ct |}).
      split; [exact It|]. split; [|split; [exact Rd'|split; [exact Po|split; [exact Pk|]]]].
      * intros r N Nr. cbn [put_around a_around]. assert (A' := A r N Nr). assert (Ec : current (r_cms (edit (q0, "section.py") ct s)) r = current (r_cms s) r).
        { destruct r as [|q|q]; [reflexivity|exfalso; apply Nr; f_equal; exact N|reflexivity]. }
        rewrite Ec. destruct (ref_dec r (CSec q0)) as [->|Ne].
        -- subst l'. fold l in A'. destruct (current (r_cms s) (CSec q0)) as [cr|] eqn:Ecr; [|exact A']. destruct A' as ((L1 & L2 & L3) & L4 & L5 & L6 & L7 & L8).
           cbn [l_val l_kept l_file].
           destruct (Cf (or_intror (ex_intro _ q0 (conj (near_refs p (CSec q0) (path_parts_nonempty path) N Nr) eq_refl)))) as (Dm & Pv).
           cbn [ref_file] in L8. specialize (L3 _ _ L8 R).
           split; [split; [exact L1|split; [exact L2|]]|].
           ++ intros ref' ct' E1 E2. rewrite L8 in E1. injection E1 as <-. rewrite Re in E2.
              assert (Z : ref_eqb (q0, "section.py") (q0, "section.py") = true) by now apply ref_eqb_iff. rewrite Z in E2. injection E2 as <-. apply same_opt_refl.
           ++ cbn [l_val l_kept l_file]. split; [exact L4|]. split; [exact L5|]. split; [destruct (dget k ct) as [v|] eqn:Ev; [exact (Pv v eq_refl)|exact Logic.I]|].
              split; [|exact L8]. intro Z. destruct (L7 Z) as (Z1 & Z2). split; [exact Z1|]. rewrite Z2 in L3. apply same_opt_none in L3.
              unfold dmem in Dm. rewrite L3 in Dm. now destruct (dget k ct).
        -- destruct (current (r_cms s) r) as [cr|]; [|exact A']. destruct A' as ((L1 & L2 & L3) & L4 & L5 & L6 & L7 & L8).
           split; [|repeat (split; [assumption|]); exact L8]. split; [exact L1|]. split; [exact L2|]. intros ref' ct' E1 E2. apply (L3 ref' ct' E1). rewrite <- E2, Re.
           rewrite L8 in E1. destruct r as [|q|q]; [discriminate|exfalso; apply Nr; f_equal; exact N|]. injection E1 as <-.
           destruct (ref_eqb (q, "section.py") (q0, "section.py")) eqn:Z; [apply ref_eqb_iff in Z; congruence|reflexivity].
      * split; [exists m; exact Fm'|]. intros q N. assert (Z := Sy q _ (Fl q N) N). cbn [put_around a_around]. destruct (ref_dec (CSec q) (CSec q0)) as [E|Ne].
        -- injection E as ->. assert (E : ref_eqb (q0, "section.py") (q0, "section.py") = true) by now apply ref_eqb_iff. rewrite E in Z. subst l'. cbn [l_file].
           (* the section's file is there *)
           assert (Own : exists n0 c0, disk_seen mgr_reserved base [] (cs_disk (r_cms s)) q0 = Some (SSec n0 (Some c0))).
           { unfold read_file in R. cbn [fst snd] in R. destruct q0 as [|y q0].
             - cbn [disk_seen find_dir] in *. unfold folder_config. destruct (dget "section.py" (dir_files (cs_disk (r_cms s)))) as [[]|]; try discriminate. eauto.
             - destruct N as (t & Nt & Ep). change (p = (y :: q0) ++ t) in Ep. rewrite Ep in Fm.
               destruct (walk (y :: q0) _ _ _ _ t _ _ ltac:(discriminate) Nt Fm) as (d' & Fd & W). specialize (W []). rewrite app_nil_r in W. rewrite W. cbn [disk_seen].
               unfold folder_config. rewrite Fd in R. destruct (dget "section.py" (dir_files d')) as [[]|]; try discriminate. eauto. }
           destruct Own as (n0 & c0 & E0). rewrite E0 in Z. exact Z.
        -- destruct (ref_eqb (q, "section.py") (q0, "section.py")) eqn:E; [apply ref_eqb_iff in E; congruence|exact Z].
    + exists content. split; [exact Hf|]. split; [exact Pf|]. split; [|now apply Un]. split; [exact I'|]. split; [|exact L].
      assert (Fs : forall q, ref_eqb (q, "section.py") ref = false).
      { intro q. destruct (ref_eqb (q, "section.py") ref) eqn:E; [|reflexivity]. apply ref_eqb_iff in E. subst ref. now destruct Es. }
      split; [exact It|]. split; [|split; [exact Rd'|split; [exact Po|split; [exact Pk|]]]].
      * intros r N Nr. assert (A' := A r N Nr). assert (Ec : current (r_cms (edit ref ct s)) r = current (r_cms s) r).
        { destruct r as [|q|q]; [reflexivity|exfalso; apply Nr; f_equal; exact N|reflexivity]. }
        rewrite Ec. destruct (current (r_cms s) r) as [cr|]; [|exact A']. destruct A' as ((L1 & L2 & L3) & L4 & L5 & L6 & L7 & L8).
        split; [|repeat (split; [assumption|]); exact L8]. split; [exact L1|]. split; [exact L2|]. intros ref' ct' E1 E2. apply (L3 ref' ct' E1). rewrite <- E2, Re.
        rewrite L8 in E1. destruct r as [|q|q]; [discriminate|exfalso; apply Nr; f_equal; exact N|]. injection E1 as <-. now rewrite Fs.
      * split; [exists m; exact Fm'|]. intros q N. assert (Z := Sy q _ (Fl q N) N). now rewrite Fs in Z.
Qed.

(** * Whether the file has been read *)
Definition good (s : rs) : Prop :=
  tree_wf (r_cms s) /\ target (r_cms s) p = Some (CItem p) /\ exists c, current (r_cms s) (CItem p) = Some c.
Definition in_memory (s : rs) : Prop := exists c, read_cref (r_cms s) (CItem p) = Some c.
Definition stay (s s' : rs) : Prop := good s -> good s' /\ (in_memory s -> in_memory s').
Lemma stay_refl s : stay s s. Proof. intro G. split; auto. Qed.
Lemma stay_trans a b c : stay a b -> stay b c -> stay a c.
Proof. intros A B G. destruct (A G) as (G1 & R1). destruct (B G1) as (G2 & R2). split; auto. Qed.
Definition reads {A} (m : M rs A) : Prop := forall s, good s -> in_memory (fst (m s)).
Ltac ybind := apply (keeps_bind stay stay_trans).
Ltac ydone := first [apply (keeps_ret stay stay_refl) | apply (keeps_raise stay stay_refl)
                    | apply (keeps_lift stay stay_refl) | apply (keeps_gets stay stay_refl)].
Lemma same_cms {A} (m : M rs A) : (forall s, r_cms (fst (m s)) = r_cms s) -> keeps stay m.
Proof. intros E s G. unfold good, in_memory in *. rewrite E. split; auto. Qed.
Lemma deref_stay r : keeps stay (on_cms (deref r)).
Proof. apply same_cms. intro s. unfold on_cms, deref. now destruct (read_cref (r_cms s) r). Qed.
Lemma emit_stay e : keeps stay (on_cms (emit e)).
Proof.
  intros s (W & T & c & C). split; [split; [exact W|split; [exact T|]]|auto]. exists c. exact C.
Qed.
Lemma apply_stay q o cfg : keeps stay (apply_config u q o cfg).
Proof. apply same_cms. intro s. destruct o; cbn [apply_config]; [reflexivity|]. now destruct (u_init u k0 _). Qed.
Lemma reads_then {A B} (m : M rs A) (f : A -> M rs B) : reads m -> keeps stay m -> (forall a, keeps stay (f a)) -> reads (bind m f).
Proof.
  intros R K F s G. specialize (R s G). destruct (K s G) as (G1 & _). unfold bind. destruct (m s) as [s1 [a|e]]; cbn [fst] in *; [|exact R]. exact (proj2 (F a s1 G1) R).
Qed.
Lemma get_reads : reads (on_cms (cm_get path)) /\ keeps stay (on_cms (cm_get path)).
Proof.
  assert (X : forall s, good s -> good (fst (on_cms (cm_get path) s)) /\ in_memory (fst (on_cms (cm_get path) s))).
  { intros s (W & T & c & C). unfold on_cms. assert (K := cm_get_keeps path (r_cms s) W). destruct (cm_get path (r_cms s)) as [st o] eqn:E. cbn [fst] in *.
    assert (S := cm_get_spec _ _ _ _ (tree_cms_wf _ W) E). fold p in S. rewrite T in S. destruct S as (Tc & _ & S). rewrite C in S. destruct S as (_ & c' & Rc & _).
    unfold good, in_memory. cbn [r_cms]. split; [|exists c'; exact Rc]. split; [exact K|]. split; [destruct Tc as (-> & _); exact T|]. exists c'. now apply read_current. }
  split; [intros s G; apply X, G|]. intros s G. destruct (X s G). split; auto.
Qed.
Lemma config_reads : reads (get_config path) /\ keeps stay (get_config path).
Proof.
  destruct get_reads as (R & K). assert (F : forall r : option cref, keeps stay (match r with None => raise not_loaded | Some r => on_cms (deref r) end)) by (intros [r|]; [apply deref_stay|ydone]).
  split; [apply reads_then; auto|ybind; auto].
Qed.
Lemma gfc_reads : reads (get_func_and_config its path) /\ keeps stay (get_func_and_config its path).
Proof.
  destruct config_reads as (R & K). split; [apply reads_then; auto|unfold get_func_and_config; ybind; auto]; intro c; (ybind; [ydone|]; intros [b [|[]|]]; cbn [snd]; ydone).
Qed.
Lemma gcc_reads : reads (get_class_and_config its path) /\ keeps stay (get_class_and_config its path).
Proof.
  destruct config_reads as (R & K). split; [apply reads_then; auto|unfold get_class_and_config; ybind; auto]; intro c; (ybind; [ydone|]; intros [b [|[]|]]; cbn [snd]; ydone).
Qed.
Lemma rest_stay : (forall s, good s -> dget path (r_loaded s) = None -> in_memory (fst (get_one_func_with_config its path s))) /\ keeps stay (get_one_func_with_config its path).
Proof.
  destruct gfc_reads as (R & K).
  assert (F : forall fc : callable * bool * dict pyval, keeps stay (let '(f, is_class, kw) := fc in id <- fresh ;; (let o := LPartial id f is_class kw in set_loaded path o ;;; ret o))).
  { intros [[f b] kw]. ybind; [now apply same_cms|]. intro i. ybind; [now apply same_cms|]. intro. ydone. }
  split.
  - intros s G E. unfold get_one_func_with_config, bind at 1, gets. rewrite E. exact (reads_then _ _ R K F s G).
  - unfold get_one_func_with_config. ybind; [ydone|]. intros [o|]; [ydone|]. ybind; auto.
Qed.
Lemma rest_obj_stay : (exists f, get_func_or_collection its path = Ok f) ->
  (forall s, good s -> dget path (r_loaded s) = None -> in_memory (fst (get_one_obj_with_config its u path s))) /\ keeps stay (get_one_obj_with_config its u path).
Proof.
  intros (f & Ef). destruct gcc_reads as (R & K).
  assert (F : forall kc : callable * bool * dict pyval, keeps stay (let '(k, is_class, kw) := kc in
      let args := if is_class then kw else relevant_config k kw in
      match u_init u k args with
      | Some e => raise e
      | None => id <- fresh ;; (let o := LInst id k [args] in set_loaded path o ;;; ret o)
      end)).
  { intros [[f' b] kw]. cbn zeta. destruct (u_init u f' _); [ydone|]. ybind; [now apply same_cms|]. intro i. ybind; [now apply same_cms|]. intro. ydone. }
  split.
  - intros s G E. unfold get_one_obj_with_config, bind at 1, gets. rewrite E. unfold bind at 1, lift. rewrite Ef. exact (reads_then _ _ R K F s G).
  - unfold get_one_obj_with_config. ybind; [ydone|]. intros [o|]; [ydone|]. ybind; [ydone|]. intro. ybind; auto.
Qed.


Lemma memory_unread s : in_memory s -> is_unread false s.
Proof.
  intros (c & H). split; [discriminate|]. intros (ref & m & E). fold p in E. rewrite read_cref_see, E in H. discriminate.
Qed.
Lemma same_unread b s s' : see (r_cms s') p = see (r_cms s) p -> is_unread b s -> is_unread b s'.
Proof. unfold is_unread, unread_in. fold p. now intros ->. Qed.
Lemma touches_unread b s st' r l n c : touches r (r_cms s) st' -> target (r_cms s) p = Some (CItem p) -> r <> CItem p -> is_unread b s -> is_unread b (RS st' l n c).
Proof. intros (_ & T & _) Ti N. apply same_unread. cbn [r_cms]. apply T. congruence. Qed.
Lemma okr_good content a s : okr base path k x content a s -> good s.
Proof. intros ((I1 & I2 & _) & ((c & C & _) & _) & _). split; [apply I1|]. split; [exact I2|]. exists c. exact C. Qed.
Hypotheses (Hx : mem k (f_args x) = true) (Hpre : u_pre_run u = []).

Lemma after_update_stay d q kw ru : keeps stay (after_update u d q kw ru).
Proof.
  destruct ru as [r b]. unfold after_update. ybind; [ydone|]. intros [o|]; [|ydone]. destruct b; [|ydone].
  ybind; [apply deref_stay|]. intro c. ybind; [apply apply_stay|]. intro. destruct (dmem "d" kw); [ydone|apply emit_stay].
Qed.
Lemma after_refresh_stay rbu : keeps stay (after_refresh u path rbu).
Proof.
  destruct rbu as [[r b] us]. unfold after_refresh. ybind; [ydone|]. intros [o|]; [|ydone]. destruct b; [|ydone].
  ybind; [apply config_reads|]. intro c. ybind; [apply apply_stay|]. intro. apply emit_stay.
Qed.
(** the config is in memory after the first part *)
Lemma item_reads {A B} (m : M cms A) (f : A -> M rs B) content a s : okr base path k x content a s -> keepsW m ->
  touches (CItem p) (r_cms s) (fst (m (r_cms s))) -> (exists c, read_cref (fst (m (r_cms s))) (CItem p) = Some c) -> (forall a, keeps stay (f a)) ->
  in_memory (fst (bind (on_cms m) f s)).
Proof.
  intros H W T (c & R) F. assert (G := okr_good _ _ _ H). destruct G as (G1 & G2 & _). specialize (W (r_cms s) G1). unfold bind, on_cms.
  destruct (m (r_cms s)) as [st o]. cbn [fst] in *. assert (G' : good (RS st (r_loaded s) (r_next s) (r_calls s))).
  { split; [exact W|]. cbn [r_cms]. split; [destruct T as (-> & _); exact G2|]. exists c. now apply read_current. }
  assert (M : in_memory (RS st (r_loaded s) (r_next s) (r_calls s))) by (exists c; exact R). destruct o as [v|e]; [|exact M]. exact (proj2 (F v _ G') M).
Qed.
Lemma unread_step content a s op b : accepting its u path x -> permitted base path k op -> passes base u path s op -> okr base path k x content a s ->
  is_unread b s -> is_unread (still_unread path op a b) (rop_run base its u s op).
Proof.
  intros ((b0 & th & Hf & K) & Ki) A G H U. assert (Gd := okr_good _ _ _ H). assert (H' := H). destruct H' as (I & C & L). assert (I' := I). destruct I' as (I1 & I2 & I3).
  assert (I2' : target (r_cms s) p = Some (CItem p)) by exact I2.
  destruct A as [F|A].
  { destruct (foreign_rstp base its u path op s Hpre F I) as (_ & (_ & _ & Sp & _) & _).
    assert (E : still_unread path op a b = b); [|rewrite E; now apply (same_unread b s)].
    assert (Ne : forall q, (forall t, path_parts path <> path_parts q ++ t) -> String.eqb q path = false).
    { intros q Nq. destruct (String.eqb_spec q path) as [->|]; [|reflexivity]. exfalso. apply (Nq []). now rewrite app_nil_r. }
    destruct op as [q|set [q|l]|d [q|] persist kw|[q|] [|]|q]; cbn [foreign still_unread] in *; try contradiction; try reflexivity;
      destruct F as (F & _); rewrite (Ne q F); try reflexivity.
    destruct (begins (path_parts q) (path_parts path)) eqn:B; [|reflexivity]. exfalso. apply begins_iff in B as (t & B). exact (F t B). }
  destruct C as ((c & A1 & A2 & A3 & A4) & Ar & R & Po & Pk & (m & Fp) & Fl). fold p in A1, A2, R, Fp, Fl.
  destruct op as [q|set [q|l]|d [q|] persist kw|[q|] [|]|q]; cbn [still_unread rop_run passes permitted] in *; try contradiction.
  - subst q. rewrite String.eqb_refl. unfold ok_obj in L. unfold runner_get, bind at 1, lift. rewrite Hf. cbn [snd].
    destruct (a_obj a) as [v|] eqn:Eo; destruct (dget path (r_loaded s)) as [o|] eqn:El; try contradiction.
    + assert (E1 : get_one_func_with_config its path s = (s, Ok o)) by (unfold get_one_func_with_config, bind, gets; now rewrite El).
      assert (E2 : get_one_obj_with_config its u path s = (s, Ok o)) by (unfold get_one_obj_with_config, bind, gets; now rewrite El).
      destruct K as [->|[->| ->]]; unfold bind; rewrite ?E1, ?E2; exact U.
    + apply memory_unread. destruct rest_stay as (R1 & _). destruct (rest_obj_stay (ex_intro _ _ Hf)) as (R2 & _). specialize (R1 s Gd El). specialize (R2 s Gd El).
      destruct K as [->|[->| ->]]; unfold bind.
      * destruct (get_one_func_with_config its path s) as [s1 []]; exact R1.
      * destruct (get_one_obj_with_config its u path s) as [s1 []]; exact R2.
      * destruct (get_one_obj_with_config its u path s) as [s1 []]; exact R2.
  - subst q. rewrite String.eqb_refl. apply memory_unread. rewrite (pm_run_eq its u path set s Hpre). cbn [fst]. rewrite (run_one_eq its u path b0 th s Hf).
    destruct gfc_reads as (G1 & G2), gcc_reads as (G3 & G4), rest_stay as (_ & S1), (rest_obj_stay (ex_intro _ _ Hf)) as (_ & S2).
    assert (X : reads (run_head its u path th) /\ keeps stay (run_head its u path th)).
    { destruct K as [->|[->| ->]]; cbn [run_head]; (split; [apply reads_then; auto|ybind; auto]). }
    apply reads_then; [apply X|apply X| |exact Gd]. intro o. now apply same_cms.
  - destruct A as (Wk & Wd & Pg & A). specialize (G A). destruct (String.eqb_spec q path) as [->|Nq].
    + apply memory_unread. rewrite runner_update_eq. assert (S := cm_update_spec (r_cms s) d (Some path) persist kw). destruct (cm_update d (Some path) persist kw (r_cms s)) as [st o] eqn:E.
      specialize (S _ _ eq_refl). cbn [path_target] in S. fold p in S. rewrite I2', A1 in S. destruct S as (T & S).
      apply (item_reads _ _ content a s H (cm_update_keeps _ _ _ _)); rewrite ?E; cbn [fst]; [exact T| |intro; apply after_update_stay].
      destruct (cfg_checked_update c d persist kw) as [[c' b']|e]; [exists c'; apply S|exists c; apply S].
    + rewrite runner_update_eq. unfold bind at 1, on_cms. destruct (cm_update d (Some q) persist kw (r_cms s)) as [st o] eqn:E.
      assert (S := cm_update_spec _ _ _ _ _ _ _ E). assert (Tq := near_section path (r_cms s) q I2 Nq A). cbn [path_target] in S. rewrite Tq in S. destruct S as (T & _).
      assert (X : is_unread b (RS st (r_loaded s) (r_next s) (r_calls s))) by (apply (touches_unread b s _ _ _ _ _ T I2'); [discriminate|exact U]).
      destruct o as [[r b1]|e]; [|exact X]. unfold after_update, bind at 1, loaded_at, gets. cbn [r_loaded]. rewrite (loaded_none base path s q I Nq A). exact X.
  - rewrite runner_update_eq. unfold bind at 1, on_cms. destruct (cm_update d None persist kw (r_cms s)) as [st o] eqn:E.
    assert (S := cm_update_spec _ _ _ _ _ _ _ E). cbn [path_target] in S. destruct S as (T & _).
    assert (X : is_unread b (RS st (r_loaded s) (r_next s) (r_calls s))) by (apply (touches_unread b s _ _ _ _ _ T I2'); [discriminate|exact U]).
    destruct o as [[r b1]|e]; exact X.
  - destruct (String.eqb_spec q path) as [->|Nq].
    + apply memory_unread. unfold runner_reset.
      destruct (cm_reset base (Some path) false (r_cms s)) as [st o] eqn:E.
      assert (S := cm_reset_item (r_cms s) base path st o I2 E). cbn zeta in S. fold p in S. destruct S as (T & S). rewrite R, A1 in S.
      apply (item_reads _ _ content a s H (cm_reset_keeps base (Some path) false)); rewrite ?E; cbn [fst]; [exact T| |].
      * destruct (value_as_kwargs content) as [us|]; [|exists c; apply S]. destruct (would_update c (Some us) []) as [[]|]; [eexists; apply S|exists c; apply S|exists c; apply S].
      * intros [df b1]. ybind; [ydone|]. intros [o'|]; [|ydone]. destruct b1; [|ydone]. destruct df; [|ydone]. ybind; [apply apply_stay|]. intro. ybind; [ydone|]. intro. apply emit_stay.
    + assert (B : begins (path_parts q) (path_parts path) = true) by now apply begins_iff. rewrite B. specialize (G A).
      destruct A as (t & Ep). assert (Nt : t <> []).
      { intros ->. apply Nq. rewrite app_nil_r in Ep. change (split dot path = split dot q) in Ep. rewrite <- (join_split dot q), <- (join_split dot path). now rewrite Ep. }
      change (p = path_parts q ++ t) in Ep.
      assert (Sp : exists v, see (r_cms s) p = Some v) by (unfold target in I2'; destruct (see (r_cms s) p); [eauto|discriminate]). destruct Sp as (v & Sp).
      destruct (prefix_is_section (r_cms s) p (path_parts q) v Sp) as (n & own & Sq); [eauto|].
      revert G. destruct (runner_reset base u (Some q) false s) as [s' rr] eqn:Er. cbn [fst snd]. intros ->.
      unfold runner_reset, bind at 1, on_cms at 1 in Er.
      destruct (cm_reset base (Some q) false (r_cms s)) as [st o] eqn:E. assert (S := cm_reset_section _ _ _ _ _ _ _ Sq E).
      destruct own as [c0|]; [destruct S as (_ & ->); discriminate Er|].
      destruct (from_files_at base (cs_disk (r_cms s)) (path_parts q)) as [sc|e] eqn:Fa; [|destruct S as (_ & ->); discriminate Er].
      destruct S as (-> & _ & _ & In).
      assert (Dok : disk_ok (cs_disk (r_cms s))) by apply I1.
      assert (Fp' := Fp). rewrite Ep in Fp'. destruct (walk _ _ _ _ _ _ _ _ (path_parts_nonempty q) Nt Fp') as (d' & Fd & W). cbn [app] in W.
      assert (Sn : see st p = Some (SFile (item_file p) m)).
      { rewrite Ep, In. unfold from_files_at in Fa. rewrite Fd in Fa. rewrite (from_files_seen t sec_reserved _ _ _ _ (proj1 (find_dir_ok _ _ _ Dok Fd)) Fa).
        transitivity (disk_seen mgr_reserved base [] (cs_disk (r_cms s)) (path_parts q ++ t)); [symmetry; apply W|]. rewrite <- Ep. exact Fp. }
      unfold bind, loaded_at, gets in Er. cbn [r_loaded] in Er. rewrite (loaded_none base path s q I Nq (ex_intro _ t Ep)) in Er. injection Er as <-.
      split; [|reflexivity]. intros _. exists (item_file p), m. exact Sn.
  - apply (same_unread b s); [|exact U]. reflexivity.
  - apply (same_unread b s); [|exact U]. reflexivity.
  - specialize (G A). destruct (String.eqb_spec q path) as [->|Nq].
    + apply memory_unread. rewrite runner_refresh_eq. destruct (cm_refresh path (r_cms s)) as [st o] eqn:E.
      assert (S := cm_refresh_spec _ _ _ _ E). fold p in S. rewrite I2', A1 in S. destruct S as (T & S).
      apply (item_reads _ _ content a s H (cm_refresh_keeps path)); rewrite ?E; cbn [fst]; [exact T| |intro; apply after_refresh_stay].
      rewrite A2, R in S. destruct (cfg_checked_refresh c content) as [[[c' b'] us]|e]; [exists c'; apply S|exists c; apply S].
    + rewrite runner_refresh_eq. unfold bind at 1, on_cms. destruct (cm_refresh q (r_cms s)) as [st o] eqn:E.
      assert (S := cm_refresh_spec _ _ _ _ E). assert (Tq := near_section path (r_cms s) q I2 Nq A). rewrite Tq in S. destruct S as (T & _).
      assert (X : is_unread b (RS st (r_loaded s) (r_next s) (r_calls s))) by (apply (touches_unread b s _ _ _ _ _ T I2'); [discriminate|exact U]).
      destruct o as [[[r b1] us]|e]; [|exact X]. unfold after_refresh, bind at 1, loaded_at, gets. cbn [r_loaded]. rewrite (loaded_none base path s q I Nq A). exact X.
Qed.

(** * Histories *)
Lemma do_ok n s op more : accepting its u path x -> k <> "d_" -> k <> "E" -> permitted base path k op -> passes base u path s op ->
  (more = true <-> changes_more k s op) -> okn n s ->
  okn (Known (n_file n) (still_unread path op (n_arg n) (n_unread n)) (move path k (n_file n) more op (n_arg n))) (rop_run base its u s op).
Proof.
  intros Hi Nd NE A G M (content & Hf & Pf & H & U). exists content. cbn [n_file n_unread n_arg]. split; [exact Hf|]. split; [exact Pf|]. split.
  - exact (step_ok base its u path k x content (n_file n) Hx Hpre (n_arg n) s op more Hi Nd NE Hf Pf A G M H).
  - exact (unread_step content (n_arg n) s op (n_unread n) Hi A G H U).
Qed.
Lemma follows_ok steps : accepting its u path x -> k <> "d_" -> k <> "E" -> forall n s n', all_careful base its u path k s steps -> okn n s ->
  follows base its u path k s steps n n' -> okn n' (fold_left (step_run base its u) steps s).
Proof.
  intros Hi Nd NE. induction steps as [|[op|ref ct] steps IH]; intros n s n' G H F; cbn [follows all_careful fold_left step_run] in *; [now subst n'| |].
  - destruct G as ((G1 & G2) & G). destruct F as (more & M & F). refine (IH _ _ n' G _ F). now apply do_ok.
  - destruct G as (G1 & G). refine (IH _ _ n' G _ F). now apply edit_ok.
Qed.
Lemma can_follow steps : forall s n, exists n', follows base its u path k s steps n n'.
Proof.
  induction steps as [|[op|ref ct] steps IH]; intros s n; cbn [follows]; [eauto| |].
  - destruct (IH (rop_run base its u s op) (Known (n_file n) (still_unread path op (n_arg n) (n_unread n)) (move path k (n_file n) (more_b k s op) op (n_arg n)))) as (n' & F).
    exists n', (more_b k s op). split; [apply more_dec|exact F].
  - apply IH.
Qed.
Lemma okn_shows n s : okn n s -> n_shows path k n s.
Proof.
  intros (content & Hf & _ & H & U). split; [exact (okr_shows _ _ _ _ _ _ _ H)|]. split; [exact U|]. exists content. split; [|exact Hf]. apply H.
Qed.
End Item.

Lemma start_known base path k x content file disk n s : disk_ok disk -> runner_load base disk n = Ok s ->
  target (r_cms s) (path_parts path) = Some (CItem (path_parts path)) -> read_file disk (item_file (path_parts path)) = Ok content ->
  dget k content = Some file -> plain file = true ->
  (forall r c v, In r (refs (path_parts path)) -> current (r_cms s) r = Some c -> dget k (c_vals c) = Some v -> plain v = true) ->
  okn base path k x (Known file true (OneArg_Spec.from_files k file (r_cms s))) s.
Proof.
  intros D L T R F P U. exists content. cbn [n_file n_unread n_arg]. split; [exact F|]. split; [exact P|]. split; [now apply (start_ok base path k x content file disk n)|].
  split; [|reflexivity]. intros _. unfold runner_load in L. destruct (cm_load base disk) as [st|] eqn:E; [|discriminate]. injection L as <-. cbn [r_cms] in *.
  assert (Sn := load_seen base disk st (path_parts path) (proj1 D) E). destruct (start_item disk base (path_parts path) st Sn T) as (m & Sf).
  exists (item_file (path_parts path)), m. exact Sf.
Qed.
