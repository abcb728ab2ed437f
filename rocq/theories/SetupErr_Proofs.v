(** Proofs for [SetupErr_Props]. *)
From Verif Require Import SetupErr_Spec Setup_Proofs SetupFiles_Proofs SetupLoad_Proofs Selector_Proofs.
Local Open Scope string_scope.
Local Open Scope list_scope.

Section SetupErr.
Variable parse : bool -> string -> res (dict pd).
Variable view : string -> pd -> res (string * thing).
Variable inst : ccfg -> pd -> res (string * thing).

Lemma given_has key c : given key c = true <-> has_value key c.
Proof. exact (given_spec key c). Qed.
Lemma given_not key c : given key c = false <-> ~ has_value key c.
Proof. rewrite <- given_has. destruct (given key c); split; congruence. Qed.

Lemma class_fault_iff f folder c e : dwf c -> make_registrar parse inst f folder c = Raise e <-> class_fault parse inst f folder c e.
Proof.
  intro W. unfold make_registrar.
  assert (En : dget "name" (dupdate default_ccfg c) = dget "name" c) by (apply own_key; [exact W|discriminate|discriminate]).
  assert (Ec : dget "class" (dupdate default_ccfg c) = dget "class" c) by (apply own_key; [exact W|discriminate|discriminate]).
  assert (Gn : given "name" (dupdate default_ccfg c) = given "name" c) by (unfold given; now rewrite En).
  assert (Gc : given "class" (dupdate default_ccfg c) = given "class" c) by (unfold given; now rewrite Ec).
  rewrite Gn, Gc, En.
  assert (K := all_keys inst c). set (ks := forallb _ _) in *.
  split.
  - destruct (given "name" c) eqn:N; [|intros [= <-]; apply No_name_or_class; left; now apply given_not].
    destruct (given "class" c) eqn:C; [|intros [= <-]; apply No_name_or_class; right; now apply given_not].
    apply given_has in N, C. destruct N as (v & V & Nv). rewrite V. cbn [andb negb].
    destruct v as [|n|k|t]; [congruence| |intros [= <-]; eapply Name_no_string; [exact V|exact Nv|exact C|discriminate]..].
    unfold load_dict. destruct (f (dict_file folder n)) as [[|text]|] eqn:F.
    + intros [= <-]. eapply Folder_instead; eassumption.
    + destruct (parse false text) as [d|e'] eqn:P; [|intros [= <-]; eapply Bad_file; eassumption].
      destruct ks.
      * assert (I : incl (dkeys c) ccfg_keys) by now apply K.
        destruct (from_dict _ n d) eqn:D; [discriminate|]. intros [= <-]. eapply Bad_item; eassumption.
      * intros [= <-]. eapply Unknown_key; try eassumption. intro I. apply K in I. discriminate.
    + intros [= <-]. eapply No_file; eassumption.
  - assert (G : forall n, dget "name" c = Some (CStr n) -> given "name" c = true) by (intros n E; unfold given; now rewrite E).
    intro H. destruct H as [H|v V Nv C H|n V C F|n V C F|n text e V C F P|n text d V C F P I|n text d e V C F P I D].
    + rewrite <- !given_not in H. destruct H as [-> | ->]; [reflexivity|]. now rewrite Bool.andb_false_r.
    + apply given_has in C. rewrite C, V. assert (X : given "name" c = true) by (apply given_has; exists v; auto).
      rewrite X. cbn [andb negb]. destruct v; try reflexivity; [now exfalso; apply (H s)].
    + apply given_has in C. rewrite C, (G n V), V. cbn [andb negb]. unfold load_dict. now rewrite F.
    + apply given_has in C. rewrite C, (G n V), V. cbn [andb negb]. unfold load_dict. now rewrite F.
    + apply given_has in C. rewrite C, (G n V), V. cbn [andb negb]. unfold load_dict. now rewrite F, P.
    + apply given_has in C. rewrite C, (G n V), V. cbn [andb negb]. unfold load_dict. rewrite F, P.
      destruct ks; [exfalso; now apply I, K|reflexivity].
    + apply given_has in C. rewrite C, (G n V), V. cbn [andb negb]. unfold load_dict. rewrite F, P.
      apply K in I. rewrite I, D. reflexivity.
Qed.

Lemma classes_fault_iff f folder cs e : Forall (@dwf cval) cs -> make_registrars parse inst f folder cs = Raise e <->
  exists before c after rs, cs = before ++ c :: after /\ Forall2 (good_class parse inst f folder) before rs /\ class_fault parse inst f folder c e.
Proof.
  induction 1 as [|c cs W F IH]; cbn [make_registrars].
  - split; [discriminate|]. intros (b & c & a & rs & H & _). now destruct b.
  - split.
    + destruct (make_registrar parse inst f folder c) as [r|e'] eqn:M.
      * destruct (make_registrars parse inst f folder cs) as [rs|e''] eqn:R; [discriminate|]. intros [= ->].
        destruct (proj1 IH eq_refl) as (b & c' & a & rs & -> & G & X). exists (c :: b), c', a, (r :: rs).
        split; [reflexivity|]. split; [|exact X]. constructor; [|exact G]. now apply make_registrar_iff.
      * intros [= ->]. exists [], c, cs, []. split; [reflexivity|]. split; [constructor|]. now apply class_fault_iff.
    + intros (b & c' & a & rs & H & G & X). destruct b as [|c0 b]; cbn [app] in H.
      * assert (c = c') by congruence. subst c'. apply class_fault_iff in X; [|exact W]. now rewrite X.
      * assert (c = c0) by congruence. assert (cs = b ++ c' :: a) by congruence. subst c0. inversion G; subst.
        match goal with Hg : good_class _ _ _ _ c _ |- _ => apply make_registrar_iff in Hg; [rewrite Hg|exact W] end.
        assert (R : make_registrars parse inst f folder (b ++ c' :: a) = Raise e) by (apply IH; eauto 8). now rewrite R.
Qed.

Lemma validate_raises i e : validate i = Raise e -> e = ValueError.
Proof. unfold validate. destruct (existsb _ _); [congruence|]. destruct (repeats _); congruence. Qed.

Lemma fault_iff f folder name cs e : Forall (@dwf cval) cs ->
  checked parse view inst f folder name cs = Raise e <-> fault parse view inst f folder name cs e.
Proof.
  intro W. unfold checked, read_items. split.
  - destruct (load_dict parse true f (pipeline_file folder)) as [d|e0] eqn:L.
    + apply has_dict_iff in L. destruct (make_registrars parse inst f folder cs) as [rs|e1] eqn:R.
      * apply make_registrars_iff in R; [|exact W]. destruct (from_dict _ name d) as [g|e2] eqn:D.
        -- destruct (validate (Items rs g)) as [[]|e3] eqn:V; [discriminate|]. intros [= <-].
           rewrite (validate_raises _ _ V). revert V. unfold validate. cbn [i_specific i_general].
           destruct (existsb _ rs) eqn:X.
           ++ intros _. apply existsb_exists in X as (r & I & M). apply mem_In in M. eapply Name_taken; try eassumption.
              rewrite <- (dict_names _ _ _ _ D). unfold reg_dir in M. apply in_app_iff in M. apply in_app_iff. tauto.
           ++ destruct (repeats (map reg_name rs)) eqn:Y; [|discriminate]. intros _. eapply Name_twice; try eassumption.
              intro Nd. apply repeats_spec in Nd. congruence.
        -- intros [= <-]. eapply Pipeline_item; eassumption.
      * intros [= <-]. apply classes_fault_iff in R; [|exact W]. destruct R as (b & c & a & rs & E & G & X). eapply Class_dict; eassumption.
    + intros [= <-]. unfold load_dict in L. destruct (f (pipeline_file folder)) as [[|text]|] eqn:F; [| |discriminate].
      * injection L as <-. now apply Pipeline_folder.
      * eapply Pipeline_file; eassumption.
  - intros [F|text e' F P|d b c a rs e' L E G X|d rs e' L G D|d rs g r L G D I T|d rs g L G D N].
    + unfold load_dict. now rewrite F.
    + unfold load_dict. now rewrite F, P.
    + apply has_dict_iff in L. rewrite L. assert (R : make_registrars parse inst f folder cs = Raise e') by (apply classes_fault_iff; eauto 8).
      now rewrite R.
    + apply has_dict_iff in L. apply make_registrars_iff in G; [|exact W]. now rewrite L, G, D.
    + apply has_dict_iff in L. apply make_registrars_iff in G; [|exact W]. rewrite L, G, D. unfold validate. cbn [i_specific i_general].
      assert (X : existsb (fun r0 => mem (reg_name r0) (reg_dir g)) rs = true).
      { apply existsb_exists. exists r. split; [exact I|]. apply mem_In. unfold reg_dir. rewrite (dict_names _ _ _ _ D).
        apply in_app_iff in T. apply in_app_iff. tauto. }
      now rewrite X.
    + apply has_dict_iff in L. apply make_registrars_iff in G; [|exact W]. rewrite L, G, D. unfold validate. cbn [i_specific i_general].
      destruct (existsb _ rs); [reflexivity|]. destruct (repeats (map reg_name rs)) eqn:Y; [reflexivity|].
      exfalso. now apply N, repeats_spec.
Qed.
End SetupErr.
