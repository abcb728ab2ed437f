(** Proofs about making and loading a manager. *)
From Verif Require Import Setup_Spec Selector_Proofs PipeDict_Proofs ProjectWalk_Proofs Project_Proofs ConfigLoad_Proofs RunnerOps_Proofs.
Local Open Scope string_scope.
Local Open Scope list_scope.

Section Setup.
Variable parse : bool -> string -> res (dict pd).
Variable view : string -> pd -> res (string * thing).
Variable inst : ccfg -> pd -> res (string * thing).

Lemma given_spec key c : given key c = true <-> exists v, dget key c = Some v /\ v <> CNone.
Proof.
  unfold given. destruct (dget key c) as [[]|]; split; intros H; try discriminate; try (eexists; split; [reflexivity|discriminate]); try reflexivity.
  - destruct H as (v & [= <-] & N). congruence.
  - destruct H as (v & [=] & _).
Qed.
Lemma own_key key (own : ccfg) : dwf own -> key <> "always_assign_strs" -> key <> "always_import_strs" -> dget key (dupdate default_ccfg own) = dget key own.
Proof.
  intros W N1 N2. rewrite dget_dupdate by exact W. destruct (dget key own); [reflexivity|]. unfold default_ccfg. cbn [dget fst snd].
  apply String.eqb_neq in N1, N2. cbn. now rewrite ?N1, ?N2.
Qed.
Lemma all_keys (own : ccfg) : forallb (fun k => mem k ccfg_keys) (dkeys (dupdate default_ccfg own)) = true <-> incl (dkeys own) ccfg_keys.
Proof.
  rewrite forallb_forall. split; intros H k Hk.
  - apply mem_In, H. rewrite In_dkeys_dupdate. now right.
  - apply mem_In. rewrite In_dkeys_dupdate in Hk. destruct Hk as [Hk|Hk]; [|now apply H]. cbn in Hk. destruct Hk as [<-|[<-|[]]]; cbn; tauto.
Qed.

Lemma make_registrar_iff f folder own r : dwf own -> make_registrar parse inst f folder own = Ok r <-> good_class parse inst f folder own r.
Proof.
  intros W. unfold make_registrar, good_class, load_dict.
  assert (En : dget "name" (dupdate default_ccfg own) = dget "name" own) by (apply own_key; [exact W|discriminate|discriminate]).
  assert (Ec : dget "class" (dupdate default_ccfg own) = dget "class" own) by (apply own_key; [exact W|discriminate|discriminate]).
  split.
  - destruct (given "name" (dupdate default_ccfg own)) eqn:G1; [|discriminate]. destruct (given "class" (dupdate default_ccfg own)) eqn:G2; [|discriminate]. cbn [andb negb].
    apply given_spec in G2 as (k & Hk & Nk). rewrite En. destruct (dget "name" own) as [[|n| |]|] eqn:Hn; try discriminate.
    destruct (f (dict_file folder n)) as [[|text]|] eqn:Hf; try discriminate. destruct (parse false text) as [d|] eqn:Hp; [|discriminate].
    destruct (forallb _ _) eqn:A; [|discriminate]. apply all_keys in A. destruct (from_dict _ n d) as [t|] eqn:Ht; [|discriminate]. intros [= <-].
    exists n, k, text, d. rewrite <- Ec. repeat split; try assumption.
  - intros (n & k & text & d & Hn & Hk & Nk & A & Hf & Hp & Ht & Hr).
    replace (given "name" (dupdate default_ccfg own)) with true by (symmetry; apply given_spec; exists (CStr n); rewrite En; now split).
    replace (given "class" (dupdate default_ccfg own)) with true by (symmetry; apply given_spec; exists k; rewrite Ec; now split).
    cbn [andb negb]. rewrite En, Hn, Hf, Hp. apply all_keys in A. rewrite A, Ht. destruct r. cbn in *. now subst.
Qed.
Lemma make_registrars_iff f folder cs : Forall (@dwf cval) cs -> forall rs, make_registrars parse inst f folder cs = Ok rs <-> Forall2 (good_class parse inst f folder) cs rs.
Proof.
  induction 1 as [|c cs W _ IH]; intros rs; cbn [make_registrars].
  - split; [intros [= <-]; constructor|intros H; now inversion H].
  - split.
    + destruct (make_registrar parse inst f folder c) as [r|] eqn:E; [|discriminate]. destruct (make_registrars parse inst f folder cs) as [rs'|]; [|discriminate]. intros [= <-].
      constructor; [now apply make_registrar_iff|now apply IH].
    + intros H. inversion H as [|? r ? rs' G Gs]; subst. apply make_registrar_iff in G; [|exact W]. rewrite G. apply IH in Gs. now rewrite Gs.
Qed.

Lemma dict_names w name d g : from_dict w name d = Ok g -> map entry_name (coll_entries g) = top_sections d.
Proof.
  unfold from_dict. rewrite from_dict_entries. destruct (dict_entries w d) as [es|] eqn:E; [|discriminate]. intros [= <-]. cbn [coll_entries]. unfold top_sections. revert es E.
  induction d as [|[k x] d IH]; intros es E; [now injection E as <-|]. cbn [dict_entries] in E. cbn [filter snd]. destruct (is_section x).
  - destruct (from_pd w k x) as [c|] eqn:Ex; [|discriminate]. destruct (dict_entries w d) as [es'|]; [|discriminate]. injection E as <-. cbn [map fst entry_name]. f_equal; [now apply from_pd_name in Ex|now apply IH].
  - now apply IH.
Qed.

Lemma repeats_spec l : repeats l = false <-> NoDup l.
Proof.
  induction l as [|x l IH]; cbn [repeats]; [split; [constructor|reflexivity]|]. rewrite orb_false_iff, mem_false, IH. split.
  - intros [H1 H2]. now constructor.
  - intros H. now inversion H.
Qed.
Lemma validate_iff i : validate i = Ok tt <-> NoDup (map reg_name (i_specific i)) /\
  forall r, In r (i_specific i) -> ~ In (reg_name r) (map entry_name (coll_entries (i_general i))) /\ ~ In (reg_name r) ["scaffold_config"; "get"; "basepath"; "name"].
Proof.
  unfold validate. destruct (existsb _ _) eqn:E.
  - split; [discriminate|]. intros [_ H]. apply existsb_exists in E as (r & Hr & Hm). apply mem_In in Hm. unfold reg_dir in Hm. apply in_app_iff in Hm. destruct (H r Hr). tauto.
  - assert (E' : forall r, In r (i_specific i) -> ~ In (reg_name r) (reg_dir (i_general i))).
    { intros r Hr Hm. apply mem_In in Hm. assert (X : existsb (fun r => mem (reg_name r) (reg_dir (i_general i))) (i_specific i) = true) by (apply existsb_exists; eauto). congruence. }
    destruct (repeats _) eqn:R.
    + split; [discriminate|]. intros [N _]. apply repeats_spec in N. congruence.
    + apply repeats_spec in R. split; [|reflexivity]. intros _. split; [exact R|]. intros r Hr. specialize (E' r Hr). unfold reg_dir in E'. rewrite in_app_iff in E'. tauto.
Qed.

Lemma has_dict_iff f folder d : load_dict parse true f (pipeline_file folder) = Ok d <-> has_dict parse f folder d.
Proof.
  unfold load_dict, has_dict. destruct (f (pipeline_file folder)) as [[|text]|].
  - split; [discriminate|]. intros [[H _]|(? & H & _)]; discriminate.
  - split; [intros H; right; now exists text|]. intros [[H _]|(t & H & E)]; [discriminate|]. now injection H as <-.
  - split; [intros [= <-]; left; now split|]. intros [[_ ->]|(? & H & _)]; [reflexivity|discriminate].
Qed.
Lemma checked_iff f folder name cs i : Forall (@dwf cval) cs -> checked parse view inst f folder name cs = Ok i <-> acceptable parse view inst f folder name cs i.
Proof.
  intros W. unfold checked, read_items, acceptable. split.
  - destruct (load_dict parse true f (pipeline_file folder)) as [d|] eqn:Ed; [|discriminate]. destruct (make_registrars parse inst f folder cs) as [rs|] eqn:Er; [|discriminate].
    destruct (from_dict (view (file_text f (pipeline_file folder))) name d) as [g|] eqn:Eg; [|discriminate]. destruct (validate (Items rs g)) as [[]|] eqn:V; [|discriminate]. intros [= <-]. exists d.
    apply validate_iff in V as [V1 V2]. cbn [i_specific i_general] in *. rewrite (dict_names _ _ _ _ Eg) in V2. split; [now apply has_dict_iff|]. split; [now apply make_registrars_iff|]. split; [exact Eg|]. now split.
  - intros (d & Hd & Hr & Eg & V1 & V2). apply has_dict_iff in Hd. rewrite Hd. apply make_registrars_iff in Hr; [|exact W]. rewrite Hr, Eg. destruct i as [rs g]. cbn [i_specific i_general] in *.
    replace (validate (Items rs g)) with (Ok tt); [reflexivity|]. symmetry. apply validate_iff. cbn [i_specific i_general]. rewrite (dict_names _ _ _ _ Eg). now split.
Qed.
End Setup.
