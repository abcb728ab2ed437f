(** C46, C55 and C61: writing files, creating projects and scaffolding whole trees. *)
From Verif Require Import PipeDict_Model.
From Verif Require Import PySource_Model FileStr_Model.
From Verif Require Import Project_Model Project_Spec Project_Proofs ProjectWalk_Proofs ProjectEx_Proofs.
Local Open Scope string_scope.
Local Open Scope list_scope.

(* ------------------------------------------------------------------ *)
(** * C55 *)

(** Whatever exists before is the same at every moment of the creation, even if it is interrupted or fails. *)
Theorem C55_existing_unchanged : forall folder logs names f st q, wf f -> In st (crash_states (create_project folder logs names) f) -> f q <> None -> st q = f q.
Proof.
  intros folder logs names f st q W H. unfold crash_states in H. rewrite (create_project_acts (fun _ _ _ _ => Raise OSError)) in H. apply (made_keeps _ _ f st W (project_no_upd folder logs names) H).
Qed.
(** It succeeds unless a file lies where a folder on the way to the project or to the logs is needed. *)
Theorem C55_success : forall folder logs names f, wf f ->
  (snd (create_project folder logs names f) = Ok tt <-> reachable f (folder ++ ["defaults"]) /\ match logs with Some l => reachable f l | None => True end).
Proof. intros. now apply (create_project_ok (fun _ _ _ _ => Raise OSError)). Qed.
(** What is there afterwards. *)
Theorem C55_result : forall folder logs names f l, wf f -> create_project folder logs names f = (l, Ok tt) -> forall q,
  final f l q = match f q with
                | Some n => Some n
                | None => if prefixb q (folder ++ ["defaults"]) then Some Dir
                          else if match logs with Some lp => prefixb q lp | None => false end then Some Dir
                          else if path_eqb (folder ++ ["pipeline_dict.py"]) q then Some (File pipeline_text)
                          else if existsb (fun n => path_eqb (dict_file folder n) q) names then Some (File class_text)
                          else None
                end.
Proof.
  intros folder logs names f l W E q. rewrite (create_project_acts (fun _ _ _ _ => Raise OSError)) in E. destruct (run_ok _ _ f l W E) as [R _]. rewrite (runs_made _ _ f _ (project_no_upd folder logs names) R q). destruct (f q); [reflexivity|].
  assert (M : made (map (fun n => ANew (dict_file folder n) class_text) names) q = if existsb (fun n => path_eqb (dict_file folder n) q) names then Some (File class_text) else None).
  { clear E R. induction names as [|n names IH]; [reflexivity|]. cbn [map made existsb]. destruct (path_eqb _ q); [reflexivity|exact IH]. }
  unfold project_acts. cbn [made]. unfold prefixb. destruct (list_eq_dec string_dec (firstn (length q) (folder ++ ["defaults"])) q); [reflexivity|]. destruct logs as [lp|]; cbn [app made].
  - destruct (list_eq_dec string_dec (firstn (length q) lp) q); [reflexivity|]. destruct (path_eqb _ q); [reflexivity|exact M].
  - destruct (path_eqb _ q); [reflexivity|exact M].
Qed.
(** A second time nothing is written. *)
Theorem C55_twice : forall folder logs names f l, wf f -> create_project folder logs names f = (l, Ok tt) -> create_project folder logs names (final f l) = ([], Ok tt).
Proof.
  intros folder logs names f l W E. rewrite (create_project_acts (fun _ _ _ _ => Raise OSError)) in *. destruct (run_ok _ _ f l W E) as [R Wg]. apply (quiet_again _ _ f _ W (project_no_upd folder logs names) R Wg).
Qed.
(** The check whether a project is needed is satisfied afterwards exactly if the folder it looks for exists. *)
Theorem C55_needed_again : forall folder d logs names f l, wf f -> create_project folder logs names f = (l, Ok tt) ->
  need_to_create (final f l) folder d logs names = negb (exists_ (final f l) (folder ++ [d])) /\ need_to_create (final f l) folder "defaults" logs names = false.
Proof.
  intros folder d logs names f l W E. rewrite !(need_after (fun _ _ _ _ => Raise OSError) folder logs names _ f l W E). split; [reflexivity|].
  unfold exists_. rewrite (C55_result folder logs names f l W E). destruct (f (folder ++ ["defaults"])); [reflexivity|]. now rewrite (proj2 (prefixb_spec _ _) (prefix_refl _)).
Qed.

Example C55_example : wf disk /\ exists l, create_project ["home"; "a"; "b"] (Some ["home"; "logs"]) ["kls"] disk = (l, Ok tt) /\
  map (final disk l) [["home"; "a"]; ["home"; "a"; "b"; "defaults"]; ["home"; "logs"]; ["home"; "a"; "b"; "pipeline_dict.py"]; ["home"; "a"; "b"; "kls_dict.py"]; ["home"; "a"; "b"; "x"]] =
  [Some Dir; Some Dir; Some Dir; Some (File pipeline_text); Some (File class_text); None].
Proof. split; [exact disk_wf|]. eexists. split; [apply ran; vm_compute; reflexivity|]. vm_compute. reflexivity. Qed.

(** If all parts of the project exist, with the folder for the config files under the name it has, starting a manager changes
    nothing, even if there is no folder named defaults. If one part is missing, all of them are created as far as they are missing. *)
Theorem C55_only_if_needed : forall folder d logs names f,
  let parts := [folder; folder ++ ["pipeline_dict.py"]; folder ++ [d]] ++ match logs with Some l => [l] | None => [] end ++
               map (fun n => folder ++ [(n ++ "_dict.py")%string]) names in
  ((forall p, In p parts -> f p <> None) -> create_if_needed folder d logs names f = ([], Ok tt)) /\
  ((exists p, In p parts /\ f p = None) -> create_if_needed folder d logs names f = create_project folder logs names f).
Proof.
  intros folder d logs names f parts.
  assert (H : need_to_create f folder d logs names = existsb (fun p => negb (exists_ f p)) parts).
  { unfold parts. rewrite !existsb_app. unfold need_to_create.
    assert (M : existsb (fun p => negb (exists_ f p)) (map (fun n => folder ++ [(n ++ "_dict.py")%string]) names) =
                existsb (fun n => negb (exists_ f (dict_file folder n))) names).
    { induction names as [|n names IH]; [reflexivity|]. cbn [map existsb]. now rewrite IH. }
    unfold path in *. rewrite M, orb_assoc. f_equal. f_equal. destruct logs as [l|]; cbn [existsb]; now rewrite ?orb_false_r. }
  assert (N : create_if_needed folder d logs names f =
              if existsb (fun p => negb (exists_ f p)) parts then create_project folder logs names f else ([], Ok tt)).
  { unfold create_if_needed, pbind at 1, pfs. cbn [final last]. rewrite H.
    destruct (existsb (fun p => negb (exists_ f p)) parts); [now destruct (create_project folder logs names f)|reflexivity]. }
  rewrite N. split.
  - intro A. replace (existsb _ parts) with false; [reflexivity|]. symmetry. apply not_true_iff_false. rewrite existsb_exists.
    intros (p & Hp & E). specialize (A p Hp). unfold exists_ in E. now destruct (f p).
  - intros (p & Hp & E). replace (existsb _ parts) with true; [reflexivity|]. symmetry. apply existsb_exists. exists p.
    split; [exact Hp|]. unfold exists_. now rewrite E.
Qed.

(** With another name for the folder of the config files it is not created, and the project is taken for incomplete for ever. *)
Theorem C55_other_config_folder_refuted : exists folder d l, create_if_needed folder d None [] disk = (l, Ok tt) /\
  final disk l (folder ++ [d]) = None /\ final disk l (folder ++ ["defaults"]) = Some Dir /\
  need_to_create (final disk l) folder d None [] = true /\ create_if_needed folder d None [] (final disk l) = ([], Ok tt).
Proof. exists ["home"; "a"], "config". eexists. split; [apply ran; vm_compute; reflexivity|]. split; [vm_compute; reflexivity|]. split; [vm_compute; reflexivity|]. split; [vm_compute; reflexivity|].
  match goal with |- ?x = _ => assert (N : fst x = []) by (vm_compute; reflexivity); assert (O : snd x = Ok tt) by (vm_compute; reflexivity); rewrite (surjective_pairing x), N, O; reflexivity end.
Qed.

(** A class dict called pipeline gets the file of the pipeline dict, in which there is no class_dict. *)
Theorem C55_class_dict_called_pipeline_refuted : exists l, create_project ["home"; "a"] None ["pipeline"] disk = (l, Ok tt) /\
  final disk l (dict_file ["home"; "a"] "pipeline") = Some (File pipeline_text) /\
  PipeDict_Model.read true "class_dict" pipeline_text = None /\ PipeDict_Model.read true "class_dict" class_text = Some [].
Proof. eexists. split; [apply ran; vm_compute; reflexivity|]. repeat split; vm_compute; reflexivity. Qed.

(** After an interruption, creating the project again succeeds and makes up for everything but the one file that was being
    written. *)
Theorem C55_after_an_interruption : forall folder logs names f l st, wf f -> create_project folder logs names f = (l, Ok tt) -> In st (crash_states (create_project folder logs names) f) ->
  exists l', create_project folder logs names st = (l', Ok tt) /\
    exists p, forall q, final st l' q = final f l q \/ q = p /\ exists t s, st q = Some (File t) /\ final st l' q = Some (File t) /\ final f l q = Some (File s) /\ begins t s.
Proof. intros folder logs names f l st W E H. now apply (project_again (fun _ _ _ _ => Raise OSError)). Qed.
(** That file stays as it is, and then mostly cannot be read. *)
Theorem C55_repaired_after_interruption_refuted : exists folder st, In st (crash_states (create_project folder None []) disk) /\
  st (folder ++ ["pipeline_dict.py"]) = Some (File "") /\ create_project folder None [] st = ([], Ok tt) /\ need_to_create st folder "defaults" None [] = false.
Proof.
  exists ["home"; "a"]. eexists. split; [|split; [|split]].
  - do 3 right. left. reflexivity.
  - vm_compute; reflexivity.
  - vm_compute; reflexivity.
  - vm_compute; reflexivity.
Qed.
Theorem C55_torn_pipeline_dict_unreadable : forall t, begins t pipeline_text -> t <> pipeline_text -> (t ++ newline)%string <> pipeline_text -> PipeDict_Model.read true "pipeline_dict" t = None.
Proof.
  intros t H. apply prefixes_spec in H. assert (F : Forall (fun t => t <> pipeline_text -> (t ++ newline)%string <> pipeline_text -> PipeDict_Model.read true "pipeline_dict" t = None) (prefixes pipeline_text)).
  { repeat (constructor; [intros N1 N2; (vm_compute; reflexivity) || (exfalso; apply N2; vm_compute; reflexivity) || (exfalso; apply N1; vm_compute; reflexivity)|]). constructor. }
  rewrite Forall_forall in F. now apply F.
Qed.

(* ------------------------------------------------------------------ *)
(** * C46 *)

(** While a file is being written any beginning of the new content can be found in it, and nothing else happens. *)
Theorem C46_one_file : forall p s f st, wf f -> f p <> Some Dir -> (f p <> None \/ f (parent p) = Some Dir) ->
  (In st (crash_states (write p s) f) <-> st = f \/ exists t, begins t s /\ st = put p (File t) f) /\ snd (write p s f) = Ok tt /\ final f (fst (write p s f)) = put p (File s) f.
Proof.
  intros p s f st W D C. unfold crash_states. rewrite (write_spec f p s W D C). cbn [fst snd]. split; [|split; [reflexivity|]].
  - split.
    + intros [<-|H]; [now left|]. right. apply in_map_iff in H. destruct H as (t & <- & H). exists t. split; [now apply prefixes_spec|reflexivity].
    + intros [->|(t & H & ->)]; [now left|]. right. apply in_map_iff. exists t. split; [reflexivity|now apply prefixes_spec].
  - rewrite (final_map _ f (prefixes s) "") by apply prefixes_ne. now rewrite prefixes_last.
Qed.

(** An interrupted load has written the files of some items in order, and the file that was being written holds a beginning. *)
Theorem C46_interrupted_load : forall cfg defaults i f st, wf f -> In st (crash_states (scaffold_all cfg defaults i) f) ->
  wf st /\ exists l1 l2 f1, all_acts defaults i = l1 ++ l2 /\ runs cfg f l1 f1 /\ (st = f1 \/ exists a l3, l2 = a :: l3 /\ can cfg f1 a /\ during cfg f1 a st).
Proof.
  intros cfg defaults i f st W H. unfold crash_states in H. rewrite scaffold_all_acts in H. destruct (run_crash cfg _ f st W H) as (Ws & l1 & l2 & f1 & E & R & _ & K). split; [exact Ws|]. exists l1, l2, f1. auto.
Qed.
(** If the load would have succeeded, all paths but one are as before or as they would have been. *)
Theorem C46_at_most_one_file_torn : forall cfg defaults i f l st, wf f -> tidy_items i -> scaffold_all cfg defaults i f = (l, Ok tt) -> In st (crash_states (scaffold_all cfg defaults i) f) ->
  exists p, forall q, st q = f q \/ st q = final f l q \/ q = p /\ exists t s, st q = Some (File t) /\ final f l q = Some (File s) /\ begins t s.
Proof.
  intros cfg defaults i f l st W T E H. unfold crash_states in H. rewrite scaffold_all_acts in *. destruct (run_ok cfg _ f l W E) as [R _]. apply (crash_torn cfg f _ _ st W (tidy_all defaults i T) R H).
Qed.

(** An interrupted load can leave a file that is read without error and holds a value that is neither the old nor the new one. *)
Theorem C46_old_or_new_refuted : exists st u f0 f1 f2 s, In st (crash_states (scaffold_all one_cfg ["d"] one_items) (one_disk user_file)) /\ st ["d"; "f.py"] = Some (File u) /\
  one_cfg true "f" TOther (Some user_file) = Ok s /\ load_file user_file = Ok f0 /\ load_file s = Ok f1 /\ load_file u = Ok f2 /\
  dget "k" (l_config f0) = Some (Some [TWord "25"]) /\ dget "k" (l_config f1) = Some (Some [TWord "25"]) /\ dget "k" (l_config f2) = Some (Some [TWord "2"]).
Proof.
  pose (s := ("from pyfileconf import Selector" ++ newline ++ newline ++ "s = Selector()" ++ newline ++ "k = 25" ++ newline)%string).
  pose (u := ("from pyfileconf import Selector" ++ newline ++ newline ++ "s = Selector()" ++ newline ++ "k = 2")%string).
  assert (Es : exists s', one_cfg true "f" TOther (Some user_file) = Ok s' /\ startswith s' u = true) by (eexists; split; [vm_compute; reflexivity|vm_compute; reflexivity]).
  destruct Es as (s' & Es & Eu). exists (put ["d"; "f.py"] (File u) (one_disk user_file)), u. do 3 eexists. exists s'. split; [now apply (one_left user_file s' u Es), begins_by|]. split; [apply put_eq|]. split; [exact Es|].
  vm_compute in Es. injection Es as <-. repeat split; vm_compute; reflexivity.
Qed.
(** Or the settings are gone, and the next load puts the defaults in their place. *)
Theorem C46_settings_survive_refuted : exists st l f2 s2, In st (crash_states (scaffold_all one_cfg ["d"] one_items) (one_disk user_file)) /\
  scaffold_all one_cfg ["d"] one_items st = (l, Ok tt) /\ final st l ["d"; "f.py"] = Some (File s2) /\ load_file s2 = Ok f2 /\ dget "k" (l_config f2) = Some (Some [TWord "None"]).
Proof.
  assert (Es : exists s', one_cfg true "f" TOther (Some user_file) = Ok s') by (eexists; vm_compute; reflexivity). destruct Es as (s' & Es).
  exists (put ["d"; "f.py"] (File "") (one_disk user_file)). do 3 eexists. split; [now apply (one_left user_file s' "" Es), begins_nil|]. split; [apply ran; vm_compute; reflexivity|]. split; [vm_compute; reflexivity|]. split; vm_compute; reflexivity.
Qed.
Example C46_example : tidy_items one_items /\ wf (one_disk user_file) /\ exists l, scaffold_all one_cfg ["d"] one_items (one_disk user_file) = (l, Ok tt).
Proof.
  split; [|split; [apply one_disk_wf|eexists; apply ran; vm_compute; reflexivity]]. split; [constructor|]. split; [intros r []|]. constructor; [repeat constructor; intros []|intros _ [H|[]]; discriminate|intros c [H|[]]; discriminate].
Qed.

(* ------------------------------------------------------------------ *)
(** * C61 *)

(** Only the files of items, the section.py files and the folders they lie in are touched, at no moment anything else. *)
Theorem C61_nothing_else_touched : forall cfg defaults i f st q, wf f -> In st (crash_states (scaffold_all cfg defaults i) f) ->
  (forall g p, folder_of defaults i g p -> ~ prefix q p) -> (forall b, folder_of defaults i true b -> q <> b ++ ["section.py"]) -> (forall g n t, ~ file_of defaults i g q n t) -> st q = f q.
Proof.
  intros cfg defaults i f st q W H H1 H2 H3. unfold crash_states in H. rewrite scaffold_all_acts in H. apply (crash_untouched cfg f _ st q W H). intros [p|p s|g p n t] Ha; cbn [touches].
  - apply all_sections in Ha. destruct Ha as [g Ha]. now apply (H1 g).
  - apply all_new in Ha. destruct Ha as (_ & b & Hb & ->). now apply H2.
  - apply all_items in Ha. intros ->. now apply (H3 g n t).
Qed.
(** Nothing is removed, and files that belong to no item keep their content; so do section.py files unless an item is called
    section. *)
Theorem C61_nothing_removed : forall cfg defaults i f st q, wf f -> In st (crash_states (scaffold_all cfg defaults i) f) ->
  (f q = Some Dir -> st q = Some Dir) /\ (forall s, f q = Some (File s) -> exists s', st q = Some (File s')) /\
  (forall s, f q = Some (File s) -> (forall g n t, ~ file_of defaults i g q n t) -> st q = Some (File s)).
Proof.
  intros cfg defaults i f st q W H. unfold crash_states in H. rewrite scaffold_all_acts in H. destruct (crash_kept cfg f _ st W H q) as [K1 K2]. split; [exact K1|]. split; [exact K2|]. intros s E N. apply (crash_file cfg f _ st q s W H); [|exact E]. intros g n t Ha. apply all_items in Ha. now apply (N g n t).
Qed.
(** After a successful load every item has a file with the content due to it given its old one, every section has a folder,
    and every section of the general tree has a section.py. *)
Theorem C61_all_written : forall cfg defaults i f l, wf f -> tidy_items i -> scaffold_all cfg defaults i f = (l, Ok tt) ->
  (forall g p n t, file_of defaults i g p n t -> exists s, cfg g n t (content f p) = Ok s /\ final f l p = Some (File s)) /\
  (forall b, folder_of defaults i true b -> final f l (b ++ ["section.py"]) = match f (b ++ ["section.py"]) with Some n => Some n | None => Some (File (String "010" "")) end) /\
  (forall g b, folder_of defaults i g b -> final f l b <> None /\ ((forall s, f b <> Some (File s)) -> final f l b = Some Dir)).
Proof.
  intros cfg defaults i f l W T E. rewrite scaffold_all_acts in E. destruct (run_ok cfg _ f l W E) as [R _]. pose proof (tidy_all defaults i T) as S. split; [|split].
  - intros g p n t Hp. apply (runs_item cfg f _ _ g p n t S R). now apply all_items.
  - intros b Hb. apply (runs_new cfg f _ _ _ newline S R). apply all_new. eauto.
  - intros g b Hb. apply (runs_folder cfg f _ _ b S R). apply all_sections. eauto.
Qed.
(** If a load fails, the files before the failing step have been written completely, those after it are as they were. *)
Theorem C61_failed_load : forall cfg defaults i f l e, wf f -> scaffold_all cfg defaults i f = (l, Raise e) ->
  exists l1 a l2, all_acts defaults i = l1 ++ a :: l2 /\ runs cfg f l1 (final f l) /\ ~ can cfg (final f l) a /\ forall q, untouched l1 q -> final f l q = f q.
Proof.
  intros cfg defaults i f l e W E. rewrite scaffold_all_acts in E. destruct (run_raise cfg _ f l e W E) as (l1 & a & l2 & Ea & R & _ & N). exists l1, a, l2. split; [exact Ea|]. split; [exact R|]. split; [exact N|]. intros q Hq. now apply (runs_untouched cfg f l1).
Qed.
(** If writing an item again does not change its file, loading again changes nothing. *)
Theorem C61_again : forall cfg defaults i f l, wf f -> tidy_items i -> scaffold_all cfg defaults i f = (l, Ok tt) ->
  (forall g p n t s, file_of defaults i g p n t -> cfg g n t (content f p) = Ok s -> cfg g n t (Some s) = Ok s) ->
  exists l', scaffold_all cfg defaults i (final f l) = (l', Ok tt) /\ forall q, final (final f l) l' q = final f l q.
Proof.
  intros cfg defaults i f l W T E I. rewrite scaffold_all_acts in E. destruct (run_ok cfg _ f l W E) as [R Wg]. pose proof (tidy_all defaults i T) as S.
  assert (B : forall b, In (AMk b) (all_acts defaults i) -> final f l b <> None) by (intros b Hb; now apply (runs_folder cfg f _ _ b S R)).
  assert (I' : forall g p n t s, In (AUpd g p n t) (all_acts defaults i) -> cfg g n t (content f p) = Ok s -> cfg g n t (Some s) = Ok s) by (intros g p n t s Ha; apply (I g p n t s); now apply all_items).
  destruct (runs_again cfg f _ _ W S B R Wg I') as (l' & E' & S' & _). exists l'. split; [now rewrite scaffold_all_acts|exact S'].
Qed.

(** If it changes them only a little, and others do no more than that, loading again succeeds and no more is changed than that. *)
Theorem C61_again_alike : forall cfg defaults i f l (R : string -> string -> Prop), wf f -> tidy_items i -> scaffold_all cfg defaults i f = (l, Ok tt) ->
  (forall x, R x x) -> rewriting cfg R defaults i f -> forall h, wf h -> alike R (config_file defaults i) (final f l) h ->
  exists l', scaffold_all cfg defaults i h = (l', Ok tt) /\ alike R (config_file defaults i) (final f l) (final h l').
Proof.
  intros cfg defaults i f l R W T E Rr I h Wh A. rewrite scaffold_all_acts in E. destruct (run_ok cfg _ f l W E) as [Rn _]. pose proof (tidy_all defaults i T) as S.
  destruct (runs_alike cfg f _ (final f l) R (config_file defaults i) W S) with (h := h) as (l' & E' & S'); [intros b Hb; now apply (runs_folder cfg f _ _ b S Rn)|exact Rn|exact Rr| | |exact Wh|exact A|].
  - intros g p n t H. exists g, n, t. now apply all_items.
  - intros g p n t a H. apply (I g p n t a). now apply all_items.
  - exists l'. split; [now rewrite scaffold_all_acts|exact S'].
Qed.

(** An item called section gets the file of the section's own config. *)
Theorem C61_section_config_kept_refuted : exists cfg i l, let f := one_disk "" in
  f ["d"; "section.py"] = Some (File newline) /\ scaffold_all cfg ["d"] i f = (l, Ok tt) /\ (exists s, final f l ["d"; "section.py"] = Some (File s) /\ s <> newline) /\
  file_of ["d"] i true ["d"; "section.py"] "section" TOther.
Proof.
  exists one_cfg, (Items [] (Coll "project" [EItem "section" TOther])). eexists. cbv zeta. split; [reflexivity|]. split; [apply ran; vm_compute; reflexivity|]. split; [eexists; split; [vm_compute; reflexivity|discriminate]|].
  apply file_general. apply (item_here ["d"] _ "section"). now left.
Qed.
(** The config file of an item that has been removed stays. *)
Theorem C61_removed_items_cleaned_up_refuted : exists cfg i l, let f := one_disk user_file in
  scaffold_all cfg ["d"] i f = (l, Ok tt) /\ final f l ["d"; "f.py"] = Some (File user_file) /\ forall g n t, ~ file_of ["d"] i g ["d"; "f.py"] n t.
Proof.
  exists one_cfg, (Items [] (Coll "project" [EItem "g" TOther])). eexists. cbv zeta. split; [apply ran; vm_compute; reflexivity|]. split; [vm_compute; reflexivity|].
  intros g n t H. apply all_items in H. cbn in H. intuition discriminate.
Qed.
Example C61_example : tidy_items ex_tree /\ exists l, scaffold_all (fun _ n _ old => Ok (match old with Some s => s | None => n end)) ["home"; "d"] ex_tree disk = (l, Ok tt) /\
  map (final disk l) [["home"; "d"; "kls"; "things"; "one.py"]; ["home"; "d"; "kls"; "section.py"]; ["home"; "d"; "sec"; "f.py"]; ["home"; "d"; "sec"; "section.py"]; ["home"; "d"; "h.py"]] =
  [Some (File "one"); None; Some (File "f"); Some (File (String "010" "")); Some (File "h")].
Proof.
  split.
  - split; [repeat constructor; intros []|]. split.
    + intros r [<-|[]]. cbn [reg_coll reg_name]. split; [|split; [discriminate|cbn; intuition discriminate]]. constructor; [repeat constructor; intros []|discriminate|]. intros c [H|[]]. injection H as <-. constructor; [repeat constructor; intros []|discriminate|intros c [H|[]]; discriminate].
    + cbn. constructor; [repeat constructor; cbn; intuition discriminate|intros _; cbn; intuition discriminate|]. intros c [H|[H|[]]]; [|discriminate]. injection H as <-. constructor; [repeat constructor; cbn; intuition discriminate|intros _; cbn; intuition discriminate|]. intros c [H|[H|[]]]; discriminate.
  - eexists. split; [apply ran; vm_compute; reflexivity|]. vm_compute. reflexivity.
Qed.

Print Assumptions C55_existing_unchanged.
Print Assumptions C55_success.
Print Assumptions C55_result.
Print Assumptions C55_twice.
Print Assumptions C55_needed_again.
Print Assumptions C55_only_if_needed.
Print Assumptions C55_other_config_folder_refuted.
Print Assumptions C55_class_dict_called_pipeline_refuted.
Print Assumptions C55_after_an_interruption.
Print Assumptions C55_repaired_after_interruption_refuted.
Print Assumptions C55_torn_pipeline_dict_unreadable.
Print Assumptions C46_one_file.
Print Assumptions C46_interrupted_load.
Print Assumptions C46_at_most_one_file_torn.
Print Assumptions C46_old_or_new_refuted.
Print Assumptions C46_settings_survive_refuted.
Print Assumptions C61_nothing_else_touched.
Print Assumptions C61_nothing_removed.
Print Assumptions C61_all_written.
Print Assumptions C61_failed_load.
Print Assumptions C61_again.
Print Assumptions C61_again_alike.
Print Assumptions C61_section_config_kept_refuted.
Print Assumptions C61_removed_items_cleaned_up_refuted.
