From Verif Require Import ItemLoad_Spec FuncArgs_Proofs FuncArgs_Props Imports_Proofs Imports_Props.
Local Open Scope string_scope.
Local Open Scope list_scope.

(** the import found for a name that is bound to an object *)
Lemma import_shape n l j : get_import_for_name n l = Ok j -> (exists y m r, j = ObjImp [y] m r) \/ (exists y r, j = ModImp [y] r).
Proof.
  induction l as [|i l IH]; cbn; [discriminate|]. destruct (import_of n i) as [j'|] eqn:E; [|exact IH]. intros [= <-]. clear IH.
  destruct i as [ms r|os m r]; cbn in E.
  - right. destruct (smem n ms); [injection E as <-; eauto|]. destruct (smem n (map snd r)); [|discriminate]. injection E as <-; eauto.
  - left. destruct (smem n os); [injection E as <-; eauto|]. destruct (smem n (map snd r)); [|discriminate]. injection E as <-; eauto.
Qed.
Lemma object_import n l m x : clear_for l n -> bound_to l n = Some (m, Some x) -> exists r, get_import_for_name n l = Ok (ObjImp [x] m r).
Proof.
  intros C B. destruct (import_found l n m x C B) as (j & G & _). destruct C as (C1 & C2 & C3 & C4).
  destruct (C48_gives_the_binding n l j C1 C2 C3 C4 G) as (t & Bj & Bt). assert (t = (m, Some x)) by congruence. subst t.
  destruct (import_shape n l j G) as [(y & m' & r & ->)|(y & r & ->)]; unfold bindings in Bj; cbn [module_of aliases_of map flat_map alias_bindings] in Bj; rewrite app_nil_r in Bj; cbn [fst snd] in Bj.
  - unfold alias_bindings in Bj; cbn [fst snd] in Bj. destruct (dget y (item_map r)).
    + injection Bj as _ -> ->. rewrite G. eauto.
    + destruct (String.eqb y "*"); [discriminate|]. injection Bj as _ -> E2. subst. rewrite G. eauto.
  - unfold alias_bindings in Bj; cbn [fst snd] in Bj. destruct (dget y (item_map r)); discriminate.
Qed.
Lemma module_import n l m j : clear_for l n -> bound_to l n = Some (m, None) -> get_import_for_name n l = Ok j -> exists r, j = ModImp [m] r.
Proof.
  intros (C1 & C2 & C3 & C4) B G.
  destruct (C48_gives_the_binding n l j C1 C2 C3 C4 G) as (t & Bj & Bt). assert (t = (m, None)) by congruence. subst t.
  destruct (import_shape n l j G) as [(y & m' & r & ->)|(y & r & ->)]; unfold bindings in Bj; cbn [module_of aliases_of map flat_map alias_bindings] in Bj; rewrite app_nil_r in Bj; unfold alias_bindings in Bj; cbn [fst snd] in Bj.
  - destruct (dget y (item_map r)); [discriminate|]. destruct (String.eqb y "*"); discriminate.
  - destruct (dget y (item_map r)) eqn:D.
    + injection Bj as _ ->. eauto.
    + injection Bj as E1 E2. exists r. f_equal.
      assert (S : y = n).
      { clear -G D. apply get_import_ok in G. destruct G as (pre & i & post & _ & _ & E).
        destruct i as [ms q|os w q].
        - destruct (smem n ms) eqn:Sn; [cbn in E; rewrite Sn in E; now injection E as -> _|].
          assert (No : ~ In n (originals (ModImp ms q))) by (cbn; intros H; apply smem_In in H; congruence).
          assert (Ny : In n (new_names (ModImp ms q))) by (cbn in E; rewrite Sn in E; destruct (smem n (map snd q)) eqn:Sq; [now apply smem_In|discriminate]).
          destruct (import_of_new n (ModImp ms q) No Ny) as (j' & ? & x & ? & E' & _ & A & _). assert (j' = ModImp [y] r) by congruence. subst j'.
          cbn [aliases_of map] in A. rewrite D in A. discriminate.
        - cbn in E. destruct (smem n os); [discriminate|]. destruct (smem n (map snd q)); discriminate. }
      subst y. congruence.
Qed.

Lemma name_root e n : view_name e = Ok (Some n) -> n <> "DataPipeline" -> get_name e None = (Ok (Some n), Some (Some n, None)).
Proof. intros V N. unfold get_name, set_name. rewrite V. destruct (String.eqb_spec n "DataPipeline"); [contradiction|reflexivity]. Qed.

Section Load.
Context {obj : Type}.
Variable import_module : string -> res obj.
Variable getattr : obj -> string -> res obj.
Notation load_item := (load_item import_module getattr).
Notation env := (env import_module getattr).
Notation import_from := (import_from import_module getattr).

Lemma load_object l e n m x : view_name e = Ok (Some n) -> n <> "DataPipeline" -> clear_for l n -> bound_to l n = Some (m, Some x) ->
  load_item l e = match import_module m with Raise y => Raise y | Ok M => getattr M x end.
Proof.
  intros V N C B. unfold ItemLoad_Model.load_item, make_view. rewrite V. destruct (object_import n l m x C B) as (r & ->).
  rewrite (name_root e n V N). cbn. destruct (import_module m) as [M|y]; [|reflexivity]. destruct (getattr M x); reflexivity.
Qed.
Lemma load_module l e n m j : view_name e = Ok (Some n) -> n <> "DataPipeline" -> clear_for l n -> bound_to l n = Some (m, None) -> get_import_for_name n l = Ok j ->
  load_item l e = match import_module m with Raise y => Raise y | Ok M => getattr M n end.
Proof.
  intros V N C B G. unfold ItemLoad_Model.load_item, make_view. rewrite V, G. destruct (module_import n l m j C B G) as (r & ->).
  rewrite (name_root e n V N). cbn. destruct (import_module m); reflexivity.
Qed.
Lemma load_root l e n : view_name e = Ok (Some n) -> n <> "DataPipeline" -> load_item l e = load_item l (Name n).
Proof.
  intros V N. unfold ItemLoad_Model.load_item, make_view. rewrite V. change (view_name (Name n)) with (Ok (Some n)).
  rewrite (name_root e n V N), (name_root (Name n) n eq_refl N). reflexivity.
Qed.

Lemma written_object file_of made m name m2 name2 d : as_written import_module getattr file_of made -> leads_to file_of m name m2 name2 d ->
  exists M, import_module m = Ok M /\ getattr M name = Ok (made m2 name2).
Proof.
  intros W H. induction H as [m name f d Ef Ed|m name f m' name' m2 name2 d Ef Ed B H IH].
  - destruct (W m f Ef) as (M & EM & H1 & _). exists M. split; [exact EM|]. now apply (H1 name d).
  - destruct IH as (M' & EM' & G'). destruct (W m f Ef) as (M & EM & _ & H2). exists M. split; [exact EM|]. now apply (H2 name m' name' M').
Qed.
End Load.

Lemma leads_stands file_of m name m2 name2 d : leads_to file_of m name m2 name2 d -> stands_for file_of m name m2 d.
Proof. intros H. induction H; [eapply stands_here|eapply stands_there]; eassumption. Qed.
Lemma stands_leads file_of m name m2 d : stands_for file_of m name m2 d -> exists name2, leads_to file_of m name m2 name2 d.
Proof. intros H. induction H as [|? ? ? ? ? ? ? ? ? ? ? [n2 IH]]; eexists; [eapply leads_here|eapply leads_there]; eassumption. Qed.

(* ------------------------------------------------------------------ *)
(** * Names *)

Definition plain_cache (n : option string) (c : names_cache) : Prop := c = None \/ c = Some (n, None).
Lemma plain_access e n : set_name e = Ok (n, None) -> forall a c, plain_cache n c -> fst (read_access e a c) = Ok n /\ plain_cache n (snd (read_access e a c)).
Proof.
  intros S a c [-> | ->]; destruct a as [| |[|]]; unfold read_access, public_name, output_name, get_name; rewrite ?S; cbn; unfold plain_cache; auto.
Qed.
Lemma plain_after e n : set_name e = Ok (n, None) -> forall l c, plain_cache n c -> plain_cache n (after e l c).
Proof. intros S l. induction l as [|a l IH]; intros c H; cbn; [assumption|]. apply IH. now apply plain_access. Qed.

Lemma named_after e n o : set_name e = Ok (n, Some o) -> forall l, after e l (Some (n, Some o)) = Some (n, Some o).
Proof. intros S l. induction l as [|a l IH]; cbn; [reflexivity|]. destruct a as [| |[|]]; cbn; exact IH. Qed.
Lemma named_first e n o : set_name e = Ok (n, Some o) -> forall l a, after e (a :: l) None = Some (n, Some o).
Proof.
  intros S l a. cbn [after]. replace (snd (read_access e a None)) with (Some (n, Some o)); [now apply named_after|].
  destruct a as [| |[|]]; unfold read_access, public_name, output_name, get_name; rewrite ?S; reflexivity.
Qed.

(** keywords *)
Lemma startswith_keyword a : startswith ("keyword " ++ a) "keyword " = true.
Proof. reflexivity. Qed.
Lemma keyword_other key q : fst q <> key -> keyword_values key (keyword (fst q) (snd q)) = [].
Proof.
  intros N. unfold keyword. cbn [keyword_values]. rewrite startswith_keyword.
  destruct (String.eqb_spec ("keyword " ++ fst q) ("keyword " ++ key)) as [E|_]; [|reflexivity]. exfalso. apply N. cbn in E. congruence.
Qed.
Lemma keywords_other key l : (forall q, In q l -> fst q <> key) -> flat_map (keyword_values key) (map (fun q => keyword (fst q) (snd q)) l) = [].
Proof.
  induction l as [|q l IH]; intros H; [reflexivity|]. cbn [map flat_map]. rewrite keyword_other by (apply H; now left). cbn. apply IH. intros q' Hq. apply H. now right.
Qed.
Lemma pipeline_keyword args before s rest : (forall q, In q rest -> fst q <> "name") -> keyword_value "name" (data_pipeline args before s rest) = Ok (Str s).
Proof.
  intros H. unfold keyword_value, data_pipeline. cbn [keyword_values]. change (startswith "Call" "keyword ") with false. cbn iota.
  cbn [flat_map]. rewrite !flat_map_app. cbn [flat_map]. rewrite (keywords_other "name" rest H), app_nil_r.
  cbn [keyword_values app]. rewrite app_assoc, rev_app_distr. reflexivity.
Qed.
Lemma pipeline_set_name args before s rest : (forall q, In q rest -> fst q <> "name") ->
  flat_map expr_names args = [] -> (forall q, In q (before ++ rest) -> expr_names (snd q) = []) ->
  set_name (data_pipeline args before s rest) = Ok (Some "DataPipeline", Some s).
Proof.
  intros H A Q. unfold set_name.
  assert (K : forall l, (forall q, In q l -> expr_names (snd q) = []) -> flat_map expr_names (map (fun q => keyword (fst q) (snd q)) l) = []).
  { induction l as [|q l IH]; intros Hl; [reflexivity|]. cbn [map flat_map keyword expr_names]. rewrite (Hl q) by now left. cbn. apply IH. intros q' I. apply Hl. now right. }
  assert (V : view_name (data_pipeline args before s rest) = Ok (Some "DataPipeline")).
  { unfold view_name, data_pipeline. cbn [expr_names flat_map]. rewrite !flat_map_app. cbn [flat_map]. rewrite A, !K; [reflexivity|..]; intros q I; apply Q; apply in_app_iff; tauto. }
  rewrite V. cbn [String.eqb Ascii.eqb Bool.eqb]. rewrite pipeline_keyword by assumption. reflexivity.
Qed.

(** * The example *)
Lemma one_way_nodup (al : list alias) : NoDup (map fst al) -> one_way al.
Proof.
  induction al as [|[x o] al IH]; [intros _ ? ? ? []|]. cbn. inversion 1 as [|? ? Hx N]; subst. intros y o1 o2 [H1|H1] [H2|H2]; [congruence| | |now apply (IH N y)].
  - injection H1 as -> ->. exfalso. apply Hx. apply in_map_iff. now exists (y, o2).
  - injection H2 as -> ->. exfalso. apply Hx. apply in_map_iff. now exists (y, o1).
Qed.
Lemma nodup_b (l : list string) : (if list_eq_dec string_dec (ex_set l) l then true else false) = true -> NoDup l.
Proof. destruct (list_eq_dec string_dec (ex_set l) l) as [E|]; [|discriminate]. intros _. rewrite <- E. apply NoDup_nodup. Qed.
Lemma il_clear_b : clear_b il_imports.
Proof.
  split; [|split; [reflexivity|split; [reflexivity|apply nodup_b; reflexivity]]].
  intros i [<-|[<-|[<-|[<-|[<-|[]]]]]].
  - exists [("go", Some "start")]. split; [right; eexists; reflexivity|apply one_way_nodup, nodup_b; reflexivity].
  - exists [("tool", None)]. split; [right; eexists; reflexivity|apply one_way_nodup, nodup_b; reflexivity].
  - exists [("sub", None)]. split; [right; eexists; reflexivity|apply one_way_nodup, nodup_b; reflexivity].
  - exists [("c", None)]. split; [left; reflexivity|apply one_way_nodup, nodup_b; reflexivity].
  - exists [("pkg.inner", None)]. split; [left; reflexivity|apply one_way_nodup, nodup_b; reflexivity].
Qed.
Lemma il_clear : clear_for il_imports "start". Proof. eapply clear_b_spec; [exact il_clear_b|reflexivity]. Qed.
Lemma il_clear_tool : clear_for il_imports "tool". Proof. eapply clear_b_spec; [exact il_clear_b|reflexivity]. Qed.
Lemma il_clear_sub : clear_for il_imports "sub". Proof. eapply clear_b_spec; [exact il_clear_b|reflexivity]. Qed.
Lemma il_clear_files : clear_files il_files.
Proof.
  intros m f n t E. unfold il_files in E. destruct (String.eqb m "pkg"); [injection E as <-|destruct (String.eqb m "pkg.inner"); [injection E as <-|discriminate]]; intros B; apply (clear_b_spec _ n t); try exact B.
  - split; [|split; [reflexivity|split; [reflexivity|apply nodup_b; reflexivity]]]. intros i [<-|[]].
    exists [("run", Some "go")]. split; [right; eexists; reflexivity|apply one_way_nodup, nodup_b; reflexivity].
  - split; [intros i []|split; [reflexivity|split; [reflexivity|apply nodup_b; reflexivity]]].
Qed.
Lemma il_stands : stands_for il_files "pkg" "go" "pkg.inner" ("run", one_arg (a_ "x")).
Proof. eapply stands_there; [reflexivity..|]. eapply stands_here; reflexivity. Qed.
Lemma il_written : as_written il_import il_getattr il_files (fun _ n => AFunction n).
Proof.
  intros m f. unfold il_files. destruct (String.eqb_spec m "pkg") as [->|N]; [intros [= <-]|destruct (String.eqb_spec m "pkg.inner") as [->|N2]; [intros [= <-]|discriminate]].
  - exists (AModule "pkg"). split; [reflexivity|]. split; [intros name d D; cbn in D; discriminate D|]. intros name m' x M' o _ B EM Eo. apply bound_to_in in B. destruct B as [B|[]]. injection B as <- <- <-.
    injection EM as <-. exact Eo.
  - exists (AModule "pkg.inner"). split; [reflexivity|]. split; [|intros name m' x M' o _ B; cbn in B; discriminate B]. intros name d. cbn [flat_map src_body defs_in app]. destruct (String.eqb_spec "run" name) as [<-|]; [reflexivity|intros D; discriminate D].
Qed.

Lemma collect_iff {A B} (f : A -> res B) l : forall bs, collect f l = Ok bs <-> Forall2 (fun a b => f a = Ok b) l bs.
Proof.
  induction l as [|a l IH]; intros bs; cbn [collect].
  - split; [intros [= <-]; constructor|]. now inversion 1.
  - split.
    + destruct (f a) as [b|] eqn:E; [|discriminate]. destruct (collect f l) as [bs'|] eqn:E'; [|discriminate]. intros [= <-]. constructor; [exact E|]. now apply IH.
    + inversion 1 as [|? b ? bs' E H']; subst. rewrite E. apply IH in H'. now rewrite H'.
Qed.
