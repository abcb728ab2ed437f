(** What a load leaves behind. *)
From Verif Require Import Setup_Spec Setup_Proofs SetupFiles_Proofs View_Proofs Selector_Proofs.
Local Open Scope string_scope.
Local Open Scope list_scope.

Section Load.
Variable parse : bool -> string -> res (dict pd).
Variable view : string -> pd -> res (string * thing).
Variable inst : ccfg -> pd -> res (string * thing).
Variable cfg : bool -> string -> thing -> option string -> res string.
Variable config_dir : fs -> ConfigTree_Model.dir.
Notation load := (pm_load parse view inst cfg config_dir).
Notation ok f s i := (acceptable parse view inst f (su_folder s) (su_name s) (su_classes s) i).

Lemma load_checked s next f p : load s next f p =
  match checked parse view inst f (su_folder s) (su_name s) (su_classes s) with
  | Raise e => ([], p, Raise e)
  | Ok i => match scaffold_all cfg (defaults_of s) i f with
            | (l, Raise e) => (l, p, Raise e)
            | (l, Ok _) => match runner_load (su_config_folder s) (config_dir (final f l)) next with
                           | Raise e => (l, PM (Some i) (p_runner p), Raise e)
                           | Ok r => (l, PM (Some i) (Some (i, r)), Ok tt)
                           end
            end
  end.
Proof.
  unfold pm_load, create_registrars, pbind, pfs. change (final f []) with f. change (last [] f) with f. destruct (checked parse view inst f (su_folder s) (su_name s) (su_classes s)) as [i|e]; [|reflexivity].
  cbn. destruct (scaffold_all cfg (defaults_of s) i f) as [l [[]|e]]; cbn; rewrite ?app_nil_r; reflexivity.
Qed.

Lemma load_rejected s next f p : Forall (@dwf cval) (su_classes s) -> (forall i, ~ ok f s i) -> exists e, load s next f p = ([], p, Raise e).
Proof.
  intros D N. rewrite load_checked. destruct (checked parse view inst f (su_folder s) (su_name s) (su_classes s)) as [i|e] eqn:C; [|eauto]. exfalso. apply (N i). now apply checked_iff.
Qed.

Lemma accepted_once s f i i' : Forall (@dwf cval) (su_classes s) -> ok f s i -> ok f s i' -> i = i'.
Proof. intros D H H'. apply checked_iff in H, H'; [|exact D|exact D]. congruence. Qed.

Lemma load_accepted s next f p i : Forall (@dwf cval) (su_classes s) -> ok f s i -> load s next f p =
  match scaffold_all cfg (defaults_of s) i f with
  | (l, Raise e) => (l, p, Raise e)
  | (l, Ok _) => match cm_load (su_config_folder s) (config_dir (final f l)) with
                 | Raise e => (l, PM (Some i) (p_runner p), Raise e)
                 | Ok c => (l, PM (Some i) (Some (i, RS c [] next [])), Ok tt)
                 end
  end.
Proof.
  intros D H. rewrite load_checked. apply checked_iff in H; [|exact D]. rewrite H. destruct (scaffold_all cfg (defaults_of s) i f) as [l [[]|e]]; [|reflexivity]. unfold runner_load. now destruct (cm_load _ _).
Qed.

(** lookups by the names at the top *)
Lemma lookup_general s f i d path x rest : has_dict parse f (su_folder s) d -> Forall (@dwf cval) (su_classes s) -> ok f s i ->
  path_parts path = x :: rest -> In x (top_sections d) ->
  get_func_or_collection i path = match general_get (i_general i) (x :: rest) with Ok v => Ok (false, v) | Raise e => Raise e end.
Proof.
  intros D W H E X. assert (N : ~ In x (map reg_name (i_specific i))).
  { destruct H as (d' & D' & _ & _ & _ & U). apply has_dict_iff in D, D'. assert (d' = d) by congruence. subst d'. intros C. apply in_map_iff in C as (r & <- & C). now apply (proj1 (U r C)). }
  unfold get_func_or_collection. rewrite E, (find_registrar_None _ _ N). reflexivity.
Qed.
Lemma lookup_specific s f i r path rest : ok f s i -> In r (i_specific i) -> path_parts path = reg_name r :: rest ->
  get_func_or_collection i path = if String.eqb (join sdot rest) "" then Ok (true, FColl (reg_coll r)) else match reg_get (reg_coll r) rest with Ok v => Ok (true, v) | Raise e => Raise e end.
Proof.
  intros (d & _ & _ & _ & U & _) R E. unfold get_func_or_collection. rewrite E, (find_registrar_In _ _ U R). reflexivity.
Qed.

(** configs of class dicts that can never be loaded *)
Lemma good_classes_names s f i c : ok f s i -> In c (su_classes s) -> exists r, In r (i_specific i) /\ good_class parse inst f (su_folder s) c r.
Proof.
  intros (d & _ & F & _) C. induction F as [|c' r cs rs G F IH]; [destruct C|]. destruct C as [->|C]; [exists r; split; [now left|exact G]|]. destruct (IH C) as (r' & R & G'). exists r'. split; [now right|exact G'].
Qed.
Lemma never_loaded s c : Forall (@dwf cval) (su_classes s) -> In c (su_classes s) ->
  (forall n, dget "name" c <> Some (CStr n)) \/ dget "class" c = None \/ dget "class" c = Some CNone \/ ~ incl (dkeys c) ccfg_keys \/
  (exists n, dget "name" c = Some (CStr n) /\ In n ["scaffold_config"; "get"; "basepath"; "name"]) ->
  forall next f p, exists e, load s next f p = ([], p, Raise e).
Proof.
  intros D C H next f p. apply load_rejected; [exact D|]. intros i A. destruct (good_classes_names s f i c A C) as (r & R & n & k & text & d & G1 & G2 & G3 & G4 & _ & _ & _ & G8).
  destruct H as [H|[H|[H|[H|(m & H & I)]]]]; [now apply (H n)|congruence|congruence|contradiction|].
  destruct A as (d' & _ & _ & _ & _ & U). apply (proj2 (U r R)). congruence.
Qed.

(** the dict of registrars *)
Lemma fold_dset (l : list registrar) : forall d x, dget x (fold_left (fun d r => dset (reg_name r) (reg_coll r) d) l d) =
  match find_registrar x (rev l) with Some r => Some (reg_coll r) | None => dget x d end.
Proof.
  induction l as [|r l IH]; intros d x; [reflexivity|]. cbn [fold_left rev]. rewrite IH. unfold find_registrar.
  assert (A : forall l1 l2, find (fun r0 => String.eqb (reg_name r0) x) (l1 ++ l2) = match find (fun r0 => String.eqb (reg_name r0) x) l1 with Some r0 => Some r0 | None => find (fun r0 => String.eqb (reg_name r0) x) l2 end).
  { clear. induction l1 as [|a l1 IH]; intros l2; [reflexivity|]. cbn. destruct (String.eqb (reg_name a) x); [reflexivity|apply IH]. }
  rewrite A. destruct (find _ (rev l)); [reflexivity|]. cbn [find]. rewrite dget_dset. destruct (String.eqb_spec (reg_name r) x) as [->|N]; [now rewrite String.eqb_refl|].
  destruct (String.eqb_spec x (reg_name r)); [congruence|reflexivity].
Qed.
Lemma registrar_dict_spec i q d x : registrar_dict (PM (Some i) q) = Ok d -> NoDup (map reg_name (i_specific i)) ->
  dget x d = match find_registrar x (i_specific i) with Some r => Some (reg_coll r) | None => if String.eqb x "general" then Some (i_general i) else None end.
Proof.
  unfold registrar_dict. cbn [p_items]. intros [= <-] N. rewrite fold_dset. 
  assert (E : find_registrar x (rev (i_specific i)) = find_registrar x (i_specific i)).
  { destruct (in_dec string_dec x (map reg_name (i_specific i))) as [H|H].
    - apply in_map_iff in H as (r & <- & R). rewrite (find_registrar_In _ _ N R). apply find_registrar_In; [rewrite map_rev; now apply NoDup_rev|now apply in_rev in R].
    - rewrite (find_registrar_None _ _ H). apply find_registrar_None. rewrite map_rev, <- in_rev. exact H. }
  rewrite E. destruct (find_registrar x (i_specific i)); [reflexivity|]. cbn [dget]. now destruct (String.eqb x "general").
Qed.

(** failing and succeeding *)
Lemma load_history s next f p q l p' o : load s next f p = (l, p', o) ->
  exists q', load s next f q = (l, q', o) /\ (o = Ok tt -> q' = p') /\ (forall e, o = Raise e -> p_runner p' = p_runner p /\ p_runner q' = p_runner q /\ (p' = p /\ q' = q \/ p_items p' = p_items q' /\ p_items p' <> None)).
Proof.
  rewrite !load_checked. destruct (checked parse view inst f (su_folder s) (su_name s) (su_classes s)) as [i|e].
  2:{ intros [= <- <- <-]. exists q. repeat split; auto; discriminate. }
  destruct (scaffold_all cfg (defaults_of s) i f) as [l1 [[]|e]].
  2:{ intros [= <- <- <-]. exists q. repeat split; auto; discriminate. }
  destruct (runner_load _ _ _) as [r|e]; intros [= <- <- <-]; eexists; (split; [reflexivity|]); (split; [try reflexivity; discriminate|]); intros e' [=]; cbn; repeat split; auto. right. split; [reflexivity|discriminate].
Qed.
Lemma load_failed s next f p l p' e : load s next f p = (l, p', Raise e) ->
  (p' = p) \/
  (exists i, checked parse view inst f (su_folder s) (su_name s) (su_classes s) = Ok i /\ scaffold_all cfg (defaults_of s) i f = (l, Ok tt) /\
     cm_load (su_config_folder s) (config_dir (final f l)) = Raise e /\ p' = PM (Some i) (p_runner p)).
Proof.
  rewrite load_checked. destruct (checked parse view inst f (su_folder s) (su_name s) (su_classes s)) as [i|e1] eqn:K.
  2:{ intros [= <- <- <-]. now left. }
  destruct (scaffold_all cfg (defaults_of s) i f) as [l1 [[]|e1]] eqn:S.
  2:{ intros [= <- <- <-]. now left. }
  unfold runner_load. destruct (cm_load _ _) as [r|e1] eqn:C; [discriminate|]. intros [= <- <- <-]. right. exists i. auto.
Qed.
End Load.

(* ------------------------------------------------------------------ *)
(** * Constructing *)

Lemma class_names_spec cs : class_names cs = match find (fun c => negb (dmem "name" c)) cs with Some _ => Raise KeyError | None => Ok (map (fun c => match dget "name" c with Some v => v | None => CNone end) cs) end.
Proof.
  induction cs as [|c cs IH]; [reflexivity|]. cbn [class_names find]. unfold dmem at 1. destruct (dget "name" c) as [v|] eqn:E; [|reflexivity]. cbn [negb]. rewrite IH.
  cbn [map]. rewrite E. now destruct (find (fun c0 : dict cval => negb (dmem "name" c0)) cs).
Qed.
