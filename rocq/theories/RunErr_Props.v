(** C24, continued: which error a section raises that begins with something else than a function. *)
From Verif Require Import Runner_Model ConfigTree_Spec Runner_Spec Run_Spec ConfigTree_Proofs ConfigOps_Proofs RunnerOps_Proofs Runner_Proofs Run_Proofs RunErr_Proofs
  ConfigTree_Example Runner_Example.
Local Open Scope string_scope.
Local Open Scope list_scope.

(** The section itself is looked up in place of a class or an instance: if it has no config of its own, this is what is missed, and
    otherwise it is no callable. What is no function, class or instance is rejected, and what raises when it is read raises. *)
Theorem C24_first_entry_error : forall its u path n x t after s s' o m own,
  get_func_or_collection its path = Ok (false, FColl (Coll n (EItem x t :: after))) -> cms_wf (r_cms s) ->
  see (r_cms s) (path_parts path) = Some (SSec m own) -> (forall f, t <> TFunc f) -> run_one its u path s = (s', o) ->
  r_calls s' = r_calls s /\ r_loaded s' = r_loaded s /\
  o = Raise (match t, own with
             | TOther, _ => ValueError
             | TBroken e, _ => e
             | _, Some _ => TypeError
             | _, None => LibExn "ConfigManagerNotLoadedException"
             end).
Proof.
  intros its u path n x t after s s' o m own Hp W Hs Nf H. unfold run_one, bind at 1, lift in H. rewrite Hp in H.
  rewrite run_section_eq in H. unfold bind at 1 in H. cbn [mapM] in H. unfold bind at 1 in H.
  destruct (entry_fails its u path _ (sub_thunks (run_section its u) path (EItem x t :: after)) x t s m own Hp W Hs Nf) as (s1 & E & C & L).
  rewrite E in H. injection H as <- <-. auto.
Qed.
(** The same after functions, none of which raises: they are called, in order, and then the section raises this error. *)
Theorem C24_entry_error : forall its u path n fs x t after s s' o m own,
  get_func_or_collection its path = Ok (false, FColl (Coll n (fs ++ EItem x t :: after))) -> names_ok (Coll n (fs ++ EItem x t :: after)) -> cms_wf (r_cms s) ->
  see (r_cms s) (path_parts path) = Some (SSec m own) ->
  (forall e, In e fs -> exists y f, e = EItem y (TFunc f) /\ own_values (r_cms s) (path_parts (path ++ "." ++ y)) <> None) -> (forall f, t <> TFunc f) ->
  (forall calls p ob e, u_call u calls p ob <> Raise e) -> run_one its u path s = (s', o) ->
  (exists objs, r_calls s' = r_calls s ++ objs /\ map fst objs = map (fun e => (path ++ "." ++ entry_name e)%string) fs) /\
  o = Raise (match t, own with
             | TOther, _ => ValueError
             | TBroken e, _ => e
             | _, Some _ => TypeError
             | _, None => LibExn "ConfigManagerNotLoadedException"
             end).
Proof.
  intros its u path n fs x t after s s' o m own Hp N W Hs Hf Nf Nr H. unfold run_one, bind at 1, lift in H. rewrite Hp in H.
  rewrite run_section_eq in H. unfold bind at 1 in H.
  destruct (mapM (run_entry its u path (sub_thunks (run_section its u) path (fs ++ EItem x t :: after))) (fs ++ EItem x t :: after) s) as [s1 o1] eqn:E.
  destruct (functions_then its u path n _ (sub_thunks (run_section its u) path (fs ++ EItem x t :: after)) N Hp Nr fs x t after s s1 o1 m own) as (-> & C); auto; [intros z Hz; apply in_or_app; now left|].
  injection H as <- <-. split; [exact C|reflexivity].
Qed.

Example C24_ex_first_entry : get_func_or_collection ex_items "x" = Ok (false, FColl (Coll "x" [EItem "y" (TClass ex_k)])) /\
  (exists m, see (r_cms ex_rs) (path_parts "x") = Some (SSec m None)) /\
  snd (run_one ex_items ex_user "x" ex_rs) = Raise (LibExn "ConfigManagerNotLoadedException").
Proof. split; [reflexivity|]. split; [eexists; vm_compute; reflexivity|vm_compute; reflexivity]. Qed.

(** the class comes after a function that is called; the section has a config of its own *)
Example C24_ex_after_function : exists its u, get_func_or_collection its "a" = Ok (false, FColl (Coll "a" ([EItem "g" (TFunc ex_g)] ++ EItem "y" (TClass ex_k) :: [EItem "h" (TFunc ex_f)]))) /\
  names_ok (Coll "a" ([EItem "g" (TFunc ex_g)] ++ EItem "y" (TClass ex_k) :: [EItem "h" (TFunc ex_f)])) /\
  (exists m c, see (r_cms ex_rs) (path_parts "a") = Some (SSec m (Some c))) /\ own_values (r_cms ex_rs) (path_parts "a.g") <> None /\
  (forall calls p ob e, u_call u calls p ob <> Raise e) /\
  let r := run_one its u "a" ex_rs in map fst (r_calls (fst r)) = ["a.g"] /\ snd r = Raise TypeError.
Proof.
  exists (Items [] (Coll "root" [EColl (Coll "a" [EItem "g" (TFunc ex_g); EItem "y" (TClass ex_k); EItem "h" (TFunc ex_f)])])),
    (User (fun _ _ _ => Ok VNone) (fun _ _ => None) (fun _ => []) []).
  split; [reflexivity|]. split; [cbn; repeat split; repeat (constructor; cbn; [intuition discriminate|]); constructor|]. split; [do 2 eexists; vm_compute; reflexivity|].
  split; [vm_compute; discriminate|]. split; [discriminate|]. split; vm_compute; reflexivity.
Qed.

Print Assumptions C24_first_entry_error.
Print Assumptions C24_entry_error.
