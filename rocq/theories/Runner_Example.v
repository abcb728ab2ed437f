(** A loaded manager over the config folder of ConfigTree_Example, used by the examples of C18-C27. *)
From Verif Require Import Runner_Model ConfigTree_Spec ConfigTree_Example ConfigWf_Proofs ConfigTree_Proofs ConfigOps_Proofs ConfigLoad_Proofs Runner_Spec Runner_Proofs.
Local Open Scope string_scope.
Local Open Scope list_scope.

Definition ex_f : callable := Fn "f" ["k"; "own"; "z"].
Definition ex_g : callable := Fn "g" ["k"; "p"].
Definition ex_k : callable := Fn "K" ["n"; "k"].
Definition ex_items : items :=
  Items [] (Coll "root" [EColl (Coll "a" [EColl (Coll "b" [EItem "f" (TFunc ex_f)]); EItem "g" (TFunc ex_g)]);
                         EColl (Coll "x" [EItem "y" (TClass ex_k)]); EItem "e" (TFunc (Fn "e" []))]).

(** user functions answer with the number of calls before, except that [e] raises *)
Definition ex_user : user :=
  User (fun calls path o => if String.eqb path "e" then Raise (UserExn 1) else Ok (VInt (Z.of_nat (length calls))))
       (fun _ _ => None) (fun _ => []) [].

Definition ex_rs : rs := RS ex_st [] 0 [].
Lemma ex_rs_loaded : runner_load "base" ex_disk 0 = Ok ex_rs. Proof. reflexivity. Qed.
Lemma ex_rs_wf : cms_wf (r_cms ex_rs). Proof. exact ex_st_wf. Qed.
Lemma ex_disk_ok : disk_ok ex_disk.
Proof. split; [now apply dir_check_ok|]. intros [folders f] content. now apply dir_check_wf. Qed.

(** after [pm.get('a.b.f')] *)
Definition ex_got : rs := fst (runner_get ex_items ex_user "a.b.f" ex_rs).
Lemma ex_tree : tree_wf ex_st.
Proof. apply (cm_load_tree "base" ex_disk); [apply ex_disk_ok|exact ex_loaded]. Qed.
Lemma ex_got_wf : cms_wf (r_cms ex_got).
Proof. apply tree_cms_wf. apply (steps_wf ex_rs); [apply runner_get_kp|exact ex_tree]. Qed.
