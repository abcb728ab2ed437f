(** Two managers used by the examples of C28-C31 and C56. *)
From Verif Require Import Iterate_Model ConfigTree_Spec Iterate_Spec ConfigTree_Example ConfigOps_Proofs.
Local Open Scope string_scope.
Local Open Scope list_scope.

Definition m_disk : dir :=
  Dir [("f.py", Ok [("a", VInt 1); ("b", VInt 2)]); ("g.py", Ok [("c", VInt 3)])]
      [("sec", Dir [("section.py", Ok [("p", VInt 7)]); ("h.py", Ok [("q", VInt 1)])] [])].
Definition n_disk : dir := Dir [("x.py", Ok [("k", VInt 0)])] [].
Definition m_items : items :=
  Items [] (Coll "root" [EItem "f" (TFunc (Fn "f" ["a"; "b"])); EItem "g" (TFunc (Fn "g" ["c"]));
                         EColl (Coll "sec" [EItem "h" (TFunc (Fn "h" ["q"; "p"]))])]).
Definition n_items : items := Items [] (Coll "root" [EItem "x" (TFunc (Fn "x" ["k"]))]).
Definition loaded (base : string) (disk : dir) : rs := RS (match cm_load base disk with Ok st => st | Raise _ => no_st end) [] 0 [].
Definition ex_w : world := [("m", PMS "m" m_items Plain (loaded "m" m_disk)); ("n", PMS "n" n_items Plain (loaded "n" n_disk))].

(** user functions return their arguments *)
Definition ex_U : world -> string -> user := fun _ _ =>
  User (fun _ _ o => Ok (VList (dvals (arguments o)))) (fun _ _ => None) (fun _ => []) [].
Definition yes (c : case) : bool := true.

Definition vals (l : dict pyval) : body := Body None l.
Definition ex_updates : list conf :=
  [("m.f", vals [("a", VInt 10)]); ("n.x", vals [("k", VInt 1)]); ("m.f", vals [("a", VInt 20); ("b", VInt 5)]);
   ("m.sec.h", vals [("q", VInt 8)]); ("n.x", vals [("k", VInt 2)])].
Definition ex_paths : list sp_like := [LStr "m.f"; LStr "m.sec"; LStr "n.x"].

Definition ex_new := iter_new ex_U [] (fun l => l) ex_paths ex_updates None false ex_w.
Definition ex_it : iter := match snd ex_new with Ok it => it | Raise _ => It None false [] [] [] end.
Definition ex_w1 : world := fst ex_new.
Lemma ex_new_ok : iter_new ex_U [] (fun l => l) ex_paths ex_updates None false ex_w = (ex_w1, Ok ex_it).
Proof. vm_compute. reflexivity. Qed.

Lemma ex_w_wf : world_wf ex_w.
Proof.
  intros n p H. unfold ex_w in H. cbn [dget] in H. unfold Runner_Spec.rs_wf. destruct (String.eqb n "m").
  - injection H as <-. exact (load_wf_check "m" m_disk _ eq_refl eq_refl).
  - destruct (String.eqb n "n"); [|discriminate]. injection H as <-. exact (load_wf_check "n" n_disk _ eq_refl eq_refl).
Qed.

Ltac in_cases H := cbn in H; repeat (destruct H as [H|H]; [subst|]); try (destruct H).

Lemma ex_isolated : isolated ex_w ex_it ex_updates.
Proof.
  assert (B : it_base ex_it = None) by reflexivity.
  constructor; rewrite ?B.
  - exact ex_w_wf.
  - discriminate.
  - intros fp fq r r' Hp Hq Hne Hm Hr Hr'. cbn [ex_updates map fst full_path] in Hp, Hq.
    in_cases Hp; in_cases Hq; try congruence; try (vm_compute in Hm; discriminate); vm_compute in Hr, Hr';
      injection Hr as <-; injection Hr' as <-; vm_compute; (split; [discriminate|]); intuition discriminate.
  - intros p Hp. cbn [ex_updates map fst] in Hp. in_cases Hp; cbn [full_path]; (split; [intros r Hr; vm_compute in Hr; injection Hr as <-; discriminate|]);
      intros L L' k v v' HL HL' Hk Hk'; vm_compute in HL, HL'; in_cases HL; in_cases HL'; cbn [dget] in Hk, Hk'; try discriminate.
    destruct (String.eqb k "p") eqn:E; [|discriminate]. split; [congruence|]. apply String.eqb_eq in E. subst k. vm_compute. intuition discriminate.
  - intros f d Hd. unfold ex_it in Hd. apply dget_Some_In in Hd. vm_compute in Hd. repeat (destruct Hd as [Hd|Hd]; [injection Hd as <- <-|]); try destruct Hd;
      (split; [intros k v Hk; apply dget_Some_In in Hk; cbn in Hk; repeat (destruct Hk as [Hk|Hk]; [injection Hk as <- <-; reflexivity|]); destruct Hk|]);
      intros k Hk; cbn in Hk; repeat (destruct Hk as [<-|Hk]; [vm_compute; intuition discriminate|]); destruct Hk.
  - intros p b Hb. cbn in Hb. repeat (destruct Hb as [Hb|Hb]; [injection Hb as <- <-|]); try destruct Hb;
      (split; [repeat constructor; cbn; intuition discriminate|]); intros k v Hk; apply dget_Some_In in Hk; cbn in Hk; repeat (destruct Hk as [Hk|Hk]; [injection Hk as <- <-; reflexivity|]); destruct Hk.
Qed.
Lemma ex_in_step : loaded_in_step ex_w ex_it ex_updates.
Proof.
  assert (B : it_base ex_it = None) by reflexivity.
  intros p s o d Hp Hs Ho. exfalso. rewrite B in *. cbn [full_path] in *. cbn [ex_updates map fst] in Hp.
  in_cases Hp; vm_compute in Hs; injection Hs as <-; vm_compute in Ho; discriminate.
Qed.
