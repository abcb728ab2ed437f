(** Proofs about dict files with any contents. *)
From Verif Require Import DictFile_Spec.
From Coq Require Import Lia.
Local Open Scope string_scope.
Local Open Scope list_scope.

Lemma ex_ind2 (P : ex -> Prop) :
  (forall x, P (XName x)) -> (forall s, P (XStr s)) -> (forall l, Forall (fun q => P (snd q)) l -> P (XDict l)) ->
  (forall l, Forall P l -> P (XList l)) -> (forall n l, Forall P l -> P (XNode n l)) -> forall e, P e.
Proof.
  intros HN HS HD HL HX. fix IH 1. intros [x|s|l|l|n l]; [apply HN|apply HS|apply HD|apply HL|apply HX].
  - induction l as [|[k e] l IHl]; constructor; [apply IH|exact IHl].
  - induction l as [|e l IHl]; constructor; [apply IH|exact IHl].
  - induction l as [|e l IHl]; constructor; [apply IH|exact IHl].
Qed.

(** the loops inside [convert], named *)
Definition conv_entries (conv : bool) := fix go (l : list (dkey * ex)) (acc : dict cv) : res (dict cv) :=
  match l with
  | [] => Ok acc
  | (k, x) :: r => match key_s k with
                   | Raise e => Raise e
                   | Ok s => match convert conv x with Raise e => Raise e | Ok v => go r (dset s v acc) end
                   end
  end.
Definition conv_list (conv : bool) := fix go (l : list ex) : res (list cv) :=
  match l with
  | [] => Ok []
  | x :: r => match convert conv x with
              | Raise e => Raise e
              | Ok v => match go r with Ok vs => Ok (v :: vs) | Raise e => Raise e end
              end
  end.
Lemma convert_dict conv l : convert conv (XDict l) = match conv_entries conv l [] with Ok d => Ok (CDict d) | Raise e => Raise e end.
Proof. reflexivity. Qed.
Lemma convert_list conv l : convert conv (XList l) = match conv_list conv l with Ok d => Ok (CList d) | Raise e => Raise e end.
Proof. reflexivity. Qed.

Lemma convert_plain conv e : (plain e = true -> convert conv e = Ok (pure conv e)) /\ (plain e = false -> exists x, convert conv e = Raise x).
Proof.
  induction e as [x|s|l IH|l IH|n l IH] using ex_ind2; [split; [reflexivity|discriminate]|split; [reflexivity|discriminate]| | |split; [reflexivity|discriminate]].
  - rewrite convert_dict. cbn [plain pure]. unfold dict_of, dupdate. generalize (@nil (string * cv)) as acc. induction IH as [|[k e] l [H1 H2] _ IHl]; intros acc; cbn [conv_entries forallb map fold_left fst snd] in *; [split; [reflexivity|discriminate]|].
    destruct k as [s|c|c|]; cbn [key_s is_str_key key_str andb]; [|split; [discriminate|eauto]..]. destruct (plain e) eqn:E; cbn [andb].
    + rewrite (H1 eq_refl). apply IHl.
    + destruct (H2 eq_refl) as (x & ->). split; [discriminate|eauto].
  - rewrite convert_list. cbn [plain pure]. 
    assert (K : (forallb plain l = true -> conv_list conv l = Ok (map (pure conv) l)) /\ (forallb plain l = false -> exists x, conv_list conv l = Raise x)).
    { induction IH as [|e l [H1 H2] _ [I1 I2]]; cbn [conv_list forallb map]; [split; [reflexivity|discriminate]|]. destruct (plain e) eqn:E; cbn [andb].
      - rewrite (H1 eq_refl). split; [intros H; now rewrite (I1 H)|]. intros H. destruct (I2 H) as (x & ->). eauto.
      - destruct (H2 eq_refl) as (x & ->). split; [discriminate|eauto]. }
    split; intros H; [now rewrite (proj1 K H)|]. destruct (proj2 K H) as (x & ->). eauto.
Qed.
Lemma convert_inv conv e v : convert conv e = Ok v -> plain e = true /\ v = pure conv e.
Proof.
  intros H. destruct (plain e) eqn:E; [rewrite (proj1 (convert_plain conv e) E) in H; injection H as <-; auto|]. destruct (proj2 (convert_plain conv e) E) as (x & E'). congruence.
Qed.

Definition coll_list (conv : bool) := fix go (l : list ex) : res (list cv) :=
  match l with
  | [] => Ok []
  | x :: r => match collections conv x with
              | Raise e => Raise e
              | Ok vs => match go r with Ok ws => Ok (vs ++ ws) | Raise e => Raise e end
              end
  end.
Lemma collections_node conv n l : collections conv (XNode n l) = coll_list conv l.
Proof. reflexivity. Qed.

Lemma collections_spec conv e : (forallb plain (displays e) = true -> collections conv e = Ok (map (pure conv) (displays e))) /\
  (forallb plain (displays e) = false -> exists x, collections conv e = Raise x).
Proof.
  induction e as [x|s|l IH|l IH|n l IH] using ex_ind2; [split; [reflexivity|discriminate]|split; [reflexivity|discriminate]| | |].
  - cbn [collections displays forallb map]. rewrite andb_true_r. destruct (convert_plain conv (XDict l)) as [A B]. split; intros H; [now rewrite (A H)|]. destruct (B H) as (x & ->). eauto.
  - cbn [collections displays forallb map]. rewrite andb_true_r. destruct (convert_plain conv (XList l)) as [A B]. split; intros H; [now rewrite (A H)|]. destruct (B H) as (x & ->). eauto.
  - rewrite collections_node. cbn [displays]. induction IH as [|e l [H1 H2] _ [I1 I2]]; cbn [coll_list flat_map]; [split; [reflexivity|discriminate]|].
    rewrite forallb_app, map_app. destruct (forallb plain (displays e)) eqn:E; cbn [andb].
    + rewrite (H1 eq_refl). split; [intros H; now rewrite (I1 H)|]. intros H. destruct (I2 H) as (x & ->). eauto.
    + destruct (H2 eq_refl) as (x & ->). split; [discriminate|eauto].
Qed.

Definition part_displays (ann e : option ex) : list ex :=
  flat_map displays (match ann with Some a => [a] | None => [] end ++ match e with Some x => [x] | None => [] end).
Lemma extract_spec conv ann e :
  match part_displays ann e with
  | [] => extract conv ann e = Ok None
  | [d] => (plain d = true -> extract conv ann e = Ok (Some (pure conv d))) /\ (plain d = false -> exists x, extract conv ann e = Raise x)
  | _ => exists x, extract conv ann e = Raise x
  end.
Proof.
  unfold extract, part_displays. set (l := match ann with Some a => [a] | None => [] end ++ _). destruct (collections_spec conv (XNode "" l)) as [A B]. cbn [displays] in A, B.
  destruct (flat_map displays l) as [|d [|d2 r]].
  - now rewrite (A eq_refl).
  - cbn [forallb map] in A, B. rewrite andb_true_r in A, B. split; intros H; [now rewrite (A H)|]. destruct (B H) as (x & ->). eauto.
  - destruct (forallb plain (d :: d2 :: r)); [rewrite (A eq_refl); cbn [map]; eauto|]. destruct (B eq_refl) as (x & ->). eauto.
Qed.

(** * Finding *)

Lemma first_bad_ok {A} (f : A -> option exn) l : first_bad f l = Ok tt <-> forall a, In a l -> f a = None.
Proof.
  induction l as [|a l IH]; cbn [first_bad]; [split; [intros _ b []|reflexivity]|]. destruct (f a) as [e|] eqn:E.
  - split; [discriminate|]. intros H. specialize (H a (or_introl eq_refl)). congruence.
  - rewrite IH. split; [intros H b [<-|Hb]; [exact E|now apply H]|intros H b Hb; apply H; now right].
Qed.

Lemma register_ok p : register p = Ok tt <-> (forall e, ~ In (SImp (Some e)) p) /\ forallb single (flat_map assigned p) = true.
Proof.
  unfold register. assert (A : first_bad bad_import p = Ok tt <-> forall e, ~ In (SImp (Some e)) p).
  { rewrite first_bad_ok. split.
    - intros H e Hin. specialize (H _ Hin). discriminate.
    - intros H [ts e|t ann e|[b|]|lb body|lb] Hin; try reflexivity. now destruct (H b). }
  assert (B : first_bad bad_assign p = Ok tt <-> forallb single (flat_map assigned p) = true).
  { rewrite first_bad_ok, forallb_forall. split.
    - intros H a Ha. apply in_flat_map in Ha as (s & Hs & Ha). specialize (H s Hs). destruct s as [ts e|t ann e|b|lb body|lb]; cbn [assigned] in Ha; try contradiction; destruct Ha as [<-|[]]; [|reflexivity].
      cbn [bad_assign] in H. unfold single. cbn [fst]. destruct ts as [|t [|t2 r]]; [discriminate|reflexivity|discriminate].
    - intros H [ts e|t ann e|b|lb body|lb] Hs; try reflexivity. assert (Ha : In (ts, None, Some e) (flat_map assigned p)) by (apply in_flat_map; exists (SAsg ts e); split; [exact Hs|now left]). specialize (H _ Ha). unfold single in H. cbn [fst] in H. cbn [bad_assign].
      destruct ts as [|t [|t2 r]]; [discriminate|reflexivity|discriminate]. }
  destruct (first_bad bad_import p) as [[]|e]; [tauto|]. split; [discriminate|]. intros [H _]. apply A in H. discriminate.
Qed.
Lemma register_res p : register p = Ok tt \/ exists e, register p = Raise e.
Proof. destruct (register p) as [[]|e]; eauto. Qed.

Lemma by_name_spec n p : forallb single (flat_map assigned p) = true ->
  if forallb to_a_name (flat_map assigned p)
  then by_name n p = Ok (map (fun a => (snd (fst a), snd a)) (filter (to_name n) (flat_map assigned p)))
  else by_name n p = Raise AttributeError.
Proof.
  induction p as [|s p IH]; intros H; [reflexivity|]. cbn [flat_map] in *. rewrite forallb_app in H. apply andb_true_iff in H as [H0 H]. specialize (IH H). rewrite forallb_app.
  destruct s as [ts e|t ann e|b|lb body|lb]; cbn [assigned forallb app filter map] in *; try exact IH.
  - rewrite andb_true_r in H0 |- *. unfold single in H0. cbn [fst] in H0. destruct ts as [|[x|] [|t2 r]]; try discriminate; cbn [to_a_name to_name fst snd ids by_name andb].
    + cbn [mem existsb]. rewrite orb_false_r, String.eqb_sym. destruct (forallb to_a_name (flat_map assigned p)); rewrite IH; destruct (String.eqb x n); reflexivity.
    + reflexivity.
  - cbn [by_name]. destruct t as [x|]; cbn [to_a_name to_name fst snd andb]; [|reflexivity]. destruct (forallb to_a_name (flat_map assigned p)); rewrite IH; destruct (String.eqb x n); reflexivity.
Qed.

Lemma to_a_name_single l : forallb to_a_name l = true -> forallb single l = true.
Proof.
  rewrite !forallb_forall. intros H a Ha. specialize (H a Ha). unfold to_a_name in H. unfold single. destruct (fst (fst a)) as [|[x|] [|y r]]; congruence.
Qed.

Definition loaded_from (general : bool) (found : list (list (option string) * option ex * option ex)) (r : cv) : Prop :=
  match found with
  | [] => general = true /\ r = CDict []
  | [a] => exists e, flat_map displays (parts a) = [e] /\ plain e = true /\ r = pure (negb general) e
  | _ => False
  end.
Definition nothing_from (found : list (list (option string) * option ex * option ex)) : Prop :=
  match found with [a] => flat_map displays (parts a) = [] | _ => False end.

Lemma load_file_some general p r : load_file general p = Ok (Some r) <->
  good_imports p /\ forallb to_a_name (assignments p) = true /\ loaded_from general (filter (to_name (dict_name general)) (assignments p)) r.
Proof.
  unfold load_file, assignments, good_imports. set (l := flat_map flat p). fold (dict_name general). split.
  - intros H. destruct (register l) as [[]|e] eqn:R; [|discriminate]. apply register_ok in R as [G S]. pose proof (by_name_spec (dict_name general) l S) as B. destruct (forallb to_a_name (flat_map assigned l)); [|rewrite B in H; discriminate].
    rewrite B in H. split; [exact G|split; [reflexivity|]]. unfold loaded_from. destruct (filter (to_name (dict_name general)) (flat_map assigned l)) as [|a [|b t]]; cbn [map] in H.
    + destruct general; [injection H as <-; auto|discriminate].
    + pose proof (extract_spec (negb general) (snd (fst a)) (snd a)) as E. unfold part_displays in E. fold (parts a) in E. destruct (flat_map displays (parts a)) as [|e [|e2 t]].
      * congruence.
      * exists e. split; [reflexivity|]. destruct (plain e).
        -- destruct E as [E _]. rewrite (E eq_refl) in H. injection H as <-. auto.
        -- destruct E as [_ E]. destruct (E eq_refl) as (x & E'). congruence.
      * destruct E as (x & E). congruence.
    + destruct (snd (fst a), snd a) in H. discriminate.
  - intros (G & N & L). assert (R : register l = Ok tt) by (apply register_ok; split; [exact G|now apply to_a_name_single]). rewrite R. pose proof (by_name_spec (dict_name general) l (to_a_name_single _ N)) as B. rewrite N in B. rewrite B.
    unfold loaded_from in L. destruct (filter (to_name (dict_name general)) (flat_map assigned l)) as [|a [|b t]]; cbn [map]; [destruct L as [-> ->]; reflexivity| |contradiction].
    destruct L as (e & D & P & ->). pose proof (extract_spec (negb general) (snd (fst a)) (snd a)) as E. unfold part_displays in E. fold (parts a) in E. rewrite D in E. now apply E.
Qed.

Section Tree.
Variable src : ex -> string.

Lemma to_pd_dict l : to_pd src (CDict l) = PDict (map (fun q => (fst q, to_pd src (snd q))) l).
Proof. reflexivity. Qed.

Lemma dict_of_file_iff general p d : dict_of_file src general p = Ok d <->
  good_imports p /\ forallb to_a_name (assignments p) = true /\
  match filter (to_name (dict_name general)) (assignments p) with
  | [] => general = true /\ d = []
  | [a] => exists l, flat_map displays (parts a) = [XDict l] /\ plain (XDict l) = true /\ PDict d = to_pd src (pure (negb general) (XDict l))
  | _ => False
  end.
Proof.
  unfold dict_of_file. split.
  - destruct (load_file general p) as [[[l|l|s|e]|]|e] eqn:L; intros [= <-]. apply load_file_some in L as (G & N & L). split; [exact G|split; [exact N|]]. unfold loaded_from in L.
    destruct (filter _ (assignments p)) as [|a [|b t]]; [|destruct L as (e & D & P & R)|contradiction].
    + destruct L as [-> E]. injection E as ->. auto.
    + destruct e as [x|s|l'|l'|n l']; try (cbn in R; discriminate); [destruct general; cbn in R; discriminate|]. exists l'. split; [exact D|split; [exact P|]]. rewrite <- R. reflexivity.
  - intros (G & N & L). destruct (filter (to_name (dict_name general)) (assignments p)) as [|a [|b t]] eqn:F; [|destruct L as (l & D & P & R)|contradiction].
    + destruct L as [-> ->]. rewrite (proj2 (load_file_some true p (CDict []))); [reflexivity|]. rewrite F. repeat split; auto.
    + rewrite (proj2 (load_file_some general p (pure (negb general) (XDict l)))); [|rewrite F; repeat split; auto; exists (XDict l); auto].
      cbn [pure] in R |- *. rewrite to_pd_dict in R. now injection R as ->.
Qed.

(** ** Exceptions *)

Lemma in_assignments p ts ann e : In (ts, ann, e) (assignments p) -> exists s, In s (flat_map flat p) /\ In (ts, ann, e) (assigned s).
Proof. unfold assignments. intros H. apply in_flat_map in H as (s & Hs & H). eauto. Qed.

(** which exception, once the imports are right *)
Lemma register_good p : good_imports p -> register (flat_map flat p) = if forallb single (assignments p) then Ok tt else Raise not_implemented.
Proof.
  intros G. unfold register. assert (A : first_bad bad_import (flat_map flat p) = Ok tt).
  { apply first_bad_ok. intros [ts e|t ann e|[b|]|lb body|lb] Hin; try reflexivity. now destruct (G b). }
  rewrite A. clear A. unfold assignments. induction (flat_map flat p) as [|s l IH]; [reflexivity|]. cbn [first_bad flat_map]. rewrite forallb_app.
  destruct s as [ts e|t ann e|b|lb body|lb]; cbn [bad_assign assigned forallb single fst andb]; try exact IH. rewrite andb_true_r. destruct ts as [|t [|t2 r]]; [reflexivity|exact IH|reflexivity].
Qed.
Lemma load_file_good general p : good_imports p -> load_file general p =
  if forallb single (assignments p) then
    if forallb to_a_name (assignments p) then
      match filter (to_name (dict_name general)) (assignments p) with
      | [] => if general then Ok (Some (CDict [])) else Raise AttributeError
      | [a] => extract (negb general) (snd (fst a)) (snd a)
      | _ => Raise ValueError
      end
    else Raise AttributeError
  else Raise not_implemented.
Proof.
  intros G. unfold load_file. rewrite (register_good p G). destruct (forallb single (assignments p)) eqn:S; [|reflexivity]. fold (dict_name general).
  pose proof (by_name_spec (dict_name general) (flat_map flat p) S) as B. fold (assignments p) in B. destruct (forallb to_a_name (assignments p)); rewrite B; [|reflexivity].
  destruct (filter (to_name (dict_name general)) (assignments p)) as [|a [|b t]]; reflexivity.
Qed.
End Tree.

(** * Python *)

Section Python.
Variable other : env -> ex -> option val.
Variable key : env -> string -> option string.
Variable act : env -> stm -> option env.
Notation eval := (eval other key).
Notation denote := (denote other key).

Definition eval_entries (g : env) := fix go (l : list (dkey * ex)) (acc : dict val) : option (dict val) :=
  match l with
  | [] => Some acc
  | (k, x) :: r =>
      match eval g x with
      | None => None
      | Some v => match (match k with
                         | KStr s => Some (dset s v acc)
                         | KConst c | KExpr c => match key g c with Some s => Some (dset s v acc) | None => None end
                         | KStars => stars v acc
                         end) with
                  | Some acc' => go r acc'
                  | None => None
                  end
      end
  end.
Definition eval_list (g : env) := fix go (l : list ex) : option (list val) :=
  match l with
  | [] => Some []
  | x :: r => match eval g x with None => None | Some v => match go r with Some vs => Some (v :: vs) | None => None end end
  end.
Definition denote_list (g : env) := fix go (l : list cv) : option (list val) :=
  match l with
  | [] => Some []
  | x :: r => match denote g x with None => None | Some v => match go r with Some vs => Some (v :: vs) | None => None end end
  end.
Definition denote_entries (g : env) := fix go (l : list (string * cv)) : option (dict val) :=
  match l with
  | [] => Some []
  | (k, x) :: r => match denote g x with None => None | Some v => match go r with Some vs => Some ((k, v) :: vs) | None => None end end
  end.
Lemma eval_dict g l : eval g (XDict l) = match eval_entries g l [] with Some d => Some (ODict d) | None => None end.
Proof. reflexivity. Qed.
Lemma eval_lst g l : eval g (XList l) = match eval_list g l with Some d => Some (OList d) | None => None end.
Proof. reflexivity. Qed.
Lemma denote_dict g l : denote g (CDict l) = match denote_entries g l with Some d => Some (ODict d) | None => None end.
Proof. reflexivity. Qed.
Lemma denote_lst g l : denote g (CList l) = match denote_list g l with Some d => Some (OList d) | None => None end.
Proof. reflexivity. Qed.

Lemma denote_dset g k v w acc acc' : denote_entries g acc = Some acc' -> denote g v = Some w -> denote_entries g (dset k v acc) = Some (dset k w acc').
Proof.
  intros H Hv. revert acc' H. induction acc as [|[k0 v0] acc IH]; cbn [denote_entries dset]; intros acc' H.
  - injection H as <-. cbn [denote_entries dset]. now rewrite Hv.
  - destruct (denote g v0) as [w0|] eqn:E0; [|discriminate]. destruct (denote_entries g acc) as [ws|] eqn:E1; [|discriminate]. injection H as <-. cbn [dset]. destruct (String.eqb k k0) eqn:E; cbn [denote_entries].
    + rewrite Hv, E1. reflexivity.
    + rewrite E0, (IH ws eq_refl). reflexivity.
Qed.

Lemma pure_denotes g conv e v : plain e = true -> eval g e = Some v -> denote g (pure conv e) = Some v.
Proof.
  revert v. induction e as [x|s|l IH|l IH|n l IH] using ex_ind2; intros v P H.
  - exact H.
  - cbn [pure]. destruct conv; exact H.
  - rewrite eval_dict in H. cbn [pure]. rewrite denote_dict. destruct (eval_entries g l []) as [d|] eqn:E; [|discriminate]. injection H as <-. cbn [plain] in P. unfold dict_of, dupdate.
    assert (K : denote_entries g [] = Some []) by reflexivity. revert E K. generalize (@nil (string * cv)) as acc. generalize (@nil (string * val)) as acc'.
    induction IH as [|[k e] l H1 _ IHl]; intros acc' acc E K; cbn [eval_entries map fold_left fst snd forallb] in *.
    + injection E as <-. now rewrite K.
    + apply andb_true_iff in P as [P Pl]. apply andb_true_iff in P as [Pk Pe]. destruct k as [s|c|c|]; try discriminate. destruct (eval g e) as [w|] eqn:Ee; [|discriminate]. cbn [key_str].
      eapply IHl; [exact Pl|exact E|]. apply denote_dset; [exact K|]. now apply H1.
  - rewrite eval_lst in H. cbn [pure]. rewrite denote_lst. cbn [plain] in P. destruct (eval_list g l) as [d|] eqn:E; [|discriminate]. injection H as <-. revert d E.
    assert (K : forall d, eval_list g l = Some d -> denote_list g (map (pure conv) l) = Some d); [|intros d E; now rewrite (K d E)].
    induction IH as [|e l H1 _ IHl]; intros d E; cbn [eval_list map denote_list forallb] in *; [exact E|]. apply andb_true_iff in P as [Pe Pl].
    destruct (eval g e) as [w|] eqn:Ee; [|discriminate]. destruct (eval_list g l) as [ws|]; [|discriminate]. injection E as <-. rewrite (H1 w Pe eq_refl), (IHl Pl ws eq_refl). reflexivity.
  - exact H.
Qed.

Lemma runs_app p q g : runs other key act (p ++ q) g = match runs other key act p g with Some g' => runs other key act q g' | None => None end.
Proof. revert g. induction p as [|s p IH]; intros g; cbn [runs app]; [reflexivity|]. destruct (step other key act g s); [apply IH|reflexivity]. Qed.

(** a file that assigns a display to the name, annotated or not: executed up to there, the variable has the value that the dict read from
    the file stands for *)
Lemma executed general p before a after ann e g g1 r : p = before ++ a :: after -> assigned a = [([Some (dict_name general)], ann, Some e)] -> displays e = [e] ->
  runs other key act (before ++ [a]) g = Some g1 -> load_file general p = Ok (Some r) ->
  exists g0 v, runs other key act before g = Some g0 /\ dget (dict_name general) g1 = Some v /\ denote g0 r = Some v.
Proof.
  intros Ep Ea De R L. apply load_file_some in L as (_ & _ & L). assert (Fa : flat_map assigned (flat a) = [([Some (dict_name general)], ann, Some e)]).
  { destruct a as [ts x|t an x|b|lb body|lb]; cbn [assigned flat flat_map app] in *; try discriminate; exact Ea. }
  subst p. unfold assignments in L. rewrite flat_map_app, flat_map_app in L. cbn [flat_map] in L. rewrite flat_map_app, Fa in L. rewrite filter_app in L. cbn [app filter] in L.
  replace (to_name (dict_name general) ([Some (dict_name general)], ann, Some e)) with true in L by (symmetry; apply String.eqb_refl).
  unfold loaded_from in L. destruct (filter _ (flat_map assigned (flat_map flat before))) as [|b [|c t]]; cbn [app] in L; [|contradiction|contradiction].
  destruct (filter _ (flat_map assigned (flat_map flat after))); [|contradiction]. destruct L as (e' & D & P & ->).
  assert (e' = e) as ->.
  { unfold parts in D. cbn [fst snd] in D. rewrite flat_map_app in D. cbn [flat_map] in D. rewrite app_nil_r, De in D.
    destruct (flat_map displays (match ann with Some x => [x] | None => [] end)) as [|b [|c t]]; cbn [app] in D; try discriminate. now injection D as ->. }
  rewrite runs_app in R. destruct (runs other key act before g) as [g0|]; [|discriminate]. cbn [runs] in R.
  assert (S : step other key act g0 a = match eval g0 e with Some v => Some (dset (dict_name general) v g0) | None => None end).
  { destruct a as [ts x|t an x|b|lb body|lb]; cbn [assigned] in Ea; try discriminate; injection Ea; intros; subst; reflexivity. }
  rewrite S in R. destruct (eval g0 e) as [v|] eqn:E; [|discriminate]. injection R as <-. exists g0, v. split; [reflexivity|split; [apply dget_dset_eq|]]. now apply pure_denotes.
Qed.
End Python.

(** * More on exceptions *)

Lemma convert_key conv e : no_const e = true -> plain e = false -> convert conv e = Raise AttributeError.
Proof.
  induction e as [x|s|l IH|l IH|n l IH] using ex_ind2; intros N P; try discriminate.
  - rewrite convert_dict. cbn [plain no_const] in *.
    assert (K : forall acc, conv_entries conv l acc = Raise AttributeError); [|now rewrite K].
    induction IH as [|[k e] l H1 _ IHl]; intros acc; cbn [conv_entries forallb fst snd] in *; [discriminate|]. apply andb_true_iff in N as [N Nl]. apply andb_true_iff in N as [Nk Ne].
    destruct k as [s|c|c|]; cbn [key_s is_str_key andb] in *; [|discriminate|reflexivity|reflexivity]. destruct (plain e) eqn:E; cbn [andb] in P.
    + rewrite (proj1 (convert_plain conv e) E). now apply IHl.
    + now rewrite (H1 Ne eq_refl).
  - rewrite convert_list. cbn [plain no_const] in *.
    assert (K : conv_list conv l = Raise AttributeError); [|now rewrite K].
    induction IH as [|e l H1 _ IHl]; cbn [conv_list forallb] in *; [discriminate|]. apply andb_true_iff in N as [Ne Nl]. destruct (plain e) eqn:E; cbn [andb] in P.
    + rewrite (proj1 (convert_plain conv e) E). now rewrite (IHl Nl P).
    + now rewrite (H1 Ne eq_refl).
Qed.
Lemma collections_key conv e : forallb no_const (displays e) = true -> forallb plain (displays e) = false -> collections conv e = Raise AttributeError.
Proof.
  induction e as [x|s|l IH|l IH|n l IH] using ex_ind2; intros N P; try discriminate.
  - cbn [collections displays forallb] in *. rewrite andb_true_r in *. now rewrite (convert_key conv (XDict l) N P).
  - cbn [collections displays forallb] in *. rewrite andb_true_r in *. now rewrite (convert_key conv (XList l) N P).
  - rewrite collections_node. cbn [displays] in *. induction IH as [|e l H1 _ IHl]; cbn [coll_list flat_map] in *; [discriminate|]. rewrite forallb_app in N, P. apply andb_true_iff in N as [Ne Nl].
    destruct (forallb plain (displays e)) eqn:E; cbn [andb] in P.
    + rewrite (proj1 (collections_spec conv e) E), (IHl Nl P). reflexivity.
    + now rewrite (H1 Ne eq_refl).
Qed.
Lemma extract_exn conv ann e : 
  let ds := part_displays ann e in
  (forallb no_const ds = true -> forallb plain ds = false -> extract conv ann e = Raise AttributeError) /\
  (forallb plain ds = true -> 2 <= List.length ds -> extract conv ann e = Raise ValueError).
Proof.
  cbn zeta. unfold part_displays, extract. set (l := match ann with Some a => [a] | None => [] end ++ _). split.
  - intros N P. now rewrite (collections_key conv (XNode "" l) N P).
  - intros P H. rewrite (proj1 (collections_spec conv (XNode "" l)) P). cbn [displays]. destruct (flat_map displays l) as [|a [|b t]]; cbn [List.length map] in *; [lia|lia|reflexivity].
Qed.

Lemma flat_flat s : flat_map flat (flat s) = flat s.
Proof.
  revert s. fix IH 1. intros [ts e|t ann e|b|lb body|lb]; try reflexivity. cbn [flat]. induction body as [|s body IHb]; [reflexivity|]. cbn [flat_map]. rewrite flat_map_app, IH, IHb. reflexivity.
Qed.
Lemma flat_map_flat p : flat_map flat (flat_map flat p) = flat_map flat p.
Proof. induction p as [|s p IH]; [reflexivity|]. cbn [flat_map]. now rewrite flat_map_app, flat_flat, IH. Qed.

Definition inert (s : stm) : bool := match s with SElse _ => true | _ => false end.
Lemma first_bad_filter {A} (f : A -> option exn) g l : (forall a, g a = false -> f a = None) -> first_bad f (filter g l) = first_bad f l.
Proof.
  intros H. induction l as [|a l IH]; [reflexivity|]. cbn [filter first_bad]. destruct (g a) eqn:E; [cbn [first_bad]; now rewrite IH|now rewrite (H a E)].
Qed.
Lemma by_name_filter n l : by_name n (filter (fun s => negb (inert s)) l) = by_name n l.
Proof.
  induction l as [|s l IH]; [reflexivity|]. destruct s as [ts e|t ann e|b|lb body|lb]; cbn [filter inert negb by_name]; try rewrite IH; reflexivity.
Qed.
Lemma load_file_flat general p q : flat_map flat p = flat_map flat q -> load_file general p = load_file general q.
Proof. unfold load_file. now intros ->. Qed.
Lemma load_file_inert general p q : filter (fun s => negb (inert s)) (flat_map flat p) = filter (fun s => negb (inert s)) (flat_map flat q) -> load_file general p = load_file general q.
Proof.
  intros H. assert (K : forall l, load_file general l = 
    match register (filter (fun s => negb (inert s)) (flat_map flat l)) with
    | Raise e => Raise e
    | Ok _ => match by_name (dict_name general) (filter (fun s => negb (inert s)) (flat_map flat l)) with
              | Raise e => Raise e
              | Ok [] => if general then Ok (Some (CDict [])) else Raise AttributeError
              | Ok [(ann, e)] => extract (negb general) ann e
              | Ok _ => Raise ValueError
              end
    end).
  { intros l. rewrite by_name_filter. unfold register. rewrite !first_bad_filter; [reflexivity| |]; intros [ts e|t ann e|b|lb body|lb]; cbn; congruence. }
  now rewrite !K, H.
Qed.

(** what is collected from an expression is collected from its displays *)
Lemma collections_displays conv e : collections conv e = coll_list conv (displays e).
Proof.
  induction e as [x|s|l IH|l IH|n l IH] using ex_ind2; try reflexivity.
  - cbn [collections displays coll_list]. destruct (convert conv (XDict l)); reflexivity.
  - cbn [collections displays coll_list]. destruct (convert conv (XList l)); reflexivity.
  - rewrite collections_node. cbn [displays]. induction IH as [|e l H1 _ IHl]; [reflexivity|]. cbn [coll_list flat_map]. rewrite H1, IHl. clear.
    generalize (flat_map displays l) as b. induction (displays e) as [|x a IHa]; intros b; cbn [coll_list app]; [destruct (coll_list conv b); reflexivity|].
    rewrite <- IHa. destruct (collections conv x) as [vs|]; [|reflexivity]. destruct (coll_list conv a) as [ws|]; [|reflexivity]. destruct (coll_list conv b); [now rewrite app_assoc|reflexivity].
Qed.
Lemma part_displays_val e : part_displays None (Some e) = displays e.
Proof. unfold part_displays. cbn [app flat_map]. apply app_nil_r. Qed.
Lemma extract_same conv e1 e2 : displays e1 = displays e2 -> extract conv None (Some e1) = extract conv None (Some e2).
Proof.
  intros D. assert (K : forall e, extract conv None (Some e) = match collections conv e with Raise x => Raise x | Ok [] => Ok None | Ok [v] => Ok (Some v) | Ok _ => Raise ValueError end).
  { intros e. unfold extract. rewrite collections_node. cbn [app coll_list]. destruct (collections conv e) as [vs|x]; [now rewrite app_nil_r|reflexivity]. }
  rewrite !K, (collections_displays conv e1), (collections_displays conv e2), D. reflexivity.
Qed.

Lemma first_bad_mid {A} (f : A -> option exn) b x y a : f x = f y -> first_bad f (b ++ x :: a) = first_bad f (b ++ y :: a).
Proof. intros H. induction b as [|s b IH]; cbn [app first_bad]; [now rewrite H|now rewrite IH]. Qed.
Lemma load_file_same general before after e1 e2 : displays e1 = displays e2 ->
  load_file general (before ++ SAsg [Some (dict_name general)] e1 :: after) = load_file general (before ++ SAsg [Some (dict_name general)] e2 :: after).
Proof.
  intros D. set (n := dict_name general). set (p := fun e => before ++ SAsg [Some n] e :: after). change (load_file general (p e1) = load_file general (p e2)).
  assert (F : forall e, flat_map flat (p e) = flat_map flat before ++ SAsg [Some n] e :: flat_map flat after) by (intros e; unfold p; rewrite flat_map_app; reflexivity).
  assert (R : register (flat_map flat (p e1)) = register (flat_map flat (p e2))).
  { rewrite !F. unfold register. rewrite (first_bad_mid bad_import _ (SAsg [Some n] e1) (SAsg [Some n] e2)), (first_bad_mid bad_assign _ (SAsg [Some n] e1) (SAsg [Some n] e2)) by reflexivity. reflexivity. }
  destruct (register (flat_map flat (p e2))) as [[]|x] eqn:R2; [|unfold load_file; now rewrite R, R2].
  apply register_ok in R as [G1 _]. apply register_ok in R2 as [G2 _]. rewrite (load_file_good general (p e1) G1), (load_file_good general (p e2) G2). unfold assignments. rewrite !F, !flat_map_app. cbn [flat_map assigned app]. rewrite !forallb_app, !filter_app. cbn [forallb filter single to_a_name fst andb].
  assert (T : forall e, to_name (dict_name general) ([Some n], None, Some e) = true) by (intros e; apply String.eqb_refl). rewrite !T.
  destruct (filter _ (flat_map assigned (flat_map flat before))) as [|b1 [|b2 t]]; cbn [app]; [|reflexivity|reflexivity].
  destruct (filter _ (flat_map assigned (flat_map flat after))); [|reflexivity]. cbn [fst snd]. now rewrite (extract_same (negb general) e1 e2 D).
Qed.
