(** Adding entries to nested dicts, and the trees built from them. *)
From Verif Require Import PipeDict_Spec.
Local Open Scope string_scope.
Local Open Scope list_scope.

Section PdInd.
  Variable P : pd -> Prop.
  Hypothesis HN : forall n, P (PName n).
  Hypothesis HS : forall s, P (PStr s).
  Hypothesis HO : forall s, P (POther s).
  Hypothesis HL : forall l, Forall P l -> P (PList l).
  Hypothesis HD : forall l, Forall (fun kv => P (snd kv)) l -> P (PDict l).
  Fixpoint pd_ind2 (v : pd) : P v :=
    match v with
    | PName n => HN n
    | PStr s => HS s
    | POther s => HO s
    | PList l => HL l ((fix go (l : list pd) : Forall P l :=
                          match l with [] => Forall_nil _ | x :: r => Forall_cons _ (pd_ind2 x) (go r) end) l)
    | PDict l => HD l ((fix go (l : list (string * pd)) : Forall (fun kv => P (snd kv)) l :=
                          match l with [] => Forall_nil _ | x :: r => Forall_cons _ (pd_ind2 (snd x)) (go r) end) l)
    end.
End PdInd.

(* ------------------------------------------------------------------ *)
(** * add_at *)

Lemma add_at_one d x item :
  add_at d [x] item = match dget x d with
                      | None => (dset x (PList [item]) d, Ok tt)
                      | Some (PList l) => (dset x (PList (l ++ [item])) d, Ok tt)
                      | Some _ => (d, Raise ValueError)
                      end.
Proof. reflexivity. Qed.

Lemma add_at_more d x y rest item :
  add_at d (x :: y :: rest) item =
  match dget x d with
  | None => let (d', r) := add_at [] (y :: rest) item in (dset x (PDict d') d, r)
  | Some (PDict e) => let (d', r) := add_at e (y :: rest) item in (dset x (PDict d') d, r)
  | Some _ => (d, Raise TypeError)
  end.
Proof. reflexivity. Qed.

Lemma add_at_new path item : exists d', add_at [] path item = (d', Ok tt).
Proof.
  induction path as [|x [|y rest] IH]; [now eexists|now eexists|].
  rewrite add_at_more. cbn [dget]. destruct IH as (d' & ->). now eexists.
Qed.

Lemma lookup_cons d x rest :
  lookup (PDict d) (x :: rest) = match dget x d with Some v => lookup v rest | None => None end.
Proof. reflexivity. Qed.

Lemma lookup_leaf v x rest : is_dict v = false -> lookup v (x :: rest) = None.
Proof. now destruct v. Qed.

Lemma lookup_empty x rest : lookup (PDict []) (x :: rest) = None.
Proof. reflexivity. Qed.

(** the entry is at the end of the list at the path *)
Lemma add_at_there path : forall d item d', path <> [] -> add_at d path item = (d', Ok tt) ->
  lookup (PDict d') path = Some (PList (list_at d path ++ [item])).
Proof.
  unfold list_at. induction path as [|x [|y rest] IH]; intros d item d' Hne H; [congruence| |].
  - rewrite add_at_one in H. rewrite !lookup_cons.
    destruct (dget x d) as [[n|s|s|l|l]|] eqn:E; try discriminate; injection H as <-;
      rewrite dget_dset_eq; reflexivity.
  - rewrite add_at_more in H. rewrite (lookup_cons d), (lookup_cons d').
    destruct (dget x d) as [[n|s|s|l|e]|] eqn:E; try discriminate.
    + destruct (add_at e (y :: rest) item) as [e' r] eqn:Ea. injection H as <- ->.
      rewrite dget_dset_eq. now apply IH.
    + destruct (add_at [] (y :: rest) item) as [e' r] eqn:Ea. injection H as <- ->.
      rewrite dget_dset_eq. rewrite (IH [] item e'); [reflexivity|discriminate|exact Ea].
Qed.

(** nothing else changes *)
Lemma add_at_elsewhere path : forall d item d' q, add_at d path item = (d', Ok tt) ->
  (forall r, path <> q ++ r) -> lookup (PDict d') q = lookup (PDict d) q.
Proof.
  induction path as [|x [|y rest] IH]; intros d item d' q H Hq.
  - now injection H as <-.
  - destruct q as [|z q]; [exfalso; now apply (Hq [x])|].
    rewrite add_at_one in H. rewrite !lookup_cons.
    destruct (String.eqb z x) eqn:Ez.
    + apply eqb_eq_s in Ez; subst z. destruct q as [|w q]; [exfalso; now apply (Hq [])|].
      destruct (dget x d) as [[n|s|s|l|l]|] eqn:E; try discriminate; injection H as <-;
        rewrite dget_dset_eq; reflexivity.
    + apply eqb_neq_s in Ez.
      destruct (dget x d) as [[n|s|s|l|l]|] eqn:E; try discriminate; injection H as <-;
        now rewrite dget_dset_neq.
  - destruct q as [|z q]; [exfalso; now apply (Hq (x :: y :: rest))|].
    rewrite add_at_more in H. rewrite (lookup_cons d), (lookup_cons d').
    destruct (String.eqb z x) eqn:Ez.
    + apply eqb_eq_s in Ez; subst z.
      assert (Hq' : forall r, y :: rest <> q ++ r) by (intros r Er; apply (Hq r); cbn [app]; now rewrite Er).
      destruct (dget x d) as [[n|s|s|l|e]|] eqn:E; try discriminate.
      * destruct (add_at e (y :: rest) item) as [e' r] eqn:Ea. injection H as <- ->.
        rewrite dget_dset_eq. exact (IH e item e' q Ea Hq').
      * destruct (add_at [] (y :: rest) item) as [e' r] eqn:Ea. injection H as <- ->.
        rewrite dget_dset_eq. rewrite (IH [] item e' q Ea Hq').
        destruct q; [exfalso; now apply (Hq' (y :: rest))|reflexivity].
    + apply eqb_neq_s in Ez.
      destruct (dget x d) as [[n|s|s|l|e]|] eqn:E; try discriminate.
      * destruct (add_at e (y :: rest) item) as [e' r] eqn:Ea. injection H as <- ->. now rewrite dget_dset_neq.
      * destruct (add_at [] (y :: rest) item) as [e' r] eqn:Ea. injection H as <- ->. now rewrite dget_dset_neq.
Qed.

(** on the way there are dicts, with at most one key more at the end *)
Lemma add_at_on_the_way path : forall d item d' q x r, add_at d path item = (d', Ok tt) -> path = q ++ x :: r ->
  exists e', lookup (PDict d') q = Some (PDict e') /\
    dkeys e' = if existsb (String.eqb x) (keys_at d q) then keys_at d q else keys_at d q ++ [x].
Proof.
  assert (Hkeys : forall (d : dict pd) x v, dkeys (dset x v d) =
            if existsb (String.eqb x) (dkeys d) then dkeys d else dkeys d ++ [x]).
  { intros d x v. rewrite dkeys_dset.
    destruct (dmem x d) eqn:E; destruct (existsb (String.eqb x) (dkeys d)) eqn:E2; try reflexivity; exfalso.
    - apply dmem_In in E. assert (existsb (String.eqb x) (dkeys d) = true); [|congruence].
      apply existsb_exists. exists x. split; [exact E|apply eqb_refl_s].
    - apply existsb_exists in E2 as (z & Hz & Ez). apply eqb_eq_s in Ez; subst z. apply dmem_In in Hz. congruence. }
  induction path as [|w [|y rest] IH]; intros d item d' q x r H Hp.
  - destruct q; discriminate.
  - destruct q as [|z q]; [|destruct q; discriminate].
    injection Hp as -> <-. rewrite add_at_one in H. unfold keys_at. cbn [lookup].
    destruct (dget x d) as [[n|s|s|l|l]|] eqn:E; try discriminate; injection H as <-; eexists; split; try reflexivity; apply Hkeys.
  - destruct q as [|z q].
    + injection Hp as -> <-. rewrite add_at_more in H. unfold keys_at. cbn [lookup].
      destruct (dget x d) as [[n|s|s|l|e]|] eqn:E; try discriminate.
      * destruct (add_at e (y :: rest) item) as [e' r'] eqn:Ea. injection H as <- ->. eexists; split; [reflexivity|apply Hkeys].
      * destruct (add_at [] (y :: rest) item) as [e' r'] eqn:Ea. injection H as <- ->. eexists; split; [reflexivity|apply Hkeys].
    + injection Hp as -> Hp. rewrite add_at_more in H. unfold keys_at. rewrite (lookup_cons d), (lookup_cons d').
      destruct (dget z d) as [[n|s|s|l|e]|] eqn:E; try discriminate.
      * destruct (add_at e (y :: rest) item) as [e' r'] eqn:Ea. injection H as <- ->. rewrite dget_dset_eq.
        exact (IH e item e' q x r Ea Hp).
      * destruct (add_at [] (y :: rest) item) as [e' r'] eqn:Ea. injection H as <- ->. rewrite dget_dset_eq.
        destruct (IH [] item e' q x r Ea Hp) as (e2 & H1 & H2). exists e2. split; [exact H1|].
        rewrite H2. unfold keys_at. now destruct q.
Qed.

Lemma add_at_fail_unchanged path : forall d item d' e, add_at d path item = (d', Raise e) -> d' = d.
Proof.
  induction path as [|x [|y rest] IH]; intros d item d' e H; [discriminate| |].
  - rewrite add_at_one in H. destruct (dget x d) as [[n|s|s|l|l]|]; try discriminate; now injection H.
  - rewrite add_at_more in H. destruct (dget x d) as [[n|s|s|l|f]|] eqn:E; try (now injection H).
    + destruct (add_at f (y :: rest) item) as [f' r] eqn:Ea. injection H as <- ->.
      apply IH in Ea; subst. now apply dset_same.
    + destruct (add_at_new (y :: rest) item) as (f' & Ea). rewrite Ea in H. discriminate.
Qed.

Lemma passes_cons_dict d x y rest e : dget x d = Some (PDict e) ->
  passes_through_leaf d (x :: y :: rest) <-> passes_through_leaf e (y :: rest).
Proof.
  intro E. split.
  - intros (q & r & v & Hp & Hq & Hr & Hl & Hv). destruct q as [|z q]; [congruence|].
    injection Hp as <- Hp. rewrite lookup_cons, E in Hl. destruct q as [|w q].
    + cbn in Hl. injection Hl as <-. discriminate.
    + exists (w :: q), r, v. repeat split; auto; discriminate.
  - intros (q & r & v & Hp & Hq & Hr & Hl & Hv). exists (x :: q), r, v.
    repeat split; auto; [now rewrite Hp|discriminate|]. now rewrite lookup_cons, E.
Qed.

Lemma passes_empty path : ~ passes_through_leaf [] path.
Proof. intros (q & r & v & Hp & Hq & Hr & Hl & Hv). destruct q; [congruence|discriminate]. Qed.

(** when and how it fails *)
Lemma add_at_type_error path : forall d item,
  snd (add_at d path item) = Raise TypeError <-> passes_through_leaf d path.
Proof.
  induction path as [|x [|y rest] IH]; intros d item.
  - cbn. split; [discriminate|]. intros (q & r & v & Hp & Hq & Hr & _). destruct q; [congruence|discriminate].
  - rewrite add_at_one. split.
    + destruct (dget x d) as [[n|s|s|l|l]|]; discriminate.
    + intros (q & r & v & Hp & Hq & Hr & _). destruct q as [|z [|w q]]; [congruence| |discriminate].
      injection Hp as <- Hp. now symmetry in Hp.
  - rewrite add_at_more.
    assert (Hleaf : forall v, dget x d = Some v -> is_dict v = false -> passes_through_leaf d (x :: y :: rest)).
    { intros v E Hv. exists [x], (y :: rest), v. repeat split; auto; try discriminate. now rewrite lookup_cons, E. }
    destruct (dget x d) as [[n|s|s|l|e]|] eqn:E; try (split; [intros _; now eapply Hleaf|reflexivity]).
    + rewrite (passes_cons_dict d x y rest e E), <- (IH e item).
      destruct (add_at e (y :: rest) item). reflexivity.
    + destruct (add_at_new (y :: rest) item) as (f' & Ea). rewrite Ea. cbn. split; [discriminate|].
      intros (q & r & v & Hp & Hq & Hr & Hl & Hv). destruct q as [|z q]; [congruence|].
      injection Hp as <- Hp. rewrite lookup_cons, E in Hl. discriminate.
Qed.

Lemma add_at_value_error path : forall d item, path <> [] ->
  snd (add_at d path item) = Raise ValueError <-> exists v, lookup (PDict d) path = Some v /\ is_list v = false.
Proof.
  induction path as [|x [|y rest] IH]; intros d item Hne; [congruence| |].
  - rewrite add_at_one, lookup_cons. destruct (dget x d) as [[n|s|s|l|l]|];
      (split; [try discriminate; intros _; now eexists|]); intros (v & Hv & Hl); cbn in Hv; try discriminate; try reflexivity;
      injection Hv as <-; discriminate.
  - rewrite add_at_more, lookup_cons. destruct (dget x d) as [[n|s|s|l|e]|] eqn:E;
      try (split; [discriminate|intros (v & Hv & _); discriminate]).
    + rewrite <- (IH e item) by discriminate. destruct (add_at e (y :: rest) item). reflexivity.
    + destruct (add_at_new (y :: rest) item) as (f' & ->). cbn [snd]. split; [discriminate|intros (v & Hv & _); discriminate].
Qed.

Lemma add_at_outcomes path : forall d item,
  snd (add_at d path item) = Ok tt \/ snd (add_at d path item) = Raise TypeError \/ snd (add_at d path item) = Raise ValueError.
Proof.
  induction path as [|x [|y rest] IH]; intros d item; [now left| |].
  - rewrite add_at_one. destruct (dget x d) as [[n|s|s|l|l]|]; cbn; auto.
  - rewrite add_at_more. destruct (dget x d) as [[n|s|s|l|e]|]; cbn [snd]; auto.
    + specialize (IH e item). destruct (add_at e (y :: rest) item). exact IH.
    + destruct (add_at_new (y :: rest) item) as (f' & ->). now left.
Qed.

(* ------------------------------------------------------------------ *)
(** * well-formedness is kept *)

Lemma pd_wf_list l : pd_wf (PList l) <-> Forall pd_wf l.
Proof.
  induction l as [|x l IH].
  - cbn. split; auto.
  - change (pd_wf (PList (x :: l))) with (pd_wf x /\ pd_wf (PList l)). rewrite IH. split.
    + intros [H1 H2]. now constructor.
    + intro H. inversion H; auto.
Qed.

Lemma pd_wf_dict l : pd_wf (PDict l) <-> dwf l /\ Forall (fun kv => pd_wf (snd kv)) l.
Proof.
  cbn [pd_wf]. enough (forall m, (fix all (l : list (string * pd)) : Prop := match l with [] => True | (_, x) :: r => pd_wf x /\ all r end) m
                      <-> Forall (fun kv => pd_wf (snd kv)) m) as H by (now rewrite H).
  induction m as [|[k x] m IH]; [split; auto|]. rewrite IH. split.
  - intros [H1 H2]. now constructor.
  - intro H. inversion H; auto.
Qed.

Lemma Forall_dset {A} (P : string * A -> Prop) k v d : Forall P d -> P (k, v) -> Forall P (dset k v d).
Proof.
  intros H Hv. induction H as [|[k' v'] d H1 H2 IH]; cbn; [constructor; auto|].
  destruct (String.eqb k k') eqn:E; constructor; auto. apply eqb_eq_s in E; now subst.
Qed.

Lemma dget_Forall {A} (P : string * A -> Prop) k v d : Forall P d -> dget k d = Some v -> P (k, v).
Proof. intros H E. apply dget_Some_In in E. rewrite Forall_forall in H. now apply H. Qed.

Lemma add_at_wf path : forall d item d' r, pd_wf (PDict d) -> pd_wf item -> add_at d path item = (d', r) -> pd_wf (PDict d').
Proof.
  assert (Hset : forall d x v, pd_wf (PDict d) -> pd_wf v -> pd_wf (PDict (dset x v d))).
  { intros d x v H Hv. apply pd_wf_dict in H as [H1 H2]. apply pd_wf_dict. split; [now apply dset_wf|]. now apply Forall_dset. }
  assert (Hget : forall d x v, pd_wf (PDict d) -> dget x d = Some v -> pd_wf v).
  { intros d x v H E. apply pd_wf_dict in H as [_ H2]. exact (dget_Forall _ _ _ _ H2 E). }
  assert (Hnil : pd_wf (PDict [])) by (apply pd_wf_dict; split; [apply dwf_nil|constructor]).
  induction path as [|x [|y rest] IH]; intros d item d' r H Hi E.
  - now injection E as <- <-.
  - rewrite add_at_one in E. destruct (dget x d) as [[n|s|s|l|l]|] eqn:G; injection E as <- <-; auto.
    + apply Hset; [exact H|]. apply pd_wf_list. apply (Hget _ _ _ H) in G. apply pd_wf_list in G.
      apply Forall_app. split; [exact G|]. now constructor.
    + apply Hset; [exact H|]. apply pd_wf_list. now constructor.
  - rewrite add_at_more in E. destruct (dget x d) as [[n|s|s|l|f]|] eqn:G; try (injection E as <- <-; exact H).
    + destruct (add_at f (y :: rest) item) as [f' r'] eqn:Ea. injection E as <- <-.
      apply Hset; [exact H|]. exact (IH f item f' r' (Hget _ _ _ H G) Hi Ea).
    + destruct (add_at [] (y :: rest) item) as [f' r'] eqn:Ea. injection E as <- <-.
      apply Hset; [exact H|]. exact (IH [] item f' r' Hnil Hi Ea).
Qed.

(* ------------------------------------------------------------------ *)
(** * the tree *)

Section Tree.
  Variable view : pd -> res (string * thing).

  Fixpoint dict_pres (l : list (string * pd)) : res (list pre) :=
    match l with
    | [] => Ok []
    | (k, x) :: r =>
        if is_section x
        then match from_pd view k x with
             | Raise e => Raise e
             | Ok c => match dict_pres r with Ok ps => Ok (PreColl c :: ps) | Raise e => Raise e end
             end
        else dict_pres r
    end.

  Fixpoint sub_pres (d : list (string * pd)) : res (list pre) :=
    match d with
    | [] => Ok []
    | (k, y) :: d' =>
        match (if is_section y then match from_pd view k y with Ok c => Ok (PreColl c) | Raise e => Raise e end
               else Ok (PreItem y)) with
        | Raise e => Raise e
        | Ok p => match sub_pres d' with Ok ps => Ok (p :: ps) | Raise e => Raise e end
        end
    end.

  Fixpoint list_pres (l : list pd) : res (list pre) :=
    match l with
    | [] => Ok []
    | x :: r => match (match x with PDict d => sub_pres d | _ => Ok [PreItem x] end) with
                | Raise e => Raise e
                | Ok ps => match list_pres r with Ok ps' => Ok (ps ++ ps') | Raise e => Raise e end
                end
    end.

  Lemma from_pd_dict name l :
    from_pd view name (PDict l) = match dict_pres l with Ok ps => mk_coll view name ps | Raise e => Raise e end.
  Proof.
    cbn [from_pd].
    match goal with |- match ?a with _ => _ end = _ => enough (a = dict_pres l) as -> by reflexivity end.
    induction l as [|[k x] l IH]; [reflexivity|]. cbn [dict_pres]. rewrite <- IH. destruct x; reflexivity.
  Qed.

  Lemma from_pd_list name l :
    from_pd view name (PList l) = match list_pres l with Ok ps => mk_coll view name ps | Raise e => Raise e end.
  Proof.
    cbn [from_pd].
    match goal with |- match ?a with _ => _ end = _ => enough (a = list_pres l) as -> by reflexivity end.
    induction l as [|x l IH]; [reflexivity|]. cbn [list_pres]. rewrite <- IH. destruct x as [n|s|s|m|d]; try reflexivity.
    match goal with |- match ?a with _ => _ end = _ => enough (a = sub_pres d) as -> by reflexivity end.
    clear IH. induction d as [|[k y] d IH]; [reflexivity|]. cbn [sub_pres]. rewrite <- IH. destruct y; reflexivity.
  Qed.

  Definition pre_entry (p : pre) : res entry :=
    match p with
    | PreColl c => Ok (EColl c)
    | PreItem v => match view v with Ok (n, t) => Ok (EItem n t) | Raise e => Raise e end
    end.

  Lemma transform_cons p r :
    transform view (p :: r) = match pre_entry p with
                              | Raise e => Raise e
                              | Ok e => match transform view r with Ok es => Ok (e :: es) | Raise x => Raise x end
                              end.
  Proof. reflexivity. Qed.

  Lemma transform_app p q :
    transform view (p ++ q) = match transform view p with
                              | Raise e => Raise e
                              | Ok es => match transform view q with Ok fs => Ok (es ++ fs) | Raise x => Raise x end
                              end.
  Proof.
    induction p as [|a p IH]; cbn [app].
    - cbn. now destruct (transform view q).
    - rewrite !transform_cons, IH. destruct (pre_entry a); [|reflexivity].
      destruct (transform view p); [|reflexivity]. now destruct (transform view q).
  Qed.

  Lemma transform_In l es e : transform view l = Ok es -> In e es <-> exists p, In p l /\ pre_entry p = Ok e.
  Proof.
    revert es; induction l as [|p l IH]; intros es H.
    - injection H as <-. cbn. split; [tauto|intros (p & [] & _)].
    - rewrite transform_cons in H. destruct (pre_entry p) as [e0|] eqn:E; [|discriminate].
      destruct (transform view l) as [es'|]; [|discriminate]. injection H as <-. cbn [In]. rewrite (IH es' eq_refl). split.
      + intros [<-|(q & Hq & Eq)]; [exists p; auto|exists q; auto].
      + intros (q & [<-|Hq] & Eq); [left; congruence|right; now exists q].
  Qed.

  Lemma from_pd_name name v c : from_pd view name v = Ok c -> coll_name c = name.
  Proof.
    destruct v; intro H; try (now injection H as <-).
    - rewrite from_pd_list in H. destruct (list_pres l); [|discriminate]. unfold mk_coll in H.
      destruct (transform view a); [|discriminate]. now injection H as <-.
    - rewrite from_pd_dict in H. destruct (dict_pres l); [|discriminate]. unfold mk_coll in H.
      destruct (transform view a); [|discriminate]. now injection H as <-.
  Qed.

  Lemma dict_pres_In l ps p : dict_pres l = Ok ps ->
    In p ps <-> exists k x c, In (k, x) l /\ is_section x = true /\ from_pd view k x = Ok c /\ p = PreColl c.
  Proof.
    revert ps; induction l as [|[k x] l IH]; intros ps H.
    - injection H as <-. cbn. split; [tauto|intros (k & x & c & [] & _)].
    - cbn [dict_pres] in H. destruct (is_section x) eqn:Es.
      + destruct (from_pd view k x) as [c|] eqn:E; [|discriminate].
        destruct (dict_pres l) as [ps'|]; [|discriminate]. injection H as <-. cbn [In]. rewrite (IH ps' eq_refl). split.
        * intros [<-|(k2 & x2 & c2 & H1 & H2)]; [exists k, x, c; auto|exists k2, x2, c2; tauto].
        * intros (k2 & x2 & c2 & [H1|H1] & H2 & H3 & H4); [left; congruence|right; exists k2, x2, c2; auto].
      + rewrite (IH ps H). split; intros (k2 & x2 & c2 & H1 & H2 & H3 & H4).
        * exists k2, x2, c2. cbn [In]. auto.
        * destruct H1 as [H1|H1]; [congruence|]. exists k2, x2, c2. auto.
  Qed.

  Lemma sub_pres_In l ps p : sub_pres l = Ok ps ->
    In p ps <-> (exists k x c, In (k, x) l /\ is_section x = true /\ from_pd view k x = Ok c /\ p = PreColl c) \/
                (exists k x, In (k, x) l /\ is_section x = false /\ p = PreItem x).
  Proof.
    revert ps; induction l as [|[k x] l IH]; intros ps H.
    - injection H as <-. cbn. split; [tauto|intros [(k & x & c & [] & _)|(k & x & [] & _)]].
    - cbn [sub_pres] in H. destruct (is_section x) eqn:Es.
      + destruct (from_pd view k x) as [c|] eqn:E; [|discriminate].
        destruct (sub_pres l) as [ps'|]; [|discriminate]. injection H as <-. cbn [In]. rewrite (IH ps' eq_refl). split.
        * intros [<-|[(k2 & x2 & c2 & H1 & H2)|(k2 & x2 & H1 & H2)]];
            [left; exists k, x, c; auto|left; exists k2, x2, c2; tauto|right; exists k2, x2; tauto].
        * intros [(k2 & x2 & c2 & [H1|H1] & H2 & H3 & H4)|(k2 & x2 & [H1|H1] & H2 & H3)];
            [left; congruence|right; left; exists k2, x2, c2; auto|congruence|right; right; exists k2, x2; auto].
      + destruct (sub_pres l) as [ps'|]; [|discriminate]. injection H as <-. cbn [In]. rewrite (IH ps' eq_refl). split.
        * intros [<-|[(k2 & x2 & c2 & H1 & H2)|(k2 & x2 & H1 & H2)]];
            [right; exists k, x; auto|left; exists k2, x2, c2; tauto|right; exists k2, x2; tauto].
        * intros [(k2 & x2 & c2 & [H1|H1] & H2 & H3 & H4)|(k2 & x2 & [H1|H1] & H2 & H3)];
            [congruence|right; left; exists k2, x2, c2; auto|left; congruence|right; right; exists k2, x2; auto].
  Qed.

  Lemma list_pres_In l ps p : list_pres l = Ok ps ->
    In p ps <-> (exists i, In i l /\ is_dict i = false /\ p = PreItem i) \/
                (exists d k x c, In (PDict d) l /\ In (k, x) d /\ is_section x = true /\ from_pd view k x = Ok c /\ p = PreColl c) \/
                (exists d k x, In (PDict d) l /\ In (k, x) d /\ is_section x = false /\ p = PreItem x).
  Proof.
    revert ps; induction l as [|x l IH]; intros ps H.
    - injection H as <-. cbn. split; [tauto|intros [(i & [] & _)|[(d & k & x & c & [] & _)|(d & k & x & [] & _)]]].
    - cbn [list_pres] in H.
      destruct (match x with PDict d => sub_pres d | _ => Ok [PreItem x] end) as [qs|] eqn:E; [|discriminate].
      destruct (list_pres l) as [ps'|]; [|discriminate]. injection H as <-. rewrite in_app_iff, (IH ps' eq_refl). cbn [In].
      split.
      + intros [H|[(i & H1 & H2)|[(d & k & y & c & H1 & H2)|(d & k & y & H1 & H2)]]].
        * destruct x as [n|s|s|m|d]; try (injection E as <-; destruct H as [<-|[]]; left; eexists; split; [now left|auto]).
          rewrite (sub_pres_In _ _ _ E) in H. destruct H as [(k & y & c & H1 & H2)|(k & y & H1 & H2)].
          -- right; left. exists d, k, y, c. tauto.
          -- right; right. exists d, k, y. tauto.
        * left. exists i. tauto.
        * right; left. exists d, k, y, c. tauto.
        * right; right. exists d, k, y. tauto.
      + intros [(i & [<-|H1] & H2 & H3)|[(d & k & y & c & [->|H1] & H2)|(d & k & y & [->|H1] & H2)]].
        * left. destruct x; try discriminate; injection E as <-; subst p; now left.
        * right; left. exists i. tauto.
        * left. rewrite (sub_pres_In _ _ _ E). left. exists k, y, c. tauto.
        * right; right; left. exists d, k, y, c. tauto.
        * left. rewrite (sub_pres_In _ _ _ E). right. exists k, y. tauto.
        * right; right; right. exists d, k, y. tauto.
  Qed.

  Lemma from_pd_entries name v c : from_pd view name v = Ok c -> is_section v = true ->
    (forall c', In (EColl c') (coll_entries c) <->
       (exists d k x, (v = PDict d \/ exists l, v = PList l /\ In (PDict d) l) /\
                      In (k, x) d /\ is_section x = true /\ from_pd view k x = Ok c')) /\
    (forall n t, In (EItem n t) (coll_entries c) <->
       (exists l i, v = PList l /\ view i = Ok (n, t) /\
          (In i l /\ is_dict i = false \/ exists d k, In (PDict d) l /\ In (k, i) d /\ is_section i = false))).
  Proof.
    intros H Hs. destruct v as [m|s|s|l|l]; try discriminate; clear Hs.
    - rewrite from_pd_list in H. destruct (list_pres l) as [ps|] eqn:E; [|discriminate]. unfold mk_coll in H.
      destruct (transform view ps) as [es|] eqn:Et; [|discriminate]. injection H as <-. cbn [coll_entries]. split.
      + intro c'. rewrite (transform_In _ _ _ Et). split.
        * intros (p & Hp & Ep). rewrite (list_pres_In _ _ _ E) in Hp.
          destruct Hp as [(i & H1 & H2 & ->)|[(d & k & x & c & H1 & H2 & H3 & H4 & ->)|(d & k & x & H1 & H2 & H3 & ->)]]; cbn in Ep.
          -- destruct (view i) as [[? ?]|]; discriminate.
          -- injection Ep as <-. exists d, k, x. repeat split; auto. right. now exists l.
          -- destruct (view x) as [[? ?]|]; discriminate.
        * intros (d & k & x & Hd & H2 & H3 & H4). exists (PreColl c'). split; [|reflexivity].
          rewrite (list_pres_In _ _ _ E). right; left. exists d, k, x, c'.
          destruct Hd as [Hd|(l' & Hl & Hd)]; [discriminate|]. injection Hl as <-. auto.
      + intros n t. rewrite (transform_In _ _ _ Et). split.
        * intros (p & Hp & Ep). rewrite (list_pres_In _ _ _ E) in Hp.
          destruct Hp as [(i & H1 & H2 & ->)|[(d & k & x & c & H1 & H2 & H3 & H4 & ->)|(d & k & x & H1 & H2 & H3 & ->)]]; cbn in Ep.
          -- destruct (view i) as [[n' t']|] eqn:Ev; [|discriminate]. injection Ep as -> ->. exists l, i. auto.
          -- discriminate.
          -- destruct (view x) as [[n' t']|] eqn:Ev; [|discriminate]. injection Ep as -> ->. exists l, x.
             repeat split; auto. right. now exists d, k.
        * intros (l' & i & Hl & Hv & Hi). injection Hl as <-. exists (PreItem i). split; [|cbn; now rewrite Hv].
          rewrite (list_pres_In _ _ _ E). destruct Hi as [[H1 H2]|(d & k & H1 & H2 & H3)].
          -- left. now exists i.
          -- right; right. now exists d, k, i.
    - rewrite from_pd_dict in H. destruct (dict_pres l) as [ps|] eqn:E; [|discriminate]. unfold mk_coll in H.
      destruct (transform view ps) as [es|] eqn:Et; [|discriminate]. injection H as <-. cbn [coll_entries]. split.
      + intro c'. rewrite (transform_In _ _ _ Et). split.
        * intros (p & Hp & Ep). rewrite (dict_pres_In _ _ _ E) in Hp. destruct Hp as (k & x & c & H1 & H2 & H3 & ->).
          injection Ep as <-. exists l, k, x. auto.
        * intros (d & k & x & Hd & H2 & H3 & H4). exists (PreColl c'). split; [|reflexivity].
          rewrite (dict_pres_In _ _ _ E). exists k, x, c'. destruct Hd as [Hd|(l' & Hl & Hd)]; [|discriminate].
          injection Hd as <-. auto.
      + intros n t. rewrite (transform_In _ _ _ Et). split.
        * intros (p & Hp & Ep). rewrite (dict_pres_In _ _ _ E) in Hp. destruct Hp as (k & x & c & H1 & H2 & H3 & ->). discriminate.
        * intros (l' & i & Hl & _). discriminate.
  Qed.

  Lemma dict_pres_ok x y d ps : dict_pres d = Ok ps -> In (x, y) d -> is_section y = true -> exists c, from_pd view x y = Ok c.
  Proof.
    revert ps; induction d as [|[k z] d IH]; intros ps E Hk Hy; [easy|]. cbn [dict_pres] in E. destruct Hk as [[= -> ->]|Hk].
    - rewrite Hy in E. destruct (from_pd view x y) as [c|]; [now exists c|discriminate].
    - destruct (is_section z); [|now apply (IH ps)]. destruct (from_pd view k z); [|discriminate].
      destruct (dict_pres d) as [ps'|]; [|discriminate]. now apply (IH ps').
  Qed.

  Lemma sub_pres_ok x y d ps : sub_pres d = Ok ps -> In (x, y) d -> is_section y = true -> exists c, from_pd view x y = Ok c.
  Proof.
    revert ps; induction d as [|[k z] d IH]; intros ps E Hk Hy; [easy|]. cbn [sub_pres] in E. destruct Hk as [[= -> ->]|Hk].
    - rewrite Hy in E. destruct (from_pd view x y) as [c|]; [now exists c|discriminate].
    - destruct (if is_section z then _ else _); [|discriminate].
      destruct (sub_pres d) as [ps'|]; [|discriminate]. now apply (IH ps').
  Qed.

  Lemma list_pres_ok x y d l ps : list_pres l = Ok ps -> In (PDict d) l -> In (x, y) d -> is_section y = true ->
    exists c, from_pd view x y = Ok c.
  Proof.
    revert ps; induction l as [|z l IH]; intros ps E Hd Hk Hy; [easy|]. cbn [list_pres] in E. destruct Hd as [->|Hd].
    - destruct (sub_pres d) as [qs|] eqn:Es; [|discriminate]. exact (sub_pres_ok x y d qs Es Hk Hy).
    - destruct (match z with PDict d => sub_pres d | _ => Ok [PreItem z] end); [|discriminate].
      destruct (list_pres l) as [ps'|]; [|discriminate]. now apply (IH ps').
  Qed.

  Lemma from_pd_sub name v c d x y : from_pd view name v = Ok c ->
    (v = PDict d \/ exists l, v = PList l /\ In (PDict d) l) -> In (x, y) d -> is_section y = true ->
    exists c1, from_pd view x y = Ok c1.
  Proof.
    intros H [->|(l & -> & Hd)] Hk Hy.
    - rewrite from_pd_dict in H. destruct (dict_pres d) as [ps|] eqn:E; [|discriminate]. exact (dict_pres_ok x y d ps E Hk Hy).
    - rewrite from_pd_list in H. destruct (list_pres l) as [ps|] eqn:E; [|discriminate]. exact (list_pres_ok x y d l ps E Hd Hk Hy).
  Qed.

  (** building the tree fails only if some element cannot be turned into an item *)
  Definition viewable (i : pd) : Prop := exists nt, view i = Ok nt.

  Lemma transform_ok_iff l : (exists es, transform view l = Ok es) <-> Forall (fun p => exists e, pre_entry p = Ok e) l.
  Proof.
    induction l as [|p l IH].
    - split; [constructor|now eexists].
    - split.
      + intros (es & H). rewrite transform_cons in H. destruct (pre_entry p) as [e|] eqn:E; [|discriminate].
        destruct (transform view l) as [es'|]; [|discriminate]. constructor; [now exists e|]. apply IH. now eexists.
      + intro H. inversion H as [|? ? (e & E) H2]; subst. apply IH in H2 as (es & E2). exists (e :: es).
        now rewrite transform_cons, E, E2.
  Qed.

  Lemma pre_item_ok i : (exists e, pre_entry (PreItem i) = Ok e) <-> viewable i.
  Proof.
    unfold viewable. cbn [pre_entry]. destruct (view i) as [[n t]|e]; split; intros (x & Hx); try discriminate; now eexists.
  Qed.

  Lemma viewed_dict_cons k x d :
    viewed (PDict ((k, x) :: d)) = (if is_section x then viewed x else []) ++ viewed (PDict d).
  Proof. destruct x; reflexivity. Qed.

  Definition viewed_sub (d : list (string * pd)) : list pd :=
    flat_map (fun kv => match snd kv with PDict _ | PList _ => viewed (snd kv) | y => [y] end) d.
  Lemma viewed_list_cons x l :
    viewed (PList (x :: l)) = (match x with PDict d => viewed_sub d | _ => [x] end) ++ viewed (PList l).
  Proof. destruct x; reflexivity. Qed.
  Lemma viewed_sub_cons k y d :
    viewed_sub ((k, y) :: d) = (if is_section y then viewed y else [y]) ++ viewed_sub d.
  Proof. destruct y; reflexivity. Qed.

  Definition builds (v : pd) : Prop := forall name, (exists c, from_pd view name v = Ok c) <-> Forall viewable (viewed v).

  Lemma dict_pres_build l : Forall (fun kv => builds (snd kv)) l ->
    (exists ps, dict_pres l = Ok ps /\ exists es, transform view ps = Ok es) <-> Forall viewable (viewed (PDict l)).
  Proof.
    induction l as [|[k x] l IH]; intro H.
    - cbn. split; [constructor|]. intros _. exists []. split; [reflexivity|]. now exists [].
    - inversion H as [|? ? Hx H2]; subst. cbn [snd] in Hx. specialize (IH H2). rewrite viewed_dict_cons, Forall_app. cbn [dict_pres].
      destruct (is_section x) eqn:Es.
      + rewrite <- (Hx k), <- IH. split.
        * intros (ps & E & es & Et). destruct (from_pd view k x) as [c|]; [|discriminate].
          destruct (dict_pres l) as [ps'|]; [|discriminate]. injection E as <-. rewrite transform_cons in Et. cbn [pre_entry] in Et.
          destruct (transform view ps') as [es'|] eqn:E'; [|discriminate]. split; [now exists c|]. exists ps'. split; [reflexivity|]. now exists es'.
        * intros ((c & ->) & ps & -> & es & Et). eexists. split; [reflexivity|]. rewrite transform_cons. cbn [pre_entry]. rewrite Et. now eexists.
      + rewrite <- IH. split; [intros X; split; [constructor|exact X]|intros [_ X]; exact X].
  Qed.

  Lemma sub_pres_build l : Forall (fun kv => builds (snd kv)) l ->
    (exists ps, sub_pres l = Ok ps /\ exists es, transform view ps = Ok es) <-> Forall viewable (viewed_sub l).
  Proof.
    induction l as [|[k x] l IH]; intro H.
    - cbn. split; [constructor|]. intros _. exists []. split; [reflexivity|]. now exists [].
    - inversion H as [|? ? Hx H2]; subst. cbn [snd] in Hx. specialize (IH H2). rewrite viewed_sub_cons, Forall_app. cbn [sub_pres].
      destruct (is_section x) eqn:Es.
      + rewrite <- (Hx k), <- IH. split.
        * intros (ps & E & es & Et). destruct (from_pd view k x) as [c|]; [|discriminate].
          destruct (sub_pres l) as [ps'|]; [|discriminate]. injection E as <-. rewrite transform_cons in Et. cbn [pre_entry] in Et.
          destruct (transform view ps') as [es'|] eqn:E'; [|discriminate]. split; [now exists c|]. exists ps'. split; [reflexivity|]. now exists es'.
        * intros ((c & ->) & ps & -> & es & Et). eexists. split; [reflexivity|]. rewrite transform_cons. cbn [pre_entry]. rewrite Et. now eexists.
      + rewrite <- IH. split.
        * intros (ps & E & es & Et). destruct (sub_pres l) as [ps'|]; [|discriminate]. injection E as <-. rewrite transform_cons in Et.
          destruct (pre_entry (PreItem x)) as [e|] eqn:Ee; [|discriminate]. destruct (transform view ps') as [es'|] eqn:E'; [|discriminate].
          split; [constructor; [apply pre_item_ok; now exists e|constructor]|]. exists ps'. split; [reflexivity|]. now exists es'.
        * intros (Hv & ps & -> & es & Et). inversion Hv as [|? ? Hv1 _]; subst. apply pre_item_ok in Hv1 as (e & Ee).
          eexists. split; [reflexivity|]. rewrite transform_cons, Ee, Et. now eexists.
  Qed.

  Lemma list_pres_build l : Forall (fun x => match x with PDict d => Forall (fun kv => builds (snd kv)) d | _ => True end) l ->
    (exists ps, list_pres l = Ok ps /\ exists es, transform view ps = Ok es) <-> Forall viewable (viewed (PList l)).
  Proof.
    induction l as [|x l IH]; intro H.
    - cbn. split; [constructor|]. intros _. exists []. split; [reflexivity|]. now exists [].
    - inversion H as [|? ? Hx H2]; subst. specialize (IH H2). rewrite viewed_list_cons, Forall_app, <- IH. cbn [list_pres].
      assert (HX : (exists ps, match x with PDict d => sub_pres d | _ => Ok [PreItem x] end = Ok ps /\ exists es, transform view ps = Ok es)
                   <-> Forall viewable (match x with PDict d => viewed_sub d | _ => [x] end)).
      { assert (Hone : (exists ps, Ok [PreItem x] = Ok ps /\ exists es, transform view ps = Ok es) <-> Forall viewable [x]).
        { split.
          - intros (ps & [= <-] & es & Et). rewrite transform_cons in Et. destruct (pre_entry (PreItem x)) as [e|] eqn:Ee; [|discriminate].
            constructor; [|constructor]. apply pre_item_ok. now exists e.
          - intro Hv. inversion Hv as [|? ? Hv1 _]; subst. apply pre_item_ok in Hv1 as (e & Ee). eexists. split; [reflexivity|].
            rewrite transform_cons, Ee. now eexists. }
        destruct x; try exact Hone. now apply sub_pres_build. }
      rewrite <- HX. clear HX. destruct (match x with PDict d => sub_pres d | _ => Ok [PreItem x] end) as [qs|]; split.
      + intros (ps & E & es & Et). destruct (list_pres l) as [ps'|]; [|discriminate]. injection E as <-. rewrite transform_app in Et.
        destruct (transform view qs) as [es1|] eqn:E1; [|discriminate]. destruct (transform view ps') as [es2|] eqn:E2; [|discriminate].
        split; [exists qs|exists ps']; (split; [reflexivity|]); eauto.
      + intros ((qs' & [= <-] & es1 & E1) & ps & -> & es2 & E2). eexists. split; [reflexivity|]. rewrite transform_app, E1, E2. now eexists.
      + intros (ps & E & _). discriminate.
      + intros ((qs' & E & _) & _). discriminate.
  Qed.

  Lemma mk_coll_ok name (r : res (list pre)) :
    (exists c, match r with Ok ps => mk_coll view name ps | Raise e => Raise e end = Ok c) <->
    exists ps, r = Ok ps /\ exists es, transform view ps = Ok es.
  Proof.
    unfold mk_coll. destruct r as [ps|]; split.
    - intros (c & H). exists ps. split; [reflexivity|]. destruct (transform view ps); [now eexists|discriminate].
    - intros (ps' & [= <-] & es & ->). now eexists.
    - intros (c & H). discriminate.
    - intros (ps & H & _). discriminate.
  Qed.

  Lemma builds_all v : builds v /\ match v with PDict d => Forall (fun kv => builds (snd kv)) d | _ => True end.
  Proof.
    induction v as [n|s|s|l IH|l IH] using pd_ind2; try (split; [intro name; cbn; split; [constructor|now eexists]|exact I]).
    - split; [|exact I]. intro name. rewrite from_pd_list, mk_coll_ok. apply list_pres_build.
      eapply Forall_impl; [|exact IH]. intros a Ha. exact (proj2 Ha).
    - assert (H : Forall (fun kv => builds (snd kv)) l) by (eapply Forall_impl; [|exact IH]; intros a Ha; exact (proj1 Ha)).
      split; [|exact H]. intro name. rewrite from_pd_dict, mk_coll_ok. now apply dict_pres_build.
  Qed.

  (* ---------------------------------------------------------------- *)
  (** ** lookups *)

  Lemma last_entry_Some x l e : last_entry x l = Some e -> In e l /\ entry_name e = x.
  Proof.
    induction l as [|a l IH]; cbn [last_entry]; [discriminate|]. destruct (last_entry x l) as [e'|].
    - intros [= <-]. destruct (IH eq_refl). split; [now right|assumption].
    - destruct (String.eqb x (entry_name a)) eqn:E; [|discriminate]. intros [= <-]. apply eqb_eq_s in E. split; [now left|auto].
  Qed.

  Lemma last_entry_None x l : last_entry x l = None <-> ~ In x (map entry_name l).
  Proof.
    induction l as [|a l IH]; cbn [last_entry map In]; [tauto|]. destruct (last_entry x l) as [e'|].
    - split; [discriminate|]. intro H. exfalso. assert (Some e' = None) by (apply IH; tauto). discriminate.
    - destruct (String.eqb x (entry_name a)) eqn:E.
      + apply eqb_eq_s in E. split; [discriminate|]. intro H. exfalso. apply H. now left.
      + apply eqb_neq_s in E. split; [|reflexivity]. intros _ [H|H]; [congruence|]. now apply (proj1 IH).
  Qed.

  Lemma last_entry_unique x l e : NoDup (map entry_name l) -> In e l -> entry_name e = x -> last_entry x l = Some e.
  Proof.
    intros Hn Hi Hx. destruct (last_entry x l) as [e'|] eqn:E.
    - apply last_entry_Some in E as [Hi' Hx']. f_equal. clear -Hn Hi Hi' Hx Hx'.
      induction l as [|a l IH]; [easy|]. cbn [map] in Hn. inversion Hn as [|? ? Hni Hn']; subst.
      destruct Hi as [->|Hi]; destruct Hi' as [->|Hi']; auto.
      + exfalso. apply Hni. rewrite <- Hx'. now apply in_map.
      + exfalso. apply Hni. rewrite Hx'. now apply in_map.
    - apply last_entry_None in E. exfalso. apply E. rewrite <- Hx. now apply in_map.
  Qed.

  Lemma distinct_names_eq c : distinct_names c <->
    NoDup (map entry_name (coll_entries c)) /\ forall c', In (EColl c') (coll_entries c) -> distinct_names c'.
  Proof.
    destruct c as [n es]. cbn [distinct_names coll_entries].
    enough (forall l, (fix all (l : list entry) : Prop := match l with [] => True | EItem _ _ :: r => all r | EColl c' :: r => distinct_names c' /\ all r end) l
             <-> forall c', In (EColl c') l -> distinct_names c') as H by (now rewrite H).
    induction l as [|[m t|c] l IH].
    - split; [intros _ c' []|auto].
    - rewrite IH. split; intros H c' Hc; [destruct Hc as [Hc|Hc]; [discriminate|auto]|apply H; now right].
    - rewrite IH. split.
      + intros [H1 H2] c' [Hc|Hc]; [injection Hc as <-; exact H1|auto].
      + intro H. split; [apply H; now left|intros c' Hc; apply H; now right].
  Qed.

  Lemma coll_getattr_in c x : mem x coll_reserved = false -> NoDup (map entry_name (coll_entries c)) ->
    (forall c', coll_getattr c x = Ok (FColl c') <-> In (EColl c') (coll_entries c) /\ coll_name c' = x) /\
    (forall t, coll_getattr c x = Ok (FThing t) <-> In (EItem x t) (coll_entries c)) /\
    coll_getattr c x <> Ok FOther /\ (forall e, coll_getattr c x = Raise e -> e = AttributeError).
  Proof.
    intros Hr Hn. unfold coll_getattr. rewrite Hr. repeat split.
    - destruct (last_entry x (coll_entries c)) as [[n t|c2]|] eqn:E; try discriminate. injection H as <-.
      now apply last_entry_Some in E.
    - destruct (last_entry x (coll_entries c)) as [[n t|c2]|] eqn:E; try discriminate. injection H as <-.
      now apply last_entry_Some in E.
    - intros [H1 H2]. now rewrite (last_entry_unique x _ (EColl c') Hn H1 H2).
    - destruct (last_entry x (coll_entries c)) as [[n t'|c2]|] eqn:E; try discriminate. intros [= <-].
      apply last_entry_Some in E as [H1 H2]. cbn in H2. now subst.
    - intro H1. now rewrite (last_entry_unique x _ (EItem x t) Hn H1 eq_refl).
    - destruct (last_entry x (coll_entries c)) as [[n t|c2]|]; discriminate.
    - intros e H. destruct (last_entry x (coll_entries c)) as [[n t|c2]|]; congruence.
  Qed.

  (** the section found at a path is built from the one written there *)
  Lemma get_section path : forall name v c c', from_pd view name v = Ok c -> is_section v = true -> distinct_names c ->
    Forall (fun x => mem x coll_reserved = false) path ->
    coll_get c path = Ok (FColl c') <-> exists s, section_at v path s /\ from_pd view (last path name) s = Ok c'.
  Proof.
    induction path as [|x rest IH]; intros name v c c' H Hs Hd Hp.
    - cbn [coll_get last]. split.
      + intros [= <-]. exists v. split; [constructor|exact H].
      + intros (s & Hsec & Hf). inversion Hsec; subst. congruence.
    - inversion Hp as [|? ? Hx Hp']; subst. apply distinct_names_eq in Hd as [Hn Hsub].
      destruct (coll_getattr_in c x Hx Hn) as (G1 & G2 & G3 & _). destruct (from_pd_entries name v c H Hs) as [E1 _].
      assert (Hl : forall n1 n2, last (x :: rest) n1 = last rest (if rest then x else n2)).
      { intros n1 n2. destruct rest as [|y rest]; [reflexivity|]. cbn [last]. clear. revert y.
        induction rest as [|z rest IHr]; intro y; [reflexivity|]. apply IHr. }
      assert (Hl' : forall n1, last (x :: rest) n1 = last rest x).
      { intro n1. rewrite (Hl n1 x). now destruct rest. }
      cbn [coll_get]. split.
      + destruct (coll_getattr c x) as [[c1|t|]|] eqn:G; try (destruct rest; discriminate).
        intro Hg. destruct (proj1 (G1 c1) eq_refl) as [Hin Hname].
        destruct (proj1 (E1 c1) Hin) as (d & k & y & Hd & Hk & Hy & Hf).
        assert (k = x) by (rewrite <- Hname; symmetry; now apply from_pd_name in Hf). subst k.
        destruct (proj1 (IH x y c1 c' Hf Hy (Hsub _ Hin) Hp') Hg) as (s & Hsec & Hfs).
        exists s. rewrite Hl'. split; [|exact Hfs].
        destruct Hd as [->|(l & -> & Hd)]; [now apply S_key with y|now apply S_sub with d y].
      + intros (s & Hsec & Hfs). rewrite Hl' in Hfs.
        assert (HX : exists d y, (v = PDict d \/ exists l, v = PList l /\ In (PDict d) l) /\ In (x, y) d /\ is_section y = true /\ section_at y rest s).
        { inversion Hsec; subst; [exists d, v0|exists d, v0]; repeat split; auto. right. eauto. }
        destruct HX as (d & y & Hd & Hk & Hy & Hsec').
        destruct (from_pd_sub name v c d x y H Hd Hk Hy) as (c1 & Hf).
        assert (Hin : In (EColl c1) (coll_entries c)) by (apply E1; exists d, x, y; auto).
        rewrite (proj2 (G1 c1)) by (split; [exact Hin|now apply from_pd_name in Hf]).
        apply (IH x y c1 c' Hf Hy (Hsub _ Hin) Hp'). now exists s.
  Qed.

  (** the item found at a path is one written there *)
  Lemma get_item path : forall name v c t, from_pd view name v = Ok c -> is_section v = true -> distinct_names c ->
    Forall (fun x => mem x coll_reserved = false) path ->
    coll_get c path = Ok (FThing t) <-> exists i n, written view v path i /\ view i = Ok (n, t).
  Proof.
    induction path as [|x rest IH]; intros name v c t H Hs Hd Hp.
    - cbn [coll_get]. split; [discriminate|]. intros (i & n & Hw & _). inversion Hw.
    - inversion Hp as [|? ? Hx Hp']; subst. pose proof Hd as Hd0. apply distinct_names_eq in Hd as [Hn Hsub].
      destruct (coll_getattr_in c x Hx Hn) as (G1 & G2 & G3 & _). destruct (from_pd_entries name v c H Hs) as [E1 E2].
      assert (Hsec : forall y d, (v = PDict d \/ exists l, v = PList l /\ In (PDict d) l) -> In (x, y) d -> is_section y = true ->
                exists c1, from_pd view x y = Ok c1 /\ In (EColl c1) (coll_entries c)).
      { intros y d Hd Hk Hy. destruct (from_pd_sub name v c d x y H Hd Hk Hy) as (c1 & Hf).
        exists c1. split; [exact Hf|]. apply E1. exists d, x, y. auto. }
      cbn [coll_get]. split.
      + destruct (coll_getattr c x) as [[c1|t1|]|] eqn:G; try (destruct rest; discriminate).
        * intro Hg. destruct (proj1 (G1 c1) eq_refl) as [Hin Hname].
          destruct (proj1 (E1 c1) Hin) as (d & k & y & Hd & Hk & Hy & Hf).
          assert (k = x) by (rewrite <- Hname; symmetry; now apply from_pd_name in Hf). subst k.
          destruct (proj1 (IH x y c1 t Hf Hy (Hsub _ Hin) Hp') Hg) as (i & n & Hw & Hv).
          exists i, n. split; [|exact Hv].
          destruct Hd as [->|(l & -> & Hd)]; [now apply W_key with y|now apply W_sub with d y].
        * destruct rest; [|discriminate]. intros [= ->].
          pose proof (proj1 (G2 t) eq_refl) as Hin. destruct (proj1 (E2 x t) Hin) as (l & i & -> & Hv & Hi).
          exists i, x. split; [|exact Hv]. destruct Hi as [[H1 H2]|(d & k & H1 & H2 & H3)]; [now apply W_item with t|now apply W_val with d k t].
      + intros (i & n & Hw & Hv). inversion Hw; subst.
        * destruct (Hsec v0 d) as (c1 & Hf & Hin); auto.
          rewrite (proj2 (G1 c1)) by (split; [exact Hin|now apply from_pd_name in Hf]).
          apply (IH x v0 c1 t); eauto.
        * assert (Hin : In (EItem x t) (coll_entries c)).
          { apply E2. exists l, i. repeat split; auto. congruence. }
          now rewrite (proj2 (G2 t) Hin).
        * destruct (Hsec v0 d) as (c1 & Hf & Hin); eauto.
          rewrite (proj2 (G1 c1)) by (split; [exact Hin|now apply from_pd_name in Hf]).
          apply (IH x v0 c1 t); eauto.
        * assert (Hin : In (EItem x t) (coll_entries c)).
          { apply E2. exists l, i. repeat split; [congruence|]. right. now exists d, k. }
          now rewrite (proj2 (G2 t) Hin).
  Qed.

  Lemma get_other path : forall c f, distinct_names c -> Forall (fun x => mem x coll_reserved = false) path ->
    coll_get c path = f -> f <> Ok FOther /\ forall e, f = Raise e -> e = AttributeError.
  Proof.
    induction path as [|x rest IH]; intros c f Hd Hp H.
    - cbn in H. subst f. split; discriminate.
    - inversion Hp as [|? ? Hx Hp']; subst. apply distinct_names_eq in Hd as [Hn Hsub].
      destruct (coll_getattr_in c x Hx Hn) as (G1 & G2 & G3 & G4). cbn [coll_get].
      destruct (coll_getattr c x) as [[c1|t1|]|e] eqn:G.
      + apply (IH c1 _); auto. apply Hsub. now apply G1.
      + destruct rest; split; try discriminate. now intros e [= <-].
      + congruence.
      + split; [discriminate|]. intros e' [= <-]. now apply G4.
  Qed.

  (* ---------------------------------------------------------------- *)
  (** ** setting *)

  Fixpoint dict_entries (l : dict pd) : res (list entry) :=
    match l with
    | [] => Ok []
    | (k, x) :: r =>
        if is_section x
        then match from_pd view k x with
             | Raise e => Raise e
             | Ok c => match dict_entries r with Ok es => Ok (EColl c :: es) | Raise e => Raise e end
             end
        else dict_entries r
    end.

  Lemma from_dict_entries name d :
    from_pd view name (PDict d) = match dict_entries d with Ok es => Ok (Coll name es) | Raise e => Raise e end.
  Proof.
    rewrite from_pd_dict. enough (match dict_pres d with Ok ps => transform view ps | Raise e => Raise e end = dict_entries d) as <-.
    { destruct (dict_pres d); [|reflexivity]. reflexivity. }
    induction d as [|[k x] d IH]; [reflexivity|]. cbn [dict_pres dict_entries]. destruct (is_section x); [|exact IH].
    destruct (from_pd view k x); [|reflexivity]. rewrite <- IH. destruct (dict_pres d); [|reflexivity].
    rewrite transform_cons. reflexivity.
  Qed.

  Lemma dict_entries_names d es : dict_entries d = Ok es -> forall n, In n (map entry_name es) -> In n (dkeys d).
  Proof.
    revert es; induction d as [|[k x] d IH]; intros es H n Hn.
    - now injection H as <-.
    - cbn [dict_entries] in H. change (dkeys ((k, x) :: d)) with (k :: dkeys d). destruct (is_section x).
      + destruct (from_pd view k x) as [c|] eqn:E; [|discriminate]. destruct (dict_entries d) as [es'|]; [|discriminate].
        injection H as <-. destruct Hn as [Hn|Hn]; [left; cbn in Hn; apply from_pd_name in E; congruence|right; eauto].
      + right. eauto.
  Qed.

  Lemma dict_entries_set d : forall es x v, dict_entries d = Ok es -> dwf d -> dget x d = Some v -> is_section v = true ->
    exists c, from_pd view x v = Ok c /\ last_entry x es = Some (EColl c) /\
      forall v2 c2, is_section v2 = true -> from_pd view x v2 = Ok c2 ->
        dict_entries (dset x v2 d) = Ok (replace_last x (EColl c2) es).
  Proof.
    induction d as [|[k y] d IH]; intros es x v H Hwf G Hs; [discriminate|].
    unfold dwf in Hwf. cbn in Hwf. inversion Hwf as [|? ? Hni Hnd]; subst. cbn [dget] in G. cbn [dict_entries] in H.
    destruct (String.eqb x k) eqn:Ex.
    - apply eqb_eq_s in Ex; subst k. injection G as ->. rewrite Hs in H.
      destruct (from_pd view x v) as [c|] eqn:E; [|discriminate]. destruct (dict_entries d) as [es'|] eqn:Ed; [|discriminate].
      injection H as <-. exists c. split; [reflexivity|].
      assert (Hl : last_entry x es' = None) by (apply last_entry_None; intro Hn; apply Hni; now apply (dict_entries_names d es' Ed)).
      assert (Hc : String.eqb x (entry_name (EColl c)) = true) by (apply eqb_eq_s; cbn; apply from_pd_name in E; congruence).
      cbn [last_entry]. rewrite Hl, Hc. split; [reflexivity|]. intros v2 c2 Hs2 E2. cbn [dset]. rewrite eqb_refl_s.
      cbn [dict_entries replace_last]. now rewrite Hs2, E2, Ed, Hl, Hc.
    - destruct (is_section y) eqn:Ey.
      + destruct (from_pd view k y) as [c0|] eqn:E; [|discriminate]. destruct (dict_entries d) as [es'|] eqn:Ed; [|discriminate].
        injection H as <-. destruct (IH es' x v eq_refl Hnd G Hs) as (c & Hc & Hl & Hset). exists c. split; [exact Hc|].
        cbn [last_entry]. rewrite Hl. split; [reflexivity|]. intros v2 c2 Hs2 E2. cbn [dset]. rewrite Ex.
        cbn [dict_entries replace_last]. now rewrite Ey, E, (Hset v2 c2 Hs2 E2), Hl.
      + destruct (IH es x v H Hnd G Hs) as (c & Hc & Hl & Hset). exists c. split; [exact Hc|]. split; [exact Hl|].
        intros v2 c2 Hs2 E2. cbn [dset]. rewrite Ex. cbn [dict_entries]. rewrite Ey. now apply Hset.
  Qed.

  Lemma dict_entries_new d : forall es x, dict_entries d = Ok es -> dget x d = None ->
    last_entry x es = None /\
    forall v2 c2, is_section v2 = true -> from_pd view x v2 = Ok c2 -> dict_entries (dset x v2 d) = Ok (es ++ [EColl c2]).
  Proof.
    intros es x H G. split.
    - apply last_entry_None. intro Hn. apply (dict_entries_names d es H) in Hn. apply dget_None in G. tauto.
    - intros v2 c2 Hs2 E2. revert es H G. induction d as [|[k y] d IH]; intros es H G.
      + injection H as <-. cbn. now rewrite Hs2, E2.
      + cbn [dget] in G. destruct (String.eqb x k) eqn:Ex; [discriminate|]. cbn [dset]. rewrite Ex. cbn [dict_entries] in *.
        destruct (is_section y); [|now apply IH]. destruct (from_pd view k y); [|discriminate].
        destruct (dict_entries d) as [es'|]; [|discriminate]. injection H as <-. now rewrite (IH es' eq_refl G).
  Qed.

  Lemma list_append name l c i n t : from_pd view name (PList l) = Ok c -> is_dict i = false -> view i = Ok (n, t) ->
    from_pd view name (PList (l ++ [i])) = Ok (coll_append c (EItem n t)).
  Proof.
    rewrite !from_pd_list. intros H Hi Hv.
    assert (E : list_pres (l ++ [i]) = match list_pres l with Ok ps => Ok (ps ++ [PreItem i]) | Raise e => Raise e end).
    { clear H. induction l as [|x l IH]; cbn [app list_pres].
      - now destruct i.
      - destruct (match x with PDict d => sub_pres d | _ => Ok [PreItem x] end); [|reflexivity]. rewrite IH.
        destruct (list_pres l); [|reflexivity]. now rewrite app_assoc. }
    rewrite E. destruct (list_pres l) as [ps|]; [|discriminate]. unfold mk_coll in *. rewrite transform_app.
    destruct (transform view ps); [|discriminate]. injection H as <-. rewrite transform_cons. cbn [pre_entry]. now rewrite Hv.
  Qed.

  Lemma coll_set_new path : forall n t i, is_dict i = false -> view i = Ok (n, t) -> path <> [] ->
    Forall (fun x => mem x coll_reserved = false) path ->
    forall name, exists d' c', add_at [] path i = (d', Ok tt) /\ coll_set (Coll name []) path (EItem n t) = Ok c' /\
      from_pd view name (PDict d') = Ok c'.
  Proof.
    induction path as [|x [|y rest] IH]; intros n t i Hi Hv Hne Hp name; [congruence| |].
    - inversion Hp as [|? ? Hx _]; subst. exists [(x, PList [i])]. eexists. split; [reflexivity|].
      cbn [coll_set]. unfold coll_getattr. rewrite Hx. cbn [coll_entries last_entry]. split; [reflexivity|].
      rewrite from_dict_entries. cbn [dict_entries is_section is_dict is_list orb].
      pose proof (list_append x [] (Coll x []) i n t eq_refl Hi Hv) as HA. cbn [app] in HA. rewrite HA. reflexivity.
    - inversion Hp as [|? ? Hx Hp']; subst.
      destruct (IH n t i Hi Hv ltac:(discriminate) Hp' x) as (d' & c' & H1 & H2 & H3).
      exists [(x, PDict d')]. eexists. split; [rewrite add_at_more; cbn [dget]; now rewrite H1|].
      change (coll_set (Coll name []) (x :: y :: rest) (EItem n t)) with
        (match coll_getattr (Coll name []) x with
         | Ok (FColl c') => match coll_set c' (y :: rest) (EItem n t) with
                            | Ok c2 => Ok (Coll name (replace_last x (EColl c2) []))
                            | Raise r => Raise r end
         | Ok _ => Raise AttributeError
         | Raise _ => match coll_set (Coll x []) (y :: rest) (EItem n t) with
                      | Ok c2 => Ok (coll_append (Coll name []) (EColl c2))
                      | Raise r => Raise r end
         end).
      unfold coll_getattr at 1. rewrite Hx. cbn [coll_entries last_entry]. rewrite H2. split; [reflexivity|].
      rewrite from_dict_entries. cbn [dict_entries is_section is_dict is_list orb]. now rewrite H3.
  Qed.

  Lemma coll_set_eq c x rest e :
    coll_set c (x :: rest) e =
    match coll_getattr c x with
    | Ok (FColl c') => match coll_set c' rest e with
                       | Ok c2 => Ok (Coll (coll_name c) (replace_last x (EColl c2) (coll_entries c)))
                       | Raise r => Raise r end
    | Ok _ => Raise AttributeError
    | Raise _ => match coll_set (Coll x []) rest e with
                 | Ok c2 => Ok (coll_append c (EColl c2))
                 | Raise r => Raise r end
    end.
  Proof. reflexivity. Qed.

  (** changing the tree is the same as changing the dict *)
  Lemma coll_set_add_at path : forall name d c i n t d', from_pd view name (PDict d) = Ok c -> pd_wf (PDict d) ->
    is_dict i = false -> view i = Ok (n, t) -> path <> [] -> Forall (fun x => mem x coll_reserved = false) path ->
    add_at d path i = (d', Ok tt) ->
    exists c', coll_set c path (EItem n t) = Ok c' /\ from_pd view name (PDict d') = Ok c'.
  Proof.
    induction path as [|x rest IH]; intros name d c i n t d' H Hwf Hi Hv Hne Hp E; [congruence|].
    inversion Hp as [|? ? Hx Hp']; subst. rewrite from_dict_entries in H.
    destruct (dict_entries d) as [es|] eqn:Ed; [|discriminate]. injection H as <-.
    apply pd_wf_dict in Hwf as [Hdwf Hsub]. rewrite coll_set_eq. unfold coll_getattr. rewrite Hx. cbn [coll_entries coll_name].
    destruct rest as [|y rest].
    - rewrite add_at_one in E. destruct (dget x d) as [[m|s|s|l|l]|] eqn:G; try discriminate; injection E as <-.
      + destruct (dict_entries_set d es x (PList l) Ed Hdwf G eq_refl) as (c & Hc & Hl & Hset). rewrite Hl.
        cbn [coll_set]. eexists. split; [reflexivity|]. rewrite from_dict_entries.
        rewrite (Hset (PList (l ++ [i])) (coll_append c (EItem n t)) eq_refl (list_append x l c i n t Hc Hi Hv)). reflexivity.
      + destruct (dict_entries_new d es x Ed G) as [Hl Hset]. rewrite Hl. cbn [coll_set]. eexists. split; [reflexivity|].
        rewrite from_dict_entries.
        rewrite (Hset (PList [i]) (coll_append (Coll x []) (EItem n t)) eq_refl (list_append x [] (Coll x []) i n t eq_refl Hi Hv)). reflexivity.
    - rewrite add_at_more in E. destruct (dget x d) as [[m|s|s|l|f]|] eqn:G; try discriminate.
      + destruct (add_at f (y :: rest) i) as [f' r] eqn:Ea. injection E as <- ->.
        destruct (dict_entries_set d es x (PDict f) Ed Hdwf G eq_refl) as (c & Hc & Hl & Hset). rewrite Hl.
        destruct (IH x f c i n t f' Hc (dget_Forall _ _ _ _ Hsub G) Hi Hv ltac:(discriminate) Hp' Ea) as (c' & H1 & H2).
        rewrite H1. eexists. split; [reflexivity|]. rewrite from_dict_entries. now rewrite (Hset (PDict f') c' eq_refl H2).
      + destruct (coll_set_new (y :: rest) n t i Hi Hv ltac:(discriminate) Hp' x) as (f' & c' & H1 & H2 & H3).
        rewrite H1 in E. injection E as <-.
        destruct (dict_entries_new d es x Ed G) as [Hl Hset]. rewrite Hl, H2. eexists. split; [reflexivity|].
        rewrite from_dict_entries. now rewrite (Hset (PDict f') c' eq_refl H3).
  Qed.

  (** a later item hides an earlier one of the same name *)
  Lemma later_item_hides name l i n t c : from_pd view name (PList (l ++ [i])) = Ok c -> is_dict i = false -> view i = Ok (n, t) ->
    mem n coll_reserved = false -> coll_get c [n] = Ok (FThing t).
  Proof.
    intros H Hi Hv Hr.
    assert (exists c0, from_pd view name (PList l) = Ok c0) as (c0 & H0).
    { apply (proj1 (builds_all (PList l))). assert (HB : Forall viewable (viewed (PList (l ++ [i])))).
      { apply (proj1 (builds_all (PList (l ++ [i]))) name). now exists c. }
      assert (E : viewed (PList (l ++ [i])) = viewed (PList l) ++ viewed (PList [i])) by (cbn [viewed]; apply flat_map_app).
      rewrite E in HB. now apply Forall_app in HB as [HB _]. }
    rewrite (list_append name l c0 i n t H0 Hi Hv) in H. injection H as <-. cbn [coll_get]. unfold coll_getattr. rewrite Hr.
    unfold coll_append. cbn [coll_entries].
    assert (E : forall es, last_entry n (es ++ [EItem n t]) = Some (EItem n t)).
    { induction es as [|e es IH]; cbn [app last_entry entry_name]; [now rewrite eqb_refl_s|]. now rewrite IH. }
    now rewrite E.
  Qed.

  (** values that are neither dicts nor lists play no role *)
  Lemma from_dict_drops name d :
    from_pd view name (PDict d) = from_pd view name (PDict (filter (fun kv => is_section (snd kv)) d)).
  Proof.
    rewrite !from_dict_entries. enough (dict_entries d = dict_entries (filter (fun kv => is_section (snd kv)) d)) as -> by reflexivity.
    induction d as [|[k x] d IH]; [reflexivity|]. cbn [filter snd dict_entries].
    destruct (is_section x) eqn:E; [|exact IH]. cbn [dict_entries]. now rewrite E, <- IH.
  Qed.
End Tree.
