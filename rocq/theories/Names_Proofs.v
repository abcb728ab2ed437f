(** Proofs for C68 *)
From Verif Require Import SectionPath_Proofs Names_Model Names_Spec.
Local Open Scope string_scope.
Local Open Scope list_scope.

Lemma obj_in_module_iff o m : obj_in_module o m = true <-> in_mod o m.
Proof.
  unfold in_mod. induction m as [|[k [v|]] m IH]; cbn [obj_in_module].
  - split; [discriminate|intros (k & [])].
  - destruct (Nat.eqb o v) eqn:E.
    + apply Nat.eqb_eq in E. subst v. split; [intros _; exists k; now left|reflexivity].
    + apply Nat.eqb_neq in E. rewrite IH. split; intros (k' & H); exists k'; [now right|]. destruct H as [[= -> ->]|H]; [congruence|exact H].
  - rewrite IH. split; intros (k' & H); exists k'; [now right|]. destruct H as [[=]|H]; exact H.
Qed.
Lemma obj_not_in o m : obj_in_module o m = false <-> ~ in_mod o m.
Proof. rewrite <- obj_in_module_iff. destruct (obj_in_module o m); split; congruence. Qed.

Lemma dget_here (before : pmods) n m after : dwf (before ++ (n, m) :: after) -> dget n (before ++ (n, m) :: after) = Some m.
Proof. intros W. apply In_dget; [exact W|]. apply in_app_iff. right. now left. Qed.

Lemma find_module_iff mods o n : dwf mods -> find_module mods o = Ok n <-> first_with mods o n.
Proof.
  intros W. unfold find_module. rewrite get_module_iff. split.
  - intros (b & a & E & H & S & F). unfold dkeys in E. apply map_eq_app in E as (b' & x & -> & <- & E). apply map_eq_cons in E as ([n' m] & a' & -> & E1 & <-). cbn in E1. subst n'.
    rewrite (dget_here _ _ _ _ W) in H. exists b', m, a'. split; [reflexivity|]. split; [exact S|]. split; [now apply obj_in_module_iff|].
    intros n' m' I C X. rewrite Forall_forall in F. specialize (F n' (in_map fst _ _ I)). unfold considered in C. cbv beta in F. rewrite (In_dget n' m' (b' ++ (n, m) :: a')) in F; [|exact W|apply in_app_iff; now left].
    apply obj_in_module_iff in X. destruct F; congruence.
  - intros (b & m & a & -> & C & I & F). exists (dkeys b), (dkeys a). split; [unfold dkeys; now rewrite map_app|]. split; [rewrite (dget_here _ _ _ _ W); now apply obj_in_module_iff|]. split; [exact C|].
    apply Forall_forall. intros x Hx. unfold dkeys in Hx. apply in_map_iff in Hx as ([x' m'] & <- & Hx). cbn [fst]. destruct (should_skip_module name_skip x') eqn:S; [now left|right].
    rewrite (In_dget x' m' (b ++ (n, m) :: a)); [|exact W|apply in_app_iff; now left]. apply obj_not_in. now apply (F x').
Qed.
Lemma find_module_raise mods o e : find_module mods o = Raise e -> e = LibExn "CouldNotDetermineModuleForObjectException".
Proof.
  unfold find_module. generalize (dkeys mods) as l. induction l as [|x l IH]; cbn [get_module_imported_from]; [now intros [= <-]|].
  destruct (should_skip_module name_skip x); [exact IH|]. destruct (dget x mods) as [m|]; [|exact IH]. destruct (obj_in_module o m); [discriminate|exact IH].
Qed.
Lemma find_module_none mods o : dwf mods -> (exists e, find_module mods o = Raise e) <-> forall n m, In (n, m) mods -> considered n -> ~ in_mod o m.
Proof.
  intros W. split.
  - intros (e & E) n m I C X. assert (exists n', find_module mods o = Ok n') as (n' & E'); [|congruence].
    clear E. unfold find_module. assert (K : In n (dkeys mods)) by (apply (in_map fst _ _ I)). revert K. generalize (dkeys mods) as l. induction l as [|x l IH]; intros K; [contradiction|].
    cbn [get_module_imported_from]. destruct K as [->|K].
    + unfold considered in C. rewrite C, (In_dget n m mods W I). apply obj_in_module_iff in X. rewrite X. now exists n.
    + destruct (should_skip_module name_skip x); [auto|]. destruct (dget x mods) as [mx|]; [|auto]. destruct (obj_in_module o mx); [now exists x|auto].
  - intros H. destruct (find_module mods o) as [n|e] eqn:E; [|now exists e]. apply (find_module_iff _ _ _ W) in E as (b & m & a & -> & C & I & _). exfalso. apply (H n m); auto. apply in_app_iff. right. now left.
Qed.

Lemma keys_and_values_Ok m l : keys_and_values m = Ok l <-> m = map (fun kv => (fst kv, Some (snd kv))) l.
Proof.
  revert l. induction m as [|[k [v|]] m IH]; intros l; cbn [keys_and_values].
  - split; [now intros [= <-]|]. destruct l; [reflexivity|discriminate].
  - destruct (keys_and_values m) as [l'|e] eqn:E.
    + split; [intros [= <-]; cbn; f_equal; now apply IH|]. destruct l as [|[k' v'] l]; [discriminate|]. cbn. intros [= -> -> H]. apply IH in H. injection H as ->. reflexivity.
    + split; [discriminate|]. destruct l as [|[k' v'] l]; [discriminate|]. cbn. intros [= -> -> H]. apply IH in H. discriminate.
  - split; [discriminate|]. destruct l as [|[k' v'] l]; [discriminate|]. cbn. discriminate.
Qed.
Lemma keys_and_values_Raise m e : keys_and_values m = Raise e <-> e = AttributeError /\ exists k, In (k, None) m.
Proof.
  induction m as [|[k [v|]] m IH]; cbn [keys_and_values].
  - split; [discriminate|intros (_ & k & [])].
  - destruct (keys_and_values m) as [l'|e'].
    + split; [discriminate|]. intros (-> & k' & [[=]|H]). assert (X : Ok l' = Raise AttributeError) by (apply IH; split; [reflexivity|now exists k']). discriminate.
    + split; [intros [= ->]; destruct (proj1 IH eq_refl) as (-> & k' & H); split; [reflexivity|exists k'; now right]|]. intros (-> & k' & [[=]|H]). assert (X : Raise (A:=list (string * nat)) e' = Raise AttributeError) by (apply IH; split; [reflexivity|now exists k']). congruence.
  - split; [intros [= <-]; split; [reflexivity|exists k; now left]|]. now intros (-> & _).
Qed.
Lemma key_matching_Ok o l k : key_matching o l = Ok k <-> exists a b, l = a ++ (k, o) :: b /\ forall k', ~ In (k', o) a.
Proof.
  induction l as [|[x v] l IH]; cbn [key_matching].
  - split; [discriminate|]. intros ([|] & b & H & _); discriminate.
  - destruct (Nat.eqb o v) eqn:E.
    + apply Nat.eqb_eq in E. subst v. split.
      * intros [= ->]. exists [], l. split; [reflexivity|now intros k' []].
      * intros ([|[y w] a] & b & H & N); cbn in H; [injection H as -> _; reflexivity|]. injection H as -> <- _. exfalso. apply (N y). now left.
    + apply Nat.eqb_neq in E. rewrite IH. split.
      * intros (a & b & -> & N). exists ((x, v) :: a), b. split; [reflexivity|]. intros k' [[= -> ->]|H]; [congruence|]. now apply (N k').
      * intros ([|[y w] a] & b & H & N); cbn in H; [injection H as -> -> _; congruence|]. injection H as -> -> ->. exists a, b. split; [reflexivity|]. intros k' H. apply (N k'). now right.
Qed.
Lemma key_matching_in o l : (exists k, In (k, o) l) -> exists k, key_matching o l = Ok k.
Proof.
  intros (k & H). induction l as [|[x v] l IH]; [contradiction|]. cbn [key_matching]. destruct (Nat.eqb o v) eqn:E; [now exists x|]. apply Nat.eqb_neq in E. destruct H as [[= -> ->]|H]; [congruence|auto].
Qed.
Lemma nodup_dget {A} (m : list (string * A)) k v : NoDup (map fst m) -> In (k, v) m -> dget k m = Some v.
Proof. intros N I. now apply In_dget. Qed.
