(** Proofs about interrupted and repeated creation of projects, and about the config files of all items. *)
From Verif Require Export Project_Proofs.
From Coq Require Import Lia.
Local Open Scope string_scope.
Local Open Scope list_scope.

(** induction on collections that looks into the entries *)
Section CollInd.
  Variable Q : coll -> Prop.
  Hypothesis H : forall n l, (forall c, In (EColl c) l -> Q c) -> Q (Coll n l).
  Fixpoint coll_in_ind (c : coll) : Q c :=
    match c with
    | Coll n l => H n l ((fix go (l : list entry) : forall c, In (EColl c) l -> Q c :=
        match l with
        | [] => fun c hin => match hin with end
        | e :: rest => fun c hin =>
            match hin with
            | or_introl E => match e as e0 return e0 = EColl c -> Q c with
                             | EItem _ _ => fun E0 => False_ind _ (eq_ind (EItem _ _) (fun x => match x with EItem _ _ => True | _ => False end) I _ E0)
                             | EColl c' => fun E0 => eq_ind c' Q (coll_in_ind c') c (f_equal (fun x => match x with EColl y => y | _ => c' end) E0)
                             end E
            | or_intror Hr => go rest c Hr
            end
        end) l)
    end.
End CollInd.

Section Walk.
Variable cfg : bool -> string -> thing -> option string -> res string.
Notation run := (piter (run_act cfg)).

(* ------------------------------------------------------------------ *)
(** * Interrupted creation of a project *)

Lemma made_app l1 l2 q : made (l1 ++ l2) q = match made l1 q with Some n => Some n | None => made l2 q end.
Proof.
  induction l1 as [|[p|p s|g p n t] l1 IH]; cbn [app made]; [reflexivity| | |exact IH].
  - destruct (list_eq_dec _ _ _); [reflexivity|exact IH].
  - destruct (path_eqb p q); [reflexivity|exact IH].
Qed.
Lemma no_upd_app l1 l2 : no_upd (l1 ++ l2) -> no_upd l1 /\ no_upd l2.
Proof. intros H. split; intros g p n t Hin; apply (H g p n t); apply in_or_app; auto. Qed.

(** what is found is in its final form, but for one file *)
Lemma crash_node l f st g : wf f -> no_upd l -> In st (crash_states (run l) f) -> (forall q, g q = match f q with Some n => Some n | None => made l q end) ->
  exists p, forall q, st q = None \/ st q = g q \/ q = p /\ exists t s, st q = Some (File t) /\ g q = Some (File s) /\ begins t s.
Proof.
  intros W N H G. destruct (run_crash cfg l f st W H) as (_ & l1 & l2 & f1 & -> & R & W1 & K). apply no_upd_app in N. destruct N as [N1 N2].
  assert (F1 : forall q, f1 q = None \/ f1 q = g q). { intros q. rewrite (runs_made cfg l1 f f1 N1 R q), G, made_app. destruct (f q); [now right|]. destruct (made l1 q); [now right|now left]. }
  destruct K as [->|(a & l3 & -> & C & D)]; [exists []; intros q; destruct (F1 q); auto|]. destruct a as [p|p s|gg p n t]; cbn [during] in D.
  - destruct D as (q0 & [r ->] & A). exists []. intros q. rewrite A. destruct (f1 q) eqn:E; [right; left; destruct (F1 q); congruence|]. destruct (prefixb q q0) eqn:Ep; [|now left]. right; left.
    rewrite G, made_app. pose proof (runs_made cfg l1 f f1 N1 R q) as M. rewrite E in M. destruct (f q); [discriminate|]. destruct (made l1 q); [discriminate|]. cbn [made].
    destruct (list_eq_dec _ _ _) as [E2|E2]; [reflexivity|]. destruct E2. apply prefix_firstn. apply prefixb_spec in Ep. apply (prefix_trans q q0); [exact Ep|now exists r].
  - destruct D as (E & t & Ht & S). exists p. intros q. rewrite S. destruct (list_eq_dec string_dec q p) as [->|Hq]; [|rewrite put_neq by exact Hq; destruct (F1 q); auto].
    right; right. split; [reflexivity|]. exists t, s. rewrite put_eq. split; [reflexivity|]. split; [|exact Ht]. rewrite G, made_app. pose proof (runs_made cfg l1 f f1 N1 R p) as M. rewrite E in M. destruct (f p); [discriminate|]. destruct (made l1 p); [discriminate|].
    cbn [made]. now rewrite (proj2 (path_eqb_eq p p) eq_refl).
  - exfalso. apply (N2 gg p n t). now left.
Qed.
Lemma made_keeps l f st : wf f -> no_upd l -> In st (crash_states (run l) f) -> forall q, f q <> None -> st q = f q.
Proof.
  intros W N H q Hq. destruct (run_crash cfg l f st W H) as (_ & l1 & l2 & f1 & -> & R & W1 & K). apply no_upd_app in N. destruct N as [N1 N2].
  assert (F1 : f1 q = f q). { rewrite (runs_made cfg l1 f f1 N1 R q). destruct (f q); [reflexivity|congruence]. }
  destruct K as [->|(a & l3 & -> & C & D)]; [exact F1|]. destruct a as [p|p s|gg p n t]; cbn [during] in D.
  - destruct D as (q0 & _ & A). rewrite A, F1. destruct (f q); [reflexivity|congruence].
  - destruct D as (E & t & Ht & S). rewrite S, put_neq; [exact F1|]. intros ->. congruence.
  - exfalso. apply (N2 gg p n t). now left.
Qed.

Lemma acts_exist l f g : no_upd l -> (forall q, g q = match f q with Some n => Some n | None => made l q end) -> forall a, In a l -> g (act_path a) <> None.
Proof.
  intros N G a Ha. rewrite G. destruct (f (act_path a)) eqn:E; [discriminate|]. clear G E. induction l as [|b l IH]; [destruct Ha|]. assert (N' : no_upd l) by (intros g' p n t H; apply (N g' p n t); now right). destruct Ha as [->|Ha].
  - destruct a as [p|p s|g' p n t]; cbn [made act_path]; [|now rewrite (proj2 (path_eqb_eq p p) eq_refl)|exfalso; apply (N g' p n t); now left]. destruct (list_eq_dec _ _ _) as [E|E]; [discriminate|]. destruct E. apply firstn_all.
  - destruct b as [p|p s|g' p n t]; cbn [made]; [destruct (list_eq_dec _ _ _); [discriminate|]; now apply IH|destruct (path_eqb p _); [discriminate|now apply IH]|now apply IH].
Qed.

Lemma project_again folder logs names f l st : wf f -> create_project folder logs names f = (l, Ok tt) -> In st (crash_states (create_project folder logs names) f) ->
  exists l', create_project folder logs names st = (l', Ok tt) /\
    exists p, forall q, final st l' q = final f l q \/ q = p /\ exists t s, st q = Some (File t) /\ final st l' q = Some (File t) /\ final f l q = Some (File s) /\ begins t s.
Proof.
  intros W E H. unfold crash_states in H. rewrite (create_project_acts cfg) in *. set (acts := project_acts folder logs names) in *. assert (N : no_upd acts) by apply project_no_upd.
  destruct (run_ok cfg acts f l W E) as [R Wg]. pose proof (runs_made cfg acts f _ N R) as G. set (g := final f l) in *.
  destruct (crash_node acts f st g W N H G) as [p Hp]. destruct (run_crash cfg acts f st W H) as (Wst & _).
  assert (FG : forall q s, st q = Some (File s) -> exists s', g q = Some (File s')). { intros q s Hs. destruct (Hp q) as [E1|[E1|(_ & t & s' & _ & E2 & _)]]; [congruence|rewrite <- E1; eauto|eauto]. }
  assert (RE : forall q, g q <> None -> reachable st q). { intros q Hq q' r -> Hr s Hs. destruct (FG q' s Hs) as [s' Hs']. rewrite (wf_up g q' r Wg Hq Hr) in Hs'. discriminate. }
  assert (OK : snd (create_project folder logs names st) = Ok tt).
  { apply (create_project_ok cfg folder logs names st Wst). split; [apply RE, (acts_exist acts f g N G (AMk (folder ++ ["defaults"]))); now left|]. destruct logs as [lp|]; [|exact I]. apply RE. apply (acts_exist acts f g N G (AMk lp)). right. now left. }
  rewrite (create_project_acts cfg) in OK. fold acts in OK. destruct (run acts st) as [l' r'] eqn:E'. cbn in OK. subst r'. exists l'. split; [reflexivity|]. exists p. intros q.
  destruct (run_ok cfg acts st l' Wst E') as [R' _]. rewrite (runs_made cfg acts st _ N R' q). destruct (Hp q) as [E1|[E1|(-> & t & s & E1 & E2 & Hb)]].
  - left. rewrite E1. rewrite G. destruct (f q) eqn:Eq; [|reflexivity]. exfalso. rewrite (made_keeps acts f st W N H q) in E1; congruence.
  - rewrite E1. destruct (g q) eqn:Eg; [now left|]. left. rewrite G in Eg. destruct (f q); [discriminate|exact Eg].
  - right. rewrite E1. split; [reflexivity|]. exists t, s. auto.
Qed.

Lemma need_after folder logs names d f l : wf f -> create_project folder logs names f = (l, Ok tt) ->
  need_to_create (final f l) folder d logs names = negb (exists_ (final f l) (folder ++ [d])).
Proof.
  intros W E. rewrite (create_project_acts cfg) in E. set (acts := project_acts folder logs names) in *. assert (N : no_upd acts) by apply project_no_upd. destruct (run_ok cfg acts f l W E) as [R Wg]. pose proof (runs_made cfg acts f _ N R) as G. set (g := final f l) in *.
  pose proof (acts_exist acts f g N G) as X. assert (B : forall p, g p <> None -> negb (exists_ g p) = false) by (intros p Hp; unfold exists_; destruct (g p); [reflexivity|congruence]).
  unfold need_to_create. cbn [existsb]. rewrite (B folder), (B (folder ++ ["pipeline_dict.py"])).
  - cbn [orb]. rewrite orb_false_r. destruct (negb (exists_ g (folder ++ [d]))); [reflexivity|]. cbn [orb].
    assert (NX : existsb (fun n => negb (exists_ g (dict_file folder n))) names = false).
    { apply not_true_is_false. intros H. apply existsb_exists in H. destruct H as (n & Hn & H). rewrite (B (dict_file folder n)) in H; [discriminate|]. apply (X (ANew (dict_file folder n) class_text)). right. apply in_or_app. right. right. apply in_map_iff. eauto. }
    rewrite NX. destruct logs as [lp|]; [|reflexivity]. rewrite (B lp); [reflexivity|]. apply (X (AMk lp)). right. now left.
  - apply (X (ANew (folder ++ ["pipeline_dict.py"]) pipeline_text)). right. apply in_or_app. right. now left.
  - rewrite (proj2 Wg folder "defaults"); [discriminate|]. apply (X (AMk (folder ++ ["defaults"]))). now left.
Qed.

(* ------------------------------------------------------------------ *)
(** * Which actions there are *)

Definition entry_acts (g : bool) (base : path) (e : entry) : list act :=
  match e with EItem n t => [AUpd g (base ++ [(n ++ ".py")%string]) n t] | EColl c => coll_acts g (base ++ [coll_name c]) c end.
Lemma coll_acts_eq g base c : coll_acts g base c = AMk base :: (if g then [ANew (base ++ ["section.py"]) newline] else []) ++ flat_map (entry_acts g base) (coll_entries c).
Proof. destruct c as [n l]. cbn [coll_acts coll_entries]. do 2 f_equal. induction l as [|[x t|c'] l IH]; cbn [flat_map entry_acts]; [reflexivity|cbn; now rewrite IH|now rewrite IH]. Qed.

Lemma acts_items g c : forall base g' p n t, In (AUpd g' p n t) (coll_acts g base c) <-> g' = g /\ item_at base c p n t.
Proof.
  induction c as [cn l IH] using coll_in_ind. intros base g' p n t. rewrite coll_acts_eq. cbn [coll_entries]. split.
  - intros [H|H]; [discriminate|]. apply in_app_or in H. destruct H as [H|H]; [destruct g; [destruct H as [H|[]]; discriminate|destruct H]|]. apply in_flat_map in H. destruct H as ([x tx|c'] & He & H); cbn [entry_acts] in H.
    + destruct H as [H|[]]. injection H as <- <- <- <-. split; [reflexivity|]. now apply item_here.
    + apply (IH c' He) in H. destruct H as [-> H]. split; [reflexivity|]. now apply item_below with c'.
  - intros [-> H]. right. apply in_or_app. right. apply in_flat_map. inversion H as [? ? ? Hin|? c' ? ? ? Hin Hat]; subst; cbn [coll_entries] in Hin.
    + exists (EItem n t). split; [exact Hin|now left].
    + exists (EColl c'). split; [exact Hin|]. cbn [entry_acts]. apply (IH c' Hin). auto.
Qed.
Lemma acts_sections g c : forall base p, In (AMk p) (coll_acts g base c) <-> section_at base c p.
Proof.
  induction c as [cn l IH] using coll_in_ind. intros base p. rewrite coll_acts_eq. cbn [coll_entries]. split.
  - intros [H|H]; [injection H as <-; apply section_here|]. apply in_app_or in H. destruct H as [H|H]; [destruct g; [destruct H as [H|[]]; discriminate|destruct H]|]. apply in_flat_map in H. destruct H as ([x tx|c'] & He & H); cbn [entry_acts] in H.
    + destruct H as [H|[]]. discriminate.
    + apply (IH c' He) in H. now apply section_below with c'.
  - intros H. inversion H as [|? c' ? Hin Hat]; subst; [now left|]. right. apply in_or_app. right. apply in_flat_map. exists (EColl c'). split; [exact Hin|]. cbn [entry_acts]. now apply (IH c' Hin).
Qed.
Lemma acts_new g c : forall base p s, In (ANew p s) (coll_acts g base c) <-> g = true /\ s = newline /\ exists b, section_at base c b /\ p = b ++ ["section.py"].
Proof.
  induction c as [cn l IH] using coll_in_ind. intros base p s. rewrite coll_acts_eq. cbn [coll_entries]. split.
  - intros [H|H]; [discriminate|]. apply in_app_or in H. destruct H as [H|H].
    + destruct g; [|destruct H]. destruct H as [H|[]]. injection H as <- <-. split; [reflexivity|]. split; [reflexivity|]. exists base. split; [apply section_here|reflexivity].
    + apply in_flat_map in H. destruct H as ([x tx|c'] & He & H); cbn [entry_acts] in H; [destruct H as [H|[]]; discriminate|]. apply (IH c' He) in H. destruct H as (-> & -> & b & H & ->).
      split; [reflexivity|]. split; [reflexivity|]. exists b. split; [now apply section_below with c'|reflexivity].
  - intros (-> & -> & b & H & ->). right. apply in_or_app. inversion H as [|? c' ? Hin Hat]; subst; [left; now left|]. right. apply in_flat_map. exists (EColl c'). split; [exact Hin|]. cbn [entry_acts]. apply (IH c' Hin). eauto.
Qed.

Lemma all_items defaults i g p n t : In (AUpd g p n t) (all_acts defaults i) <-> file_of defaults i g p n t.
Proof.
  unfold all_acts. rewrite in_app_iff, in_flat_map. split.
  - intros [(r & Hr & H)|H]; apply acts_items in H; destruct H as [-> H]; [now apply file_specific with r|now apply file_general].
  - intros [r p' n' t' Hr H|p' n' t' H]; [left; exists r; split; [exact Hr|]|right]; apply acts_items; auto.
Qed.
Lemma all_sections defaults i p : In (AMk p) (all_acts defaults i) <-> exists g, folder_of defaults i g p.
Proof.
  unfold all_acts. rewrite in_app_iff, in_flat_map. split.
  - intros [(r & Hr & H)|H]; apply acts_sections in H; [exists false; now apply folder_specific with r|exists true; now apply folder_general].
  - intros [g [r p' Hr H|p' H]]; [left; exists r; split; [exact Hr|]|right]; now apply acts_sections.
Qed.
Lemma all_new defaults i p s : In (ANew p s) (all_acts defaults i) <-> s = newline /\ exists b, folder_of defaults i true b /\ p = b ++ ["section.py"].
Proof.
  unfold all_acts. rewrite in_app_iff, in_flat_map. split.
  - intros [(r & Hr & H)|H]; apply acts_new in H; destruct H as (? & -> & b & H & ->); [discriminate|]. split; [reflexivity|]. exists b. split; [now apply folder_general|reflexivity].
  - intros (-> & b & H & ->). right. apply acts_new. split; [reflexivity|]. split; [reflexivity|]. exists b. split; [|reflexivity]. now inversion H.
Qed.

(* ------------------------------------------------------------------ *)
(** * Tidy trees *)

Lemma NoDup_app2 {A} (l1 l2 : list A) : NoDup l1 -> NoDup l2 -> (forall p, In p l1 -> In p l2 -> False) -> NoDup (l1 ++ l2).
Proof.
  induction 1 as [|p w Hp N IH]; intros H2 D; [exact H2|]. cbn. constructor; [|apply IH; [exact H2|intros q H3; apply D; now right]].
  intros H. apply in_app_or in H. destruct H as [H|H]; [contradiction|]. apply (D p); [now left|exact H].
Qed.
Lemma written_app l1 l2 : written (l1 ++ l2) = written l1 ++ written l2.
Proof. apply flat_map_app. Qed.
Lemma written_in l p : In p (written l) <-> exists a, In a l /\ p = act_path a /\ forall b, a <> AMk b.
Proof.
  unfold written. rewrite in_flat_map. split.
  - intros (a & Ha & H). exists a. split; [exact Ha|]. destruct a; cbn in H; [destruct H|destruct H as [<-|[]]|destruct H as [<-|[]]]; (split; [reflexivity|discriminate]).
  - intros (a & Ha & -> & N). exists a. split; [exact Ha|]. destruct a; [exfalso; now apply (N p)|now left|now left].
Qed.
Definition separate (l : list act) : Prop := NoDup (written l) /\ forall b p, In (AMk b) l -> In p (written l) -> ~ prefix p b.

Lemma act_below g c : forall base a, In a (coll_acts g base c) ->
  a = AMk base \/ exists x r, act_path a = base ++ x :: r /\ (x = "section.py" /\ r = [] /\ g = true /\ (exists s, a = ANew (act_path a) s) \/ exists e, In e (coll_entries c) /\ x = entry_file e /\ In a (entry_acts g base e)).
Proof.
  induction c as [cn l IH] using coll_in_ind. intros base a. rewrite coll_acts_eq. cbn [coll_entries]. intros [<-|H]; [now left|]. right. apply in_app_or in H. destruct H as [H|H].
  - destruct g; [|destruct H]. destruct H as [<-|[]]. exists "section.py", []. split; [reflexivity|]. left. cbn. eauto.
  - apply in_flat_map in H. destruct H as (e & He & H). exists (entry_file e). destruct e as [n t|c'].
    + destruct H as [<-|[]]. exists []. split; [reflexivity|]. right. exists (EItem n t). split; [exact He|]. split; [reflexivity|now left].
    + pose proof H as H0. cbn [entry_acts] in H. apply (IH c' He) in H. destruct H as [->|(x & r & Hp & _)].
      * exists []. split; [reflexivity|]. right. exists (EColl c'). auto.
      * exists (x :: r). split; [rewrite Hp; now rewrite <- app_assoc|]. right. exists (EColl c'). auto.
Qed.
Lemma path_next {A} (base : list A) x r y r' : base ++ x :: r = base ++ y :: r' -> x = y.
Proof. intros E. apply app_inv_head in E. now injection E. Qed.
Lemma path_longer {A} (base : list A) x r : ~ (exists u, base = base ++ x :: r ++ u).
Proof. intros [u E]. rewrite <- (app_nil_r base) in E at 1. apply app_inv_head in E. discriminate. Qed.

Lemma entry_path g base e a : In a (entry_acts g base e) -> exists r, act_path a = base ++ entry_file e :: r.
Proof.
  destruct e as [n t|c']; cbn [entry_acts].
  - intros [<-|[]]. now exists [].
  - intros H. apply act_below in H. destruct H as [->|(x & r & Hp & _)]; [now exists []|]. exists (x :: r). rewrite Hp. now rewrite <- app_assoc.
Qed.

Lemma tidy_separate g c : tidy g c -> forall base, separate (coll_acts g base c).
Proof.
  induction c as [cn l IH] using coll_in_ind. intros T base. inversion T as [? ? N Hs Hc]; subst.
  assert (IH' : forall c', In (EColl c') l -> forall b, separate (coll_acts g b c')) by (intros c' H; now apply IH, Hc). clear IH T Hc.
  rewrite coll_acts_eq. cbn [coll_entries].
  (* entries *)
  assert (E : separate (flat_map (entry_acts g base) l)).
  { clear Hs. induction l as [|e l IHl]; cbn [flat_map]; [split; [constructor|intros b p []]|]. inversion N as [|? ? N1 N2]; subst.
    destruct (IHl N2) as [S1 S2]; [intros c' H; apply IH'; now right|].
    assert (He : separate (entry_acts g base e)). { destruct e as [n t|c']; [split; [repeat constructor; intros []|intros b p [H|[]]; discriminate]|]. cbn [entry_acts]. apply IH'. now left. }
    destruct He as [E1 E2].
    assert (X : forall a a' u, In a (entry_acts g base e) -> In a' (flat_map (entry_acts g base) l) -> act_path a = act_path a' ++ u \/ act_path a' = act_path a ++ u -> False).
    { intros a a' u Ha Ha' H. apply entry_path in Ha. destruct Ha as [r Hr]. apply in_flat_map in Ha'. destruct Ha' as (e' & He' & Ha'). apply entry_path in Ha'. destruct Ha' as [r' Hr']. rewrite Hr, Hr' in H. apply N1. apply in_map_iff. exists e'. split; [|exact He'].
      destruct H as [H|H]; rewrite <- app_assoc in H; cbn [app] in H; apply path_next in H; congruence. }
    split.
    - rewrite written_app. assert (D : forall p, In p (written (entry_acts g base e)) -> In p (written (flat_map (entry_acts g base) l)) -> False).
      { intros p H1 H2. apply written_in in H1. apply written_in in H2. destruct H1 as (a & Ha & -> & _), H2 as (a' & Ha' & E & _). apply (X a a' []); auto. left. now rewrite app_nil_r. }
      now apply NoDup_app2.
    - intros b p Hb Hp [u Hu]. rewrite written_app in Hp. apply in_app_or in Hb. apply in_app_or in Hp. destruct Hb as [Hb|Hb], Hp as [Hp|Hp].
      + apply (E2 b p Hb Hp). now exists u.
      + apply written_in in Hp. destruct Hp as (a' & Ha' & -> & _). apply (X (AMk b) a' u Hb Ha'). now left.
      + apply written_in in Hp. destruct Hp as (a' & Ha' & -> & _). apply (X a' (AMk b) u Ha' Hb). now right.
      + apply (S2 b p Hb Hp). now exists u. }
  assert (G : forall a, In a (flat_map (entry_acts g base) l) -> exists x r, act_path a = base ++ x :: r /\ In x (map entry_file l)).
  { intros a Ha. apply in_flat_map in Ha. destruct Ha as (e & He & Ha). apply entry_path in Ha. destruct Ha as [r Hr]. exists (entry_file e), r. split; [exact Hr|]. now apply in_map. }
  destruct E as [E1 E2]. split.
  - change (NoDup (written ((if g then [ANew (base ++ ["section.py"]) newline] else []) ++ flat_map (entry_acts g base) l))). rewrite written_app. destruct g; [|exact E1]. cbn. constructor; [|exact E1]. intros H. apply written_in in H. destruct H as (a & Ha & Hp & _).
    destruct (G a Ha) as (x & r & Hr & Hx). rewrite Hr in Hp. apply path_next in Hp. subst x. now apply (Hs eq_refl).
  - intros b p Hb Hp [u Hu]. change (In p (written ((if g then [ANew (base ++ ["section.py"]) newline] else []) ++ flat_map (entry_acts g base) l))) in Hp. rewrite written_app in Hp. destruct Hb as [Hb|Hb].
    + injection Hb as <-. apply in_app_or in Hp. destruct Hp as [Hp|Hp].
      * destruct g; [|destruct Hp]. destruct Hp as [<-|[]]. rewrite <- app_assoc in Hu. apply (path_longer base "section.py" []). now exists u.
      * apply written_in in Hp. destruct Hp as (a & Ha & -> & _). destruct (G a Ha) as (x & r & Hr & Hx). rewrite Hr, <- app_assoc in Hu. apply (path_longer base x r). now exists u.
    + apply in_app_or in Hb. destruct Hb as [Hb|Hb]; [destruct g; [destruct Hb as [Hb|[]]; discriminate|destruct Hb]|]. apply in_app_or in Hp. destruct Hp as [Hp|Hp].
      * destruct g; [|destruct Hp]. destruct Hp as [<-|[]]. destruct (G _ Hb) as (x & r & Hr & Hx). cbn [act_path] in Hr. rewrite Hr in Hu. rewrite <- app_assoc in Hu. cbn in Hu. apply path_next in Hu. subst x. now apply (Hs eq_refl).
      * apply (E2 b p Hb Hp). now exists u.
Qed.

Lemma tidy_all defaults i : tidy_items i -> separate (all_acts defaults i).
Proof.
  intros (N & Hr & Tg). unfold all_acts. destruct (tidy_separate true (i_general i) Tg defaults) as [G1 G2].
  assert (Root : forall r a, In a (coll_acts false (defaults ++ [reg_name r]) (reg_coll r)) -> exists u, act_path a = defaults ++ reg_name r :: u).
  { intros r a Ha. apply act_below in Ha. destruct Ha as [->|(x & u & Hu & _)]; [now exists []|]. exists (x :: u). rewrite Hu. now rewrite <- app_assoc. }
  assert (S : separate (flat_map (fun r => coll_acts false (defaults ++ [reg_name r]) (reg_coll r)) (i_specific i))).
  { clear G1 G2 Tg. induction (i_specific i) as [|r l IH]; cbn [flat_map]; [split; [constructor|intros b p []]|]. inversion N as [|? ? N1 N2]; subst. destruct (IH N2) as [S1 S2]; [intros r' H; apply Hr; now right|]. clear IH.
    destruct (tidy_separate false (reg_coll r) (proj1 (Hr r (or_introl eq_refl))) (defaults ++ [reg_name r])) as [E1 E2].
    set (F := fun r => coll_acts false (defaults ++ [reg_name r]) (reg_coll r)) in *.
    assert (X : forall a a' u, In a (F r) -> In a' (flat_map F l) -> act_path a = act_path a' ++ u \/ act_path a' = act_path a ++ u -> False).
    { intros a a' u Ha Ha' H. apply Root in Ha. destruct Ha as [v Hv]. apply in_flat_map in Ha'. destruct Ha' as (r' & He' & Ha'). apply Root in Ha'. destruct Ha' as [v' Hv']. rewrite Hv, Hv' in H. apply N1. apply in_map_iff. exists r'. split; [|exact He'].
      destruct H as [H|H]; rewrite <- app_assoc in H; cbn [app] in H; apply path_next in H; congruence. }
    split.
    - rewrite written_app. assert (D : forall p, In p (written (F r)) -> In p (written (flat_map F l)) -> False).
      { intros p H1 H2. apply written_in in H1. apply written_in in H2. destruct H1 as (a & Ha & -> & _), H2 as (a' & Ha' & E & _). apply (X a a' []); auto. left. now rewrite app_nil_r. }
      now apply NoDup_app2.
    - intros b p Hb Hp [u Hu]. rewrite written_app in Hp. apply in_app_or in Hb. apply in_app_or in Hp. destruct Hb as [Hb|Hb], Hp as [Hp|Hp].
      + apply (E2 b p Hb Hp). now exists u.
      + apply written_in in Hp. destruct Hp as (a' & Ha' & -> & _). apply (X (AMk b) a' u Hb Ha'). now left.
      + apply written_in in Hp. destruct Hp as (a' & Ha' & -> & _). apply (X a' (AMk b) u Ha' Hb). now right.
      + apply (S2 b p Hb Hp). now exists u. }
  destruct S as [S1 S2]. set (F := fun r => coll_acts false (defaults ++ [reg_name r]) (reg_coll r)) in *.
  assert (X : forall a a' u, In a (flat_map F (i_specific i)) -> In a' (coll_acts true defaults (i_general i)) -> a' <> AMk defaults -> act_path a = act_path a' ++ u \/ act_path a' = act_path a ++ u -> False).
  { intros a a' u Ha Ha' Hne H. apply in_flat_map in Ha. destruct Ha as (r & Hin & Ha). apply Root in Ha. destruct Ha as [v Hv]. destruct (Hr r Hin) as (_ & R1 & R2). apply act_below in Ha'. destruct Ha' as [->|(x & v' & Hv' & K)]; [congruence|]. rewrite Hv, Hv' in H.
    assert (Ex : x = reg_name r) by (destruct H as [H|H]; rewrite <- app_assoc in H; cbn [app] in H; apply path_next in H; congruence). destruct K as [(-> & _)|(e & He & -> & _)]; [congruence|]. apply R2. rewrite <- Ex. now apply in_map. }
  split.
  - rewrite written_app. assert (D : forall p, In p (written (flat_map F (i_specific i))) -> In p (written (coll_acts true defaults (i_general i))) -> False).
    { intros p H1 H2. apply written_in in H1. apply written_in in H2. destruct H1 as (a & Ha & -> & _), H2 as (a' & Ha' & E & NA). apply (X a a' []); auto. left. now rewrite app_nil_r. }
    now apply NoDup_app2.
  - intros b p Hb Hp [u Hu]. rewrite written_app in Hp. apply in_app_or in Hb. apply in_app_or in Hp. destruct Hb as [Hb|Hb], Hp as [Hp|Hp].
    + apply (S2 b p Hb Hp). now exists u.
    + apply written_in in Hp. destruct Hp as (a' & Ha' & -> & NA). apply (X (AMk b) a' u Hb Ha'); [apply NA|now left].
    + destruct (list_eq_dec string_dec b defaults) as [->|Hne].
      * apply written_in in Hp. destruct Hp as (a' & Ha' & -> & _). apply in_flat_map in Ha'. destruct Ha' as (r & _ & Ha'). apply Root in Ha'. destruct Ha' as [v Hv]. rewrite Hv, <- app_assoc in Hu. apply (path_longer defaults (reg_name r) v). now exists u.
      * apply written_in in Hp. destruct Hp as (a' & Ha' & -> & _). apply (X a' (AMk b) u Ha' Hb); [congruence|now right].
    + apply (G2 b p Hb Hp). now exists u.
Qed.

(* ------------------------------------------------------------------ *)
(** * What happens to the files *)

Definition untouched (l : list act) (q : path) : Prop := forall a, In a l -> ~ touches a q.
Lemma done_untouched f a st q : done cfg f a st -> ~ touches a q -> st q = f q.
Proof.
  destruct a as [p|p s|g p n t]; cbn [done touches]; intros D T.
  - rewrite D. destruct (f q); [reflexivity|]. destruct (prefixb q p) eqn:E; [apply prefixb_spec in E; contradiction|reflexivity].
  - rewrite D. destruct (f p); [reflexivity|now apply put_neq].
  - destruct D as (s & _ & D). rewrite D. now apply put_neq.
Qed.
Lemma during_untouched f a st q : during cfg f a st -> ~ touches a q -> st q = f q.
Proof.
  destruct a as [p|p s|g p n t]; cbn [during touches]; intros D T.
  - destruct D as (q0 & P0 & A). rewrite A. destruct (f q); [reflexivity|]. destruct (prefixb q q0) eqn:E; [apply prefixb_spec in E; exfalso; apply T; now apply (prefix_trans q q0)|reflexivity].
  - destruct D as (_ & u & _ & D). rewrite D. now apply put_neq.
  - destruct D as (s & u & _ & _ & D). rewrite D. now apply put_neq.
Qed.
Lemma runs_untouched f l g q : runs cfg f l g -> untouched l q -> g q = f q.
Proof.
  induction 1 as [f|f a f1 l g C D R IH]; intros T; [reflexivity|]. rewrite IH; [|intros b Hb; apply T; now right]. apply (done_untouched f a f1 q D). apply T. now left.
Qed.
Lemma crash_untouched f l st q : wf f -> In st (crash_states (run l) f) -> untouched l q -> st q = f q.
Proof.
  intros W H T. destruct (run_crash cfg l f st W H) as (_ & l1 & l2 & f1 & -> & R & _ & K).
  assert (E : f1 q = f q) by (apply (runs_untouched f l1 f1 q R); intros a Ha; apply T; apply in_or_app; now left).
  destruct K as [->|(a & l3 & -> & _ & D)]; [exact E|]. rewrite <- E. apply (during_untouched f1 a st q D). apply T. apply in_or_app. right. now left.
Qed.

(** nothing is removed; folders stay folders and files files *)
Definition kept (f g : fs) : Prop := forall q, (f q = Some Dir -> g q = Some Dir) /\ (forall s, f q = Some (File s) -> exists s', g q = Some (File s')).
Lemma kept_refl f : kept f f.
Proof. intros q. split; eauto. Qed.
Lemma kept_trans f g h : kept f g -> kept g h -> kept f h.
Proof. intros A B q. split; [intros E; now apply B, A|]. intros s E. destruct (proj2 (A q) s E) as [s' E']. now apply (proj2 (B q) s'). Qed.
Lemma put_kept f p s g : f p <> Some Dir -> same g (put p (File s) f) -> kept f g.
Proof.
  intros D S q. rewrite S. destruct (list_eq_dec string_dec q p) as [->|Hq]; [rewrite put_eq; split; [congruence|eauto]|rewrite put_neq by exact Hq; split; eauto].
Qed.
Lemma adds_kept f p g : adds f p g -> kept f g.
Proof. intros A q. split; [intros E; now rewrite A, E|]. intros s E. exists s. now rewrite A, E. Qed.
Lemma done_kept f a g : can cfg f a -> done cfg f a g -> kept f g.
Proof.
  destruct a as [p|p s|gg p n t]; cbn [can done]; intros C D; [now apply adds_kept with p| |].
  - destruct (f p) eqn:E; [intros q; rewrite D; split; eauto|]. apply (put_kept f p s); [congruence|exact D].
  - destruct D as (s & _ & D). apply (put_kept f p s); [apply C|exact D].
Qed.
Lemma during_kept f a g : can cfg f a -> during cfg f a g -> kept f g.
Proof.
  destruct a as [p|p s|gg p n t]; cbn [can during]; intros C D; [destruct D as (q & _ & A); now apply adds_kept with q| |].
  - destruct D as (E & u & _ & D). apply (put_kept f p u); [congruence|exact D].
  - destruct D as (s & u & _ & _ & D). apply (put_kept f p u); [apply C|exact D].
Qed.
Lemma runs_kept f l g : runs cfg f l g -> kept f g.
Proof. induction 1 as [f|f a f1 l g C D R IH]; [apply kept_refl|]. apply (kept_trans f f1); [now apply done_kept with a|exact IH]. Qed.
Lemma crash_kept f l st : wf f -> In st (crash_states (run l) f) -> kept f st.
Proof.
  intros W H. destruct (run_crash cfg l f st W H) as (_ & l1 & l2 & f1 & -> & R & _ & K). apply runs_kept in R. destruct K as [->|(a & l3 & -> & C & D)]; [exact R|]. apply (kept_trans f f1); [exact R|now apply during_kept with a].
Qed.

(** files that are there and belong to no item are not changed *)
Lemma done_file f a g q s : done cfg f a g -> (forall gg n t, a <> AUpd gg q n t) -> f q = Some (File s) -> g q = Some (File s).
Proof.
  destruct a as [p|p s'|gg p n t]; cbn [done]; intros D N E.
  - now rewrite D, E.
  - rewrite D. destruct (f p) eqn:Ep; [exact E|]. rewrite put_neq; [exact E|congruence].
  - destruct D as (s' & _ & D). rewrite D, put_neq; [exact E|]. intros ->. now apply (N gg n t).
Qed.
Lemma during_file f a g q s : during cfg f a g -> (forall gg n t, a <> AUpd gg q n t) -> f q = Some (File s) -> g q = Some (File s).
Proof.
  destruct a as [p|p s'|gg p n t]; cbn [during]; intros D N E.
  - destruct D as (q0 & _ & A). now rewrite A, E.
  - destruct D as (Ep & u & _ & D). rewrite D, put_neq; [exact E|congruence].
  - destruct D as (s' & u & _ & _ & D). rewrite D, put_neq; [exact E|]. intros ->. now apply (N gg n t).
Qed.
Lemma runs_file f l g q s : runs cfg f l g -> (forall gg n t, ~ In (AUpd gg q n t) l) -> f q = Some (File s) -> g q = Some (File s).
Proof.
  induction 1 as [f|f a f1 l g C D R IH]; intros N E; [exact E|]. apply IH; [intros gg n t H; apply (N gg n t); now right|]. apply (done_file f a f1 q s D); [|exact E]. intros gg n t ->. apply (N gg n t). now left.
Qed.
Lemma crash_file f l st q s : wf f -> In st (crash_states (run l) f) -> (forall gg n t, ~ In (AUpd gg q n t) l) -> f q = Some (File s) -> st q = Some (File s).
Proof.
  intros W H N E. destruct (run_crash cfg l f st W H) as (_ & l1 & l2 & f1 & -> & R & _ & K).
  assert (E1 : f1 q = Some (File s)) by (apply (runs_file f l1 f1 q s R); [intros gg n t Hin; apply (N gg n t); apply in_or_app; now left|exact E]).
  destruct K as [->|(a & l3 & -> & _ & D)]; [exact E1|]. apply (during_file f1 a st q s D); [|exact E1]. intros gg n t ->. apply (N gg n t). apply in_or_app. right. now left.
Qed.

(** paths that are not written: folders may come to be there *)
Lemma runs_unwritten f l g p : runs cfg f l g -> ~ In p (written l) -> g p = f p \/ f p = None /\ g p = Some Dir.
Proof.
  induction 1 as [f|f a f1 l g C D R IH]; intros N; [now left|].
  assert (N1 : ~ In p (written l)) by (intros H; apply N; destruct a; cbn; auto).
  assert (F1 : f1 p = f p \/ f p = None /\ f1 p = Some Dir).
  { destruct a as [q|q s|gg q n t]; cbn [done] in D.
    - rewrite D. destruct (f p); [now left|]. destruct (prefixb p q); auto.
    - rewrite D. destruct (f q) eqn:E; [now left|]. rewrite put_neq; [now left|]. intros ->. apply N. now left.
    - destruct D as (s & _ & D). rewrite D, put_neq; [now left|]. intros ->. apply N. now left. }
  destruct (IH N1) as [E|[E1 E2]], F1 as [F|[F1 F2]]; [left; congruence|right; split; congruence|right; split; congruence|congruence].
Qed.
Lemma runs_split f l1 l2 g : runs cfg f (l1 ++ l2) g -> exists f1, runs cfg f l1 f1 /\ runs cfg f1 l2 g.
Proof.
  revert f. induction l1 as [|a l1 IH]; intros f H; [exists f; split; [apply runs_nil|exact H]|]. cbn in H. inversion H as [|? ? f1 ? ? C D R]; subst. destruct (IH f1 R) as (f2 & R1 & R2). exists f2. split; [now apply (runs_cons cfg f a f1)|exact R2].
Qed.
Lemma runs_item f l g gg p n t : separate l -> runs cfg f l g -> In (AUpd gg p n t) l -> exists s, cfg gg n t (content f p) = Ok s /\ g p = Some (File s).
Proof.
  intros [N _] R Hin. apply in_split in Hin. destruct Hin as (l1 & l2 & ->). rewrite written_app in N. cbn in N. apply NoDup_remove_2 in N. assert (N1 : ~ In p (written l1)) by (intros H; apply N; apply in_or_app; now left). assert (N2 : ~ In p (written l2)) by (intros H; apply N; apply in_or_app; now right).
  destruct (runs_split f l1 _ g R) as (f1 & R1 & R2). inversion R2 as [|? ? f2 ? ? C D R3]; subst. cbn [can done] in C, D. destruct D as (s & Hs & D). destruct C as (C & _). exists s.
  assert (Ec : f1 p = f p) by (destruct (runs_unwritten f l1 f1 p R1 N1) as [E|[_ E]]; [exact E|congruence]). split; [unfold content in *; now rewrite <- Ec|].
  assert (E2 : f2 p = Some (File s)) by (rewrite D; apply put_eq). destruct (runs_unwritten f2 l2 g p R3 N2) as [E|[E _]]; congruence.
Qed.
Lemma runs_new f l g p s : separate l -> runs cfg f l g -> In (ANew p s) l -> g p = match f p with Some n => Some n | None => Some (File s) end.
Proof.
  intros [N NP] R Hin. assert (Hw : In p (written l)) by (apply written_in; exists (ANew p s); split; [exact Hin|split; [reflexivity|discriminate]]).
  apply in_split in Hin. destruct Hin as (l1 & l2 & ->). rewrite written_app in N. cbn in N. apply NoDup_remove_2 in N. assert (N1 : ~ In p (written l1)) by (intros H; apply N; apply in_or_app; now left). assert (N2 : ~ In p (written l2)) by (intros H; apply N; apply in_or_app; now right).
  destruct (runs_split f l1 _ g R) as (f1 & R1 & R2). inversion R2 as [|? ? f2 ? ? C D R3]; subst. cbn [can done] in C, D.
  assert (Ec : f1 p = f p).
  { apply (runs_untouched f l1 f1 p R1). intros a Ha T. destruct a as [b|b s'|gg b n t]; cbn [touches] in T.
    - apply (NP b p); [apply in_or_app; now left|exact Hw|exact T].
    - subst b. apply N1. apply written_in. exists (ANew p s'). split; [exact Ha|split; [reflexivity|discriminate]].
    - subst b. apply N1. apply written_in. exists (AUpd gg p n t). split; [exact Ha|split; [reflexivity|discriminate]]. }
  assert (E2 : f2 p = match f p with Some n => Some n | None => Some (File s) end) by (rewrite D, Ec; destruct (f p) eqn:E; [congruence|apply put_eq]).
  destruct (runs_unwritten f2 l2 g p R3 N2) as [E|[E _]]; [congruence|]. rewrite E in E2. destruct (f p); discriminate.
Qed.
Lemma runs_folder f l g p : separate l -> runs cfg f l g -> In (AMk p) l -> g p <> None /\ ((forall s, f p <> Some (File s)) -> g p = Some Dir).
Proof.
  intros [_ NP] R Hin. assert (U : ~ In p (written l)) by (intros H; apply (NP p p Hin H), prefix_refl).
  assert (X : g p <> None).
  { apply in_split in Hin. destruct Hin as (l1 & l2 & ->). destruct (runs_split f l1 _ g R) as (f1 & R1 & R2). inversion R2 as [|? ? f2 ? ? C D R3]; subst. cbn [can done] in C, D.
    assert (E : f2 p <> None). { rewrite D. destruct (f1 p); [discriminate|]. now rewrite (proj2 (prefixb_spec _ _) (prefix_refl p)). }
    destruct (f2 p) as [[|s]|] eqn:E2; [| |congruence]; apply runs_kept in R3; [now rewrite (proj1 (R3 p) E2)|]. destruct (proj2 (R3 p) s E2) as [s' E3]. congruence. }
  split; [exact X|]. intros NF. destruct (runs_unwritten f l g p R U) as [E|[_ E]]; [|exact E]. destruct (f p) as [[|s]|] eqn:Ef; [exact E|exfalso; now apply (NF s)|congruence].
Qed.

(** the same again changes nothing *)
Lemma runs_again f l g : wf f -> separate l -> (forall b, In (AMk b) l -> g b <> None) -> runs cfg f l g -> wf g ->
  (forall gg p n t s, In (AUpd gg p n t) l -> cfg gg n t (content f p) = Ok s -> cfg gg n t (Some s) = Ok s) ->
  exists l', run l g = (l', Ok tt) /\ same (final g l') g /\ forall st, In st l' -> forall q, ~ In q (written l) -> st q = g q.
Proof.
  intros W S B R Wg I. assert (K : forall l0 h, incl l0 l -> wf h -> same h g -> exists l', run l0 h = (l', Ok tt) /\ same (final h l') g /\ forall st, In st l' -> forall q, ~ In q (written l) -> st q = g q).
  { induction l0 as [|a l0 IH]; intros h Hi Wh Sh; [exists []; split; [reflexivity|split; [exact Sh|intros st []]]|]. cbn [piter]. destruct (run_act_spec cfg h a Wh) as [S1 _]. pose proof (Hi a (or_introl eq_refl)) as Ha.
    assert (CD : can cfg h a /\ forall st, (done cfg h a st -> same st g) /\ (during cfg h a st -> forall q, ~ In q (written l) -> st q = g q)).
    { destruct a as [p|p s|gg p n t]; cbn [can done during].
      - assert (Ep : h p <> None) by (rewrite Sh; now apply B). split; [now apply exists_reachable|].
        assert (AA : forall q st, prefix q p -> adds h q st -> same st g).
        { intros q st Pq A q'. rewrite A, Sh. destruct (g q') eqn:Eq; [reflexivity|]. destruct (prefixb q' q) eqn:Ep'; [|reflexivity]. exfalso. apply prefixb_spec in Ep'. pose proof (prefix_trans _ _ _ Ep' Pq) as [r Hr]. subst p. destruct r as [|x r]; [rewrite app_nil_r in Ep; rewrite Sh in Ep; congruence|].
          rewrite <- Sh in Eq. rewrite (wf_up h q' (x :: r) Wh Ep) in Eq; [discriminate|discriminate]. }
        intros st. split; [intros A; apply (AA p st); [apply prefix_refl|exact A]|]. intros (q & Pq & A) q' _. apply (AA q st Pq A).
      - pose proof (runs_new f l g p s S R Ha) as E. assert (Ep : h p <> None) by (rewrite Sh, E; destruct (f p); discriminate). split; [now left|]. intros st. split.
        + intros D q. rewrite D. destruct (h p); [apply Sh|congruence].
        + intros [D _]. congruence.
      - destruct (runs_item f l g gg p n t S R Ha) as (s & Hs & E). rewrite <- Sh in E. assert (Ec : content h p = Some s) by (unfold content; now rewrite E). rewrite Ec. pose proof (I _ _ _ _ _ Ha Hs) as Hs'. split; [split; [congruence|split; [left; congruence|eauto]]|]. intros st. split.
        + intros (s' & Hs2 & D) q. assert (s' = s) by congruence. subst s'. rewrite D. destruct (list_eq_dec string_dec q p) as [->|Hq]; [rewrite put_eq; now rewrite <- Sh|rewrite put_neq by exact Hq; apply Sh].
        + intros (s' & u & Hs2 & Hu & D) q Hq. rewrite D, put_neq; [apply Sh|]. intros ->. apply Hq. apply written_in. exists (AUpd gg p n t). split; [exact Ha|split; [reflexivity|discriminate]]. }
    destruct CD as [C CD]. destruct (S1 C) as (l1 & E1 & D & W1 & Hl). rewrite (pbind_ok _ _ _ _ _ E1). destruct (IH (final h l1)) as (l2 & E2 & S2 & H2); [intros x Hx; apply Hi; now right|exact W1|now apply CD|].
    rewrite E2. cbn [fst snd]. eexists. split; [reflexivity|]. rewrite final_app. split; [exact S2|]. intros st Hst q Hq. apply in_app_or in Hst. destruct Hst as [Hst|Hst]; [destruct (Hl st Hst) as [Hd _]; now apply (CD st)|now apply H2]. }
  apply K; [apply incl_refl|exact Wg|intros q; reflexivity].
Qed.

(** the same again, if the files have been changed a little *)
Lemma runs_alike f l g (R : string -> string -> Prop) (P : path -> Prop) : wf f -> separate l -> (forall b, In (AMk b) l -> g b <> None) -> runs cfg f l g ->
  (forall x, R x x) -> (forall gg p n t, In (AUpd gg p n t) l -> P p) ->
  (forall gg p n t a, In (AUpd gg p n t) l -> cfg gg n t (content f p) = Ok a -> forall b, R a b -> exists c, cfg gg n t (Some b) = Ok c /\ R a c) ->
  forall h, wf h -> alike R P g h -> exists l', run l h = (l', Ok tt) /\ alike R P g (final h l').
Proof.
  intros W S B Rn Rr HP I. assert (X : forall h q, alike R P g h -> g q <> None -> h q <> None) by (intros h q A N; destruct (A q) as [E|(_ & a & b & _ & E & _)]; congruence).
  assert (K : forall l0 h, incl l0 l -> wf h -> alike R P g h -> exists l', run l0 h = (l', Ok tt) /\ alike R P g (final h l')).
  { induction l0 as [|a l0 IH]; intros h Hi Wh Sh; [exists []; split; [reflexivity|exact Sh]|]. cbn [piter]. destruct (run_act_spec cfg h a Wh) as [S1 _]. pose proof (Hi a (or_introl eq_refl)) as Ha.
    assert (CD : can cfg h a /\ forall st, done cfg h a st -> alike R P g st).
    { destruct a as [p|p s|gg p n t]; cbn [can done].
      - assert (Ep : h p <> None) by (apply X; [exact Sh|now apply B]). split; [now apply exists_reachable|].
        intros st A q'. pose proof (Sh q') as Z. rewrite (A q'). destruct (h q') eqn:Eq; [exact Z|]. destruct (prefixb q' p) eqn:Ep'; [|exact Z].
        exfalso. apply prefixb_spec in Ep'. destruct Ep' as [r Hr]. subst p. destruct r as [|x r]; [rewrite app_nil_r in Ep; congruence|].
        rewrite (wf_up h q' (x :: r) Wh Ep) in Eq; discriminate.
      - pose proof (runs_new f l g p s S Rn Ha) as E. assert (Ep : h p <> None) by (apply X; [exact Sh|rewrite E; destruct (f p); discriminate]). split; [now left|].
        intros st D q. rewrite D. destruct (h p); [apply Sh|congruence].
      - destruct (runs_item f l g gg p n t S Rn Ha) as (s & Hs & E).
        assert (Eh : exists b, h p = Some (File b) /\ R s b). { destruct (Sh p) as [E'|(_ & a & b & Ea & Eb & H)]; [exists s; split; [congruence|apply Rr]|]. exists b. split; [exact Eb|]. congruence. }
        destruct Eh as (b & Eh & Hb). assert (Ec : content h p = Some b) by (unfold content; now rewrite Eh). rewrite Ec. destruct (I _ _ _ _ _ Ha Hs b Hb) as (c & Hc & Rc). split; [split; [congruence|split; [left; congruence|eauto]]|].
        intros st (s' & Hs2 & D) q. assert (s' = c) by congruence. subst s'. rewrite D. destruct (list_eq_dec string_dec q p) as [->|Hq]; [|rewrite put_neq by exact Hq; apply Sh].
        right. split; [now apply (HP gg p n t)|]. exists s, c. rewrite put_eq. auto. }
    destruct CD as [C CD]. destruct (S1 C) as (l1 & E1 & D & W1 & Hl). rewrite (pbind_ok _ _ _ _ _ E1). destruct (IH (final h l1)) as (l2 & E2 & S2); [intros x Hx; apply Hi; now right|exact W1|now apply CD|].
    rewrite E2. cbn [fst snd]. eexists. split; [reflexivity|]. now rewrite final_app. }
  intros h Wh Sh. apply K; [apply incl_refl|exact Wh|exact Sh].
Qed.

(** every torn file can be left behind *)
Lemma run_reaches f l1 l2 gg p n t l s u : wf f -> run l1 f = (l, Ok tt) -> can cfg (final f l) (AUpd gg p n t) -> cfg gg n t (content (final f l) p) = Ok s -> begins u s ->
  In (put p (File u) (final f l)) (crash_states (run (l1 ++ AUpd gg p n t :: l2)) f).
Proof.
  intros W E C Hs Hu. right. rewrite piter_app, (pbind_ok _ _ _ _ _ E). cbn [fst]. apply in_or_app. right. destruct (run_ok cfg l1 f l W E) as [_ W1]. set (f1 := final f l) in *. cbn [piter run_act].
  assert (A : exists k, run_act cfg (AUpd gg p n t) f1 = (k, Ok tt) /\ In (put p (File u) f1) k).
  { destruct C as (C1 & C2 & _). cbn [run_act]. exists (map (fun t => put p (File t) f1) (prefixes s)). split; [|apply in_map_iff; exists u; split; [reflexivity|now apply prefixes_spec]].
    unfold pbind, read_if_exists. unfold content in Hs. destruct (f1 p) as [[|c]|] eqn:Ep; [congruence| |]; change (final f1 []) with f1; rewrite Hs; rewrite (write_spec f1 p s W1); try congruence; reflexivity || (rewrite Ep; exact C2) || (left; congruence). }
  destruct A as (k & Ek & Hk). cbn [run_act] in Ek. rewrite (pbind_ok _ _ _ _ _ Ek). cbn [fst]. apply in_or_app. now left.
Qed.

Lemma done_det f a g g' : done cfg f a g -> done cfg f a g' -> same g g'.
Proof.
  destruct a as [p|p s|gg p n t]; cbn [done]; intros D D' q; [now rewrite D, D'|now rewrite D, D'|]. destruct D as (s & Hs & D), D' as (s' & Hs' & D'). assert (s' = s) by congruence. subst. now rewrite D, D'.
Qed.
Lemma same_can f g a : same f g -> can cfg f a -> can cfg g a.
Proof.
  intros S. destruct a as [p|p s|gg p n t]; cbn [can].
  - intros R q r E Hr s. rewrite <- S. now apply (R q r).
  - now rewrite !S.
  - unfold content. now rewrite !S.
Qed.
Lemma same_done f g a h : same f g -> done cfg f a h -> done cfg g a h.
Proof.
  intros S. destruct a as [p|p s|gg p n t]; cbn [done].
  - intros A q. now rewrite A, S.
  - intros A q. rewrite A, <- S. destruct (f p); [apply S|]. unfold put. destruct (path_eqb p q); [reflexivity|apply S].
  - intros (s & Hs & A). exists s. unfold content in *. rewrite <- S. split; [exact Hs|]. intros q. rewrite A. unfold put. destruct (path_eqb p q); [reflexivity|apply S].
Qed.
Lemma runs_det f l : forall g f' g', runs cfg f l g -> runs cfg f' l g' -> same f f' -> same g g'.
Proof.
  intros g f' g' R. revert f' g'. induction R as [f|f a f1 l g C D R IH]; intros f' g' R' S; inversion R' as [|? ? f1' ? ? C' D' R1']; subst; [exact S|]. apply (IH f1'); [exact R1'|]. apply (done_det f' a); [now apply (same_done f f')|exact D'].
Qed.
(** in a run that would succeed, all but one path are as before or as after it *)
Lemma crash_torn f l g st : wf f -> separate l -> runs cfg f l g -> In st (crash_states (run l) f) ->
  exists p, forall q, st q = f q \/ st q = g q \/ q = p /\ exists t s, st q = Some (File t) /\ g q = Some (File s) /\ begins t s.
Proof.
  intros W S R H. destruct (run_crash cfg l f st W H) as (_ & l1 & l2 & f1 & -> & R1 & W1 & K).
  destruct (runs_split f l1 l2 g R) as (f1' & R1' & R2). assert (E1 : same f1' f1) by (apply (runs_det f l1 f1' f f1 R1' R1); intros q; reflexivity). destruct S as [N _]. rewrite written_app in N.
  assert (X : forall q, f1 q = f q \/ f1 q = g q).
  { intros q. destruct (in_dec (list_eq_dec string_dec) q (written l1)) as [Hq|Hq].
    - right. rewrite <- E1. assert (N2 : ~ In q (written l2)). { intros H2. clear - N Hq H2. induction (written l1) as [|x w IH]; [destruct Hq|]. cbn in N. inversion N as [|? ? N1 N3]; subst. destruct Hq as [->|Hq]; [apply N1; apply in_or_app; now right|now apply IH]. }
      destruct (runs_unwritten f1' l2 g q R2 N2) as [E|[E _]]; [congruence|]. exfalso. apply written_in in Hq. destruct Hq as (a & Ha & -> & NA).
      assert (E' : f1' (act_path a) <> None); [|congruence]. apply in_split in Ha. destruct Ha as (k1 & k2 & ->). destruct (runs_split f k1 _ f1' R1') as (h & _ & Rh). inversion Rh as [|? ? h1 ? ? C D Rh1]; subst. apply runs_kept in Rh1.
      assert (Eh : exists nd, h1 (act_path a) = Some nd). { destruct a as [b|b s|gg b n t]; [exfalso; now apply (NA b)| |]; cbn [done act_path] in *; [rewrite D; destruct (h b) eqn:Eb; [eauto|rewrite put_eq; eauto]|destruct D as (s & _ & D); rewrite D, put_eq; eauto]. }
      destruct Eh as [[|s] Eh]; [rewrite (proj1 (Rh1 _) Eh); discriminate|]. destruct (proj2 (Rh1 _) s Eh) as [s' Es]. congruence.
    - destruct (runs_unwritten f l1 f1 q R1 Hq) as [E|[E1' E2]]; [now left|]. right. rewrite E2. symmetry. rewrite <- E1 in E2. apply runs_kept in R2. now apply (R2 q). }
  destruct K as [->|(a & l3 & -> & C & D)]; [exists []; intros q; destruct (X q); auto|]. inversion R2 as [|? ? f2 ? ? C' D' R3]; subst.
  pose proof (same_done f1' f1 a f2 E1 D') as D2. pose proof (runs_kept f2 l3 g R3) as KP. exists (act_path a). intros q. destruct a as [p|p s|gg p n t]; cbn [during done act_path] in *.
  - destruct D as (q0 & [r ->] & A). destruct (f1 q) as [nd|] eqn:Eq; [rewrite A, Eq, <- Eq; destruct (X q); auto|]. rewrite A, Eq. destruct (prefixb q q0) eqn:Ep; [|destruct (X q) as [X1|X1]; rewrite <- X1, Eq; auto].
    right; left. symmetry. apply (KP q). rewrite D2, Eq. apply prefixb_spec in Ep. now rewrite (proj2 (prefixb_spec q (q0 ++ r)) (prefix_trans q q0 _ Ep (ex_intro _ r eq_refl))).
  - destruct D as (E & u & Hu & A). rewrite A. destruct (list_eq_dec string_dec q p) as [->|Hq]; [|rewrite put_neq by exact Hq; destruct (X q); auto]. right; right. split; [reflexivity|]. exists u, s. rewrite put_eq. split; [reflexivity|]. split; [|exact Hu].
    assert (E2 : f2 p = Some (File s)) by (rewrite D2, E; apply put_eq). assert (N3 : ~ In p (written l3)) by (intros H3; cbn in N; apply NoDup_remove_2 in N; apply N; apply in_or_app; now right). destruct (runs_unwritten f2 l3 g p R3 N3) as [E3|[E3 _]]; congruence.
  - destruct D as (s & u & Hs & Hu & A). rewrite A. destruct (list_eq_dec string_dec q p) as [->|Hq]; [|rewrite put_neq by exact Hq; destruct (X q); auto]. right; right. split; [reflexivity|]. exists u, s. rewrite put_eq. split; [reflexivity|]. split; [|exact Hu].
    destruct D2 as (s' & Hs' & D2). assert (s' = s) by congruence. subst s'. assert (E2 : f2 p = Some (File s)) by (rewrite D2; apply put_eq). assert (N3 : ~ In p (written l3)) by (intros H3; cbn in N; apply NoDup_remove_2 in N; apply N; apply in_or_app; now right). destruct (runs_unwritten f2 l3 g p R3 N3) as [E3|[E3 _]]; congruence.
Qed.
End Walk.
