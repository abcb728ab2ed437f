(** Lemmas about executing config files. *)
From Verif Require Import Exec_Model Exec_Spec PySource_Proofs FileStr_Proofs FileStrRead_Proofs.
From Coq Require Import Lia.
Local Open Scope string_scope.
Local Open Scope list_scope.

(* ------------------------------------------------------------------ *)
(** * Induction *)

Lemma tgt_ind2 (P : tgt -> Prop) : (forall x, P (GName x)) -> (forall e a, P (GAttr e a)) -> (forall e i, P (GItem e i)) ->
  (forall l, Forall P l -> P (GTuple l)) -> forall t, P t.
Proof.
  intros H1 H2 H3 H4. fix IH 1. intros [x|e a|e i|l]; [apply H1|apply H2|apply H3|]. apply H4. induction l as [|t l IHl]; constructor; [apply IH|exact IHl].
Qed.

Section Ind.
Variable P : pstmt -> Prop.
Hypothesis H1 : forall al, P (PImport al).
Hypothesis H2 : forall d m al, P (PFrom d m al).
Hypothesis H3 : forall ts e, P (PAssign ts e).
Hypothesis H4 : forall t ann e, P (PAnn t ann e).
Hypothesis H5 : forall x op, P (PAug x op).
Hypothesis H6 : forall x, P (PDel x).
Hypothesis H7 : forall e, P (PExpr e).
Hypothesis H8 : forall f body, Forall P body -> P (PDef f body).
Hypothesis H9 : forall c body, Forall P body -> P (PClass c body).
Hypothesis H10 : forall e a b, Forall P a -> Forall P b -> P (PIf e a b).
Hypothesis H11 : forall t e body, Forall P body -> P (PFor t e body).
Hypothesis H12 : forall a b, Forall P a -> Forall P b -> P (PTry a b).
Lemma pstmt_ind2 : forall s, P s.
Proof.
  fix IH 1. intros [al|d m al|ts e|t ann e|x op|x|e|f body|c body|e a b|t e body|a b].
  - apply H1.
  - apply H2.
  - apply H3.
  - apply H4.
  - apply H5.
  - apply H6.
  - apply H7.
  - apply H8. induction body as [|s l IHl]; constructor; [apply IH|exact IHl].
  - apply H9. induction body as [|s l IHl]; constructor; [apply IH|exact IHl].
  - apply H10.
    + induction a as [|s l IHl]; constructor; [apply IH|exact IHl].
    + induction b as [|s l IHl]; constructor; [apply IH|exact IHl].
  - apply H11. induction body as [|s l IHl]; constructor; [apply IH|exact IHl].
  - apply H12.
    + induction a as [|s l IHl]; constructor; [apply IH|exact IHl].
    + induction b as [|s l IHl]; constructor; [apply IH|exact IHl].
Qed.
End Ind.

(* ------------------------------------------------------------------ *)
(** * Executing *)

Lemma seq_app {A} (f : A -> dict mval -> outcome) a : forall b ns,
  seq f (a ++ b) ns = match seq f a ns with (ns', None) => seq f b ns' | r => r end.
Proof.
  induction a as [|x a IH]; intros b ns; [reflexivity|]. cbn [app]. change (seq f (x :: a ++ b) ns) with (match f x ns with (ns', None) => seq f (a ++ b) ns' | r => r end).
  change (seq f (x :: a) ns) with (match f x ns with (ns', None) => seq f a ns' | r => r end). destruct (f x ns) as [ns' [e|]]; [reflexivity|apply IH].
Qed.
Lemma seq_cons {A} (f : A -> dict mval -> outcome) x a ns : seq f (x :: a) ns = match f x ns with (ns', None) => seq f a ns' | r => r end.
Proof. reflexivity. Qed.

(** what holds after every step holds after all *)
Lemma seq_inv {A} (f : A -> dict mval -> outcome) (P : dict mval -> Prop) l : forall ns,
  (forall a ns, In a l -> P ns -> P (fst (f a ns))) -> P ns -> P (fst (seq f l ns)).
Proof.
  induction l as [|a l IH]; intros ns S H; [exact H|]. rewrite seq_cons. pose proof (S a ns (or_introl eq_refl) H) as K.
  destruct (f a ns) as [ns' [e|]]; [exact K|]. apply IH; [|exact K]. intros b n Hb. apply S. now right.
Qed.

Section Run.
Variable py : python.

Lemma bind_name_inv (P : dict mval -> Prop) x r ns : P ns -> (forall v, P (dset x v ns)) -> P (fst (bind_name x r ns)).
Proof. intros H S. unfold bind_name. destruct r; cbn [fst]; auto. Qed.

Lemma assign_inv (P : dict mval -> Prop) t : (forall x ns v, In x (target_names t) -> P ns -> P (dset x v ns)) ->
  forall v ns, P ns -> P (fst (assign py t v ns)).
Proof.
  induction t as [x|e a|e i|l IH] using tgt_ind2; intros S v ns H; cbn [assign fst]; auto.
  - apply S; [now left|exact H].
  - destruct (py_iter py v) as [vs|e]; [|exact H]. destruct (Nat.eqb _ _); [|exact H]. clear v. revert vs ns H.
    induction l as [|t l IHl]; intros vs ns H; [destruct vs; exact H|]. destruct vs as [|v vs]; [exact H|]. inversion IH as [|? ? Ht Hl]; subst.
    assert (K : P (fst (assign py t v ns))) by (apply Ht; [intros x n w Hx; apply S; cbn; apply in_or_app; now left|exact H]).
    destruct (assign py t v ns) as [ns' [e|]]; [exact K|]. apply IHl; [exact Hl| |exact K]. intros x n w Hx. apply S. cbn. apply in_or_app. now right.
Qed.

(** An invariant of the names holds after a statement if setting, deleting and starred importing of the names it touches keep it. *)
Lemma run_inv (P : dict mval -> Prop) s :
  (forall x ns v, touches s x -> P ns -> P (dset x v ns)) -> (forall x ns, touches s x -> P ns -> P (ddel x ns)) ->
  (forall ns d, (forall x, touches s x) -> P ns -> P (dupdate ns d)) ->
  forall ns, P ns -> P (fst (run py s ns)).
Proof.
  induction s as [al|dots m al|ts e|t ann e|x op|x|e|f body _|c body _|e a b IHa IHb|t e body IH|a b IHa IHb] using pstmt_ind2; intros S D U ns H; cbn [run].
  - apply seq_inv; [|exact H]. intros a n Ha Hn. unfold import_alias. pose proof (t_import al a Ha) as T. unfold import_name in T. destruct (py_import py (fst a)); [exact Hn|].
    destruct (snd a); cbn [fst]; apply S; auto.
  - apply seq_inv; [|exact H]. intros a n Ha Hn. unfold from_alias. destruct (String.eqb (fst a) "*") eqn:E.
    + apply String.eqb_eq in E. destruct (py_star py dots m); [|exact Hn]. cbn [fst]. apply U; [intros x; eapply t_star; eauto|exact Hn].
    + apply bind_name_inv; [exact Hn|]. intros v. apply S; [apply (t_from dots m al a Ha)|exact Hn].
  - destruct (py_eval py ns e); [|exact H]. apply seq_inv; [|exact H]. intros t n Ht Hn. apply assign_inv; [|exact Hn]. intros x n' v Hx. apply S. eapply t_assign; eauto.
  - destruct e as [e|]; [|destruct (py_eval py ns ann); exact H]. destruct (py_eval py ns e) as [v|]; [|exact H].
    assert (K : P (fst (assign py t v ns))) by (apply assign_inv; [intros x n w Hx; apply S; now constructor|exact H]).
    destruct (assign py t v ns) as [ns' [e'|]]; [exact K|]. destruct (py_eval py ns' ann); exact K.
  - destruct (dget x ns); [|exact H]. apply bind_name_inv; [exact H|]. intros w. apply S; [constructor|exact H].
  - destruct (dmem x ns); [|exact H]. apply D; [constructor|exact H].
  - destruct (py_eval py ns e); exact H.
  - apply bind_name_inv; [exact H|]. intros v. apply S; [constructor|exact H].
  - apply bind_name_inv; [exact H|]. intros v. apply S; [constructor|exact H].
  - destruct (py_eval py ns e) as [v|]; [|exact H]. destruct (py_truth py v) as [[]|]; [| |exact H].
    + apply seq_inv; [|exact H]. intros s n Hs. rewrite Forall_forall in IHa. apply (IHa s Hs); intros; [apply S|apply D|apply U]; auto; try (eapply t_if_then; eauto). intros x. eapply t_if_then; eauto.
    + apply seq_inv; [|exact H]. intros s n Hs. rewrite Forall_forall in IHb. apply (IHb s Hs); intros; [apply S|apply D|apply U]; auto; try (eapply t_if_else; eauto). intros x. eapply t_if_else; eauto.
  - destruct (py_eval py ns e) as [v|]; [|exact H]. destruct (py_iter py v) as [vs|]; [|exact H].
    apply seq_inv; [|exact H]. intros w n _ Hn.
    assert (K : P (fst (assign py t w n))) by (apply assign_inv; [intros x n' u Hx; apply S; now constructor|exact Hn]).
    destruct (assign py t w n) as [ns' [e'|]]; [exact K|]. apply seq_inv; [|exact K]. intros s n' Hs. rewrite Forall_forall in IH.
    apply (IH s Hs); intros; [apply S|apply D|apply U]; auto; try (eapply t_for_body; eauto). intros x. eapply t_for_body; eauto.
  - assert (K : P (fst (seq (run py) a ns))).
    { apply seq_inv; [|exact H]. intros s n Hs. rewrite Forall_forall in IHa. apply (IHa s Hs); intros; [apply S|apply D|apply U]; auto; try (eapply t_try; eauto). intros x. eapply t_try; eauto. }
    destruct (seq (run py) a ns) as [ns' [e|]]; [|exact K]. destruct (caught e); [|exact K]. apply seq_inv; [|exact K].
    intros s n Hs. rewrite Forall_forall in IHb. apply (IHb s Hs); intros; [apply S|apply D|apply U]; auto; try (eapply t_except; eauto). intros x. eapply t_except; eauto.
Qed.

Lemma run_wf s ns : dwf ns -> dwf (fst (run py s ns)).
Proof. apply run_inv; intros; [now apply dset_wf|now apply ddel_wf|now apply dupdate_wf]. Qed.
Lemma runs_wf p ns : dwf ns -> dwf (fst (seq (run py) p ns)).
Proof. apply seq_inv. intros s n _. apply run_wf. Qed.

(** names a statement does not touch are bound as before *)
Lemma run_frame s x : ~ touches s x -> forall ns, dget x (fst (run py s ns)) = dget x ns.
Proof.
  intros N ns. apply (run_inv (fun n => dget x n = dget x ns)); [| | |reflexivity].
  - intros y n v T <-. apply dget_dset_neq. intros ->. contradiction.
  - intros y n T <-. apply dget_ddel_neq. intros ->. contradiction.
  - intros n d T. exfalso. apply N, T.
Qed.
Lemma runs_frame p x ns : (forall s, In s p -> ~ touches s x) -> dget x (fst (seq (run py) p ns)) = dget x ns.
Proof.
  intros N. apply (seq_inv (run py) (fun n => dget x n = dget x ns)); [|reflexivity]. intros s n Hs <-. now apply run_frame, N.
Qed.

(** every name bound was bound before or is touched *)
Lemma runs_bound p ns x : In x (dkeys (fst (seq (run py) p ns))) -> In x (dkeys ns) \/ exists s, In s p /\ touches s x.
Proof.
  apply (seq_inv (run py) (fun n => In x (dkeys n) -> In x (dkeys ns) \/ exists s, In s p /\ touches s x)); [|auto].
  intros s n Hs. apply (run_inv (fun n => In x (dkeys n) -> In x (dkeys ns) \/ exists s, In s p /\ touches s x)).
  - intros y m v T H K. apply In_dkeys_dset in K as [->|K]; [right; eauto|auto].
  - intros y m T H K. apply H. clear - K. induction m as [|[k v] m IH]; [exact K|]. cbn [ddel] in K. destruct (String.eqb y k); [now right|].
    destruct K as [K|K]; [now left|right; now apply IH].
  - intros m d T H K. right. exists s. auto.
Qed.

Lemma runs_split p1 s p2 ns0 ns : seq (run py) (p1 ++ s :: p2) ns0 = (ns, None) ->
  exists ns1 ns2, seq (run py) p1 ns0 = (ns1, None) /\ run py s ns1 = (ns2, None) /\ seq (run py) p2 ns2 = (ns, None).
Proof.
  rewrite seq_app. destruct (seq (run py) p1 ns0) as [ns1 [e|]]; [discriminate|]. rewrite seq_cons. destruct (run py s ns1) as [ns2 [e|]] eqn:E; [discriminate|]. eauto.
Qed.
Lemma runs_last p1 s p2 x ns0 ns : seq (run py) (p1 ++ s :: p2) ns0 = (ns, None) -> (forall s', In s' p2 -> ~ touches s' x) ->
  exists ns1 ns2, seq (run py) p1 ns0 = (ns1, None) /\ run py s ns1 = (ns2, None) /\ dget x ns = dget x ns2.
Proof.
  intros R N. destruct (runs_split _ _ _ _ _ R) as (ns1 & ns2 & R1 & R2 & R3). exists ns1, ns2. split; [exact R1|]. split; [exact R2|].
  pose proof (runs_frame p2 x ns2 N) as F. now rewrite R3 in F.
Qed.

(* ------------------------------------------------------------------ *)
(** * The settings *)

Lemma user_dict_eq ns : dwf ns -> user_dict ns = flat_map setting_of ns.
Proof.
  intros W. unfold user_dict.
  assert (G : forall l (acc : dict pyval), dwf l -> (forall k, In k (dkeys l) -> ~ In k (dkeys acc)) ->
     fold_left (fun (d : dict pyval) q => if startswith (fst q) "__" then d else match snd q with MModule _ => d | MVal v => dupdate d [(fst q, v)] end) l acc = acc ++ flat_map setting_of l).
  { induction l as [|[k w] l IH]; intros acc Wl N; [cbn; now rewrite app_nil_r|]. cbn [fold_left flat_map]. unfold setting_of at 1. cbn [fst snd] in *.
    inversion Wl as [|? ? Nk Wl']; subst. destruct (startswith k "__").
    { cbn [app]. apply IH; [exact Wl'|]. intros j J. apply N. now right. }
    destruct w as [m|v]; [cbn [app]; apply IH; [exact Wl'|]; intros j J; apply N; now right|].
    assert (E : dupdate acc [(k, v)] = acc ++ [(k, v)]) by (change (dupdate acc [(k, v)]) with (dset k v acc); apply dset_notin, dmem_false; apply N; now left).
    rewrite E, IH; [now rewrite <- app_assoc|exact Wl'|]. intros j J. unfold dkeys. rewrite map_app, in_app_iff. intros [K|[<-|[]]]; [exact (N j (or_intror J) K)|]. now apply Nk. }
  rewrite (G ns []); [reflexivity|exact W|]. intros k _ [].
Qed.

Lemma settings_get ns k : dwf ns -> dget k (flat_map setting_of ns) =
  if startswith k "__" then None else match dget k ns with Some (MVal v) => Some v | _ => None end.
Proof.
  intros W. induction ns as [|[j w] ns IH]; [cbn [flat_map dget]; now destruct (startswith k "__")|]. inversion W as [|? ? Nj W']; subst. specialize (IH W'). unfold dict in *.
  cbn [flat_map]. rewrite dget_app, IH. unfold setting_of. cbn [fst snd]. cbn [dget]. destruct (String.eqb k j) eqn:E.
  - apply String.eqb_eq in E. subst j. destruct (startswith k "__"); [reflexivity|]. destruct w; [|cbn [dget]; now rewrite String.eqb_refl].
    cbn [dget]. assert (D : dget k ns = None) by (apply dget_None; exact Nj). now rewrite D.
  - destruct (startswith j "__"); [reflexivity|]. destruct w; [reflexivity|]. cbn [dget]. now rewrite E.
Qed.
Lemma settings_wf ns : dwf ns -> dwf (flat_map setting_of ns).
Proof.
  intros W. induction ns as [|[j w] ns IH]; [constructor|]. inversion W as [|? ? Nj W']; subst. specialize (IH W'). cbn [flat_map]. unfold setting_of at 1. cbn [fst snd].
  destruct (startswith j "__") eqn:E; [exact IH|]. destruct w; [exact IH|]. constructor; [|exact IH]. change (map fst (flat_map setting_of ns)) with (dkeys (flat_map setting_of ns)).
  intros K. apply In_dkeys_dget in K as [u K]. rewrite settings_get in K by exact W'. cbn [fst] in K. rewrite E in K. assert (D : dget j ns = None) by (apply dget_None; exact Nj). rewrite D in K. discriminate.
Qed.
Lemma user_dict_get ns k : dwf ns -> dget k (user_dict ns) = if startswith k "__" then None else match dget k ns with Some (MVal v) => Some v | _ => None end.
Proof. intros W. rewrite user_dict_eq by exact W. now apply settings_get. Qed.
Lemma user_dict_wf ns : dwf ns -> dwf (user_dict ns).
Proof. intros W. rewrite user_dict_eq by exact W. now apply settings_wf. Qed.

Lemma active_load_inv initial p d : active_load py initial (Some p) = Ok d ->
  exists r ns, register (Some p) = Ok r /\ seq (run py) p initial = (ns, None) /\ d = user_dict ns.
Proof.
  unfold active_load. destruct (register (Some p)) as [r|]; [|discriminate]. cbn [user_defined_dict]. destruct (seq (run py) p initial) as [ns [e|]] eqn:R; [discriminate|].
  intros [= <-]. eauto.
Qed.
Lemma runs_wf' p initial ns : dwf initial -> seq (run py) p initial = (ns, None) -> dwf ns.
Proof. intros W R. pose proof (runs_wf p initial W) as H. now rewrite R in H. Qed.
End Run.

(* ------------------------------------------------------------------ *)
(** * What the visitors see *)

Definition own_nodes (s : pstmt) : list stmt :=
  match s with
  | PImport _ | PFrom _ _ _ | PAssign _ _ | PAnn _ _ _ => nodes s
  | _ => [SOther]
  end.

Lemma nodes_parts n s : In n (nodes s) <-> exists s', part_of s' s /\ In n (own_nodes s').
Proof.
  split.
  - induction s as [al|dots m al|ts e|t ann e|x op|x|e|f body IH|c body IH|e a b IHa IHb|t e body IH|a b IHa IHb] using pstmt_ind2; intros H;
      try (eexists; split; [apply part_self|exact H]); cbn [nodes] in H.
    1,2,4: destruct H as [H|H]; [eexists; split; [apply part_self|left; exact H]|]; apply in_flat_map in H as (s' & Hs & Hn); rewrite Forall_forall in IH;
      destruct (IH s' Hs Hn) as (q & Pq & Hq); exists q; split; [econstructor; eauto|exact Hq].
    all: destruct H as [H|H]; [eexists; split; [apply part_self|left; exact H]|]; apply in_app_iff in H as [H|H]; apply in_flat_map in H as (s' & Hs & Hn); rewrite Forall_forall in IHa, IHb.
    1: destruct (IHa s' Hs Hn) as (q & Pq & Hq); exists q; split; [eapply part_then; eauto|exact Hq].
    1: destruct (IHb s' Hs Hn) as (q & Pq & Hq); exists q; split; [eapply part_else; eauto|exact Hq].
    1: destruct (IHa s' Hs Hn) as (q & Pq & Hq); exists q; split; [eapply part_try; eauto|exact Hq].
    1: destruct (IHb s' Hs Hn) as (q & Pq & Hq); exists q; split; [eapply part_except; eauto|exact Hq].
  - intros (s' & P & H). induction P; cbn [nodes]; try (right; apply in_flat_map; eauto; fail); try (right; apply in_app_iff; left; apply in_flat_map; eauto; fail);
      try (right; apply in_app_iff; right; apply in_flat_map; eauto; fail). destruct s'; try exact H; cbn in H; destruct H as [<-|[]]; left; reflexivity.
Qed.
Lemma nodes_within n p : In n (flat_map nodes p) <-> exists s, within s p /\ In n (own_nodes s).
Proof.
  rewrite in_flat_map. split.
  - intros (s & Hs & H). apply nodes_parts in H as (s' & P & H). exists s'. split; [exists s; auto|exact H].
  - intros (s' & (s & Hs & P) & H). exists s. split; [exact Hs|]. apply nodes_parts. eauto.
Qed.

Lemma imports_of_ok st : (exists is, imports_of st = Ok is) <-> forall e, ~ In (SBadImport e) st.
Proof.
  induction st as [|n st IH]; [cbn; split; [tauto|eauto]|]. cbn [imports_of]. destruct n as [i|e|a| |].
  - destruct (imports_of st) as [is|e] eqn:E.
    + split; [|eauto]. intros _ e [H|H]; [discriminate|]. exact (proj1 IH (ex_intro _ is eq_refl) e H).
    + split; [intros [is H]; discriminate|]. intros H. destruct (proj2 IH) as [is K]; [|discriminate]. intros e' He. apply (H e'). now right.
  - split; [intros [is H]; discriminate|]. intros H. exfalso. apply (H e). now left.
  - rewrite IH. split; [intros H e [K|K]; [discriminate|exact (H e K)]|intros H e K; apply (H e); now right].
  - rewrite IH. split; [intros H e [K|K]; [discriminate|exact (H e K)]|intros H e K; apply (H e); now right].
  - rewrite IH. split; [intros H e [K|K]; [discriminate|exact (H e K)]|intros H e K; apply (H e); now right].
Qed.
Lemma assigns_of_ok st : (exists al, assigns_of st = Ok al) <-> ~ In SMultiAssign st.
Proof.
  induction st as [|n st IH]; [cbn; split; [tauto|eauto]|]. cbn [assigns_of]. destruct n as [i|e|a| |].
  - rewrite IH. split; [intros H [K|K]; [discriminate|exact (H K)]|intros H K; apply H; now right].
  - rewrite IH. split; [intros H [K|K]; [discriminate|exact (H K)]|intros H K; apply H; now right].
  - destruct (assigns_of st) as [al|e] eqn:E.
    + split; [|eauto]. intros _ [H|H]; [discriminate|]. exact (proj1 IH (ex_intro _ al eq_refl) H).
    + split; [intros [is H]; discriminate|]. intros H. destruct (proj2 IH) as [is K]; [|discriminate]. intros He. apply H. now right.
  - split; [intros [is H]; discriminate|]. intros H. exfalso. apply H. now left.
  - rewrite IH. split; [intros H [K|K]; [discriminate|exact (H K)]|intros H K; apply H; now right].
Qed.
Lemma assigns_of_in st : forall al a, assigns_of st = Ok al -> (In a al <-> In (SAssign a) st).
Proof.
  induction st as [|n st IH]; intros al a H; cbn [assigns_of] in H; [injection H as <-; cbn; tauto|]. destruct n as [i|e|b| |]; try discriminate.
  - rewrite (IH al a H). cbn. split; [auto|]. intros [K|K]; [discriminate|exact K].
  - rewrite (IH al a H). cbn. split; [auto|]. intros [K|K]; [discriminate|exact K].
  - destruct (assigns_of st) as [bl|] eqn:E; [|discriminate]. injection H as <-. cbn. rewrite (IH bl a eq_refl). split; intros [K|K]; auto; left; congruence.
  - rewrite (IH al a H). cbn. split; [auto|]. intros [K|K]; [discriminate|exact K].
Qed.

Lemma register_ok p : (exists r, register (Some p) = Ok r) <->
  forall s, within s p -> (forall ts e, s = PAssign ts e -> List.length ts = 1) /\ (forall dots al, s <> PFrom dots None al).
Proof.
  assert (E : (exists r, register (Some p) = Ok r) <-> (exists is, imports_of (flat_map nodes p) = Ok is) /\ exists al, assigns_of (flat_map nodes p) = Ok al).
  { cbn [register]. destruct (imports_of _) as [is|e]; [|split; [intros [r H]; discriminate|intros [[is H] _]; discriminate]].
    destruct (assigns_of _) as [al|e]; [split; eauto|]. split; [intros [r H]; discriminate|intros [_ [al H]]; discriminate]. }
  rewrite E, imports_of_ok, assigns_of_ok. split.
  - intros [Hi Ha] s W. split.
    + intros ts e ->. destruct ts as [|t [|t' ts]]; try reflexivity; exfalso; apply Ha; apply nodes_within; (eexists; split; [exact W|now left]).
    + intros dots al ->. apply (Hi (LibExn "CouldNotExtractObjectImportFromAstException")). apply nodes_within. eexists. split; [exact W|]. now left.
  - intros H. split.
    + intros e K. apply nodes_within in K as (s & W & K). destruct (H s W) as [H1 H2]. destruct s as [al|dots [m|] al|ts e'|t ann e'|x op|x|e'|f body|c body|e' a b|t e' body|a b]; cbn in K;
        try (destruct K as [K|[]]; discriminate); [now apply (H2 dots al)|]. destruct ts as [|t [|t' ts]]; cbn in K; destruct K as [K|[]]; discriminate.
    + intros K. apply nodes_within in K as (s & W & K). destruct (H s W) as [H1 H2]. destruct s as [al|dots [m|] al|ts e'|t ann e'|x op|x|e'|f body|c body|e' a b|t e' body|a b]; cbn in K;
        try (destruct K as [K|[]]; discriminate). specialize (H1 ts e' eq_refl). destruct ts as [|t [|t' ts]]; try discriminate. cbn in K. destruct K as [K|[]]; discriminate.
Qed.

Lemma default_dict_ok al : (exists d, default_dict [] al = Ok d) <-> forall a, In a al -> exists d, default_of a = Ok d.
Proof.
  split.
  - intros [d H]. pose proof (default_dict_plain al _ _ H) as P. rewrite Forall_forall in P. exact P.
  - intros H. apply plain_default_dict. apply Forall_forall. exact H.
Qed.

Lemma lazy_ok p : (exists c, lazy_load p = Ok c) <->
  (exists r, register (Some p) = Ok r) /\
  forall s, within s p -> (forall t e, s = PAssign [t] e -> (exists x, t = GName x) \/ exists e' a, t = GAttr e' a) /\ (forall t ann e, s = PAnn t ann e -> exists x, t = GName x).
Proof.
  unfold lazy_load. destruct (register (Some p)) as [[is al]|e] eqn:R; [|split; [intros [c H]; discriminate|intros [[r H] _]; discriminate]].
  rewrite default_dict_ok. cbn [register] in R. destruct (imports_of _) as [is'|]; [|discriminate]. destruct (assigns_of _) as [al'|] eqn:A; [|discriminate]. injection R as -> ->. split.
  - intros H. split; [eauto|]. intros s W. split.
    + intros t e ->. destruct (H (Asgn (target_kind t) None (Some e))) as [d D].
      { apply (assigns_of_in _ _ _ A). apply nodes_within. eexists. split; [exact W|]. now left. }
      destruct t; cbn in D; try discriminate; [left|right]; eauto.
    + intros t ann e ->. destruct (H (Asgn (target_kind t) (Some ann) e)) as [d D].
      { apply (assigns_of_in _ _ _ A). apply nodes_within. eexists. split; [exact W|]. now left. }
      destruct t; cbn in D; try discriminate. eauto.
  - intros [_ H] a K. apply (assigns_of_in _ _ _ A) in K. apply nodes_within in K as (s & W & K). destruct (H s W) as [H1 H2].
    destruct s as [al0|dots [m|] al0|ts e'|t ann e'|x op|x|e'|f body|c body|e' a0 b|t e' body|a0 b]; cbn in K; try (destruct K as [K|[]]; discriminate).
    + destruct ts as [|t [|t' ts]]; cbn in K; destruct K as [K|[]]; try discriminate. injection K as <-. destruct (H1 t e' eq_refl) as [[x ->]|(e2 & a2 & ->)]; cbn; eauto.
    + destruct K as [K|[]]. injection K as <-. destruct (H2 t ann e' eq_refl) as [x ->]. cbn. eauto.
Qed.

(* ------------------------------------------------------------------ *)
(** * Plain files *)

Section Plain.
Variable py : python.

Lemma plain_touches s x : simple_stmt s -> touches s x -> (exists e, assigns s x e) \/ imports s x.
Proof.
  intros P T. destruct T; cbn in P; try contradiction.
  - right. left. eauto.
  - right. right. exists dots, m, al, a. auto.
  - exfalso. now apply (P a).
  - left. destruct ts as [|[y| | |] [|]]; try contradiction. destruct H as [<-|[]]. destruct H0 as [<-|[]]. exists e. now left.
  - left. destruct t; try contradiction. destruct H as [<-|[]]. exists e. right. eauto.
Qed.
Lemma plain_touched s x : simple_stmt s -> (exists e, assigns s x e) \/ imports s x -> touches s x.
Proof.
  intros P [[e [->|[ann ->]]]|[(al & a & -> & H & <-)|(dots & m & al & a & -> & H & <-)]].
  - eapply t_assign; [now left|now left].
  - apply t_ann. now left.
  - now constructor.
  - now constructor.
Qed.

Lemma import_alias_keys a ns ns' : import_alias py a ns = (ns', None) -> forall x, In x (dkeys ns') <-> x = import_name a \/ In x (dkeys ns).
Proof.
  unfold import_alias, import_name. destruct (py_import py (fst a)); [discriminate|]. destruct (snd a); intros [= <-] x; apply In_dkeys_dset.
Qed.
Lemma from_alias_keys dots m a ns ns' : fst a <> "*" -> from_alias py dots m a ns = (ns', None) -> forall x, In x (dkeys ns') <-> x = from_name a \/ In x (dkeys ns).
Proof.
  intros N. unfold from_alias, from_name. apply String.eqb_neq in N. rewrite N. unfold bind_name. destruct (py_from py dots m (fst a)); [|discriminate]. intros [= <-] x. apply In_dkeys_dset.
Qed.
Lemma seq_keys {A} (f : A -> dict mval -> outcome) (name : A -> string) l : (forall a ns ns', In a l -> f a ns = (ns', None) -> forall x, In x (dkeys ns') <-> x = name a \/ In x (dkeys ns)) ->
  forall ns ns', seq f l ns = (ns', None) -> forall x, In x (dkeys ns') <-> (exists a, In a l /\ name a = x) \/ In x (dkeys ns).
Proof.
  induction l as [|a l IH]; intros H ns ns' R x; [injection R as <-; firstorder|]. rewrite seq_cons in R. destruct (f a ns) as [ns1 [e|]] eqn:E; [discriminate|].
  rewrite (IH (fun b n n' Hb => H b n n' (or_intror Hb)) ns1 ns' R x), (H a ns ns1 (or_introl eq_refl) E x). split.
  - intros [(b & Hb & Eb)|[->|K]]; [left; exists b; split; [now right|exact Eb]|left; exists a; split; [now left|reflexivity]|auto].
  - intros [(b & [<-|Hb] & Eb)|K]; [right; left; congruence|left; eauto|auto].
Qed.

Lemma run_plain_keys s ns ns' x : simple_stmt s -> run py s ns = (ns', None) -> (In x (dkeys ns') <-> ((exists e, assigns s x e) \/ imports s x) \/ In x (dkeys ns)).
Proof.
  intros P R. split.
  - intros H. destruct (in_dec string_dec x (dkeys ns)) as [K|K]; [auto|]. left. apply plain_touches; [exact P|].
    pose proof (runs_bound py [s] ns x) as B. rewrite seq_cons, R in B. destruct (B H) as [B'|(s' & [<-|[]] & B')]; [contradiction|exact B'].
  - destruct s; cbn in P; try contradiction; cbn [run] in R.
    + pose proof (seq_keys _ import_name al (fun a n n' _ => import_alias_keys a n n') ns ns' R x) as K. rewrite K. intros [[[e [E|[ann E]]]|[(al' & a & [= <-] & H & E)|(? & ? & ? & ? & E & _)]]|H]; try discriminate; eauto.
    + pose proof (seq_keys _ from_name al (fun a n n' Ha => from_alias_keys dots m a n n' (P a Ha)) ns ns' R x) as K. rewrite K.
      intros [[[e [E|[ann E]]]|[(al' & a & E & _)|(d & m' & al' & a & [= <- <- <-] & H & E)]]|H]; try discriminate; eauto.
    + destruct ts as [|[y| | |] [|]]; try contradiction. destruct (py_eval py ns e); [|discriminate]. cbn in R. injection R as <-. rewrite In_dkeys_dset.
      intros [[[e' [E|[ann E]]]|[(al' & a7 & E & _)|(d & m' & al' & a8 & E & _)]]|H]; try discriminate; [injection E as -> ->|]; auto.
    + destruct t as [y| | |]; try contradiction. destruct e as [e|].
      * destruct (py_eval py ns e); [|discriminate]. cbn [assign] in R. destruct (py_eval py _ ann); [|discriminate]. injection R as <-. rewrite In_dkeys_dset.
        intros [[[e' [E|[ann' E]]]|[(al' & a' & E & _)|(d & m' & al' & a' & E & _)]]|H]; try discriminate; [injection E as -> -> ->|]; auto.
      * destruct (py_eval py ns ann); [|discriminate]. injection R as <-. intros [[[e' [E|[ann' E]]]|[(al' & a' & E & _)|(d & m' & al' & a' & E & _)]]|H]; try discriminate. exact H.
Qed.

Lemma plain_keys p : Forall simple_stmt p -> forall ns ns' x, seq (run py) p ns = (ns', None) ->
  (In x (dkeys ns') <-> (exists s, In s p /\ ((exists e, assigns s x e) \/ imports s x)) \/ In x (dkeys ns)).
Proof.
  induction 1 as [|s p P _ IH]; intros ns ns' x R; [injection R as <-; firstorder|]. rewrite seq_cons in R. destruct (run py s ns) as [ns1 [e|]] eqn:E; [discriminate|].
  rewrite (IH ns1 ns' x R), (run_plain_keys s ns ns1 x P E). split.
  - intros [(s' & Hs & H)|[H|H]]; [left; exists s'; split; [now right|exact H]|left; exists s; split; [now left|exact H]|auto].
  - intros [(s' & [<-|Hs] & H)|H]; [right; left; exact H|left; eauto|auto].
Qed.

Lemma assign_value s x e ns ns' : assigns s x e -> run py s ns = (ns', None) -> exists v, py_eval py ns e = Ok v /\ dget x ns' = Some v.
Proof.
  intros [->|[ann ->]]; cbn [run assign seq]; destruct (py_eval py ns e) as [v|]; try discriminate.
  - intros [= <-]. exists v. split; [reflexivity|apply dget_dset_eq].
  - destruct (py_eval py _ ann); [|discriminate]. intros [= <-]. exists v. split; [reflexivity|apply dget_dset_eq].
Qed.
End Plain.

(** the last assignment to a name in a plain file is the one that scaffolding sees *)
Definition declares (s : pstmt) (x : string) : Prop := (exists e, assigns s x e) \/ exists ann, s = PAnn (GName x) ann None.

Lemma nodes_plain s : simple_stmt s -> exists n, nodes s = [n] /\ n <> SMultiAssign /\
  forall a, n = SAssign a -> exists x, a_target a = TgName x /\ ((exists e, a_value a = Some e /\ assigns s x e) \/ a_value a = None /\ exists ann, s = PAnn (GName x) ann None).
Proof.
  destruct s; cbn; try contradiction; intros P.
  - eexists. split; [reflexivity|]. split; [discriminate|]. intros a [=].
  - eexists. split; [reflexivity|]. destruct m; cbn; (split; [discriminate|]); intros a [=].
  - destruct ts as [|[y| | |] [|]]; try contradiction. eexists. split; [reflexivity|]. split; [discriminate|]. intros a [= <-]. exists y. split; [reflexivity|]. left. exists e. split; [reflexivity|]. now left.
  - destruct t as [y| | |]; try contradiction. eexists. split; [reflexivity|]. split; [discriminate|]. intros a [= <-]. exists y. split; [reflexivity|]. destruct e as [e|]; [left|right; cbn; eauto].
    exists e. split; [reflexivity|]. right. eauto.
Qed.

Lemma plain_last p : Forall simple_stmt p -> forall al c x, assigns_of (flat_map nodes p) = Ok al -> default_dict [] al = Ok c ->
  match dget x c with
  | None => forall s, In s p -> ~ declares s x
  | Some o => exists p1 s p2, p = p1 ++ s :: p2 /\ (forall s', In s' p2 -> ~ declares s' x) /\
                match o with Some e => assigns s x e | None => exists ann, s = PAnn (GName x) ann None end
  end.
Proof.
  intros P. induction p as [|s p IH] using rev_ind; intros al c x A D; [cbn in A; injection A as <-; cbn in D; injection D as <-; cbn; tauto|].
  apply Forall_app in P as [Pp Ps]. inversion Ps as [|? ? P1 _]; subst. specialize (IH Pp). rewrite flat_map_app in A. apply assigns_of_app_inv in A as (al1 & al2 & A1 & A2 & ->).
  destruct (proj2 (default_dict_ok al1)) as [c1 D1].
  { pose proof (default_dict_plain _ _ _ D) as Q. rewrite Forall_forall in Q. intros a Ha. apply Q, in_app_iff. now left. }
  rewrite (default_dict_app al1 al2 _ _ D1) in D. specialize (IH al1 c1 x A1 D1). cbn [flat_map] in A2. rewrite app_nil_r in A2.
  destruct (nodes_plain s P1) as (n & En & Nm & Hn). rewrite En in A2.
  assert (Other : al2 = [] -> ~ declares s x -> match dget x c with
    | None => forall s0, In s0 (p ++ [s]) -> ~ declares s0 x
    | Some o => exists p1 s0 p2, p ++ [s] = p1 ++ s0 :: p2 /\ (forall s', In s' p2 -> ~ declares s' x) /\ match o with Some e => assigns s0 x e | None => exists ann, s0 = PAnn (GName x) ann None end
    end).
  { intros -> Nd. cbn in D. injection D as <-. destruct (dget x c1) as [o|].
    - destruct IH as (p1 & s0 & p2 & -> & N & H). exists p1, s0, (p2 ++ [s]). split; [now rewrite <- app_assoc|]. split; [|exact H]. intros s' K. apply in_app_iff in K as [K|[<-|[]]]; auto.
    - intros s0 K. apply in_app_iff in K as [K|[<-|[]]]; auto. }
  destruct n as [i|e|a| |]; cbn in A2.
  - apply Other; [congruence|]. intros [[e [->|[ann ->]]]|[ann ->]]; cbn in En; discriminate.
  - apply Other; [congruence|]. intros [[e' [->|[ann ->]]]|[ann ->]]; cbn in En; discriminate.
  - injection A2 as <-. destruct (Hn a eq_refl) as (y & Ty & Hv). cbn [default_dict] in D. unfold default_of in D. rewrite Ty in D. injection D as <-.
    change (dupdate c1 [(y, a_value a)]) with (dset y (a_value a) c1). destruct (String.eqb x y) eqn:E.
    + apply String.eqb_eq in E. subst y. rewrite dget_dset_eq. exists p, s, []. split; [reflexivity|]. split; [intros s' []|].
      destruct Hv as [(e & -> & H)|[-> H]]; exact H.
    + apply String.eqb_neq in E. rewrite dget_dset_neq by congruence.
      assert (Nd : ~ declares s x).
      { intros [[e [->|[ann ->]]]|[ann ->]]; cbn in En; injection En as <-; cbn in Ty; congruence. }
      destruct (dget x c1) as [o|].
      * destruct IH as (p1 & s0 & p2 & -> & N & H). exists p1, s0, (p2 ++ [s]). split; [now rewrite <- app_assoc|]. split; [|exact H]. intros s' K. apply in_app_iff in K as [K|[<-|[]]]; auto.
      * intros s0 K. apply in_app_iff in K as [K|[<-|[]]]; auto.
  - congruence.
  - apply Other; [congruence|]. intros [[e' [->|[ann ->]]]|[ann ->]]; cbn in En; discriminate.
Qed.
