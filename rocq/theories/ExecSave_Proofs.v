(** What executing a config file gives after the library has written it. *)
From Verif Require Import Exec_Model Exec_Spec Exec_Proofs ExecText_Proofs PySource_Proofs FileStr_Proofs FileStrRead_Proofs FileStrOps_Proofs.
From Coq Require Import Lia FinFun.
Local Open Scope string_scope.
Local Open Scope list_scope.

Section Save.
Variable py : python.

Lemma seq_gives {A} (f : A -> dict mval -> outcome) (name : A -> string) (G : A -> mval -> Prop) l :
  (forall a ns ns', In a l -> f a ns = (ns', None) -> exists w, G a w /\ ns' = dset (name a) w ns) ->
  forall ns ns', seq f l ns = (ns', None) -> forall x,
    (dget x ns' = dget x ns /\ forall a, In a l -> name a <> x) \/ exists a w, In a l /\ name a = x /\ G a w /\ dget x ns' = Some w.
Proof.
  induction l as [|a l IH]; intros H ns ns' R x; [injection R as <-; left; split; [reflexivity|intros a []]|]. rewrite seq_cons in R. destruct (f a ns) as [ns1 [e|]] eqn:E; [discriminate|].
  destruct (H a ns ns1 (or_introl eq_refl) E) as (w & Gw & ->).
  destruct (IH (fun b n n' Hb => H b n n' (or_intror Hb)) _ ns' R x) as [[F N]|(b & v & Hb & Nb & Gb & Db)].
  - destruct (string_dec (name a) x) as [Ex|Ex].
    + right. exists a, w. split; [now left|]. split; [exact Ex|]. split; [exact Gw|]. rewrite F, <- Ex. apply dget_dset_eq.
    + left. split; [rewrite F; apply dget_dset_neq; congruence|]. intros b [<-|Hb]; [exact Ex|now apply N].
  - right. exists b, v. split; [now right|auto].
Qed.

Lemma run_import s ns ns' : import_only s -> simple_stmt s -> run py s ns = (ns', None) -> forall x,
  (dget x ns' = dget x ns /\ ~ touches s x) \/ exists w, gives py s x w /\ dget x ns' = Some w.
Proof.
  destruct s as [al|dots m al| | | | | | | | | |]; cbn [import_only]; try contradiction; intros _ P R x; cbn [run] in R.
  - destruct (seq_gives (import_alias py) import_name (fun a w => w = MModule (match snd a with Some _ => fst a | None => import_name a end)) al) with (ns := ns) (ns' := ns') (x := x) as [[F N]|(a & w & Ha & Na & Gw & D)]; [|exact R| |].
    + intros a n n' _. unfold import_alias, import_name. destruct (py_import py (fst a)); [discriminate|]. destruct (snd a); intros [= <-]; eexists; split; reflexivity.
    + left. split; [exact F|]. intros T. inversion T; subst. eapply N; [eassumption|reflexivity].
    + right. exists w. split; [|exact D]. left. exists al, a. auto.
  - destruct (seq_gives (from_alias py dots m) from_name (fun a w => py_from py dots m (fst a) = Ok w) al) with (ns := ns) (ns' := ns') (x := x) as [[F N]|(a & w & Ha & Na & Gw & D)]; [|exact R| |].
    + intros a n n' Ha. unfold from_alias, from_name. destruct (String.eqb (fst a) "*") eqn:E; [apply String.eqb_eq in E; now destruct (P a Ha)|]. unfold bind_name.
      destruct (py_from py dots m (fst a)) as [w|]; [|discriminate]. intros [= <-]. exists w. auto.
    + left. split; [exact F|]. intros T. inversion T; subst; [eapply N; [eassumption|reflexivity]|]. now apply (P a).
    + right. exists w. split; [|exact D]. right. exists dots, m, al, a. auto.
Qed.
Lemma gives_touches s x w : gives py s x w -> touches s x.
Proof. intros [(al & a & -> & H & <- & _)|(dots & m & al & a & -> & H & <- & _)]; constructor; exact H. Qed.

Lemma run_imports p : Forall import_only p -> Forall simple_stmt p -> forall ns ns', seq (run py) p ns = (ns', None) -> forall x,
  (dget x ns' = dget x ns /\ forall s, In s p -> ~ touches s x) \/ exists s w, In s p /\ gives py s x w /\ dget x ns' = Some w.
Proof.
  induction 1 as [|s p I _ IH]; intros P ns ns' R x; [injection R as <-; left; split; [reflexivity|intros s []]|]. inversion P as [|? ? Ps Pp]; subst. rewrite seq_cons in R.
  destruct (run py s ns) as [ns1 [e|]] eqn:E; [discriminate|]. destruct (IH Pp ns1 ns' R x) as [[F N]|(s' & w & Hs & G & D)]; [|right; exists s', w; split; [now right|auto]].
  destruct (run_import s ns ns1 I Ps E x) as [[F1 N1]|(w & G & D)].
  - left. split; [congruence|]. intros s' [<-|Hs]; auto.
  - right. exists s, w. split; [now left|]. split; [exact G|congruence].
Qed.

(** two namespaces that agree but on some names *)
Definition agree (X : string -> Prop) (ns ns' : dict mval) : Prop := forall x, ~ X x -> dget x ns = dget x ns'.

Lemma agree_dset (X : string -> Prop) x v ns ns' : agree X ns ns' -> agree (fun y => X y /\ y <> x) (dset x v ns) (dset x v ns').
Proof.
  intros A y Ny. destruct (string_dec y x) as [->|E]; [now rewrite !dget_dset_eq|]. rewrite !dget_dset_neq by congruence. apply A. intros H. apply Ny. auto.
Qed.
Lemma agree_weaken (X Y : string -> Prop) ns ns' : (forall x, X x -> Y x) -> agree X ns ns' -> agree Y ns ns'.
Proof. intros H A x N. apply A. auto. Qed.

Lemma seq_agree {A} (f : A -> dict mval -> outcome) (name : A -> string) l : (forall a ns, In a l -> exists r, f a ns = bind_name (name a) r ns /\ forall ns', f a ns' = bind_name (name a) r ns') ->
  forall X ns ns' n1, agree X ns ns' -> seq f l ns = (n1, None) -> exists n1', seq f l ns' = (n1', None) /\ agree (fun x => X x /\ forall a, In a l -> name a <> x) n1 n1'.
Proof.
  induction l as [|a l IH]; intros H X ns ns' n1 Ag R.
  - injection R as <-. exists ns'. split; [reflexivity|]. apply (agree_weaken X); [|exact Ag]. intros x Hx. split; [exact Hx|intros a []].
  - rewrite seq_cons in *. destruct (H a ns (or_introl eq_refl)) as (r & E1 & E2). rewrite E1 in R. rewrite (E2 ns'). destruct r as [v|e]; cbn [bind_name] in *; [|discriminate].
    destruct (IH (fun b n Hb => H b n (or_intror Hb)) _ _ _ _ (agree_dset X (name a) v ns ns' Ag) R) as (n1' & R' & Ag'). exists n1'. split; [exact R'|].
    eapply agree_weaken; [|exact Ag']. cbv beta. intros x [[Hx Nx] Na]. split; [exact Hx|]. intros b [<-|Hb]; [congruence|now apply Na].
Qed.

Section Uses.
Variable uses : list tok -> list string.
Hypothesis Local : local py uses.

Lemma eval_agree X ns ns' e : agree X ns ns' -> (forall x, In x (uses e) -> ~ X x) -> py_eval py ns e = py_eval py ns' e.
Proof. intros Ag N. apply Local. intros x Hx. apply Ag, N, Hx. Qed.

Lemma run_agree s X ns ns' n1 : simple_stmt s -> agree X ns ns' -> (forall x, In x (needs uses s) -> ~ X x) -> run py s ns = (n1, None) ->
  exists n1', run py s ns' = (n1', None) /\ agree (fun x => X x /\ ~ touches s x) n1 n1'.
Proof.
  intros P Ag N R. destruct s as [al|dots m al|ts e|t ann e| | | | | | | |]; cbn [simple_stmt] in P; try contradiction; cbn [run needs] in *.
  - destruct (seq_agree (import_alias py) import_name al) with (X := X) (ns := ns) (ns' := ns') (n1 := n1) as (n1' & R' & Ag'); [|exact Ag|exact R|].
    + intros a n _. unfold import_alias, import_name. destruct (py_import py (fst a)) as [e|].
      * exists (Raise e). split; [reflexivity|intros; reflexivity].
      * destruct (snd a) as [n0|]; [exists (Ok (MModule (fst a)))|exists (Ok (MModule (hd "" (split "." (fst a)))))]; (split; [reflexivity|intros; reflexivity]).
    + exists n1'. split; [exact R'|]. eapply agree_weaken; [|exact Ag']. cbv beta. intros x [Hx Na]. split; [exact Hx|]. intros T. inversion T; subst. eapply Na; [eassumption|reflexivity].
  - destruct (seq_agree (from_alias py dots m) from_name al) with (X := X) (ns := ns) (ns' := ns') (n1 := n1) as (n1' & R' & Ag'); [|exact Ag|exact R|].
    + intros a n Ha. unfold from_alias, from_name. destruct (String.eqb (fst a) "*") eqn:E; [apply String.eqb_eq in E; now destruct (P a Ha)|]. eexists. split; [reflexivity|intros; reflexivity].
    + exists n1'. split; [exact R'|]. eapply agree_weaken; [|exact Ag']. cbv beta. intros x [Hx Na]. split; [exact Hx|]. intros T. inversion T; subst; [eapply Na; [eassumption|reflexivity]|]. now apply (P a).
  - destruct ts as [|[x| | |] [|]]; try contradiction. rewrite <- (eval_agree X ns ns' e Ag N). destruct (py_eval py ns e) as [v|]; [|discriminate]. cbn [seq assign] in *. injection R as <-.
    eexists. split; [reflexivity|]. eapply agree_weaken; [|apply agree_dset, Ag]. cbv beta. intros y [Hy Ny]. split; [exact Hy|]. intros T. inversion T as [| | |? ? t ? Ht Hx| | | | | | | | | | |]; subst. destruct Ht as [<-|[]]. destruct Hx as [<-|[]]. now apply Ny.
  - destruct t as [x| | |]; try contradiction. destruct e as [e|].
    + rewrite <- (eval_agree X ns ns' e Ag) by (intros y Hy; apply N, in_or_app; now left). destruct (py_eval py ns e) as [v|]; [|discriminate]. cbn [assign] in *.
      pose proof (agree_dset X x v ns ns' Ag) as Ag2.
      rewrite <- (eval_agree _ _ _ ann Ag2) by (intros y Hy [K _]; exact (N y (in_or_app _ _ _ (or_intror Hy)) K)). destruct (py_eval py (dset x v ns) ann); [|discriminate]. injection R as <-.
      eexists. split; [reflexivity|]. eapply agree_weaken; [|exact Ag2]. cbv beta. intros y [Hy Ny]. split; [exact Hy|]. intros T. inversion T as [| | | |? ? ? ? Hx| | | | | | | | | |]; subst. destruct Hx as [<-|[]]. now apply Ny.
    + rewrite <- (eval_agree X ns ns' ann Ag N). destruct (py_eval py ns ann); [|discriminate]. injection R as <-. exists ns'. split; [reflexivity|]. eapply agree_weaken; [|exact Ag]. cbv beta. intros y Hy. split; [exact Hy|]. intros T. inversion T.
Qed.

Lemma runs_agree p : Forall simple_stmt p -> forall X ns ns' n1, agree X ns ns' -> clear_of uses X p -> seq (run py) p ns = (n1, None) ->
  exists n1', seq (run py) p ns' = (n1', None) /\ agree (fun x => X x /\ forall s, In s p -> ~ touches s x) n1 n1'.
Proof.
  induction 1 as [|s p P _ IH]; intros X ns ns' n1 Ag C R.
  - injection R as <-. exists ns'. split; [reflexivity|]. eapply agree_weaken; [|exact Ag]. cbv beta. intros x Hx. split; [exact Hx|intros s []].
  - destruct C as [N C]. rewrite seq_cons in *. destruct (run py s ns) as [n0 [e|]] eqn:E; [discriminate|]. destruct (run_agree s X ns ns' n0 P Ag N E) as (n0' & R0 & Ag0). rewrite R0.
    destruct (IH _ _ _ _ Ag0 C R) as (n1' & R' & Ag'). exists n1'. split; [exact R'|]. eapply agree_weaken; [|exact Ag']. cbv beta. intros x [[Hx Nx] Na]. split; [exact Hx|]. intros s' [<-|Hs]; auto.
Qed.
Lemma clear_of_app p q : forall X : string -> Prop, clear_of uses X (p ++ q) -> clear_of uses X p /\ clear_of uses (fun x => X x /\ forall s, In s p -> ~ touches s x) q.
Proof.
  assert (W : forall q (X Y : string -> Prop), (forall x, Y x -> X x) -> clear_of uses X q -> clear_of uses Y q).
  { induction q0 as [|s q0 IH]; intros X Y H C; [exact I|]. destruct C as [N C]. split; [intros x Hx K; exact (N x Hx (H x K))|]. eapply IH; [|exact C]. cbv beta. intros x [Hx Nx]. auto. }
  induction p as [|s p IH]; intros X C; cbn [app clear_of] in *.
  - split; [exact I|]. eapply W; [|exact C]. cbv beta. tauto.
  - destruct C as [N C]. destruct (IH _ C) as [C1 C2]. split; [split; assumption|]. eapply W; [|exact C2]. cbv beta. intros x [Hx Ns]. split; [split; [exact Hx|apply Ns; now left]|]. intros s' Hs. apply Ns. now right.
Qed.
End Uses.

(* ------------------------------------------------------------------ *)
(** * A file written anew *)

Lemma asg_touches a x y e : a_target a = TgName x -> a_value a = Some e -> (touches (asg_stmt a) y <-> y = x).
Proof.
  destruct a as [tg ann v]. cbn. intros -> ->. destruct ann as [ann|].
  - split; [intros T; inversion T as [| | | |? ? ? ? Hx| | | | | | | | | |]; subst; now destruct Hx as [<-|[]]|]. intros ->. apply t_ann. now left.
  - split; [intros T; inversion T as [| | |? ? t ? Ht Hx| | | | | | | | | | |]; subst; destruct Ht as [<-|[]]; now destruct Hx as [<-|[]]|]. intros ->. eapply t_assign; [now left|now left].
Qed.
Lemma asg_touches' a x y : a_target a = TgName x -> touches (asg_stmt a) y -> y = x.
Proof.
  destruct a as [tg ann v]. cbn. intros ->. destruct ann as [ann|]; [intros T; inversion T as [| | | |? ? ? ? Hx| | | | | | | | | |]; subst; now destruct Hx as [<-|[]]|].
  destruct v as [v|]; intros T; [|inversion T]. inversion T as [| | |? ? t ? Ht Hx| | | | | | | | | | |]; subst. destruct Ht as [<-|[]]. now destruct Hx as [<-|[]].
Qed.
Lemma asg_assigns a x e : a_target a = TgName x -> a_value a = Some e -> assigns (asg_stmt a) x e.
Proof. destruct a as [tg ann v]. cbn. intros -> ->. destruct ann as [ann|]; [right; eauto|now left]. Qed.

Lemma read_targets d es : read_from d es -> map a_target es = map TgName (dkeys d).
Proof. induction 1 as [|q a d es [_ T] _ IH]; [reflexivity|]. cbn. now rewrite T, IH. Qed.
Lemma brought_wf it : item_ok it -> dwf (brought it).
Proof.
  intros (W1 & W2 & _). unfold brought. generalize (i_end it) W2. intros e We.
  unfold dwf in *. unfold dkeys. rewrite map_app. fold (dkeys (map (annotate e) (i_defaults it))). rewrite annotate_keys. apply NoDup_app_intro; [exact W1|now apply dfilter_wf|].
  intros k H K. change (In k (dkeys (dfilter (fun x => negb (dmem x (i_defaults it))) e))) in K. apply In_dkeys_dget in K as [v K]. rewrite dget_dfilter in K. destruct (dmem k (i_defaults it)) eqn:E; [discriminate|]. apply dmem_In in H. congruence.
Qed.
Lemma missing_wf it al : item_ok it -> dwf (missing it al).
Proof. intros H. apply dfilter_wf, brought_wf, H. Qed.

(** the statements of the parameters bind each its own name *)
Lemma read_later d es es1 a es2 x s : read_from d es -> dwf d -> es = es1 ++ a :: es2 -> a_target a = TgName x -> In s (map asg_stmt es1 ++ map asg_stmt es2) -> ~ touches s x.
Proof.
  intros R W -> T Hs Ts. pose proof (read_targets _ _ R) as E. rewrite <- map_app in Hs. apply in_map_iff in Hs as (b & <- & Hb).
  assert (Tb : exists y, a_target b = TgName y).
  { assert (K : In (a_target b) (map a_target (es1 ++ a :: es2))) by (apply in_map; apply in_app_iff in Hb as [Hb|Hb]; apply in_app_iff; [now left|right; now right]).
    rewrite E in K. apply in_map_iff in K as (y & <- & _). eauto. }
  destruct Tb as [y Tb]. apply (asg_touches' b y x Tb) in Ts. subst y.
  assert (N : NoDup (map a_target (es1 ++ a :: es2))).
  { rewrite E. apply Injective_map_NoDup; [|exact W]. intros u v [=]. assumption. }
  rewrite map_app in N. cbn [map] in N. apply NoDup_remove_2 in N. apply N. rewrite T, <- Tb, <- map_app. now apply in_map.
Qed.

(** the value of a parameter is that of the expression written for it, evaluated at the place where it stands *)
Lemma last_value p1 a p2 x e ns0 ns : a_target a = TgName x -> a_value a = Some e -> (forall s, In s p2 -> ~ touches s x) ->
  seq (run py) (p1 ++ asg_stmt a :: p2) ns0 = (ns, None) ->
  exists ns1 w, seq (run py) p1 ns0 = (ns1, None) /\ py_eval py ns1 e = Ok w /\ dget x ns = Some w.
Proof.
  intros T V N R. destruct (runs_last py p1 _ p2 x ns0 ns R N) as (ns1 & ns2 & R1 & R2 & D). destruct (assign_value py _ x e ns1 ns2 (asg_assigns a x e T V) R2) as (w & Ew & Dw).
  exists ns1, w. split; [exact R1|]. split; [exact Ew|]. congruence.
Qed.

Lemma scaffold_program astor it out : item_ok it -> scaffold astor it None = Ok out -> exists es, read_from (brought it) es /\ program out = Some (new_program it es).
Proof.
  intros Hit H. rewrite (scaffold_new astor it Hit) in H. injection H as <-. destruct (program_rewritten it None not_existing [] Hit eq_refl eq_refl) as (es & Re & P).
  assert (Em : missing it (l_assigns not_existing) = brought it).
  { unfold missing. cbn [not_existing l_assigns contains_varname existsb negb]. unfold dfilter. generalize (brought it). intros l. induction l as [|q l IH]; [reflexivity|]. cbn [filter]. f_equal. exact IH. }
  assert (Eb : missing_begin it (l_assigns not_existing) = i_begin it).
  { unfold missing_begin. cbn [not_existing l_assigns contains_varname existsb negb]. generalize (i_begin it). intros l. induction l as [|q l IH]; [reflexivity|]. cbn [filter]. f_equal. exact IH. }
  rewrite Em in Re. rewrite Eb in P. exists es. split; [exact Re|exact P].
Qed.

Lemma new_value initial it es es1 a es2 x e d : item_ok it -> dwf initial -> read_from (brought it) es -> es = es1 ++ a :: es2 -> a_target a = TgName x -> a_value a = Some e ->
  active_load py initial (Some (new_program it es)) = Ok d ->
  exists ns w, seq (run py) (new_program it es1) initial = (ns, None) /\ py_eval py ns e = Ok w /\
    dget x d = if startswith x "__" then None else match w with MVal v => Some v | MModule _ => None end.
Proof.
  intros Hit W Re E T V L. destruct (active_load_inv py initial _ d L) as (r & ns & _ & R & ->). pose proof (runs_wf' py _ _ _ W R) as Wn.
  assert (Ep : new_program it es = new_program it es1 ++ asg_stmt a :: map asg_stmt es2) by (unfold new_program; rewrite E, map_app, !app_assoc; reflexivity).
  rewrite Ep in R. destruct (last_value (new_program it es1) a (map asg_stmt es2) x e initial ns T V) with (2 := R) as (ns1 & w & R1 & Ew & D).
  { intros s Hs. apply (read_later _ es es1 a es2 x s Re (brought_wf it Hit) E T). apply in_or_app. now right. }
  exists ns1, w. split; [exact R1|]. split; [exact Ew|]. rewrite (user_dict_get ns x Wn), D. reflexivity.
Qed.

(** evaluated after the imports and the selector only, if it depends on no earlier parameter *)
Lemma new_value_alone uses initial it es es1 a es2 x e d : local py uses -> item_ok it -> dwf initial -> read_from (brought it) es -> es = es1 ++ a :: es2 -> a_target a = TgName x -> a_value a = Some e ->
  (forall y b, In y (uses e) -> In b es1 -> a_target b <> TgName y) ->
  active_load py initial (Some (new_program it es)) = Ok d ->
  exists ns w, seq (run py) (new_program it []) initial = (ns, None) /\ py_eval py ns e = Ok w /\
    dget x d = if startswith x "__" then None else match w with MVal v => Some v | MModule _ => None end.
Proof.
  intros Lo Hit W Re E T V N L. destruct (new_value initial it es es1 a es2 x e d Hit W Re E T V L) as (ns1 & w & R1 & Ew & D).
  assert (Ep : new_program it es1 = new_program it [] ++ map asg_stmt es1) by (unfold new_program; rewrite !app_assoc; cbn [map]; now rewrite app_nil_r).
  rewrite Ep, seq_app in R1. destruct (seq (run py) (new_program it []) initial) as [ns0 [e0|]] eqn:R0; [discriminate|]. exists ns0, w. split; [reflexivity|]. split; [|exact D].
  rewrite <- Ew. apply Lo. intros y Hy. pose proof (runs_frame py (map asg_stmt es1) y ns0) as F. rewrite R1 in F. symmetry. apply F. intros s Hs Ts. apply in_map_iff in Hs as (b & <- & Hb).
  assert (Tb : exists z, a_target b = TgName z).
  { pose proof (read_targets _ _ Re) as Et. assert (K : In (a_target b) (map a_target es)) by (apply in_map; rewrite E; apply in_or_app; now left). rewrite Et in K. apply in_map_iff in K as (z & <- & _). eauto. }
  destruct Tb as [z Tb]. apply (asg_touches' b z y Tb) in Ts. subst z. exact (N y b Hy Hb Tb).
Qed.

(* ------------------------------------------------------------------ *)
(** * A file written again *)

Lemma imp_stmt_only i : import_only (imp_stmt i).
Proof. now destruct i. Qed.
Lemma combine_keeps existing new i : In i existing -> In i (combine_imports existing new).
Proof.
  intros H. unfold combine_imports. apply in_map_iff. exists (i, false). split; [reflexivity|]. apply fold_add_incl. apply in_map_iff. exists i. auto.
Qed.
Lemma imports_of_in st : forall is i, imports_of st = Ok is -> In (SImport i) st -> In i is.
Proof.
  induction st as [|n st IH]; intros is i H K; [destruct K|]. cbn [imports_of] in H. destruct K as [->|K].
  - destruct (imports_of st); [|discriminate]. injection H as <-. now left.
  - destruct n as [j|e|a| |]; try discriminate; try (now apply IH). destruct (imports_of st) as [js|]; [|discriminate]. injection H as <-. right. now apply IH.
Qed.
Lemma header_kept s x is : import_only s -> plain_aliases s -> simple_stmt s -> imports_of (nodes s) = Ok is -> touches s x -> exists i, In i is /\ touches (imp_stmt i) x.
Proof.
  destruct s as [al|dots m al| | | | | | | | | |]; cbn [import_only]; try contradiction; intros _ O P H T.
  - cbn in H. injection H as <-. exists (of_import al). split; [now left|]. unfold imp_stmt. unfold of_import at 1. rewrite aliases_of_import, (settled_one_way al O). exact T.
  - destruct m as [m|]; cbn in H; [|discriminate]. injection H as <-. eexists. split; [now left|]. unfold imp_stmt. rewrite aliases_of_from, (settled_one_way al O).
    inversion T; subst; [now constructor|]. now destruct (P a).
Qed.

Lemma default_declares p x : Forall simple_stmt p -> forall al, assigns_of (flat_map nodes p) = Ok al -> (exists s e, In s p /\ assigns s x e) -> contains_varname al x = true.
Proof.
  intros _ al A (s & e & Hs & H). unfold contains_varname. apply existsb_exists.
  assert (K : exists a, In (SAssign a) (nodes s) /\ a_target a = TgName x) by (destruct H as [->|[ann ->]]; (eexists; split; [now left|reflexivity])).
  destruct K as (a & Ha & T). exists a. split; [apply (assigns_of_in _ _ a A); apply in_flat_map; eauto|]. unfold varname. rewrite T. apply String.eqb_refl.
Qed.

Theorem rewritten_values astor uses initial it t f p t' d p' d' :
  local py uses -> item_ok it -> fresh initial -> supported t f -> program t = Some p -> scaffold astor it (Some t) = Ok t' -> program t' = Some p' ->
  Forall simple_stmt (p ++ p') -> Forall plain_aliases p -> one_meaning py (p ++ p') ->
  (missing_begin it (l_assigns f) <> [] -> forall s, In s p -> ~ imports s "s") ->
  clear_of uses (put_before it f) p ->
  active_load py initial (Some p) = Ok d -> active_load py initial (Some p') = Ok d' ->
  forall x, dmem x d = true -> dmem x (missing it (l_assigns f)) = false -> dget x d' = dget x d.
Proof.
  intros Lo Hit Fr Su Pt Sc Pt' Sim Pa One Sel Cl L L' x Dx Mx. pose proof Su as (Lf & _). rewrite (scaffold_eq astor it t f Hit Lf) in Sc. injection Sc as <-.
  apply Forall_app in Sim as [Sp Sp']. destruct Fr as [Wi Fr].
  destruct (supported_program t f p Su Pt) as (ph & pb & Ep & Pb & Fh).
  destruct (program_rewritten it (Some t) f pb Hit Su Pb) as (es & Re & Pn). rewrite Pn in Pt'. injection Pt' as <-.
  destruct (load_file_inv t f Lf) as (st & Ps & Is & As & _ & _). destruct (program_parse _ _ Pt) as (st' & Ps' & Ii & Ai).
  unfold parse in Ps. rewrite Ps' in Ps. injection Ps as ->. rewrite Is in Ii. rewrite As in Ai. symmetry in Ii, Ai.
  destruct (active_load_inv py initial p d L) as (r & ns & _ & R & ->). destruct (active_load_inv py initial _ d' L') as (r' & ns' & _ & R' & ->).
  pose proof (runs_wf' py _ _ _ Wi R) as W. pose proof (runs_wf' py _ _ _ Wi R') as W'. rewrite (user_dict_get ns' x W'), (user_dict_get ns x W).
  (* the setting is bound by the program *)
  assert (Tx : exists s, In s p /\ touches s x).
  { apply dmem_In, In_dkeys_dget in Dx as [v Dv]. rewrite (user_dict_get ns x W) in Dv. destruct (startswith x "__") eqn:Ex; [discriminate|]. destruct (dget x ns) as [w|] eqn:Dw; [|discriminate].
    apply dget_Some_In in Dw. pose proof (runs_bound py p initial x) as B. rewrite R in B. destruct (B (in_map fst _ _ Dw)) as [K|K]; [|exact K]. specialize (Fr x K). congruence. }
  destruct (startswith x "__"); [reflexivity|].
  set (is := combine_imports (l_imports f) (item_imports it)) in *. set (bs := map (fun _ => selector_asgn) (missing_begin it (l_assigns f))) in *.
  (* the new program, part by part *)
  rewrite Ep, seq_app in R. destruct (seq (run py) ph initial) as [n0 [e|]] eqn:R0; [discriminate|].
  rewrite seq_app in R'. destruct (seq (run py) (map imp_stmt is) initial) as [m0 [e|]] eqn:R0'; [discriminate|].
  rewrite seq_app in R'. destruct (seq (run py) (map asg_stmt bs) m0) as [m1 [e|]] eqn:R1'; [discriminate|].
  rewrite seq_app in R'. destruct (seq (run py) pb m1) as [m2 [e|]] eqn:R2'; [discriminate|].
  assert (Sph : Forall simple_stmt ph /\ Forall simple_stmt pb) by (apply Forall_app; now rewrite <- Ep). destruct Sph as [Sph Spb].
  assert (Si : Forall simple_stmt (map imp_stmt is)) by (apply Forall_app in Sp' as [H _]; exact H).
  assert (Bs : forall s y, In s (map asg_stmt bs) -> touches s y -> y = "s" /\ missing_begin it (l_assigns f) <> []).
  { intros s y Hs Ts. unfold bs in Hs. destruct (missing_begin it (l_assigns f)) as [|q l]; [destruct Hs|]. split; [|discriminate].
    rewrite map_map in Hs. apply in_map_iff in Hs as (q' & <- & _). exact (asg_touches' selector_asgn "s" y eq_refl Ts). }
  assert (Ns : missing_begin it (l_assigns f) <> [] -> forall s, In s p -> ~ touches s "s").
  { intros Nm s Hs Ts. rewrite Forall_forall in Sp. destruct (plain_touches s "s" (Sp s Hs) Ts) as [[e He]|K]; [|exact (Sel Nm s Hs K)].
    assert (C : contains_varname (l_assigns f) "s" = true) by (apply (default_declares p "s"); [now apply Forall_forall|exact Ai|eauto]).
    unfold missing_begin in Nm. destruct Hit as (_ & _ & _ & _ & [Eb|[Eb _]]); rewrite Eb in Nm; [|now apply Nm]. cbn [filter fst selector_assign] in Nm. rewrite C in Nm. now apply Nm. }
  assert (Ag : agree (fun y => put_before it f y /\ forall s, In s ph -> ~ touches s y) n0 m1).
  { intros y Ny. assert (E1 : ~ (y = "s" /\ missing_begin it (l_assigns f) <> []) -> dget y m1 = dget y m0).
    { intros K. pose proof (runs_frame py (map asg_stmt bs) y m0) as F. rewrite R1' in F. apply F. intros s Hs Ts. exact (K (Bs s y Hs Ts)). }
    assert (Nsy : ~ (y = "s" /\ missing_begin it (l_assigns f) <> [])).
    { intros [-> Nm]. apply Ny. split; [right; auto|]. intros s Hs. apply (Ns Nm). rewrite Ep. apply in_or_app. now left. }
    rewrite (E1 Nsy). destruct (run_imports ph Fh Sph initial n0 R0 y) as [[F N]|(s & w & Hs & G & D)].
    - rewrite F. destruct (run_imports (map imp_stmt is)) with (3 := R0') (x := y) as [[F' _]|(s' & w' & Hs' & G' & D')]; [apply Forall_forall; intros s Hs; apply in_map_iff in Hs as (i & <- & _); apply imp_stmt_only|exact Si|congruence|].
      exfalso. apply Ny. split; [|exact N]. left. apply in_map_iff in Hs' as (i & <- & Hi). exists i. split; [exact Hi|now apply gives_touches in G'].
    - rewrite D. destruct (run_imports (map imp_stmt is)) with (3 := R0') (x := y) as [[F' N']|(s' & w' & Hs' & G' & D')]; [apply Forall_forall; intros s0 Hs0; apply in_map_iff in Hs0 as (i & <- & _); apply imp_stmt_only|exact Si| |].
      + exfalso. assert (Hsp : In s p) by (rewrite Ep; apply in_or_app; now left).
        assert (Hn : exists js, imports_of (nodes s) = Ok js /\ forall j, In j js -> In j (l_imports f)).
        { rewrite Forall_forall in Fh. specialize (Fh s Hs). destruct s as [al|dots m al| | | | | | | | | |]; cbn in Fh; try contradiction; cbn [nodes].
          - exists [of_import al]. split; [reflexivity|]. intros j [<-|[]]. apply (imports_of_in _ _ _ Ii). apply in_flat_map. exists (PImport al). split; [exact Hsp|now left].
          - destruct m as [m|].
            + eexists. split; [reflexivity|]. intros j [<-|[]]. apply (imports_of_in _ _ _ Ii). apply in_flat_map. exists (PFrom dots (Some m) al). split; [exact Hsp|now left].
            + exfalso. assert (K : exists is0, imports_of (flat_map nodes p) = Ok is0) by eauto. apply imports_of_ok with (e := LibExn "CouldNotExtractObjectImportFromAstException") in K. apply K. apply in_flat_map. exists (PFrom dots None al). split; [exact Hsp|]. left. reflexivity. }
        destruct Hn as (js & Ej & Hj). rewrite Forall_forall in Fh, Pa, Sp. destruct (header_kept s y js (Fh s Hs) (Pa s Hsp) (Sp s Hsp) Ej (gives_touches s y w G)) as (i & Hi & Ti).
        apply (N' (imp_stmt i)); [|exact Ti]. apply in_map. apply combine_keeps, Hj, Hi.
      + rewrite D'. f_equal. apply (One s s' y w w'); [apply in_or_app; left; rewrite Ep; apply in_or_app; now left|apply in_or_app; right; apply in_or_app; now left|exact G|exact G']. }
  rewrite Ep in Cl. destruct (clear_of_app uses ph pb _ Cl) as [_ Clb]. destruct (runs_agree uses Lo pb Spb _ n0 m1 ns Ag Clb R) as (m2' & R2 & Ag2). rewrite R2 in R2'. injection R2' as ->.
  assert (E2 : dget x ns = dget x m2).
  { apply Ag2. intros [[_ N1] N2]. destruct Tx as (s & Hs & Ts). rewrite Ep in Hs. apply in_app_iff in Hs as [Hs|Hs]; [exact (N1 s Hs Ts)|exact (N2 s Hs Ts)]. }
  assert (E3 : dget x ns' = dget x m2).
  { pose proof (runs_frame py (map asg_stmt es) x m2) as F. rewrite R' in F. apply F. intros s Hs Ts. apply in_map_iff in Hs as (a & <- & Ha).
    assert (K : In (a_target a) (map TgName (dkeys (missing it (l_assigns f))))) by (rewrite <- (read_targets _ _ Re); now apply in_map).
    apply in_map_iff in K as (y & Ey & Hy). apply (asg_touches' a y x) in Ts; [|congruence]. subst y. apply dmem_In in Hy. congruence. }
  now rewrite E3, E2.
Qed.
End Save.
