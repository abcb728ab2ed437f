(** Proofs for acting on views. *)
From Verif Require Import Runner_Model View_Model View_Spec Selector_Proofs GetAttr_Proofs GetAttr_Props Selector_Props.
Local Open Scope string_scope.
Local Open Scope list_scope.

Lemma dget_smgrs w n : dget n (smgrs w) = option_map as_smgr (dget n w).
Proof. unfold smgrs. induction w as [|[k m] w IH]; [reflexivity|]. cbn. destruct (String.eqb n k); [reflexivity|exact IH]. Qed.
Lemma world_mgr w n m : world_ok w -> dget n w = Some m -> mgr_ok (as_smgr m).
Proof. intros [_ H] E. apply (H n). rewrite dget_smgrs, E. reflexivity. Qed.
Lemma mgr_nodup m : mgr_ok (as_smgr m) -> NoDup (map reg_name (i_specific (v_items m))).
Proof. intros (i & Hi & Hn & Nd & _). cbn in Hi. injection Hi as <-. exact Nd. Qed.

Lemma find_registrar_In l r : NoDup (map reg_name l) -> In r l -> find_registrar (reg_name r) l = Some r.
Proof.
  unfold find_registrar. induction l as [|a l IH]; intros N H; [destruct H|]. inversion N as [|? ? N1 N2]; subst. cbn. destruct H as [->|H].
  - now rewrite eqb_refl_s.
  - destruct (String.eqb (reg_name a) (reg_name r)) eqn:E; [|now apply IH]. apply String.eqb_eq in E. exfalso. apply N1. rewrite E. now apply in_map.
Qed.
Lemma find_registrar_None l x : ~ In x (map reg_name l) -> find_registrar x l = None.
Proof.
  unfold find_registrar. intros H. destruct (find _ l) as [r|] eqn:E; [|reflexivity]. apply find_some in E as [E1 E2]. apply String.eqb_eq in E2. exfalso. apply H. rewrite <- E2. now apply in_map.
Qed.
Lemma join_not_empty l : l <> [] -> l <> [""] -> join sdot l <> "".
Proof.
  intros H1 H2. destruct l as [|a [|b l]]; [congruence| |].
  - cbn. intros ->. congruence.
  - intros E. cbn [join] in E. destruct a; cbn in E; discriminate.
Qed.

Lemma reg_get_plain c parts : parts <> [] -> reg_plain parts -> reg_get c parts = coll_get c parts.
Proof.
  destruct parts as [|x parts]; [congruence|]. intros _ [H1 H2]. unfold reg_get. apply String.eqb_neq in H1. rewrite H1. apply mem_false in H2. now rewrite H2.
Qed.
Lemma gfc_in m g c parts xs : NoDup (map reg_name (i_specific (v_items m))) -> in_collection (as_smgr m) g c parts xs ->
  Forall (fun x => has_char dot x = false) xs -> parts <> [""] -> reg_plain parts ->
  get_func_or_collection (v_items m) (join sdot xs) =
  match coll_get c parts with
  | Raise e => Raise e
  | Ok f => if g then match f with FThing (TBroken e) => Raise e | FOther => Raise AttributeError | _ => Ok (false, f) end else Ok (true, f)
  end.
Proof.
  intros N Hc Hd Hne Hp. assert (X : xs <> []) by (intros ->; inversion Hc). unfold get_func_or_collection. rewrite parts_join by assumption.
  destruct Hc as [i r rest Hi Hr Hne2|i x rest Hi Hx]; cbn in Hi; injection Hi as <-.
  - rewrite (find_registrar_In _ _ N Hr). assert (J := join_not_empty rest Hne2 Hne). apply String.eqb_neq in J. rewrite J. rewrite (reg_get_plain _ _ Hne2 Hp). destruct (coll_get (reg_coll r) rest) as [[c'|[]|]|]; reflexivity.
  - rewrite find_registrar_None by exact Hx. unfold general_get. rewrite reg_get_plain by (try discriminate; exact Hp). destruct (coll_get (i_general (v_items m)) (x :: rest)) as [[c'|[]|]|]; reflexivity.
Qed.
Lemma gfc_class_dict m r : NoDup (map reg_name (i_specific (v_items m))) -> In r (i_specific (v_items m)) -> has_char dot (reg_name r) = false ->
  get_func_or_collection (v_items m) (reg_name r) = Ok (true, FColl (reg_coll r)).
Proof.
  intros N Hr Hd. unfold get_func_or_collection. replace (path_parts (reg_name r)) with [reg_name r] by (symmetry; unfold path_parts, mk_sp; cbn; now apply split_no_sep).
  rewrite (find_registrar_In _ _ N Hr). reflexivity.
Qed.

Lemma prefix_sections m g c parts e : forall rest zs, rest <> [] -> zs <> [] -> in_collection (as_smgr m) g c parts (zs ++ rest) -> leads c parts e ->
  (exists r, zs = [reg_name r] /\ In r (i_specific (v_items m))) \/ exists p q c', p <> [] /\ parts = p ++ q /\ in_collection (as_smgr m) g c p zs /\ leads c p (EColl c').
Proof.
  intros rest. revert parts e. induction rest as [|x rest IH] using rev_ind; intros parts e zs Hr Hz Hc Hl; [congruence|].
  rewrite app_assoc in Hc. destruct (in_collection_prefix _ _ _ _ _ _ Hc) as [E|[(y & E & Hy)|(p & Hne & -> & Hc')]].
  - destruct zs; [congruence|discriminate].
  - cbn in Hy. apply in_map_iff in Hy as (r & <- & Hr'). destruct zs as [|z zs]; [congruence|]. destruct zs; [|discriminate]. destruct rest; [|discriminate]. left. exists r. cbn in E. rewrite E. auto.
  - destruct (leads_prefix c p x e Hne Hl) as [c' Hl']. destruct rest as [|r0 rest0].
    + right. rewrite app_nil_r in Hc'. exists p, [x], c'. auto.
    + destruct (IH p (EColl c') zs ltac:(discriminate) Hz Hc' Hl') as [L|(p2 & q & c2 & H1 & -> & H2 & H3)]; [now left|].
      right. exists p2, (q ++ [x]), c2. rewrite app_assoc. auto.
Qed.

Lemma Forall_app_l {A} (P : A -> Prop) a b : Forall P (a ++ b) -> Forall P a.
Proof. intros H. now apply Forall_app in H. Qed.
Lemma reg_plain_app p q : p <> [] -> reg_plain (p ++ q) -> reg_plain p.
Proof. destruct p; [congruence|]. now cbn. Qed.
Lemma usable_parts m g c parts xs : in_collection (as_smgr m) g c parts xs -> usable xs -> ~ In "" parts.
Proof.
  intros H U I. unfold usable in U. rewrite Forall_forall in U. destruct H as [i r rest Hi Hr Hne|i x rest Hi Hx].
  - destruct (U "" (or_intror I)) as [_ X]. now apply X.
  - destruct (U "" I) as [_ X]. now apply X.
Qed.

Definition nodots (xs : list string) : Prop := Forall (fun x => has_char dot x = false) xs.

Lemma sections_on_the_way m g c parts e secs x : mgr_ok (as_smgr m) -> in_collection (as_smgr m) g c parts (secs ++ [x]) -> leads c parts e ->
  reg_plain parts -> usable (secs ++ [x]) -> nodots (secs ++ [x]) ->
  forall before y after, secs = before ++ y :: after -> exists b c', get_func_or_collection (v_items m) (join sdot (before ++ [y])) = Ok (b, FColl c').
Proof.
  intros Hm Hc Hl Hr Hu Hd before y after ->. apply mgr_nodup in Hm.
  replace ((before ++ y :: after) ++ [x]) with ((before ++ [y]) ++ (after ++ [x])) in * by (rewrite <- !app_assoc; reflexivity).
  assert (Hne : after ++ [x] <> []) by (destruct after; discriminate). assert (Hz : before ++ [y] <> []) by (destruct before; discriminate).
  destruct (prefix_sections m g c parts e (after ++ [x]) (before ++ [y]) Hne Hz Hc Hl) as [(r & E & Hin)|(p & q & c' & Hp & -> & Hc' & Hl')].
  - exists true, (reg_coll r). rewrite E. cbn [join]. apply gfc_class_dict; auto. rewrite E in Hd. now inversion Hd.
  - rewrite (gfc_in m g c p (before ++ [y]) Hm Hc').
    + rewrite (proj2 (coll_get_coll c p c' Hp) Hl'). destruct g; eauto.
    + apply Forall_app_l in Hd. exact Hd.
    + intros ->. apply (usable_parts m g c [""] (before ++ [y]) Hc'); [apply Forall_app_l in Hu; exact Hu|now left].
    + apply (reg_plain_app p q Hp Hr).
Qed.

(** where [chain] gives an answer, [vchain] gives the same one *)
Lemma vchain_chain its u : forall names first s s' o, names <> [] -> chain its u first names s = (s', Some o) ->
  vchain u its first names s = (s', match o with Ok a => Ok (a, []) | Raise e => Raise e end).
Proof.
  induction names as [|x rest IH]; intros first s s' o Hne H; [congruence|]. cbn [chain vchain] in *.
  destruct (do_access its u (if first then OnManager x else OnRunner x) s) as [s1 r]. destruct rest as [|y rest].
  - injection H as <- <-. destruct r as [[| |]|e]; reflexivity.
  - destruct r as [[|g|]|e]; try discriminate; [now apply IH|]. now injection H as <- <-.
Qed.

Lemma lookup_error_spec e : read_error e (lookup_error e).
Proof.
  unfold read_error, lookup_error, item_not_found. destruct e; try (right; repeat split; discriminate); [left; auto|].
  destruct (String.eqb_spec name "PipelineManagerNotLoadedException") as [->|N]; [left; auto|right]. repeat split; congruence.
Qed.
Lemma read_error_fun e e' : read_error e e' -> e' = lookup_error e.
Proof. intros H. destruct (lookup_error_spec e) as [[A B]|(A & B & C)], H as [[D E]|(D & E & F)]; try congruence; destruct A, D; congruence || tauto. Qed.
Lemma real_item_of u w path n below m t : world_ok w -> path_parts path = n :: below -> dget n w = Some m -> quiet m -> usable below ->
  item_of m below t -> (forall e, t <> TBroken e) ->
  real_item u w path = (dset n (after_get u m (join sdot below)) w,
    match snd (runner_get (v_items m) u (join sdot below) (g_rs (v_gs m))) with Ok g => Ok (AGot g, []) | Raise e => Raise e end).
Proof.
  intros Hw Hp Hn Hq Hu (g & c & parts & nm & Hc & Hl & Hr) Ht. unfold real_item. rewrite Hp, Hn.
  assert (Hd := parts_of_tail _ _ _ Hp). assert (Hm := world_mgr w n m Hw Hn).
  assert (Hne : below <> []) by (intros ->; inversion Hc). rewrite (parts_join below Hne Hd).
  destruct (exists_last Hne) as (secs & x & ->).
  assert (G : exists b f, get_func_or_collection (v_items m) ("" ++ join "." (secs ++ [x]))%string = Ok (b, f) /\ forall c, f <> FColl c).
  { cbn [append]. change "." with sdot. rewrite (gfc_in m g c parts (secs ++ [x]) (mgr_nodup m Hm) Hc Hd).
    - rewrite (proj2 (coll_get_thing c parts t) (ex_intro _ nm Hl)). destruct g; [|do 2 eexists; split; [reflexivity|discriminate]].
      destruct t; try (do 2 eexists; split; [reflexivity|discriminate]). exfalso. now apply (Ht e).
    - intros E. apply (usable_parts m g c parts _ Hc Hu). rewrite E. now left.
    - exact Hr. }
  assert (Pl : Forall plain_name (secs ++ [x])) by (eapply Forall_impl; [|exact Hu]; now intros a [H _]).
  assert (C := C26_clean_access_resolves (v_items m) u secs x (v_gs m) "" true Hq Pl). cbv zeta in C. cbn [append] in C, G. change "." with sdot in C, G. unfold after_get.
  rewrite (vchain_chain _ _ (secs ++ [x]) true (v_gs m) _ _ Hne (C (sections_on_the_way m g c parts (EItem nm t) secs x Hm Hc Hl Hr Hu Hd) G)).
  destruct (snd (runner_get (v_items m) u (join sdot (secs ++ [x])) (g_rs (v_gs m)))); reflexivity.
Qed.

(** * Sections *)
Lemma in_collection_app m g c parts xs ys : in_collection m g c parts xs -> in_collection m g c (parts ++ ys) (xs ++ ys).
Proof.
  intros [i r rest Hi Hr Hne|i x rest Hi Hx].
  - cbn [app]. apply (in_specific m i r); auto. destruct rest; [congruence|discriminate].
  - cbn [app]. now apply (in_general m i).
Qed.
Lemma coll_get_app c parts c' ys : leads c parts (EColl c') -> coll_get c (parts ++ ys) = coll_get c' ys.
Proof.
  remember (EColl c') as e eqn:E. intros H. induction H as [c x e Hr He|c x c2 rest e Hr He Hl IH]; subst.
  - cbn [app coll_get]. unfold coll_getattr. apply mem_false in Hr. rewrite Hr. unfold is_entry in He. apply last_entry_iff in He. now rewrite He.
  - cbn [app coll_get]. unfold coll_getattr. apply mem_false in Hr. rewrite Hr. unfold is_entry in He. apply last_entry_iff in He. rewrite He. now apply IH.
Qed.

Lemma section_gfc m secs c' : mgr_ok (as_smgr m) -> section_of m secs c' -> usable secs -> nodots secs ->
  (exists b, get_func_or_collection (v_items m) (join sdot secs) = Ok (b, FColl c')) /\
  forall before y after, secs = before ++ y :: after -> exists b c', get_func_or_collection (v_items m) (join sdot (before ++ [y])) = Ok (b, FColl c').
Proof.
  intros Hm [(r & -> & Hr & ->)|(g & c & parts & Hc & Hl & Hr)] Hu Hd.
  - assert (E : get_func_or_collection (v_items m) (join sdot [reg_name r]) = Ok (true, FColl (reg_coll r))) by (apply gfc_class_dict; [now apply mgr_nodup|exact Hr|now inversion Hd]).
    split; [eauto|]. intros [|z before] y after H; [|destruct before; discriminate]. cbn in H. injection H as <- _. eauto.
  - assert (Hne : parts <> []) by (intros ->; inversion Hl).
    assert (E : exists b, get_func_or_collection (v_items m) (join sdot secs) = Ok (b, FColl c')).
    { rewrite (gfc_in m g c parts secs (mgr_nodup m Hm) Hc Hd); [|intros E; apply (usable_parts m g c parts _ Hc Hu); rewrite E; now left|exact Hr].
      rewrite (proj2 (coll_get_coll c parts c' Hne) Hl). destruct g; eauto. }
    split; [exact E|]. intros before y after ->. destruct after as [|z after].
    + destruct E as [b E]. eauto.
    + destruct (@exists_last _ (z :: after) ltac:(discriminate)) as (after' & x & Ea). rewrite Ea in *.
      replace (before ++ y :: after' ++ [x]) with ((before ++ y :: after') ++ [x]) in * by (rewrite <- app_assoc; reflexivity).
      apply (sections_on_the_way m g c parts (EColl c') (before ++ y :: after') x Hm Hc Hl Hr Hu Hd before y after'). reflexivity.
Qed.

Lemma vchain_section its u : forall secs prefix first s, g_full s = prefix -> secs <> [] -> Forall plain_name secs ->
  (forall before y after, secs = before ++ y :: after -> exists b c', get_func_or_collection its (prefix ++ join sdot (before ++ [y]))%string = Ok (b, FColl c')) ->
  vchain u its first secs s = (GS (prefix ++ join sdot secs ++ ".") (g_rs s), Ok (ASelf, [])).
Proof.
  induction secs as [|y secs IH]; intros prefix first s Hs Hne Hpl Hsec; [congruence|]. cbn [vchain]. inversion Hpl as [|? ? Hy Hpl']; subst.
  rewrite (do_access_plain its u _ y) by (auto; destruct first; auto). destruct (Hsec [] y secs eq_refl) as (b & c & Hc). cbn [app join] in Hc. unfold runner_getattr. rewrite Hc.
  destruct secs as [|z secs].
  - cbn [join]. now rewrite string_app_assoc.
  - assert (J : forall l, l <> [] -> (((g_full s ++ y) ++ ".") ++ join sdot l)%string = (g_full s ++ join sdot (y :: l))%string).
    { intros [|q ql] Hl; [congruence|]. cbn [join]. rewrite !string_app_assoc. reflexivity. }
    rewrite (IH ((g_full s ++ y) ++ ".")%string false (GS ((g_full s ++ y) ++ ".") (g_rs s)) eq_refl ltac:(discriminate) Hpl').
    + f_equal. cbn [g_rs]. f_equal. rewrite <- string_app_assoc. rewrite J by discriminate. now rewrite string_app_assoc.
    + intros before q after E. destruct (Hsec (y :: before) q after ltac:(now rewrite E)) as (b' & c' & H). exists b', c'. rewrite J by (destruct before; discriminate). exact H.
Qed.

Lemma real_item_section u w path n secs m c' : world_ok w -> path_parts path = n :: secs -> dget n w = Some m -> quiet m -> usable secs -> section_of m secs c' ->
  real_item u w path = (dset n (VMgr (v_items m) (v_klasses m) (GS (join sdot secs ++ ".") (g_rs (v_gs m)))) w, Ok (ASelf, [])).
Proof.
  intros Hw Hp Hn Hq Hu Hs. unfold real_item. rewrite Hp, Hn. assert (Hd := parts_of_tail _ _ _ Hp). assert (Hm := world_mgr w n m Hw Hn).
  assert (Hne : secs <> []) by (destruct Hs as [(r & -> & _)|(g & c & parts & Hc & _)]; [discriminate|intros ->; inversion Hc]).
  rewrite (parts_join secs Hne Hd). destruct (section_gfc m secs c' Hm Hs Hu Hd) as [_ P].
  rewrite (vchain_section (v_items m) u secs "" true (v_gs m) Hq Hne); [reflexivity| |exact P]. eapply Forall_impl; [|exact Hu]; now intros a [H _].
Qed.

(** * Dead states *)
Lemma split_after secs x t : nodots secs -> has_char dot x = false -> exists y rest, path_parts (join sdot (secs ++ [x]) ++ t) = secs ++ (x ++ y)%string :: rest.
Proof.
  intros Hd Hx. unfold path_parts, mk_sp. cbn [sections]. unfold section_path_str_to_section_strs. induction secs as [|s secs IH].
  - cbn [app join]. apply split_head. exact Hx.
  - inversion Hd as [|? ? Hs Hd']; subst. destruct (IH Hd') as (y & rest & E). exists y, rest. cbn [app].
    assert (J : join sdot (s :: secs ++ [x]) = (s ++ sdot ++ join sdot (secs ++ [x]))%string) by (destruct secs; reflexivity).
    rewrite J, !string_app_assoc. change (sdot ++ join sdot (secs ++ [x]) ++ t)%string with (String dot (join sdot (secs ++ [x]) ++ t)). rewrite split_app, E.
    now rewrite (split_no_sep _ _ Hs).
Qed.
Lemma no_start x y l : (forall z, In z l -> startswith z x = false) -> ~ In (x ++ y)%string l.
Proof. intros H I. specialize (H _ I). assert (startswith (x ++ y) x = true) by (apply startswith_iff; eauto). congruence. Qed.

Lemma dead_below m secs c' x : mgr_ok (as_smgr m) -> section_of m secs c' -> nodots secs -> has_char dot x = false -> x <> "" ->
  (forall z, In z (names_in c') -> startswith z x = false) -> dead (v_items m) AttributeError (join sdot (secs ++ [x])).
Proof.
  intros Hm Hs Hd Hx Hxn Hz. split; [discriminate|]. intro t.
  destruct (split_after secs x t Hd Hx) as (y & rest & E). apply mgr_nodup in Hm.
  assert (N := no_start x y (names_in c') Hz). unfold names_in in N. cbn [In] in N. rewrite !in_app_iff in N.
  assert (G : coll_get c' ((x ++ y)%string :: rest) = Raise AttributeError).
  { cbn [coll_get]. unfold coll_getattr. rewrite (proj2 (mem_false _ _)) by tauto.
    destruct (last_entry (x ++ y) (coll_entries c')) as [e|] eqn:El; [|reflexivity]. exfalso. apply last_entry_iff in El as (l1 & l2 & E1 & E2 & _). apply N. right. right. right. rewrite E1. rewrite <- E2. apply in_map, in_app_iff. right. now left. }
  assert (F : Forall (fun x => has_char dot x = false) (path_parts (join sdot (secs ++ [x]) ++ t))) by (apply split_parts_no_sep).
  rewrite (parts_path _ _ E). rewrite E in F.
  assert (NE : forall l : list string, l ++ (x ++ y)%string :: rest <> [""]).
  { intros [|z l] X; [cbn in X; injection X as X _; destruct x; [congruence|discriminate]|destruct l; discriminate]. }
  destruct Hs as [(r & -> & Hr & ->)|(g & c & parts & Hc & Hl & Hp)].
  - rewrite (gfc_in m false (reg_coll r) ((x ++ y)%string :: rest)); [now rewrite G|exact Hm|apply (in_specific _ (v_items m) r); [reflexivity|exact Hr|discriminate]|exact F|exact (NE [])|].
    cbn. split; intros X; apply N; [left; now symmetry|right; left; exact X].
  - rewrite (gfc_in m g c (parts ++ (x ++ y)%string :: rest)); [|exact Hm|now apply in_collection_app|exact F|apply NE|destruct parts; [inversion Hl|exact Hp]].
    now rewrite (coll_get_app c parts c' _ Hl), G.
Qed.

Lemma access_dead its u a s : dead its AttributeError (g_full s) -> let '(s', o) := do_access its u a s in g_rs s' = g_rs s /\ dead its AttributeError (g_full s') /\ (o = Ok ADefined \/ o = Raise AttributeError).
Proof.
  intros H. pose proof (C26_dead_forever its u _ [a] s H) as D. cbn [accesses] in D. destruct (do_access its u a s) as [s' o]. destruct D as (D1 & D2 & _ & D3). inversion D3. auto.
Qed.
Lemma vchain_dead its u : forall names first s, names <> [] -> dead its AttributeError (g_full s) ->
  let '(s', o) := vchain u its first names s in dead its AttributeError (g_full s') /\ (Forall plain_name names -> o = Raise AttributeError) /\ (forall rest, o <> Ok (ASelf, rest)) /\ (forall g rest, o <> Ok (AGot g, rest)).
Proof.
  intros [|x rest] first s Hne H; [congruence|]. cbn [vchain]. pose proof (access_dead its u (if first then OnManager x else OnRunner x) s H) as A.
  destruct (do_access its u (if first then OnManager x else OnRunner x) s) as [s1 o] eqn:E. destruct A as (_ & A2 & [->| ->]).
  - split; [exact A2|]. split; [|split; discriminate]. intros F. inversion F as [|? ? Hx _]; subst. exfalso. rewrite (do_access_plain its u _ x) in E by (auto; destruct first; auto).
    unfold runner_getattr in E. rewrite (proj2 H x) in E. discriminate.
  - split; [exact A2|]. split; [reflexivity|]. split; discriminate.
Qed.

(** Manager [n] is there, dead. *)
Definition dead_at (n : string) (its : items) (w : world) : Prop := exists m, dget n w = Some m /\ v_items m = its /\ dead its AttributeError (g_full (v_gs m)).

Lemma path_parts_ne p : path_parts p <> [].
Proof. unfold path_parts, mk_sp. cbn. apply split_nonempty. Qed.
Lemma real_item_dead u n its w path : dead_at n its w ->
  let '(w', o) := real_item u w path in dead_at n its w' /\
  forall below, path_parts path = n :: below -> (forall rest, o <> Ok (ASelf, rest)) /\ (forall g rest, o <> Ok (AGot g, rest)) /\ (below <> [] -> usable below -> o = Raise AttributeError).
Proof.
  intros (m & Hn & Hi & D). unfold real_item. destruct (path_parts path) as [|n' below'] eqn:Ep; [split; [exists m; auto|discriminate]|].
  destruct (dget n' w) as [m'|] eqn:En.
  - destruct (String.eqb n n') eqn:E.
    + apply String.eqb_eq in E. subst n'. assert (m' = m) by congruence. subst m' its.
      pose proof (vchain_dead (v_items m) u (path_parts (join sdot below')) true (v_gs m) (path_parts_ne _) D) as V.
      destruct (vchain u (v_items m) true (path_parts (join sdot below')) (v_gs m)) as [s o]. destruct V as (V1 & V2 & V3 & V4). split.
      * eexists. split; [apply dget_dset_eq|]. auto.
      * intros below [= <-]. split; [exact V3|]. split; [exact V4|]. intros Hne Hu. apply V2. rewrite (parts_join below'); [|exact Hne|now apply (parts_of_tail path n)].
        eapply Forall_impl; [|exact Hu]. now intros a [X _].
    + destruct (vchain u (v_items m') true (path_parts (join sdot below')) (v_gs m')) as [s o]. apply String.eqb_neq in E. split.
      * exists m. split; [|auto]. rewrite dget_dset_neq; [exact Hn|congruence].
      * intros below [= <- <-]. congruence.
  - split; [exists m; auto|]. intros below [= -> ->]. congruence.
Qed.

Lemma dead_at_set n its w n' m' : dead_at n its w -> (n' = n -> v_items m' = its /\ dead its AttributeError (g_full (v_gs m'))) -> dead_at n its (dset n' m' w).
Proof.
  intros (m & Hn & Hi & D) H. destruct (String.eqb n n') eqn:E.
  - apply String.eqb_eq in E. subst n'. destruct (H eq_refl). exists m'. split; [apply dget_dset_eq|auto].
  - apply String.eqb_neq in E. exists m. split; [now rewrite dget_dset_neq|auto].
Qed.
Lemma runner_getattr_dead its u x s : dead its AttributeError (g_full s) -> dead its AttributeError (g_full (fst (runner_getattr its u x s))).
Proof.
  intros H. unfold runner_getattr. rewrite (proj2 H x). cbn [fst g_full].
  split; [discriminate|]. intro t. rewrite string_app_assoc. apply H.
Qed.
Lemma call_runner_dead u sub sel m : dead (v_items m) AttributeError (g_full (v_gs m)) -> dead (v_items m) AttributeError (g_full (fst (call_runner u sub sel m))).
Proof.
  intros H. unfold call_runner. pose proof (runner_getattr_dead (v_items m) u "__self__" (v_gs m) H) as D.
  destruct (runner_getattr (v_items m) u "__self__" (v_gs m)) as [s [[|[o| |]|]|[]]]; exact D.
Qed.

Lemma vop_dead u sub ua sel o w n its : dead_at n its w -> let '(w', r) := vop_run u sub ua sel o w in dead_at n its w' /\ (on_manager n o -> reaches_nothing o r).
Proof.
  intros H. destruct o as [p args kw|p|p x|p k v]; cbn [vop_run].
  - pose proof (real_item_dead u n its w p H) as R. unfold view_call. destruct (real_item u w p) as [w1 [[a rest]|e]]; destruct R as [R1 R2].
    + assert (N : forall below, path_parts p = n :: below -> (forall g, a <> AGot g) /\ a <> ASelf).
      { intros below Hp. destruct (R2 below Hp) as (X1 & X2 & _). split; [intros g ->; now apply (X2 g rest)|intros ->; now apply (X1 rest)]. }
      assert (Z : on_manager n (OpCall p args kw) -> False).
      { intros (below & Hp & Hne & Hu). destruct (R2 below Hp) as (_ & _ & X). specialize (X Hne Hu). discriminate. }
      match goal with |- context [match path_parts p with _ => _ end] => idtac end.
      destruct (path_parts p) as [|n' [|x below]] eqn:Ep; [split; [exact R1|tauto]|split; [exact R1|tauto]|].
      destruct (dget n' w1) as [m1|] eqn:En; [|split; [exact R1|tauto]].
      assert (A : forall r : res vcall, let '(w', r') := (w1, match r with Ok c => Called c | Raise e => Failed e end) in dead_at n its w' /\ (on_manager n (OpCall p args kw) -> reaches_nothing (OpCall p args kw) r')) by (intros r; split; [exact R1|tauto]).
      destruct a as [|[ [i f b kw'|i kk calls]|l|d]|].
      * destruct (call_runner u sub sel m1) as [s r] eqn:Ec. split; [|tauto]. apply dead_at_set; [exact R1|]. intros ->. exfalso. now apply (N (x :: below) eq_refl).
      * destruct rest as [|y [|z rest]]; [exact (A (Ok _))| |exact (A (Ok _))]. destruct (ua (LPartial i f b kw') y); [exact (A (Raise _))|destruct (is_specific sub sel (LPartial i f b kw')); [exact (A (Ok _))|exact (A (Raise _))]|exact (A (Raise _))|exact (A (Ok _))].
      * destruct rest as [|y [|z rest]]; [|destruct (ua (LInst i kk calls) y); [exact (A (Raise _))|destruct (is_specific sub sel (LInst i kk calls)); [exact (A (Ok _))|exact (A (Raise _))]|exact (A (Raise _))|exact (A (Ok _))]|exact (A (Ok _))].
        cbv zeta. destruct (counts_as_specific m1 x && is_specific sub sel (LInst i kk calls)); [|exact (A (Ok _))].
        destruct (class_map_get kk (vs_klasses sel)) as [method|]; [|exact (A (Raise _))]. destruct (ua (LInst i kk calls) method); first [exact (A (Raise _))|exact (A (Ok _))].
      * destruct rest as [|? [|? ?]]; exact (A (Ok _)).
      * destruct rest as [|? [|? ?]]; exact (A (Ok _)).
      * exact (A (Ok _)).
    + split; [exact R1|]. intros (below & Hp & Hne & Hu). destruct (R2 below Hp) as (_ & _ & X). specialize (X Hne Hu). cbn. congruence.
  - pose proof (real_item_dead u n its w p H) as R. destruct (real_item u w p) as [w1 [[a rest]|e]]; destruct R as [R1 R2]; (split; [exact R1|]); intros (below & Hp & Hne & Hu); destruct (R2 below Hp) as (_ & _ & X); specialize (X Hne Hu); cbn; congruence.
  - unfold view_getattr. destruct (iv_getattr (vs_struct sel) (smgrs w) p x) as [[q| |q y]|e]; try (split; [exact H|cbn; eauto]; fail).
    pose proof (real_item_dead u n its w p H) as R. destruct (real_item u w p) as [w1 [[a rest]|e]]; destruct R as [R1 R2].
    + assert (Z : on_manager n (OpRead p x) -> False).
      { intros (below & Hp & Hne & Hu). destruct (R2 below Hp) as (_ & _ & X). specialize (X Hne Hu). discriminate. }
      assert (A : forall r : vout, let '(w', r') := (w1, r) in dead_at n its w' /\ (on_manager n (OpRead p x) -> reaches_nothing (OpRead p x) r')) by (intros r; split; [exact R1|tauto]).
      destruct a as [|[o|l|d]|].
      * destruct (path_parts p) as [|n' below] eqn:Ep; [apply A|]. destruct (dget n' w1) as [m1|]; [|apply A].
        destruct (do_access (v_items m1) u (OnRunner x) (v_gs m1)) as [s o]. split; [|tauto]. apply dead_at_set; [exact R1|]. intros ->. exfalso. destruct (R2 below eq_refl) as (X & _). now apply (X rest).
      * destruct rest as [|z rest]; [|apply A]. destruct (ua o x); apply A.
      * destruct rest; apply A.
      * destruct rest; apply A.
      * apply A.
    + split; [exact R1|]. intros _. cbn. eauto.
  - unfold view_setattr. destruct (mem k iv_set_attrs); [split; [exact H|now cbn]|]. destruct (path_parts p) as [|n' below] eqn:Ep; [split; [exact H|now cbn]|].
    destruct (dget n' w) as [m'|] eqn:En; [|split; [exact H|now cbn]]. destruct (runner_update u (Some [(k, v)]) (Some (join sdot below)) true [] (g_rs (v_gs m'))) as [r o].
    split; [|now cbn]. destruct H as (m & Hn & Hi & D). apply dead_at_set; [exists m; auto|]. intros ->. assert (m' = m) by congruence. subst m'. split; [exact Hi|exact D].
Qed.
Lemma vops_dead u sub ua sel n its : forall l w, dead_at n its w ->
  dead_at n its (fst (vops_run u sub ua sel l w)) /\ Forall2 (fun o r => on_manager n o -> reaches_nothing o r) l (snd (vops_run u sub ua sel l w)).
Proof.
  induction l as [|o l IH]; intros w H; cbn [vops_run]; [split; [exact H|constructor]|]. pose proof (vop_dead u sub ua sel o w n its H) as V.
  destruct (vop_run u sub ua sel o w) as [w1 r]. destruct V as [V1 V2]. specialize (IH w1 V1). destruct (vops_run u sub ua sel l w1) as [w2 rs]. destruct IH as [I1 I2].
  cbn [fst snd] in *. split; [exact I1|]. constructor; assumption.
Qed.

(** * Methods *)
Lemma strings_eqb_eq a : forall b, strings_eqb a b = true <-> a = b.
Proof.
  induction a as [|x a IH]; intros [|y b]; cbn; try (split; [discriminate|discriminate]); [tauto|]. rewrite andb_true_iff, IH, String.eqb_eq. split; [intros [-> ->]; reflexivity|]. intros E. injection E as -> ->. auto.
Qed.
Lemma callable_eqb_eq a b : callable_eqb a b = true <-> a = b.
Proof.
  destruct a as [i x], b as [j y]. unfold callable_eqb. cbn. rewrite andb_true_iff, strings_eqb_eq, String.eqb_eq. split; [intros [-> ->]; reflexivity|]. intros E. injection E as -> ->. auto.
Qed.
Lemma class_map_spec k l x : class_map_get k l = Some x <-> exists l1 l2, l = l1 ++ (k, x) :: l2 /\ forall x', ~ In (k, x') l2.
Proof.
  revert x. induction l as [|[k' y] l IH]; intros x; cbn [class_map_get].
  - split; [discriminate|]. intros ([|] & l2 & E & _); discriminate.
  - destruct (class_map_get k l) as [z|] eqn:E.
    + destruct (proj1 (IH z) eq_refl) as (a1 & a2 & E1 & E2). split.
      * intros [= <-]. exists ((k', y) :: a1), a2. rewrite E1. auto.
      * intros (l1 & l2 & E3 & E4). destruct l1 as [|[k1 x1] l1]; cbn in E3.
        -- injection E3 as -> -> ->. exfalso. apply (E4 z). rewrite E1. apply in_app_iff. right. now left.
        -- injection E3 as -> -> E3. apply (proj2 (IH x)). exists l1, l2. auto.
    + assert (N : forall x', ~ In (k, x') l).
      { intros x' H. clear -H E. induction l as [|[k0 y0] l IHl]; [destruct H|]. cbn in E. destruct (class_map_get k l); [discriminate|].
        destruct H as [H|H]; [|now apply IHl]. injection H as -> ->. rewrite (proj2 (callable_eqb_eq k k) eq_refl) in E. discriminate. }
      destruct (callable_eqb k k') eqn:Ek.
      * apply callable_eqb_eq in Ek. subst k'. split.
        -- intros [= <-]. exists [], l. auto.
        -- intros (l1 & l2 & E3 & E4). destruct l1 as [|[k1 x1] l1]; cbn in E3; [now injection E3 as -> ->|]. injection E3 as _ _ E3. exfalso. apply (N x). rewrite E3. apply in_app_iff. right. now left.
      * split; [discriminate|]. intros (l1 & l2 & E3 & E4). destruct l1 as [|[k1 x1] l1]; cbn in E3.
        -- injection E3 as -> -> ->. rewrite (proj2 (callable_eqb_eq k k) eq_refl) in Ek. discriminate.
        -- injection E3 as _ _ E3. exfalso. apply (N x). rewrite E3. apply in_app_iff. right. now left.
Qed.
Lemma class_map_one k x l : one_method k x l -> class_map_get k l = Some x.
Proof.
  intros [H1 H2]. assert (exists y, class_map_get k l = Some y) as [y Hy].
  { clear H2. induction l as [|[k' z] l IH]; [destruct H1|]. cbn. destruct H1 as [H1|H1].
    - injection H1 as -> ->. destruct (class_map_get k l); [eauto|]. rewrite (proj2 (callable_eqb_eq k k) eq_refl). eauto.
    - destruct (IH H1) as [y ->]. eauto. }
  rewrite Hy. f_equal. apply H2. apply class_map_spec in Hy as (l1 & l2 & -> & _). apply in_app_iff. right. now left.
Qed.
Lemma class_map_None k l : class_map_get k l = None <-> forall x, ~ In (k, x) l.
Proof.
  split.
  - intros H x I. induction l as [|[k' y] l IH]; [destruct I|]. cbn in H. destruct (class_map_get k l); [discriminate|]. destruct I as [I|I]; [|now apply IH].
    injection I as -> ->. rewrite (proj2 (callable_eqb_eq k k) eq_refl) in H. discriminate.
  - intros H. destruct (class_map_get k l) as [x|] eqn:E; [|reflexivity]. apply class_map_spec in E as (l1 & l2 & -> & _). exfalso. apply (H x). apply in_app_iff. right. now left.
Qed.

(** * What the property theorems need beyond that *)
Lemma world_ok_set w n m m1 : world_ok w -> dget n w = Some m -> v_items m1 = v_items m -> world_ok (dset n m1 w).
Proof.
  intros Hw Hn Hi. assert (E : smgrs (dset n m1 w) = smgrs w); [|unfold world_ok; now rewrite E]. unfold smgrs. clear Hw. induction w as [|[k m'] w IH]; [discriminate|].
  cbn [dget] in Hn. cbn [dset]. destruct (String.eqb n k) eqn:E.
  - injection Hn as ->. cbn [map fst snd]. apply String.eqb_eq in E. subst k. unfold as_smgr. now rewrite Hi.
  - cbn [map fst snd]. f_equal. now apply IH.
Qed.
Lemma dset_dset n (a b : vmgr) w : dset n b (dset n a w) = dset n b w.
Proof. induction w as [|[k m] w IH]; cbn [dset]; [now rewrite eqb_refl_s|]. destruct (String.eqb n k) eqn:E; cbn [dset]; rewrite E; [reflexivity|now rewrite IH]. Qed.
Lemma string_app_nil_r s : (s ++ "")%string = s.
Proof. induction s; cbn; [reflexivity|now f_equal]. Qed.
Lemma join_snoc l x : l <> [] -> ((join sdot l ++ ".") ++ x)%string = join sdot (l ++ [x]).
Proof.
  induction l as [|a l IH]; intros H; [congruence|]. destruct l as [|b l]; [cbn [join app]; now rewrite string_app_assoc|].
  cbn [app join] in *. rewrite <- (IH ltac:(discriminate)). now rewrite !string_app_assoc.
Qed.
Lemma dead_attribute_error m secs c' x : mgr_ok (as_smgr m) -> section_of m secs c' -> nodots secs -> has_char dot x = false -> x <> "" ->
  (forall z, In z (names_in c') -> startswith z x = false) -> get_func_or_collection (v_items m) (join sdot (secs ++ [x])) = Raise AttributeError.
Proof.
  intros Hm Hs Hd Hx Hxn Hz. assert (N := no_start x "" (names_in c') Hz). rewrite string_app_nil_r in N. unfold names_in in N. cbn [In] in N. rewrite !in_app_iff in N. apply mgr_nodup in Hm.
  assert (G : coll_get c' [x] = Raise AttributeError).
  { cbn [coll_get]. unfold coll_getattr. rewrite (proj2 (mem_false _ _)) by tauto.
    destruct (last_entry x (coll_entries c')) as [e|] eqn:El; [|reflexivity]. exfalso. apply last_entry_iff in El as (l1 & l2 & E1 & E2 & _). apply N. right. right. right. rewrite E1. rewrite <- E2. apply in_map, in_app_iff. right. now left. }
  assert (F : Forall (fun x => has_char dot x = false) (secs ++ [x])) by (apply Forall_app; split; [exact Hd|now constructor]).
  assert (NE : forall l : list string, l ++ [x] <> [""]).
  { intros [|z l] X; [cbn in X; congruence|destruct l; discriminate]. }
  destruct Hs as [(r & -> & Hr & ->)|(g & c & parts & Hc & Hl & Hp)].
  - rewrite (gfc_in m false (reg_coll r) [x]); [now rewrite G|exact Hm|apply (in_specific _ (v_items m) r); [reflexivity|exact Hr|discriminate]|exact F|exact (NE [])|].
    cbn. split; intros X; apply N; [left; now symmetry|right; left; exact X].
  - rewrite (gfc_in m g c (parts ++ [x])); [|exact Hm|now apply in_collection_app|exact F|apply NE|destruct parts; [inversion Hl|exact Hp]].
    now rewrite (coll_get_app c parts c' _ Hl), G.
Qed.
(** a missing name stands for nothing *)
Lemma not_standing m secs c' x : mgr_ok (as_smgr m) -> section_of m secs c' -> nodots secs -> has_char dot x = false -> x <> "" ->
  (forall z, In z (names_in c') -> startswith z x = false) -> forall b, ~ stands_for (as_smgr m) (secs ++ [x]) b.
Proof.
  intros Hm Hs Hd Hx Hxn Hz b H. assert (N := no_start x "" (names_in c') Hz). rewrite string_app_nil_r in N. unfold names_in in N. cbn [In] in N. rewrite !in_app_iff in N.
  assert (G : coll_get c' [x] = Raise AttributeError).
  { cbn [coll_get]. unfold coll_getattr. rewrite (proj2 (mem_false _ _)) by tauto.
    destruct (last_entry x (coll_entries c')) as [e|] eqn:El; [|reflexivity]. exfalso. apply last_entry_iff in El as (l1 & l2 & E1 & E2 & _). apply N. right. right. right. rewrite E1. rewrite <- E2. apply in_map, in_app_iff. right. now left. }
  assert (Sec : secs <> []) by (destruct Hs as [(r & -> & _)|(g & c & parts & Hc & _)]; [discriminate|intros ->; inversion Hc]).
  assert (K : forall g c parts, in_collection (as_smgr m) g c parts (secs ++ [x]) -> coll_get c parts = Raise AttributeError).
  { intros g c parts Hc. apply mgr_nodup in Hm. destruct Hs as [(r & -> & Hr & ->)|(g2 & c2 & parts2 & Hc2 & Hl2 & Hp2)].
    - cbn [app] in Hc. inversion Hc as [i r' rest Hi Hr' Hne E1 E2|i y rest Hi Hy E1 E2]; subst; cbn in Hi; injection Hi as <-.
      + pose proof (find_registrar_In _ _ Hm Hr) as F1. pose proof (find_registrar_In _ _ Hm Hr') as F2. rewrite H0 in F2. assert (r' = r) by congruence. subst r'. exact G.
      + exfalso. apply Hy. cbn. now apply in_map.
    - pose proof (in_collection_app _ _ _ _ _ [x] Hc2) as Hc3. assert (E : c = c2 /\ parts = parts2 ++ [x]).
      { remember (secs ++ [x]) as ys eqn:Ey. clear - Hc Hc3 Hm. destruct Hc as [i r rest Hi Hr Hne|i y rest Hi Hy]; cbn in Hi; injection Hi as <-.
        - remember (reg_name r :: rest) as zs eqn:Ez. destruct Hc3 as [i r' rest' Hi' Hr' Hne'|i y rest' Hi' Hy']; cbn in Hi'; injection Hi' as <-.
          + injection Ez as Ez ->. pose proof (find_registrar_In _ _ Hm Hr) as F1. pose proof (find_registrar_In _ _ Hm Hr') as F2. rewrite Ez in F2. assert (r' = r) by congruence. subst r'. auto.
          + injection Ez as -> ->. exfalso. apply Hy'. cbn. now apply in_map.
        - remember (y :: rest) as zs eqn:Ez. destruct Hc3 as [i r' rest' Hi' Hr' Hne'|i z rest' Hi' Hy']; cbn in Hi'; injection Hi' as <-.
          + injection Ez as <- ->. exfalso. apply Hy. cbn. now apply in_map.
          + auto. }
      destruct E as [-> ->]. now rewrite (coll_get_app c2 parts2 c' [x] Hl2). }
  remember (secs ++ [x]) as ys eqn:Ey. destruct H as [|z Hz'|g c parts ys c2 Hc Hl|g c parts ys n t Hc Hl|g c parts ys y Hc Ho Hk].
  - destruct secs; discriminate.
  - destruct secs as [|s [|s2 secs]]; [congruence|discriminate|discriminate].
  - specialize (K _ _ _ Hc). assert (Hne : parts <> []) by (intros ->; inversion Hl). rewrite (proj2 (coll_get_coll c parts c2 Hne) Hl) in K. discriminate.
  - specialize (K _ _ _ Hc). rewrite (proj2 (coll_get_thing c parts t) (ex_intro _ n Hl)) in K. discriminate.
  - specialize (K _ _ _ Hc). assert (coll_get c parts = Ok FOther) by (apply coll_get_other; now rewrite (own_last _ _ _ Ho)). congruence.
Qed.

Lemma vx_w_ok : world_ok vx_w.
Proof.
  split; [repeat constructor; cbn; intuition discriminate|]. intros n m. rewrite dget_smgrs. cbn [vx_w dget]. destruct (String.eqb n "p"); [|destruct (String.eqb n "q"); [|discriminate]].
  - cbn [option_map]. intros [= <-]. exists vx_items. split; [reflexivity|]. split; [reflexivity|]. split; [repeat constructor; cbn; intuition discriminate|]. cbn. intuition discriminate.
  - cbn [option_map]. intros [= <-]. eexists. split; [reflexivity|]. split; [reflexivity|]. split; [repeat constructor; cbn; intuition discriminate|]. cbn. intuition discriminate.
Qed.
Lemma vx_run_ok : world_ok vx_run.
Proof.
  split; [repeat constructor; cbn; intuition discriminate|]. intros n m. rewrite dget_smgrs. cbn [vx_run dget]. destruct (String.eqb n "p"); [|discriminate].
  cbn [option_map]. intros [= <-]. eexists. split; [reflexivity|]. split; [reflexivity|]. split; [repeat constructor; cbn; intuition discriminate|]. cbn. intuition discriminate.
Qed.
Lemma not_in_list x l : mem x l = false -> ~ In x l. Proof. apply mem_false. Qed.
Lemma is_entry_check c x e : last_entry x (coll_entries c) = Some e -> is_entry c x e.
Proof. intros H. now apply last_entry_iff in H. Qed.
Lemma vx_premises : world_ok vx_w /\ quiet vx_p /\ usable ["a"; "b"; "f"] /\ item_of vx_p ["a"; "b"; "f"] (TFunc Runner_Example.ex_f) /\
  item_of vx_p ["kls"; "one"] (TInst vx_k) /\ item_of vx_p ["x"; "y"] (TClass Runner_Example.ex_k).
Proof.
  split; [exact vx_w_ok|]. split; [reflexivity|]. split; [repeat (apply Forall_cons; [split; [split; apply not_listed; reflexivity|discriminate]|]); apply Forall_nil|]. split; [|split].
  - exists true, (i_general vx_items), ["a"; "b"; "f"], "f". split; [apply (in_general _ vx_items); [reflexivity|apply not_in_list; reflexivity]|]. split; [|split; [discriminate|apply not_in_list; reflexivity]].
    eapply leads_below; [apply not_in_list; reflexivity|apply is_entry_check; reflexivity|]. eapply leads_below; [apply not_in_list; reflexivity|apply is_entry_check; reflexivity|]. apply leads_here; [apply not_in_list; reflexivity|apply is_entry_check; reflexivity].
  - exists false, (Coll "kls" [EItem "one" (TInst vx_k)]), ["one"], "one". split; [apply (in_specific _ vx_items (Reg "kls" (Coll "kls" [EItem "one" (TInst vx_k)]))); [reflexivity|now left|discriminate]|].
    split; [apply leads_here; [apply not_in_list; reflexivity|apply is_entry_check; reflexivity]|]. split; [discriminate|apply not_in_list; reflexivity].
  - exists true, (i_general vx_items), ["x"; "y"], "y". split; [apply (in_general _ vx_items); [reflexivity|apply not_in_list; reflexivity]|]. split; [|split; [discriminate|apply not_in_list; reflexivity]].
    eapply leads_below; [apply not_in_list; reflexivity|apply is_entry_check; reflexivity|]. apply leads_here; [apply not_in_list; reflexivity|apply is_entry_check; reflexivity].
Qed.
Lemma vx_section : section_of vx_p ["a"] (Coll "a" [EColl (Coll "b" [EItem "f" (TFunc Runner_Example.ex_f)]); EItem "g" (TFunc Runner_Example.ex_g)]) /\
  accessible "wrong" /\ plain_name "wrong" /\ on_manager "p" (OpCall "p.a.b.f" [] []).
Proof.
  split; [|split; [split; reflexivity|split; [split; apply not_listed; reflexivity|]]].
  - right. exists true, (i_general vx_items), ["a"]. split; [apply (in_general _ vx_items); [reflexivity|apply not_in_list; reflexivity]|]. split; [|split; [discriminate|apply not_in_list; reflexivity]].
    apply leads_here; [apply not_in_list; reflexivity|apply is_entry_check; reflexivity].
  - exists ["a"; "b"; "f"]. split; [reflexivity|]. split; [discriminate|].
    repeat (apply Forall_cons; [split; [split; apply not_listed; reflexivity|discriminate]|]); apply Forall_nil.
Qed.
