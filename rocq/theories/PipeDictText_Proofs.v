(** The text of dict files: what is written reads back as the same dict. *)
From Verif Require Import PipeDict_Spec PipeDict_Proofs.
Local Open Scope string_scope.
Local Open Scope list_scope.

(* ------------------------------------------------------------------ *)
(** * nested conditions as [Forall] *)

Lemma pd_all_list K L l : pd_all K L (PList l) <-> Forall (pd_all K L) l.
Proof.
  induction l as [|x l IH]; [split; [constructor|exact (fun _ => I)]|].
  change (pd_all K L (PList (x :: l))) with (pd_all K L x /\ pd_all K L (PList l)). rewrite IH. split.
  - intros [H1 H2]. now constructor.
  - intro H. inversion H; auto.
Qed.

Lemma pd_all_dict K L l : pd_all K L (PDict l) <-> Forall (fun kv => K (fst kv) /\ pd_all K L (snd kv)) l.
Proof.
  induction l as [|[k x] l IH]; [split; [constructor|exact (fun _ => I)]|].
  change (pd_all K L (PDict ((k, x) :: l))) with (K k /\ pd_all K L x /\ pd_all K L (PDict l)). rewrite IH. split.
  - intros (H1 & H2 & H3). constructor; auto.
  - intro H. inversion H as [|? ? [H1 H2] H3]; auto.
Qed.

Lemma add_at_all K L path : forall d item d' r, pd_all K L (PDict d) -> pd_all K L item -> Forall K path ->
  add_at d path item = (d', r) -> pd_all K L (PDict d').
Proof.
  assert (Hset : forall d x v, pd_all K L (PDict d) -> K x -> pd_all K L v -> pd_all K L (PDict (dset x v d))).
  { intros d x v H Hx Hv. apply pd_all_dict in H. apply pd_all_dict. now apply Forall_dset. }
  assert (Hget : forall d x v, pd_all K L (PDict d) -> dget x d = Some v -> pd_all K L v).
  { intros d x v H E. apply pd_all_dict in H. exact (proj2 (dget_Forall _ _ _ _ H E)). }
  assert (Hnil : pd_all K L (PDict [])) by (apply pd_all_dict; constructor).
  induction path as [|x [|y rest] IH]; intros d item d' r H Hi Hp E.
  - now injection E as <- <-.
  - inversion Hp as [|? ? Hx _]; subst. rewrite add_at_one in E.
    destruct (dget x d) as [[n|s|s|l|l]|] eqn:G; injection E as <- <-; auto.
    + apply Hset; auto. apply pd_all_list. apply (Hget _ _ _ H) in G. apply pd_all_list in G.
      apply Forall_app. split; [exact G|]. now constructor.
    + apply Hset; auto. apply pd_all_list. now constructor.
  - inversion Hp as [|? ? Hx Hp']; subst. rewrite add_at_more in E.
    destruct (dget x d) as [[n|s|s|l|f]|] eqn:G; try (injection E as <- <-; exact H).
    + destruct (add_at f (y :: rest) item) as [f' r'] eqn:Ea. injection E as <- <-.
      apply Hset; auto. exact (IH f item f' r' (Hget _ _ _ H G) Hi Hp' Ea).
    + destruct (add_at [] (y :: rest) item) as [f' r'] eqn:Ea. injection E as <- <-.
      apply Hset; auto. exact (IH [] item f' r' Hnil Hi Hp' Ea).
Qed.

Lemma names_only_list l : names_only (PList l) <-> Forall (fun x => exists n, x = PName n /\ good_name n) l.
Proof.
  induction l as [|x l IH]; [split; [constructor|exact (fun _ => I)]|]. split.
  - destruct x; try (intros []; fail). intros [H1 H2]. constructor; [now eexists|]. now apply IH.
  - intro H. inversion H as [|? ? (n & -> & Hn) H2]; subst. split; [exact Hn|]. now apply IH.
Qed.

Lemma names_only_dict l : names_only (PDict l) <-> Forall (fun kv => plain_key (fst kv) /\ names_only (snd kv)) l.
Proof.
  induction l as [|[k x] l IH]; [split; [constructor|exact (fun _ => I)]|].
  change (names_only (PDict ((k, x) :: l))) with (plain_key k /\ names_only x /\ names_only (PDict l)). rewrite IH. split.
  - intros (H1 & H2 & H3). constructor; auto.
  - intro H. inversion H as [|? ? [H1 H2] H3]; auto.
Qed.

(* ------------------------------------------------------------------ *)
(** * lexing *)

Definition starts_with (p : ascii -> bool) (s : string) : Prop := match s with String c _ => p c = true | EmptyString => False end.

Lemma snoc_app a c s : (snoc a c ++ s)%string = (a ++ String c s)%string.
Proof. unfold snoc. now rewrite app_assoc_s. Qed.

Lemma ident_start_not_space c : ident_start c = true -> is_space c = false.
Proof.
  unfold ident_start, is_space, nat_between. intro H. set (n := nat_of_ascii c) in *.
  destruct (Nat.leb 9 n && Nat.leb n 13 || Nat.leb 28 n && Nat.leb n 32) eqn:E; [|reflexivity]. exfalso.
  rewrite !orb_true_iff, !andb_true_iff, !Nat.leb_le in *. rewrite Nat.eqb_eq in H. lia.
Qed.

Lemma lex_name_aux s : forall a c r, all_chars ident_char s = true -> ident_char c = false ->
  lex (LName a) (s ++ String c r) = cons_tok (TName (a ++ s)) (lex LOut (String c r)).
Proof.
  induction s as [|d s IH]; intros a c r H Hc.
  - cbn [append lex]. now rewrite Hc, app_nil_r_s.
  - cbn [all_chars] in H. apply andb_true_iff in H as [Hd H].
    change ((String d s ++ String c r)%string) with (String d (s ++ String c r)%string). cbn [lex]. rewrite Hd, (IH _ c r H Hc).
    now rewrite snoc_app.
Qed.

(** ** the characters and words of the statements are those of the reader *)

Lemma letters_start c : has_char c letters = ident_start c.
Proof. destruct c as [[] [] [] [] [] [] [] []]; vm_compute; reflexivity. Qed.

Lemma name_char_eq c : name_char c = ident_char c.
Proof. destruct c as [[] [] [] [] [] [] [] []]; vm_compute; reflexivity. Qed.

Lemma plain_char_eq c : plain_char c = negb (Ascii.eqb c dquote || Ascii.eqb c bslash || is_break c).
Proof. destruct c as [[] [] [] [] [] [] [] []]; vm_compute; reflexivity. Qed.

Lemma all_chars_ext p q s : (forall c, p c = q c) -> all_chars p s = all_chars q s.
Proof. intro H. induction s as [|c s IH]; [reflexivity|]. cbn [all_chars]. now rewrite H, IH. Qed.

Lemma not_reserved n : ~ In n reserved_words <-> mem n keywords = false /\ mem n constants = false.
Proof.
  change reserved_words with (constants ++ keywords). rewrite in_app_iff. unfold mem.
  assert (H : forall l, existsb (String.eqb n) l = false <-> ~ In n l).
  { intro l. rewrite <- not_true_iff_false, existsb_exists. split.
    - intros H Hn. apply H. exists n. split; [exact Hn|apply eqb_refl_s].
    - intros H (x & Hx & E). apply String.eqb_eq in E. now subst x. }
  rewrite !H. tauto.
Qed.

Lemma good_name_iff n : good_name n <->
  match n with
  | EmptyString => False
  | String c r => ident_start c = true /\ all_chars ident_char r = true
  end /\ mem n keywords = false /\ mem n constants = false.
Proof.
  unfold good_name. rewrite not_reserved. destruct n as [|c r]; [tauto|].
  rewrite letters_start, (all_chars_ext name_char ident_char r name_char_eq). tauto.
Qed.

Lemma lex_name n c r : good_name n -> ident_char c = false ->
  lex LOut (n ++ String c r) = cons_tok (TName n) (lex LOut (String c r)).
Proof.
  intros Hg Hc. apply good_name_iff in Hg as [Hn _]. destruct n as [|d n]; [easy|]. destruct Hn as [Hd Hn].
  change ((String d n ++ String c r)%string) with (String d (n ++ String c r)%string).
  change (lex LOut (String d (n ++ String c r))) with
    (if is_space d then lex LOut (n ++ String c r)%string
     else if ident_start d then lex (LName (String d "")) (n ++ String c r)%string
     else if Ascii.eqb d squote || Ascii.eqb d dquote then lex (LStr d "") (n ++ String c r)%string
     else if is_punct d then cons_tok (TP d) (lex LOut (n ++ String c r)%string) else None).
  rewrite (ident_start_not_space d Hd), Hd. exact (lex_name_aux n (String d "") c r Hn Hc).
Qed.

Lemma lex_plain k : forall a r, all_chars plain_char k = true ->
  lex (LStr dquote a) (k ++ String dquote r) = cons_tok (TStr (a ++ k)) (lex LOut r).
Proof.
  induction k as [|d k IH]; intros a r H.
  - cbn [append lex]. now rewrite Ascii.eqb_refl, app_nil_r_s.
  - cbn [all_chars] in H. apply andb_true_iff in H as [Hd H].
    change ((String d k ++ String dquote r)%string) with (String d (k ++ String dquote r)%string). cbn [lex].
    rewrite plain_char_eq in Hd. apply negb_true_iff in Hd. rewrite !orb_false_iff in Hd. destruct Hd as [[-> ->] ->].
    rewrite (IH _ r H). now rewrite snoc_app.
Qed.

Lemma lex_key k r : plain_key k -> lex LOut (quote ++ k ++ quote ++ r)%string = cons_tok (TStr k) (lex LOut r).
Proof.
  intro H. change (quote ++ k ++ quote ++ r)%string with (String dquote (k ++ String dquote r)%string).
  change (lex LOut (String dquote (k ++ String dquote r))) with (lex (LStr dquote "") (k ++ String dquote r)%string).
  now rewrite (lex_plain k "" r H).
Qed.

Lemma lex_repr_char q a c r : q = squote \/ q = dquote -> Ascii.eqb c (ascii_of_nat 0) = false ->
  lex (LStr q a) (repr_char q c ++ r)%string = lex (LStr q (snoc a c)) r.
Proof.
  intros Hq Hc. unfold repr_char. destruct (Ascii.eqb c q) eqn:E1; [|destruct (Ascii.eqb c bslash) eqn:E2].
  - apply Ascii.eqb_eq in E1; subst c. cbn [orb]. destruct Hq as [->| ->]; reflexivity.
  - apply Ascii.eqb_eq in E2; subst c. cbn [orb]. destruct Hq as [->| ->]; reflexivity.
  - cbn [orb].
    destruct (Nat.eq_dec (nat_of_ascii c) 10) as [E|H10];
      [rewrite E, <- (ascii_nat_embedding c), E; destruct Hq as [->| ->]; reflexivity|].
    destruct (Nat.eq_dec (nat_of_ascii c) 13) as [E|H13];
      [rewrite E, <- (ascii_nat_embedding c), E; destruct Hq as [->| ->]; reflexivity|].
    destruct (Nat.eq_dec (nat_of_ascii c) 9) as [E|H9];
      [rewrite E, <- (ascii_nat_embedding c), E; destruct Hq as [->| ->]; reflexivity|].
    assert (H0 : nat_of_ascii c <> 0).
    { intro E. rewrite <- (ascii_nat_embedding c), E in Hc. discriminate. }
    assert (Hm : match nat_of_ascii c with 10 => String bslash "n" | 13 => String bslash "r" | 9 => String bslash "t" | _ => String c "" end = String c "").
    { destruct (nat_of_ascii c) as [|[|[|[|[|[|[|[|[|[|[|[|[|[|n]]]]]]]]]]]]]]; try reflexivity; exfalso; congruence. }
    assert (Hb : is_break c = false).
    { unfold is_break. destruct (nat_of_ascii c) as [|[|[|[|[|[|[|[|[|[|[|[|[|[|n]]]]]]]]]]]]]]; try reflexivity; exfalso; congruence. }
    rewrite Hm. change ((String c "" ++ r)%string) with (String c r). cbn [lex]. now rewrite E1, E2, Hb.
Qed.

Lemma lex_repr_chars q k : q = squote \/ q = dquote -> forall a r, no_nul k ->
  lex (LStr q a) (repr_chars q k ++ String q r)%string = cons_tok (TStr (a ++ k)) (lex LOut r).
Proof.
  intros Hq. induction k as [|c k IH]; intros a r H.
  - cbn [repr_chars append lex]. now rewrite Ascii.eqb_refl, app_nil_r_s.
  - unfold no_nul in H. cbn [all_chars] in H. apply andb_true_iff in H as [Hc H]. apply negb_true_iff in Hc.
    cbn [repr_chars]. rewrite app_assoc_s, (lex_repr_char q a c _ Hq Hc), (IH _ r H). now rewrite snoc_app.
Qed.

Lemma lex_repr_str s r : no_nul s -> lex LOut (repr_str s ++ r)%string = cons_tok (TStr s) (lex LOut r).
Proof.
  intro H. unfold repr_str.
  assert (Hq : repr_quote s = squote \/ repr_quote s = dquote) by (unfold repr_quote; destruct (_ && _); auto).
  rewrite app_assoc_s. change (String (repr_quote s) "" ++ r)%string with (String (repr_quote s) r).
  change (String (repr_quote s) (repr_chars (repr_quote s) s) ++ String (repr_quote s) r)%string
    with (String (repr_quote s) (repr_chars (repr_quote s) s ++ String (repr_quote s) r)%string).
  replace (lex LOut (String (repr_quote s) (repr_chars (repr_quote s) s ++ String (repr_quote s) r)%string))
    with (lex (LStr (repr_quote s) "") (repr_chars (repr_quote s) s ++ String (repr_quote s) r)%string).
  - now rewrite (lex_repr_chars _ s Hq "" r H).
  - destruct Hq as [-> | ->]; reflexivity.
Qed.

(* ------------------------------------------------------------------ *)
(** * tokens of a value, with or without a comma after the last element *)

Inductive toks_of (conv : bool) : pd -> list tok -> Prop :=
| T_name n : good_name n -> toks_of conv (PName n) [TName n]
| T_str s : conv = true -> toks_of conv (PStr s) [TStr s]
| T_list l ts : toks_items conv l ts -> toks_of conv (PList l) (TP "[" :: ts)
| T_dict l ts : toks_ents conv l ts -> toks_of conv (PDict l) (TP "{" :: ts)
with toks_items (conv : bool) : list pd -> list tok -> Prop :=
| TI_nil : toks_items conv [] [TP "]"]
| TI_last v tv : toks_of conv v tv -> toks_items conv [v] (tv ++ [TP "]"])
| TI_cons v tv l ts : toks_of conv v tv -> toks_items conv l ts -> toks_items conv (v :: l) (tv ++ TP "," :: ts)
with toks_ents (conv : bool) : list (string * pd) -> list tok -> Prop :=
| TE_nil : toks_ents conv [] [TP "}"]
| TE_last k v tv : toks_of conv v tv -> toks_ents conv [(k, v)] (TStr k :: TP ":" :: tv ++ [TP "}"])
| TE_cons k v tv l ts : toks_of conv v tv -> toks_ents conv l ts -> toks_ents conv ((k, v) :: l) (TStr k :: TP ":" :: tv ++ TP "," :: ts).
Scheme toks_of_mind := Minimality for toks_of Sort Prop
  with toks_items_mind := Minimality for toks_items Sort Prop
  with toks_ents_mind := Minimality for toks_ents Sort Prop.
Combined Scheme toks_mutind from toks_of_mind, toks_items_mind, toks_ents_mind.

Definition nodot (ts : list tok) : Prop := match ts with TP c :: _ => c <> "."%char | _ => True end.

Lemma pattrs_nodot src ts : nodot ts -> pattrs src ts = (src, ts).
Proof.
  destruct ts as [|[s|s|c] ts]; try reflexivity. cbn [nodot]. intro H.
  destruct c as [[] [] [] [] [] [] [] []]; try reflexivity. exfalso. now apply H.
Qed.

Lemma pname_good n ts : good_name n -> nodot ts -> pname n ts = Some (PName n, ts).
Proof.
  intros Hg Hd. apply good_name_iff in Hg as (_ & Hk & Hc). unfold pname. rewrite Hk, (pattrs_nodot n ts Hd), Hc, eqb_refl_s. reflexivity.
Qed.

Lemma plist_first conv v tv n rest : toks_of conv v tv ->
  plist (S n) conv (tv ++ rest) = match pval n conv (tv ++ rest) with
                                  | Some (v, TP "," :: r) => match plist n conv r with Some (l, r') => Some (v :: l, r') | None => None end
                                  | Some (v, TP "]" :: r) => Some ([v], r)
                                  | _ => None
                                  end%char.
Proof. intro H. inversion H; subst; reflexivity. Qed.

Lemma parse_toks conv :
  (forall v ts, toks_of conv v ts -> pd_wf v -> forall n rest, List.length ts <= n -> nodot rest -> pval n conv (ts ++ rest) = Some (v, rest)) /\
  (forall l ts, toks_items conv l ts -> Forall pd_wf l -> forall n rest, List.length ts <= n -> plist n conv (ts ++ rest) = Some (l, rest)) /\
  (forall l ts, toks_ents conv l ts -> Forall (fun kv => pd_wf (snd kv)) l -> forall acc n rest, NoDup (dkeys acc ++ dkeys l) -> List.length ts <= n ->
     pdict n conv acc (ts ++ rest) = Some (acc ++ l, rest)).
Proof.
  apply toks_mutind.
  - intros m Hm _ n rest Hn Hr. destruct n; [cbn in Hn; lia|]. cbn [pval app]. now apply pname_good.
  - intros s -> _ n rest Hn Hr. destruct n; [cbn in Hn; lia|]. reflexivity.
  - intros l ts _ IH Hwf n rest Hn Hr. destruct n; [cbn in Hn; lia|]. cbn [app pval].
    rewrite (IH (proj1 (pd_wf_list l) Hwf) n rest) by (cbn in Hn; lia). reflexivity.
  - intros l ts _ IH Hwf n rest Hn Hr. destruct n; [cbn in Hn; lia|]. cbn [app pval].
    apply pd_wf_dict in Hwf as [H1 H2].
    rewrite (IH H2 [] n rest) by (try exact H1; cbn in Hn; lia). reflexivity.
  - intros _ n rest Hn. destruct n; [cbn in Hn; lia|]. reflexivity.
  - intros v tv Ht IH Hwf n rest Hn. inversion Hwf; subst. rewrite app_length in Hn. cbn in Hn. destruct n; [lia|].
    rewrite <- app_assoc. rewrite (plist_first conv v tv n _ Ht). cbn [app].
    rewrite (IH H1 n (TP "]" :: rest)) by (try lia; discriminate). reflexivity.
  - intros v tv l ts Ht IH1 _ IH2 Hwf n rest Hn. inversion Hwf; subst. rewrite app_length in Hn. cbn in Hn. destruct n; [lia|].
    rewrite <- app_assoc. rewrite (plist_first conv v tv n _ Ht). cbn [app].
    rewrite (IH1 H1 n (TP "," :: ts ++ rest)) by (try lia; discriminate).
    now rewrite (IH2 H2 n rest) by lia.
  - intros _ acc n rest _ Hn. destruct n; [cbn in Hn; lia|]. cbn. now rewrite app_nil_r.
  - intros k v tv Ht IH Hwf acc n rest Hnd Hn. inversion Hwf; subst. cbn in Hn. rewrite app_length in Hn. cbn in Hn. destruct n; [lia|].
    cbn [app pdict]. rewrite <- app_assoc. cbn [app].
    rewrite (IH H1 n (TP "}" :: rest)) by (try lia; discriminate). rewrite dset_notin; [reflexivity|].
    apply dmem_false. cbn in Hnd. apply NoDup_remove_2 in Hnd. now rewrite app_nil_r in Hnd.
  - intros k v tv l ts Ht IH1 _ IH2 Hwf acc n rest Hnd Hn. inversion Hwf; subst. cbn in Hn. rewrite app_length in Hn. cbn in Hn. destruct n; [lia|].
    cbn [app pdict]. rewrite <- app_assoc. cbn [app].
    rewrite (IH1 H1 n (TP "," :: ts ++ rest)) by (try lia; discriminate).
    assert (Hk : dset k v acc = acc ++ [(k, v)]).
    { apply dset_notin. apply dmem_false. cbn in Hnd. apply NoDup_remove_2 in Hnd. rewrite in_app_iff in Hnd. tauto. }
    rewrite Hk, (IH2 H2 (acc ++ [(k, v)]) n rest).
    + now rewrite <- app_assoc.
    + unfold dkeys in *. rewrite map_app. cbn in *. now rewrite <- app_assoc.
    + lia.
Qed.

(* ------------------------------------------------------------------ *)
(** * what is written *)

Lemma print_value_dict l : print_value (PDict l) = match print_entries l with Ok s => Ok ("{" ++ s ++ "},")%string | Raise e => Raise e end.
Proof.
  cbn [print_value].
  match goal with |- match ?a with _ => _ end = _ => enough (a = print_entries l) as -> by reflexivity end.
  induction l as [|[k x] l IH]; [reflexivity|]. cbn [print_entries]. now rewrite <- IH.
Qed.

Definition app_toks (ts : list tok) (r : option (list tok)) : option (list tok) :=
  match r with Some l => Some (ts ++ l) | None => None end.

Lemma app_toks_app a b r : app_toks (a ++ b) r = app_toks a (app_toks b r).
Proof. destruct r; cbn; [now rewrite app_assoc|reflexivity]. Qed.
Lemma cons_app t r : cons_tok t r = app_toks [t] r.
Proof. now destruct r. Qed.

Lemma print_items_lex l : Forall (fun x => exists n, x = PName n /\ good_name n) l ->
  exists s ts, print_items l = Ok s /\ toks_items false l ts /\ forall r, lex LOut (s ++ "]" ++ r)%string = app_toks ts (lex LOut r).
Proof.
  induction l as [|x l IH]; intro H.
  - exists "", [TP "]"]. split; [reflexivity|]. split; [constructor|]. intro r. cbn. apply cons_app.
  - inversion H as [|? ? (n & -> & Hn) H2]; subst. destruct (IH H2) as (s & ts & H3 & H4 & H5).
    exists (n ++ "," ++ s)%string, ([TName n] ++ TP "," :: ts). split; [cbn [print_items]; now rewrite H3|].
    split; [constructor; [now constructor|exact H4]|]. intro r. rewrite !app_assoc_s.
    change ("," ++ s ++ "]" ++ r)%string with (String "," (s ++ "]" ++ r)%string).
    rewrite (lex_name n "," _ Hn eq_refl).
    change (lex LOut (String "," (s ++ "]" ++ r)%string)) with (cons_tok (TP ",") (lex LOut (s ++ "]" ++ r)%string)).
    rewrite H5. now destruct (lex LOut r).
Qed.

(** the text of a value is its tokens and a comma *)
Lemma print_value_lex v : names_only v ->
  exists s ts, print_value v = Ok s /\ toks_of false v ts /\ forall r, lex LOut (s ++ r)%string = app_toks (ts ++ [TP ","]) (lex LOut r).
Proof.
  induction v as [n|s|s|l _|l IH] using pd_ind2; intro H; try easy.
  - exists (n ++ ",")%string, [TName n]. split; [reflexivity|]. split; [now constructor|]. intro r.
    rewrite app_assoc_s. change ("," ++ r)%string with (String "," r). rewrite (lex_name n "," r H eq_refl).
    change (lex LOut (String "," r)) with (cons_tok (TP ",") (lex LOut r)). now destruct (lex LOut r).
  - apply names_only_list in H. destruct (print_items_lex l H) as (s & ts & H1 & H2 & H3).
    exists ("[" ++ s ++ "],")%string, (TP "[" :: ts). split; [cbn [print_value]; now rewrite H1|]. split; [now constructor|].
    intro r. rewrite !app_assoc_s.
    change (lex LOut ("[" ++ s ++ "]," ++ r)%string) with (cons_tok (TP "[") (lex LOut (s ++ "]" ++ "," ++ r)%string)).
    rewrite H3. change (lex LOut ("," ++ r)%string) with (cons_tok (TP ",") (lex LOut r)).
    destruct (lex LOut r); [|reflexivity]. cbn. now rewrite <- !app_assoc.
  - apply names_only_dict in H.
    assert (HE : exists s ts, print_entries l = Ok s /\ toks_ents false l ts /\ forall r, lex LOut (s ++ "}" ++ r)%string = app_toks ts (lex LOut r)).
    { induction l as [|[k x] l IHl].
      - exists "", [TP "}"]. split; [reflexivity|]. split; [constructor|]. intro r. cbn. apply cons_app.
      - inversion H as [|? ? [Hk Hx] H2]; subst. inversion IH as [|? ? IHx IH2]; subst. cbn [fst snd] in *.
        destruct (IHx Hx) as (sx & tx & E1 & E2 & E3). destruct (IHl IH2 H2) as (s & ts & F1 & F2 & F3).
        exists (quote ++ k ++ quote ++ ": " ++ sx ++ s)%string, (TStr k :: TP ":" :: tx ++ TP "," :: ts).
        split; [cbn [print_entries]; now rewrite E1, F1|]. split; [now constructor|]. intro r.
        rewrite !app_assoc_s. rewrite (lex_key k _ Hk).
        change (lex LOut (": " ++ sx ++ s ++ "}" ++ r)%string) with (cons_tok (TP ":") (lex LOut (sx ++ s ++ "}" ++ r)%string)).
        rewrite E3, F3. destruct (lex LOut r); [|reflexivity]. cbn. now rewrite <- !app_assoc. }
    destruct HE as (s & ts & H1 & H2 & H3).
    exists ("{" ++ s ++ "},")%string, (TP "{" :: ts). split; [rewrite print_value_dict; now rewrite H1|]. split; [now constructor|].
    intro r. rewrite !app_assoc_s.
    change (lex LOut ("{" ++ s ++ "}," ++ r)%string) with (cons_tok (TP "{") (lex LOut (s ++ "}" ++ "," ++ r)%string)).
    rewrite H3. change (lex LOut ("," ++ r)%string) with (cons_tok (TP ",") (lex LOut r)).
    destruct (lex LOut r); [|reflexivity]. cbn. now rewrite <- !app_assoc.
Qed.

Lemma print_entries_lex l : names_only (PDict l) ->
  exists s ts, print_entries l = Ok s /\ toks_ents false l ts /\ forall r, lex LOut (s ++ "}" ++ r)%string = app_toks ts (lex LOut r).
Proof.
  intro H. apply names_only_dict in H. induction l as [|[k x] l IHl].
  - exists "", [TP "}"]. split; [reflexivity|]. split; [constructor|]. intro r. cbn. apply cons_app.
  - inversion H as [|? ? [Hk Hx] H2]; subst. cbn [fst snd] in *.
    destruct (print_value_lex x Hx) as (sx & tx & E1 & E2 & E3). destruct (IHl H2) as (s & ts & F1 & F2 & F3).
    exists (quote ++ k ++ quote ++ ": " ++ sx ++ s)%string, (TStr k :: TP ":" :: tx ++ TP "," :: ts).
    split; [cbn [print_entries]; now rewrite E1, F1|]. split; [now constructor|]. intro r.
    rewrite !app_assoc_s. rewrite (lex_key k _ Hk).
    change (lex LOut (": " ++ sx ++ s ++ "}" ++ r)%string) with (cons_tok (TP ":") (lex LOut (sx ++ s ++ "}" ++ r)%string)).
    rewrite E3, F3. destruct (lex LOut r); [|reflexivity]. cbn. now rewrite <- !app_assoc.
Qed.

Lemma read_toks conv name text d ts : lex LOut text = Some (TName name :: TP "=" :: ts) -> toks_of conv (PDict d) ts ->
  pd_wf (PDict d) -> read conv name text = Some d.
Proof.
  intros H Ht Hwf. unfold read. rewrite H, eqb_refl_s.
  pose proof (proj1 (parse_toks conv) (PDict d) ts Ht Hwf (2 * List.length ts) [] ltac:(lia) I) as HP.
  rewrite app_nil_r in HP. now rewrite HP.
Qed.

Lemma print_read name d : good_name name -> names_only (PDict d) -> pd_wf (PDict d) ->
  exists s, print_dict name d = Ok s /\ read false name s = Some d.
Proof.
  intros Hn H Hwf. destruct (print_entries_lex d H) as (s & ts & H1 & H2 & H3).
  unfold print_dict. rewrite H1. eexists. split; [reflexivity|].
  apply (read_toks false name _ d (TP "{" :: ts)); [|now constructor|exact Hwf].
  change (name ++ " = {" ++ s ++ "}")%string with (name ++ String " " ("= {" ++ s ++ "}"))%string.
  rewrite (lex_name name " " _ Hn eq_refl).
  change (lex LOut (String " " ("= {" ++ s ++ "}"))) with (cons_tok (TP "=") (cons_tok (TP "{") (lex LOut (s ++ "}")%string))).
  specialize (H3 ""). cbn [append] in H3. change ("}" ++ "")%string with "}" in H3. rewrite H3. cbn. now rewrite app_nil_r.
Qed.

(** repr *)
Lemma join_cons sep x y l : join sep (x :: y :: l) = (x ++ sep ++ join sep (y :: l))%string.
Proof. reflexivity. Qed.

Lemma repr_lex v : strings_only v ->
  exists ts, toks_of true v ts /\ forall r, lex LOut (repr v ++ r)%string = app_toks ts (lex LOut r).
Proof.
  unfold strings_only. induction v as [n|s|s|l IH|l IH] using pd_ind2; intro H; try easy.
  - exists [TStr s]. split; [now constructor|]. intro r. cbn [repr]. rewrite (lex_repr_str s r H). apply cons_app.
  - apply pd_all_list in H.
    assert (HE : exists ts, toks_items true l ts /\ forall r, lex LOut (join ", " (map repr l) ++ "]" ++ r)%string = app_toks ts (lex LOut r)).
    { induction l as [|x l IHl].
      - exists [TP "]"]. split; [constructor|]. intro r. cbn. apply cons_app.
      - inversion H as [|? ? Hx H2]; subst. inversion IH as [|? ? IHx IH2]; subst.
        destruct (IHx Hx) as (tx & E2 & E3). destruct l as [|y l].
        + exists (tx ++ [TP "]"]). split; [now constructor|]. intro r. cbn [map join].
          rewrite E3. change (lex LOut ("]" ++ r)%string) with (cons_tok (TP "]") (lex LOut r)). rewrite cons_app, app_toks_app. reflexivity.
        + destruct (IHl IH2 H2) as (ts & F2 & F3). exists (tx ++ TP "," :: ts). split; [now constructor|]. intro r.
          cbn [map] in *. rewrite join_cons, !app_assoc_s, E3.
          change (lex LOut (", " ++ join ", " (repr y :: map repr l) ++ "]" ++ r)%string)
            with (cons_tok (TP ",") (lex LOut (join ", " (repr y :: map repr l) ++ "]" ++ r)%string)).
          rewrite F3, app_toks_app. now destruct (lex LOut r). }
    destruct HE as (ts & H1 & H2). exists (TP "[" :: ts). split; [now constructor|]. intro r. cbn [repr]. rewrite !app_assoc_s.
    change (lex LOut ("[" ++ join ", " (map repr l) ++ "]" ++ r)%string) with (cons_tok (TP "[") (lex LOut (join ", " (map repr l) ++ "]" ++ r)%string)).
    rewrite H2. now destruct (lex LOut r).
  - apply pd_all_dict in H. set (f := fun kv : string * pd => (repr_str (fst kv) ++ ": " ++ repr (snd kv))%string).
    assert (HE : exists ts, toks_ents true l ts /\ forall r, lex LOut (join ", " (map f l) ++ "}" ++ r)%string = app_toks ts (lex LOut r)).
    { induction l as [|[k x] l IHl].
      - exists [TP "}"]. split; [constructor|]. intro r. cbn. apply cons_app.
      - inversion H as [|? ? [Hk Hx] H2]; subst. inversion IH as [|? ? IHx IH2]; subst. cbn [fst snd] in *.
        destruct (IHx Hx) as (tx & E2 & E3).
        assert (Ef : forall r, lex LOut (f (k, x) ++ r)%string = app_toks (TStr k :: TP ":" :: tx) (lex LOut r)).
        { intro r. unfold f. cbn [fst snd]. rewrite !app_assoc_s, (lex_repr_str k _ Hk).
          change (lex LOut (": " ++ repr x ++ r)%string) with (cons_tok (TP ":") (lex LOut (repr x ++ r)%string)).
          rewrite E3. now destruct (lex LOut r). }
        destruct l as [|y l].
        + exists (TStr k :: TP ":" :: tx ++ [TP "}"]). split; [now constructor|]. intro r. cbn [map join].
          rewrite Ef. change (lex LOut ("}" ++ r)%string) with (cons_tok (TP "}") (lex LOut r)). rewrite cons_app.
          change (TStr k :: TP ":" :: tx ++ [TP "}"]) with ((TStr k :: TP ":" :: tx) ++ [TP "}"]). now rewrite app_toks_app.
        + destruct (IHl IH2 H2) as (ts & F2 & F3). exists (TStr k :: TP ":" :: tx ++ TP "," :: ts). split; [now constructor|]. intro r.
          cbn [map] in *. rewrite join_cons, !app_assoc_s, Ef.
          change (lex LOut (", " ++ join ", " (f y :: map f l) ++ "}" ++ r)%string)
            with (cons_tok (TP ",") (lex LOut (join ", " (f y :: map f l) ++ "}" ++ r)%string)).
          rewrite F3. change (TStr k :: TP ":" :: tx ++ TP "," :: ts) with ((TStr k :: TP ":" :: tx) ++ TP "," :: ts).
          rewrite app_toks_app. now destruct (lex LOut r). }
    destruct HE as (ts & H1 & H2). exists (TP "{" :: ts). split; [now constructor|]. intro r. cbn [repr]. fold f. rewrite !app_assoc_s.
    change (lex LOut ("{" ++ join ", " (map f l) ++ "}" ++ r)%string) with (cons_tok (TP "{") (lex LOut (join ", " (map f l) ++ "}" ++ r)%string)).
    rewrite H2. now destruct (lex LOut r).
Qed.

Lemma repr_read name d : good_name name -> strings_only (PDict d) -> pd_wf (PDict d) -> read true name (repr_dict name d) = Some d.
Proof.
  intros Hn H Hwf. destruct (repr_lex (PDict d) H) as (ts & H1 & H2).
  apply (read_toks true name _ d ts); [|exact H1|exact Hwf]. unfold repr_dict.
  change (name ++ " = " ++ repr (PDict d))%string with (name ++ String " " ("= " ++ repr (PDict d)))%string.
  rewrite (lex_name name " " _ Hn eq_refl).
  change (lex LOut (String " " ("= " ++ repr (PDict d)))) with (cons_tok (TP "=") (lex LOut (repr (PDict d)))).
  specialize (H2 ""). rewrite app_nil_r_s in H2. rewrite H2. cbn. now rewrite app_nil_r.
Qed.

(* ------------------------------------------------------------------ *)
(** * what is read *)

Definition ident (n : string) : Prop :=
  match n with EmptyString => False | String c r => ident_start c = true /\ all_chars ident_char r = true end.
Definition tok_ok (t : tok) : Prop := match t with TName n => ident n | _ => True end.

Lemma all_chars_snoc p s c : all_chars p (snoc s c) = all_chars p s && p c.
Proof. unfold snoc. induction s as [|d s IH]; cbn; [now rewrite andb_true_r|]. now rewrite IH, andb_assoc. Qed.

Lemma ident_snoc a c : ident a -> ident_char c = true -> ident (snoc a c).
Proof.
  destruct a as [|d a]; [easy|]. intros [H1 H2] Hc. split; [exact H1|]. fold (snoc a c). now rewrite all_chars_snoc, H2, Hc.
Qed.

Lemma lex_ok s : forall m ts, match m with LName a => ident a | _ => True end -> lex m s = Some ts -> Forall tok_ok ts.
Proof.
  assert (Hcons : forall t r ts, tok_ok t -> (forall l, r = Some l -> Forall tok_ok l) -> cons_tok t r = Some ts -> Forall tok_ok ts).
  { intros t [l|] ts Ht Hr H; [|discriminate]. injection H as <-. constructor; auto. }
  induction s as [|c s IH]; intros m ts Hm H.
  - destruct m; cbn in H; try discriminate; injection H as <-; auto.
  - assert (Hout : forall l, (if is_space c then lex LOut s else if ident_start c then lex (LName (String c "")) s
                      else if Ascii.eqb c squote || Ascii.eqb c dquote then lex (LStr c "") s
                      else if is_punct c then cons_tok (TP c) (lex LOut s) else None) = Some l -> Forall tok_ok l).
    { intros l Hl. destruct (is_space c); [exact (IH LOut l I Hl)|]. destruct (ident_start c) eqn:Ei.
      - apply (IH (LName (String c "")) l); [now split|exact Hl].
      - destruct (Ascii.eqb c squote || Ascii.eqb c dquote); [exact (IH (LStr c "") l I Hl)|].
        destruct (is_punct c); [|discriminate]. apply (Hcons (TP c) (lex LOut s) l I); [|exact Hl]. intros l' Hl'. exact (IH LOut l' I Hl'). }
    cbn [lex] in H. destruct m as [|a|q a|q a].
    + exact (Hout ts H).
    + destruct (ident_char c) eqn:Ei.
      * apply (IH (LName (snoc a c)) ts); [now apply ident_snoc|exact H].
      * exact (Hcons (TName a) _ ts Hm Hout H).
    + destruct (Ascii.eqb c q).
      * apply (Hcons (TStr a) (lex LOut s) ts I); [|exact H]. intros l' Hl'. exact (IH LOut l' I Hl').
      * destruct (Ascii.eqb c bslash); [exact (IH (LEsc q a) ts I H)|]. destruct (is_break c); [discriminate|].
        exact (IH (LStr q (snoc a c)) ts I H).
    + destruct (escape c) as [x|]; [|discriminate]. exact (IH (LStr q (snoc a x)) ts I H).
Qed.

(** leaves of a dict read from a file *)
Definition leaf_ok (conv : bool) (v : pd) : Prop := match v with PName n => good_name n | PStr _ => conv = true | _ => True end.
Definition read_ok (conv : bool) (v : pd) : Prop := pd_wf v /\ pd_all (fun _ => True) (leaf_ok conv) v.

Lemma pattrs_ok ts : forall src src' r, Forall tok_ok ts -> pattrs src ts = (src', r) -> Forall tok_ok r.
Proof.
  enough (forall n ts, List.length ts <= n -> forall src src' r, Forall tok_ok ts -> pattrs src ts = (src', r) -> Forall tok_ok r) as H.
  { intros src src' r. now apply (H (List.length ts)). }
  clear ts. induction n as [|n IH]; intros ts Hn src src' r Ht H.
  - destruct ts; [|cbn in Hn; lia]. now injection H as <- <-.
  - destruct ts as [|[s|s|c] ts]; try (now injection H as <- <-).
    destruct (Ascii.eqb c "."%char) eqn:E.
    + apply Ascii.eqb_eq in E; subst c. cbn [pattrs] in H. destruct ts as [|[s|s|c] ts]; try (now injection H as <- <-).
      inversion Ht as [|? ? _ Ht2]; subst. inversion Ht2; subst. apply (IH ts) in H; auto. cbn in Hn. lia.
    + apply Ascii.eqb_neq in E. rewrite (pattrs_nodot src (TP c :: ts) E) in H. now injection H as <- <-.
Qed.

Lemma parse_ok conv n :
  (forall ts v r, Forall tok_ok ts -> pval n conv ts = Some (v, r) -> read_ok conv v /\ Forall tok_ok r) /\
  (forall ts l r, Forall tok_ok ts -> plist n conv ts = Some (l, r) -> Forall (read_ok conv) l /\ Forall tok_ok r) /\
  (forall acc ts l r, Forall tok_ok ts -> dwf acc -> Forall (fun kv => read_ok conv (snd kv)) acc -> pdict n conv acc ts = Some (l, r) ->
     (dwf l /\ Forall (fun kv => read_ok conv (snd kv)) l) /\ Forall tok_ok r).
Proof.
  induction n as [|n (IH1 & IH2 & IH3)]; [repeat split; discriminate|].
  assert (P1 : forall ts v r, Forall tok_ok ts -> pval (S n) conv ts = Some (v, r) -> read_ok conv v /\ Forall tok_ok r).
  { intros ts v r Ht H. destruct ts as [|[x|s|c] ts]; [discriminate| | |].
    - cbn [pval] in H. unfold pname in H. destruct (mem x keywords) eqn:Ek; [discriminate|].
      destruct (pattrs x ts) as [src r'] eqn:Ea.
      assert (Hv : (if mem x constants || negb (String.eqb src x) then POther src else PName x) = v) by congruence.
      assert (r' = r) by congruence. subst v r'. clear H. inversion Ht as [|? ? Hx Ht']; subst.
      split; [|exact (pattrs_ok ts x src r Ht' Ea)].
      destruct (mem x constants) eqn:Ec; cbn [orb]; [split; exact I|].
      destruct (String.eqb src x); cbn [negb]; [|split; exact I]. split; [exact I|]. cbn [pd_all leaf_ok]. apply good_name_iff. repeat split; try assumption.
    - cbn [pval] in H. injection H as <- <-. inversion Ht; subst. split; [|assumption]. now destruct conv.
    - inversion Ht as [|? ? _ Ht']; subst.
      destruct (Ascii.eqb c "["%char) eqn:E1; [|destruct (Ascii.eqb c "{"%char) eqn:E2].
      + apply Ascii.eqb_eq in E1; subst c. cbn [pval] in H. destruct (plist n conv ts) as [[l r']|] eqn:Ep; [|discriminate].
        injection H as <- <-. destruct (IH2 ts l r' Ht' Ep) as [H1 H2]. split; [|exact H2].
        split; [apply pd_wf_list|apply pd_all_list]; eapply Forall_impl; [|exact H1|  |exact H1]; intros a []; auto.
      + apply Ascii.eqb_eq in E2; subst c. cbn [pval] in H. destruct (pdict n conv [] ts) as [[l r']|] eqn:Ep; [|discriminate].
        injection H as <- <-. destruct (IH3 [] ts l r' Ht' dwf_nil (Forall_nil _) Ep) as [[H0 H1] H2]. split; [|exact H2].
        split; [apply pd_wf_dict; split; [exact H0|]|apply pd_all_dict]; eapply Forall_impl; [|exact H1|  |exact H1]; intros a []; auto.
      + exfalso. clear -H E1 E2. destruct c as [[] [] [] [] [] [] [] []]; try discriminate. }
  split; [exact P1|]. split.
  - intros ts l r Ht H.
    assert (Hcase : (exists r', ts = TP "]" :: r' /\ l = [] /\ r = r') \/
              (exists v r', pval n conv ts = Some (v, TP "," :: r') /\ exists l', plist n conv r' = Some (l', r) /\ l = v :: l') \/
              (exists v, pval n conv ts = Some (v, TP "]" :: r) /\ l = [v])).
    { assert (Hgen : match pval n conv ts with
                     | Some (v, TP "," :: r) => match plist n conv r with Some (l, r') => Some (v :: l, r') | None => None end
                     | Some (v, TP "]" :: r) => Some ([v], r)
                     | _ => None
                     end%char = Some (l, r) ->
               (exists v r', pval n conv ts = Some (v, TP "," :: r') /\ exists l', plist n conv r' = Some (l', r) /\ l = v :: l') \/
               (exists v, pval n conv ts = Some (v, TP "]" :: r) /\ l = [v])).
      { clear. destruct (pval n conv ts) as [[v [|[x|s|c] r']]|]; try discriminate. intro H.
        destruct (Ascii.eqb c ","%char) eqn:E1; [|destruct (Ascii.eqb c "]"%char) eqn:E2].
        - apply Ascii.eqb_eq in E1; subst c. left. exists v, r'. split; [reflexivity|].
          destruct (plist n conv r') as [[l' r2]|]; [|discriminate]. injection H as <- <-. now exists l'.
        - apply Ascii.eqb_eq in E2; subst c. right. injection H as <- <-. now exists v.
        - exfalso. destruct c as [[] [] [] [] [] [] [] []]; try discriminate. }
      cbn [plist] in H. destruct ts as [|[x|s|c] ts']; try (right; exact (Hgen H)).
      destruct (Ascii.eqb c "]"%char) eqn:E1.
      - apply Ascii.eqb_eq in E1; subst c. injection H as <- <-. left. now exists ts'.
      - right. apply Hgen. rewrite <- H. clear -E1. destruct c as [[] [] [] [] [] [] [] []]; try reflexivity. discriminate. }
    destruct Hcase as [(r' & -> & -> & ->)|[(v & r' & H1 & l' & H2 & ->)|(v & H1 & ->)]].
    + split; [constructor|]. now inversion Ht.
    + destruct (IH1 _ _ _ Ht H1) as [Hv Hr]. inversion Hr as [|? ? _ Hr']; subst. destruct (IH2 _ _ _ Hr' H2). split; [now constructor|assumption].
    + destruct (IH1 _ _ _ Ht H1) as [Hv Hr]. inversion Hr; subst. split; [now constructor|assumption].
  - intros acc ts l r Ht Hacc Hall H.
    assert (Hcase : (ts = TP "}" :: r /\ l = acc) \/
              (exists k r0 v r', ts = TStr k :: TP ":" :: r0 /\ pval n conv r0 = Some (v, TP "," :: r') /\ pdict n conv (dset k v acc) r' = Some (l, r)) \/
              (exists k r0 v, ts = TStr k :: TP ":" :: r0 /\ pval n conv r0 = Some (v, TP "}" :: r) /\ l = dset k v acc)).
    { cbn [pdict] in H. destruct ts as [|[x|k|c] ts']; try discriminate.
      - destruct ts' as [|[x|s|c] r0]; try discriminate. destruct (Ascii.eqb c ":"%char) eqn:E0.
        + apply Ascii.eqb_eq in E0; subst c. right.
          destruct (pval n conv r0) as [[v [|[x|s|c] r']]|] eqn:Ep; try discriminate.
          destruct (Ascii.eqb c ","%char) eqn:E1; [|destruct (Ascii.eqb c "}"%char) eqn:E2].
          * apply Ascii.eqb_eq in E1; subst c. left. exists k, r0, v, r'. auto.
          * apply Ascii.eqb_eq in E2; subst c. right. injection H as <- <-. exists k, r0, v. auto.
          * exfalso. clear -H E1 E2. destruct c as [[] [] [] [] [] [] [] []]; try discriminate.
        + exfalso. clear -H E0. destruct c as [[] [] [] [] [] [] [] []]; try discriminate.
      - destruct (Ascii.eqb c "}"%char) eqn:E1.
        + apply Ascii.eqb_eq in E1; subst c. injection H as <- <-. now left.
        + exfalso. clear -H E1. destruct c as [[] [] [] [] [] [] [] []]; try discriminate. }
    destruct Hcase as [[-> ->]|[(k & r0 & v & r' & -> & H1 & H2)|(k & r0 & v & -> & H1 & ->)]].
    + split; [now split|]. now inversion Ht.
    + inversion Ht as [|? ? _ Ht2]; subst. inversion Ht2 as [|? ? _ Ht3]; subst. destruct (IH1 _ _ _ Ht3 H1) as [Hv Hr].
      inversion Hr; subst. apply (IH3 (dset k v acc) r' l r); auto; [now apply dset_wf|now apply Forall_dset].
    + inversion Ht as [|? ? _ Ht2]; subst. inversion Ht2 as [|? ? _ Ht3]; subst. destruct (IH1 _ _ _ Ht3 H1) as [Hv Hr].
      inversion Hr; subst. split; [|assumption]. split; [now apply dset_wf|now apply Forall_dset].
Qed.

Lemma read_read_ok conv name text d : read conv name text = Some d -> read_ok conv (PDict d).
Proof.
  unfold read. destruct (lex LOut text) as [ts|] eqn:E; [|discriminate]. apply lex_ok in E; [|exact I].
  destruct ts as [|[x|s|c] ts]; try discriminate. destruct ts as [|[y|s|c] ts]; try discriminate.
  destruct (Ascii.eqb c "="%char) eqn:Ec.
  - apply Ascii.eqb_eq in Ec; subst c. destruct (String.eqb x name); [|discriminate].
    destruct (pval (2 * List.length ts) conv ts) as [[v r]|] eqn:Ep; [|discriminate].
    intro H. assert (v = PDict d /\ r = []) as [-> ->].
    { destruct v; try discriminate. destruct r; [|discriminate]. now injection H as ->. }
    inversion E as [|? ? _ E2]; subst. inversion E2 as [|? ? _ E3]; subst.
    exact (proj1 (proj1 (parse_ok conv _) ts _ _ E3 Ep)).
  - intro H. exfalso. clear -H Ec. destruct c as [[] [] [] [] [] [] [] []]; try discriminate.
Qed.

(** if it can be printed, it consists of names *)
Lemma print_items_names l s : print_items l = Ok s -> Forall (pd_all (fun _ => True) (leaf_ok false)) l ->
  Forall (fun x => exists n, x = PName n /\ good_name n) l.
Proof.
  revert s; induction l as [|x l IH]; intros s H Ha; [constructor|]. cbn [print_items] in H.
  destruct x as [n| | | |]; try discriminate. destruct (print_items l) as [s'|]; [|discriminate].
  inversion Ha; subst. constructor; [now exists n|]. now apply (IH s').
Qed.

Lemma print_names v : forall s, print_value v = Ok s -> pd_all (fun _ => True) (leaf_ok false) v -> plain_keys v -> names_only v.
Proof.
  unfold plain_keys. induction v as [n|s0|s0|l _|l IH] using pd_ind2; intros s H Ha Hk; try discriminate.
  - exact Ha.
  - apply names_only_list. apply pd_all_list in Ha. cbn [print_value] in H. destruct (print_items l) as [s'|] eqn:E; [|discriminate].
    exact (print_items_names l s' E Ha).
  - apply names_only_dict. apply pd_all_dict in Ha. apply pd_all_dict in Hk. rewrite print_value_dict in H.
    destruct (print_entries l) as [s'|] eqn:E; [|discriminate]. clear H. revert s' E.
    induction l as [|[k x] l IHl]; intros s' E; [constructor|]. cbn [print_entries] in E.
    destruct (print_value x) as [sx|] eqn:Ex; [|discriminate]. destruct (print_entries l) as [sl|]; [|discriminate].
    inversion IH as [|? ? IHx IH2]; subst. inversion Ha as [|? ? [_ Ha1] Ha2]; subst. inversion Hk as [|? ? [Hk1 Hk0] Hk2]; subst.
    constructor; [split; [exact Hk1|exact (IHx sx Ex Ha1 Hk0)]|]. exact (IHl IH2 Ha2 Hk2 sl eq_refl).
Qed.

Lemma print_items_writable l : is_ok (print_items l) = forallb (fun x => match x with PName _ => true | _ => false end) l.
Proof.
  induction l as [|[n|s|s|m|m] l IH]; try reflexivity. cbn [print_items forallb andb]. rewrite <- IH. now destruct (print_items l).
Qed.

Lemma print_value_writable v : is_ok (print_value v) = writable v.
Proof.
  induction v as [n|s|s|l _|l IH] using pd_ind2; try reflexivity.
  - cbn [print_value writable]. rewrite <- print_items_writable. now destruct (print_items l).
  - rewrite print_value_dict. cbn [writable].
    assert (E : is_ok (print_entries l) = forallb (fun kv => writable (snd kv)) l); [|rewrite <- E; now destruct (print_entries l)].
    induction IH as [|[k x] l Hx _ IHl]; [reflexivity|]. cbn [print_entries forallb snd] in *. rewrite <- Hx, <- IHl.
    destruct (print_value x); [|reflexivity]. now destruct (print_entries l).
Qed.

Lemma print_dict_writable name d : is_ok (print_dict name d) = writable (PDict d).
Proof.
  rewrite <- print_value_writable, print_value_dict. unfold print_dict. now destruct (print_entries d).
Qed.

(* ------------------------------------------------------------------ *)
(** * create *)

Lemma good_pipeline_dict : good_name "pipeline_dict".
Proof. apply good_name_iff. repeat split. Qed.
Lemma good_class_dict : good_name "class_dict".
Proof. apply good_name_iff. repeat split. Qed.

Lemma reg_set_usable c path e : usable_path path -> reg_set c path e = coll_set c path e.
Proof.
  intros [H _]. destruct path as [|x rest]; [easy|]. destruct H as [H1 H2]. unfold reg_set.
  apply eqb_neq_s in H2. now rewrite H2, H1.
Qed.

Section Create.
  Variable black : string -> res string.
  Hypothesis Hblack : layout_only black.

  Lemma create_entry_reads text d path f text' : read false "pipeline_dict" text = Some d -> plain_keys (PDict d) ->
    Forall plain_key path -> good_name f -> create_entry black text path f = Ok text' ->
    exists d', add_at d path (PName f) = (d', Ok tt) /\ read false "pipeline_dict" text' = Some d' /\ plain_keys (PDict d').
  Proof.
    intros Hr Hk Hp Hf H. unfold create_entry in H. rewrite Hr in H.
    destruct (add_at d path (PName f)) as [d' [[]|e]] eqn:Ea; [|discriminate].
    destruct (print_dict "pipeline_dict" d') as [s|] eqn:Es; [|discriminate]. exists d'. split; [reflexivity|].
    assert (Hk' : plain_keys (PDict d')) by (exact (add_at_all _ _ path d (PName f) d' _ Hk I Hp Ea)).
    split; [|exact Hk']. apply (Hblack _ _ s); [|exact H].
    destruct (read_read_ok _ _ _ _ Hr) as [Hwf Hl].
    assert (Hwf' : pd_wf (PDict d')) by (exact (add_at_wf path d (PName f) d' _ Hwf I Ea)).
    assert (Hl' : pd_all (fun _ => True) (leaf_ok false) (PDict d')).
    { apply (add_at_all _ _ path d (PName f) d' (Ok tt)); auto. apply Forall_forall. auto. }
    assert (Hn : names_only (PDict d')).
    { unfold print_dict in Es. destruct (print_entries d') as [s'|] eqn:Ep; [|discriminate].
      apply (print_names (PDict d') ("{" ++ s' ++ "},")%string); auto. rewrite print_value_dict. now rewrite Ep. }
    destruct (print_read "pipeline_dict" d' good_pipeline_dict Hn Hwf') as (s2 & E2 & R2). rewrite E2 in Es. injection Es as ->. exact R2.
  Qed.

  Lemma create_in_sync view w path f t w' r : in_sync view w -> usable_path path -> Forall plain_key path -> good_name f ->
    view (PName f) = Ok (f, t) -> create black path f t w = (w', r) ->
    in_sync view w' /\ forall e, r = Raise e -> w' = w.
  Proof.
    intros (d & Hr & Hk & Hc) Hu Hp Hf Hv H. unfold create in H.
    destruct (create_entry black (w_text w) path f) as [text|e] eqn:E.
    - destruct (create_entry_reads _ d path f text Hr Hk Hp Hf E) as (d' & Ha & Hr' & Hk').
      assert (Hne : path <> []) by (destruct path; [now destruct Hu|discriminate]).
      destruct (coll_set_add_at view path _ d (w_coll w) (PName f) f t d' Hc (proj1 (read_read_ok _ _ _ _ Hr)) eq_refl Hv Hne (proj2 Hu) Ha) as (c' & H1 & H2).
      rewrite (reg_set_usable _ _ _ Hu), H1 in H. injection H as <- <-. split; [|discriminate].
      exists d'. cbn [w_text w_coll]. split; [exact Hr'|]. split; [exact Hk'|]. unfold from_dict.
      now rewrite (from_pd_name view _ _ _ H2).
    - injection H as <- <-. split; [|auto]. now exists d.
  Qed.

  Lemma creates_in_sync view l : forall w w' r, in_sync view w ->
    Forall (fun x => match x with (path, f, t) => usable_path path /\ Forall plain_key path /\ good_name f /\ view (PName f) = Ok (f, t) end) l ->
    creates black l w = (w', r) -> in_sync view w'.
  Proof.
    unfold creates. induction l as [|[[path f] t] l IH]; intros w w' r Hs Hl H.
    - now injection H as <- <-.
    - inversion Hl as [|? ? HH Hl']; subst. cbv beta iota in HH. destruct HH as (H1 & H2 & H3 & H4). cbn [iterM] in H. unfold bind in H.
      destruct (create black path f t w) as [w1 r1] eqn:E. destruct (create_in_sync view w path f t w1 r1 Hs H1 H2 H3 H4 E) as [Hs1 _].
      destruct r1 as [[]|e]; [exact (IH w1 w' r Hs1 Hl' H)|]. now injection H as <- <-.
  Qed.

  Lemma create_class_in_sync view w path f t w' r : in_sync_class view w -> usable_path path -> Forall no_nul path -> no_nul f ->
    view (PStr f) = Ok (f, t) -> create_class black path f t w = (w', r) ->
    in_sync_class view w' /\ forall e, r = Raise e -> w' = w.
  Proof.
    intros (d & Hr & Hk & Hc) Hu Hp Hf Hv H. unfold create_class in H.
    destruct (create_class_entry black (w_text w) path f) as [text|e] eqn:E.
    - unfold create_class_entry in E. rewrite Hr in E.
      destruct (add_at d path (PStr f)) as [d' [[]|e]] eqn:Ea; [|discriminate].
      assert (Hne : path <> []) by (destruct path; [now destruct Hu|discriminate]).
      pose proof (proj1 (read_read_ok _ _ _ _ Hr)) as Hwf.
      assert (Hk' : strings_only (PDict d')) by (exact (add_at_all _ _ path d (PStr f) d' _ Hk Hf Hp Ea)).
      assert (Hwf' : pd_wf (PDict d')) by (exact (add_at_wf path d (PStr f) d' _ Hwf I Ea)).
      destruct (coll_set_add_at view path _ d (w_coll w) (PStr f) f t d' Hc Hwf eq_refl Hv Hne (proj2 Hu) Ea) as (c' & H1 & H2).
      rewrite (reg_set_usable _ _ _ Hu), H1 in H. injection H as <- <-. split; [|discriminate].
      exists d'. cbn [w_text w_coll]. split; [exact (Hblack true "class_dict" _ text d' (repr_read "class_dict" d' good_class_dict Hk' Hwf') E)|].
      split; [exact Hk'|]. unfold from_dict. now rewrite (from_pd_name view _ _ _ H2).
    - injection H as <- <-. split; [|auto]. now exists d.
  Qed.

  Lemma creates_class_in_sync view l : forall w w' r, in_sync_class view w ->
    Forall (fun x => match x with (path, f, t) => usable_path path /\ Forall no_nul path /\ no_nul f /\ view (PStr f) = Ok (f, t) end) l ->
    creates_class black l w = (w', r) -> in_sync_class view w'.
  Proof.
    unfold creates_class. induction l as [|[[path f] t] l IH]; intros w w' r Hs Hl H.
    - now injection H as <- <-.
    - inversion Hl as [|? ? HH Hl']; subst. cbv beta iota in HH. destruct HH as (H1 & H2 & H3 & H4). cbn [iterM] in H. unfold bind in H.
      destruct (create_class black path f t w) as [w1 r1] eqn:E. destruct (create_class_in_sync view w path f t w1 r1 Hs H1 H2 H3 H4 E) as [Hs1 _].
      destruct r1 as [[]|e]; [exact (IH w1 w' r Hs1 Hl' H)|]. now injection H as <- <-.
  Qed.
End Create.
