(** Proofs about reading Python source: logical lines and import statements. *)
From Verif Require Import PySource_Model PySource_Spec.
Local Open Scope string_scope.
Local Open Scope list_scope.

(* ------------------------------------------------------------------ *)
(** * Logical lines *)

Lemma logical_app a : forall o b xs, logical o a = Some xs ->
  logical o (a ++ b) = match logical None b with Some ys => Some (xs ++ ys) | None => None end.
Proof.
  induction a as [|l a IH]; intros o b xs H.
  - cbn in H. destruct o; [discriminate|]. injection H as <-. cbn [app]. now destruct (logical None b).
  - cbn [app logical] in H |- *. destruct (match o with None => (lstart, []) | Some x => x end) as [st cur].
    destruct (lex (ls_mode st) (ls_depth st) (ls_lit st) l) as [[[toks st'] bs]|]; [|discriminate].
    destruct (goes_on st' bs); [now apply IH|].
    destruct (logical None a) as [ls|] eqn:E; [|discriminate]. injection H as <-.
    rewrite (IH None b ls E). destruct (logical None b); reflexivity.
Qed.

Lemma res_list_app {A B} (f : A -> res B) a : forall b xs, res_list f a = Ok xs ->
  res_list f (a ++ b) = match res_list f b with Ok ys => Ok (xs ++ ys) | Raise e => Raise e end.
Proof.
  induction a as [|x a IH]; intros b xs H; cbn [app res_list] in *.
  - injection H as <-. now destruct (res_list f b).
  - destruct (f x); [|discriminate]. destruct (res_list f a) as [bs|] eqn:E; [|discriminate]. injection H as <-.
    rewrite (IH b bs eq_refl). now destruct (res_list f b).
Qed.
Lemma res_list_app_inv {A B} (f : A -> res B) a : forall b zs, res_list f (a ++ b) = Ok zs ->
  exists xs ys, res_list f a = Ok xs /\ res_list f b = Ok ys /\ zs = xs ++ ys.
Proof.
  induction a as [|x a IH]; intros b zs H; cbn [app res_list] in *.
  - exists [], zs. auto.
  - destruct (f x) as [y|]; [|discriminate]. destruct (res_list f (a ++ b)) as [bs|] eqn:E; [|discriminate]. injection H as <-.
    destruct (IH b bs E) as (xs & ys & -> & Hb & ->). exists (y :: xs), ys. auto.
Qed.

Lemma parse_lines_app a b xs : parse_lines a = Ok xs ->
  parse_lines (a ++ b) = match parse_lines b with Ok ys => Ok (xs ++ ys) | Raise e => Raise e end.
Proof.
  unfold parse_lines. destruct (logical None a) as [la|] eqn:Ea; [|discriminate]. intro H. rewrite (logical_app a None b la Ea).
  destruct (logical None b) as [lb|]; [|reflexivity]. now apply res_list_app.
Qed.

Lemma parse_lines_app_inv a b la zs : logical None a = Some la -> parse_lines (a ++ b) = Ok zs ->
  exists xs ys, parse_lines a = Ok xs /\ parse_lines b = Ok ys /\ zs = xs ++ ys.
Proof.
  unfold parse_lines. intros Ea H. rewrite (logical_app a None b la Ea) in H. rewrite Ea.
  destruct (logical None b) as [lb|]; [|discriminate]. now apply res_list_app_inv.
Qed.

Lemma parse_lines_cons l b xs : parse_lines [l] = Ok xs ->
  parse_lines (l :: b) = match parse_lines b with Ok ys => Ok (xs ++ ys) | Raise e => Raise e end.
Proof. apply (parse_lines_app [l]). Qed.

(** a line with blanks only *)
Lemma lex_blank s : all_chars is_space s = true -> lex Code 0 "" s = None \/ lex Code 0 "" s = Some ([], LS Code 0 "", false).
Proof.
  induction s as [|c s IH]; intro H; [right; reflexivity|]. cbn [all_chars] in H. apply andb_prop in H as [Hc Hs].
  cbn [lex]. assert (W : word_char c = false /\ Ascii.eqb c "#" = false /\ quote_char c = false /\ Ascii.eqb c bs_c = false /\
                         (blank_char c = true \/ Nat.ltb (nat_of_ascii c) 32 = true)).
  { clear IH Hs. revert Hc. destruct c as [[] [] [] [] [] [] [] []]; vm_compute; intro Hc; try discriminate; repeat split; auto. }
  destruct W as (-> & -> & -> & -> & B). destruct (blank_char c).
  - destruct (IH Hs) as [-> | ->]; auto.
  - destruct B as [B | ->]; [discriminate|auto].
Qed.

Lemma parse_blank_line l b zs : all_chars is_space l = true -> parse_lines (l :: b) = Ok zs ->
  parse_lines [l] = Ok [SOther] /\ exists ys, parse_lines b = Ok ys /\ zs = SOther :: ys.
Proof.
  intros Hl H. destruct (lex_blank l Hl) as [E|E].
  - exfalso. unfold parse_lines in H. cbn [logical lstart ls_mode ls_depth ls_lit] in H. now rewrite E in H.
  - assert (P : parse_lines [l] = Ok [SOther]).
    { unfold parse_lines. cbn [logical lstart ls_mode ls_depth ls_lit]. rewrite E. reflexivity. }
    split; [exact P|]. rewrite (parse_lines_cons l b _ P) in H. destruct (parse_lines b) as [ys|]; [|discriminate].
    injection H as <-. eauto.
Qed.

Lemma parse_empty_line : parse_lines [""] = Ok [SOther].
Proof. reflexivity. Qed.

(* ------------------------------------------------------------------ *)
(** * Lexing words *)

Definition prepend (l : list tok) (x : option (list tok * lstate * bool)) : option (list tok * lstate * bool) :=
  match x with Some (k, st, b) => Some (l ++ k, st, b) | None => None end.

Lemma prepend_app a b x : prepend a (prepend b x) = prepend (a ++ b) x.
Proof. destruct x as [[[k st] bs]|]; cbn; [now rewrite app_assoc|reflexivity]. Qed.
Lemma prepend_nil x : prepend [] x = x.
Proof. now destruct x as [[[k st] bs]|]. Qed.

(** the string ends here or goes on with something else than a word *)
Definition word_ends (s : string) : bool := match s with EmptyString => true | String c _ => negb (word_char c) end.

Lemma lex_flush d w s : word_ends s = true -> lex Code d w s = prepend (flush w []) (lex Code d "" s).
Proof.
  destruct s as [|c s]; cbn [word_ends]; intro H; [destruct w; reflexivity|]. apply negb_true_iff in H. cbn [lex]. rewrite H.
  match goal with |- match ?X with _ => _ end = _ => destruct X as [[[l st] b]|] end; [|reflexivity]. cbn [flush prepend].
  destruct w; reflexivity.
Qed.

Lemma snoc_app w c r : (snoc w c ++ r)%string = (w ++ String c r)%string.
Proof. unfold snoc. now rewrite app_assoc_s. Qed.

Lemma lex_word d x : forall w s, all_chars word_char x = true -> lex Code d w (x ++ s) = lex Code d (w ++ x) s.
Proof.
  induction x as [|c x IH]; intros w s H; [cbn [append]; now rewrite app_nil_r_s|].
  cbn [all_chars] in H. apply andb_prop in H as [Hc Hx]. cbn [append lex]. rewrite Hc. rewrite (IH _ _ Hx).
  f_equal. apply snoc_app.
Qed.

Lemma lex_word_end d x s : all_chars word_char x = true -> x <> "" -> word_ends s = true ->
  lex Code d "" (x ++ s) = prepend [TWord x] (lex Code d "" s).
Proof.
  intros H N E. rewrite (lex_word d x "" s H). cbn [append]. rewrite (lex_flush d x s E). now destruct x.
Qed.

Lemma lex_blank_char d s : lex Code d "" (String " " s) = lex Code d "" s.
Proof. cbn [lex]. change (word_char " ") with false. change (blank_char " ") with true. cbv iota. now destruct (lex Code d "" s) as [[[l st] b]|]. Qed.

Lemma lex_op d c s : word_char c = false -> blank_char c = false -> Ascii.eqb c "#" = false -> quote_char c = false ->
  Ascii.eqb c bs_c = false -> Nat.ltb (nat_of_ascii c) 32 = false -> open_char c = false -> close_char c = false ->
  lex Code d "" (String c s) = prepend [TOp c] (lex Code d "" s).
Proof.
  intros H1 H2 H3 H4 H5 H6 H7 H8. cbn [lex]. rewrite H1, H2, H3, H4, H5, H6, H7, H8. now destruct (lex Code d "" s) as [[[l st] b]|].
Qed.

Lemma is_name_chars x : is_name x = true -> all_chars word_char x = true /\ x <> "".
Proof.
  destruct x as [|c x]; [discriminate|]. unfold is_name. rewrite !andb_true_iff. intros [[_ H] _]. split; [exact H|discriminate].
Qed.
Lemma is_name_not_keyword x k : is_name x = true -> In k keywords -> String.eqb x k = false.
Proof.
  destruct x as [|c x]; [discriminate|]. unfold is_name. rewrite !andb_true_iff. intros [_ H] Hk. apply negb_true_iff in H.
  destruct (String.eqb (String c x) k) eqn:E; [|reflexivity]. apply String.eqb_eq in E. rewrite <- H. symmetry.
  apply existsb_exists. exists k. split; [exact Hk|]. now apply String.eqb_eq.
Qed.

(** the tokens of a dotted name *)
Fixpoint dot_toks (parts : list string) : list tok :=
  match parts with
  | [] => []
  | [p] => [TWord p]
  | p :: rest => TWord p :: TOp "." :: dot_toks rest
  end.

Lemma lex_dotted d parts s : parts <> [] -> forallb is_name parts = true -> word_ends s = true ->
  lex Code d "" (join "." parts ++ s) = prepend (dot_toks parts) (lex Code d "" s).
Proof.
  induction parts as [|p parts IH]; intros N H E; [easy|]. cbn [forallb] in H. apply andb_prop in H as [Hp Hr].
  destruct (is_name_chars p Hp) as [Hc Hn]. destruct parts as [|q parts].
  - cbn [join dot_toks]. now apply lex_word_end.
  - rewrite join_cons. rewrite !app_assoc_s. rewrite lex_word_end by (auto; reflexivity). cbn [append].
    rewrite lex_op by reflexivity. rewrite IH by (try discriminate; assumption). rewrite !prepend_app. reflexivity.
Qed.

Lemma dotted_toks parts rest : parts <> [] -> forallb is_name parts = true ->
  (match rest with t :: _ => is_op "." t | [] => false end) = false ->
  dotted (dot_toks parts ++ rest) = Some (join "." parts, rest).
Proof.
  induction parts as [|p parts IH]; intros N H E; [easy|]. cbn [forallb] in H. apply andb_prop in H as [Hp Hr].
  destruct parts as [|q parts].
  - cbn [dot_toks app dotted join]. rewrite Hp. destruct rest as [|[w|w|c] rest]; try reflexivity. cbn [is_op] in E.
    destruct c as [[] [] [] [] [] [] [] []]; try reflexivity. discriminate.
  - change (dot_toks (p :: q :: parts)) with (TWord p :: TOp "." :: dot_toks (q :: parts)). cbn [app dotted]. rewrite Hp.
    rewrite IH by (try discriminate; assumption). reflexivity.
Qed.

(* ------------------------------------------------------------------ *)
(** * Import statements *)

Definition as_toks (o : option string) : list tok := match o with Some n => [TWord "as"; TWord n] | None => [] end.
Definition alias_toks (a : alias) : list tok := dot_toks (split "." (fst a)) ++ as_toks (snd a).

Definition alias_ok (a : alias) : Prop := dotted_name (fst a) /\ name_alias a.

Lemma lex_alias d a s : alias_ok a -> word_ends s = true ->
  lex Code d "" (print_alias a ++ s) = prepend (alias_toks a) (lex Code d "" s).
Proof.
  destruct a as [n [b|]]; intros [H1 H2] E; unfold print_alias, alias_toks; cbn [fst snd as_toks] in *.
  - unfold name_alias in H2. cbn [snd] in H2. destruct (is_name_chars b H2) as [Hc Hn]. rewrite !app_assoc_s.
    rewrite <- (join_split "." n) at 1. rewrite lex_dotted by (try apply split_nonempty; try exact H1; reflexivity).
    change (" as " ++ b ++ s)%string with (String " " ("as" ++ String " " (b ++ s)))%string. rewrite lex_blank_char.
    rewrite lex_word_end by (try reflexivity; discriminate). rewrite lex_blank_char, (lex_word_end d b s Hc Hn E).
    rewrite !prepend_app. now rewrite <- app_assoc.
  - rewrite app_nil_r. rewrite <- (join_split "." n) at 1. apply lex_dotted; [apply split_nonempty|exact H1|exact E].
Qed.

Fixpoint aliases_toks (al : list alias) : list tok :=
  match al with
  | [] => []
  | [a] => alias_toks a
  | a :: rest => alias_toks a ++ TOp "," :: aliases_toks rest
  end.

Lemma lex_aliases d al s : al <> [] -> Forall alias_ok al -> word_ends s = true ->
  lex Code d "" (join ", " (map print_alias al) ++ s) = prepend (aliases_toks al) (lex Code d "" s).
Proof.
  induction al as [|a al IH]; intros N H E; [easy|]. inversion H as [|? ? Ha Hl]; subst. destruct al as [|b al].
  - cbn [map join aliases_toks]. now apply lex_alias.
  - change (map print_alias (a :: b :: al)) with (print_alias a :: print_alias b :: map print_alias al). rewrite join_cons, !app_assoc_s.
    rewrite lex_alias by (auto; reflexivity). change (", " ++ ?x)%string with (String "," (String " " x)).
    rewrite lex_op by reflexivity. rewrite lex_blank_char.
    change (print_alias b :: map print_alias al) with (map print_alias (b :: al)). rewrite IH by (try discriminate; assumption).
    rewrite !prepend_app. change (aliases_toks (a :: b :: al)) with (alias_toks a ++ TOp "," :: aliases_toks (b :: al)).
    now rewrite <- app_assoc.
Qed.

Lemma split_commas_no_comma l : forallb (fun t => negb (is_op "," t)) l = true -> split_commas l = [l].
Proof.
  induction l as [|t l IH]; [reflexivity|]. cbn [forallb split_commas]. intro H. apply andb_prop in H as [Ht Hl].
  apply negb_true_iff in Ht. rewrite Ht, (IH Hl). reflexivity.
Qed.
Lemma split_commas_app l r : forallb (fun t => negb (is_op "," t)) l = true -> split_commas (l ++ TOp "," :: r) = l :: split_commas r.
Proof.
  induction l as [|t l IH]; [reflexivity|]. cbn [forallb app split_commas]. intro H. apply andb_prop in H as [Ht Hl].
  apply negb_true_iff in Ht. rewrite Ht, (IH Hl). reflexivity.
Qed.

Lemma dot_toks_plain (f : tok -> bool) parts : (forall p, f (TWord p) = true) -> f (TOp ".") = true -> forallb f (dot_toks parts) = true.
Proof.
  intros H1 H2. induction parts as [|p [|q parts] IH]; [reflexivity|cbn; now rewrite H1|].
  change (dot_toks (p :: q :: parts)) with (TWord p :: TOp "." :: dot_toks (q :: parts)). cbn [forallb]. now rewrite H1, H2, IH.
Qed.
Lemma alias_toks_plain (f : tok -> bool) a : (forall p, f (TWord p) = true) -> f (TOp ".") = true -> forallb f (alias_toks a) = true.
Proof.
  intros H1 H2. unfold alias_toks. rewrite forallb_app, dot_toks_plain by assumption. destruct (snd a); cbn; now rewrite ?H1.
Qed.
Lemma aliases_toks_plain (f : tok -> bool) al : (forall p, f (TWord p) = true) -> f (TOp ".") = true -> f (TOp ",") = true ->
  forallb f (aliases_toks al) = true.
Proof.
  intros H1 H2 H3. induction al as [|a [|b al] IH]; [reflexivity|now apply alias_toks_plain|].
  change (aliases_toks (a :: b :: al)) with (alias_toks a ++ TOp "," :: aliases_toks (b :: al)).
  rewrite forallb_app, alias_toks_plain by assumption. cbn [forallb]. now rewrite H3, IH.
Qed.

Lemma split_commas_aliases al : al <> [] -> split_commas (aliases_toks al) = map alias_toks al.
Proof.
  induction al as [|a [|b al] IH]; intro N; [easy| |].
  - cbn [aliases_toks map]. apply split_commas_no_comma. now apply alias_toks_plain.
  - change (aliases_toks (a :: b :: al)) with (alias_toks a ++ TOp "," :: aliases_toks (b :: al)).
    rewrite split_commas_app by now apply alias_toks_plain. rewrite IH by discriminate. reflexivity.
Qed.

Lemma as_part_toks n o : match o with Some b => is_name b = true | None => True end -> as_part n (as_toks o) = Some (n, o).
Proof. destruct o as [b|]; cbn; [now intros ->|reflexivity]. Qed.

Lemma module_alias_toks a : alias_ok a -> module_alias (alias_toks a) = Some a.
Proof.
  destruct a as [n o]. intros [H1 H2]. unfold module_alias, alias_toks. cbn [fst snd].
  rewrite dotted_toks; [|apply split_nonempty|exact H1|now destruct o]. rewrite join_split. now apply as_part_toks.
Qed.

Lemma opt_list_map {A B} (f : A -> option B) (g : B -> A) l : Forall (fun b => f (g b) = Some b) l -> opt_list f (map g l) = Some l.
Proof. induction 1 as [|b l H _ IH]; [reflexivity|]. cbn [map opt_list]. now rewrite H, IH. Qed.

Lemma find_op_none c ts : forallb (fun t => negb (is_op c t)) ts = true -> forall d, find_op c d ts = None.
Proof.
  induction ts as [|t ts IH]; intros H d; [reflexivity|]. cbn [forallb find_op] in *. apply andb_prop in H as [Ht Hl].
  apply negb_true_iff in Ht. rewrite Ht. cbn [andb]. now rewrite IH.
Qed.

Lemma parse_one l toks st : lex Code 0 "" l = Some (toks, LS Code 0 "", false) -> stmt_of toks = Ok st -> parse_lines [l] = Ok [st].
Proof.
  intros E S. unfold parse_lines. cbn [logical lstart ls_mode ls_depth ls_lit]. rewrite E. cbn [goes_on ls_mode ls_depth app res_list].
  now rewrite S.
Qed.

Lemma lex_end d : lex Code d "" "" = Some ([], LS Code d "", false).
Proof. reflexivity. Qed.

Lemma parse_import_text al : module_aliases_ok al -> parse_lines [import_text al] = Ok [SImport (of_import al)].
Proof.
  intros [N H]. apply (parse_one _ (TWord "import" :: aliases_toks al)).
  - unfold import_text. change ("import " ++ ?x)%string with ("import" ++ String " " x)%string.
    rewrite lex_word_end by (try reflexivity; discriminate). rewrite lex_blank_char.
    rewrite <- (app_nil_r_s (join ", " (map print_alias al))). rewrite lex_aliases by (auto; reflexivity).
    rewrite lex_end. cbn [prepend]. now rewrite app_nil_r.
  - unfold stmt_of. rewrite find_op_none by (cbn [forallb is_op negb andb]; now apply aliases_toks_plain).
    cbn [String.eqb Ascii.eqb Bool.eqb]. rewrite split_commas_aliases by exact N.
    change (String.eqb "import" "import") with true. cbv iota.
    rewrite opt_list_map; [reflexivity|]. eapply Forall_impl; [|exact H]. intros a Ha. now apply module_alias_toks.
Qed.

Lemma is_name_dotted x : is_name x = true -> dotted_name x /\ split "." x = [x].
Proof.
  intro H. destruct (is_name_chars x H) as [Hc _]. assert (D : has_char "." x = false).
  { rewrite has_char_all_chars. apply negb_false_iff. revert Hc. clear H. induction x as [|c x IH]; [reflexivity|]. cbn [all_chars].
    rewrite !andb_true_iff. intros [H1 H2]. split; [|now apply IH]. destruct c as [[] [] [] [] [] [] [] []]; vm_compute in H1 |- *; congruence. }
  unfold dotted_name. rewrite (split_no_sep _ _ D). cbn. now rewrite H.
Qed.

Lemma object_alias_toks a : is_name (fst a) = true -> name_alias a -> object_alias (alias_toks a) = Some a.
Proof.
  destruct a as [n o]. unfold alias_toks, name_alias. cbn [fst snd]. intros H1 H2. destruct (is_name_dotted n H1) as [_ E]. rewrite E.
  cbn [dot_toks app object_alias]. rewrite H1. now apply as_part_toks.
Qed.

Lemma object_alias_ok a : is_name (fst a) = true /\ name_alias a -> alias_ok a.
Proof. intros [H1 H2]. split; [|exact H2]. now apply is_name_dotted. Qed.

(** the part after [import] *)
Definition objects_toks (al : list alias) : list tok := if String.eqb (fst (hd ("", None) al)) "*" then [TOp "*"] else aliases_toks al.

Lemma is_name_not_star x : is_name x = true -> String.eqb x "*" = false.
Proof.
  intro H. destruct (is_name_chars x H) as [Hc _]. destruct (String.eqb x "*") eqn:E; [|reflexivity]. apply String.eqb_eq in E. subst. discriminate.
Qed.

Lemma lex_objects d al s : object_aliases_ok al -> word_ends s = true ->
  lex Code d "" (join ", " (map print_alias al) ++ s) = prepend (objects_toks al) (lex Code d "" s).
Proof.
  intros [-> | [N H]] E.
  - cbn [map join]. unfold print_alias. cbn [fst snd append]. now rewrite lex_op.
  - rewrite lex_aliases; [| exact N | | exact E].
    + f_equal. unfold objects_toks. destruct al as [|a al]; [easy|]. cbn [hd]. inversion H as [|? ? [H1 _] _]; subst.
      now rewrite is_name_not_star.
    + eapply Forall_impl; [|exact H]. intros a. apply object_alias_ok.
Qed.

Lemma alias_toks_head n o : is_name n = true -> alias_toks (n, o) = TWord n :: as_toks o.
Proof. intro H. destruct (is_name_dotted n H) as [_ E]. unfold alias_toks. cbn [fst snd]. now rewrite E. Qed.

Lemma object_aliases_toks al : object_aliases_ok al -> object_aliases (objects_toks al) = Some al.
Proof.
  intros [-> | [N H]]; [reflexivity|]. assert (O : opt_list object_alias (split_commas (aliases_toks al)) = Some al).
  { rewrite split_commas_aliases by exact N. apply opt_list_map. eapply Forall_impl; [|exact H]. intros a [H1 H2]. now apply object_alias_toks. }
  assert (T : objects_toks al = aliases_toks al).
  { unfold objects_toks. destruct al as [|a al]; [easy|]. cbn [hd]. inversion H as [|? ? [H1 _] _]; subst. now rewrite is_name_not_star. }
  rewrite T. destruct al as [|a al]; [easy|]. inversion H as [|? ? [H1 _] _]; subst. 
  assert (X : exists r, aliases_toks (a :: al) = TWord (fst a) :: r).
  { destruct a as [n o]. destruct al as [|b al].
    - cbn [aliases_toks]. rewrite (alias_toks_head n o H1). eauto.
    - cbn [aliases_toks]. rewrite (alias_toks_head n o H1). cbn [app]. eauto. }
  destruct X as [r X]. rewrite X in O. rewrite X. unfold object_aliases. cbn [is_op]. destruct r as [|t r]; exact O.
Qed.

Lemma skip_dots_repeat n ts : (match ts with t :: _ => is_op "." t | [] => false end) = false -> skip_dots (repeat (TOp ".") n ++ ts) = ts.
Proof.
  intro H. induction n as [|n IH]; cbn [repeat app skip_dots].
  - destruct ts as [|t ts]; [reflexivity|]. cbn [skip_dots]. now rewrite H.
  - exact IH.
Qed.

Lemma lex_dots d n s : lex Code d "" (string_of_list_ascii (repeat "."%char n) ++ s) = prepend (repeat (TOp ".") n) (lex Code d "" s).
Proof.
  induction n as [|n IH]; cbn [repeat string_of_list_ascii append]; [now rewrite prepend_nil|].
  rewrite lex_op by reflexivity. rewrite IH, prepend_app. reflexivity.
Qed.

Lemma dot_toks_head parts : parts <> [] -> exists p r, dot_toks parts = TWord p :: r.
Proof. destruct parts as [|p [|q parts]]; [easy| |]; intros _; cbn; eauto. Qed.

Lemma lex_from_text n m al : dotted_name m -> object_aliases_ok al ->
  lex Code 0 "" (from_text n m al) =
    Some (TWord "from" :: repeat (TOp ".") n ++ dot_toks (split "." m) ++ TWord "import" :: objects_toks al, LS Code 0 "", false).
Proof.
  intros Hm H. unfold from_text. change ("from " ++ ?x)%string with ("from" ++ String " " x)%string.
  rewrite lex_word_end by (try reflexivity; discriminate). rewrite lex_blank_char, lex_dots.
  rewrite <- (join_split "." m) at 1. rewrite lex_dotted by (try apply split_nonempty; try exact Hm; reflexivity).
  change (" import " ++ ?x)%string with (String " " ("import" ++ String " " x))%string. rewrite lex_blank_char.
  rewrite lex_word_end by (try reflexivity; discriminate). rewrite lex_blank_char.
  rewrite <- (app_nil_r_s (join ", " (map print_alias al))). rewrite lex_objects by (auto; reflexivity).
  rewrite lex_end. cbn [prepend]. now rewrite app_nil_r.
Qed.

Lemma objects_toks_plain c al : c <> "*"%char -> c <> ","%char -> c <> "."%char -> forallb (fun t => negb (is_op c t)) (objects_toks al) = true.
Proof.
  intros H1 H2 H3. assert (E : forall d, c <> d -> Ascii.eqb d c = false) by (intros d K; apply Ascii.eqb_neq; congruence).
  unfold objects_toks. destruct (String.eqb _ _).
  - cbn [forallb is_op]. now rewrite E.
  - apply aliases_toks_plain; intros; cbn [is_op]; try reflexivity; now rewrite E.
Qed.

Lemma parse_from_text n m al : dotted_name m -> object_aliases_ok al -> parse_lines [from_text n m al] = Ok [SImport (ObjImp (map fst al) m (renames_of al))].
Proof.
  intros Hm H. eapply parse_one; [now apply lex_from_text|]. unfold stmt_of. rewrite find_op_none.
  - change (String.eqb "from" "import") with false. change (String.eqb "from" "from") with true. cbv iota zeta.
    destruct (dot_toks_head (split "." m) (split_nonempty _ _)) as (p & r & Hp).
    rewrite skip_dots_repeat by (rewrite Hp; reflexivity).
    rewrite dotted_toks; [|apply split_nonempty|exact Hm|reflexivity]. rewrite join_split. cbn [is_word].
    change (String.eqb "import" "import") with true. cbv iota. now rewrite object_aliases_toks by exact H.
  - cbn [forallb is_op negb andb]. rewrite forallb_app. assert (R : forallb (fun t => negb (is_op ";" t)) (repeat (TOp ".") n) = true) by (induction n; cbn; auto).
    rewrite R, forallb_app, dot_toks_plain by reflexivity. cbn [forallb is_op negb andb]. apply objects_toks_plain; discriminate.
Qed.

(** [from . import x] *)
Lemma parse_from_dots n al : object_aliases_ok al ->
  parse_lines [("from " ++ string_of_list_ascii (repeat "."%char (S n)) ++ " import " ++ join ", " (map print_alias al))%string]
  = Ok [SBadImport (LibExn "CouldNotExtractObjectImportFromAstException")].
Proof.
  intro H. apply (parse_one _ (TWord "from" :: repeat (TOp ".") (S n) ++ TWord "import" :: objects_toks al)).
  - change ("from " ++ ?x)%string with ("from" ++ String " " x)%string.
    rewrite lex_word_end by (try reflexivity; discriminate). rewrite lex_blank_char, lex_dots.
    change (" import " ++ ?x)%string with (String " " ("import" ++ String " " x))%string. rewrite lex_blank_char.
    rewrite lex_word_end by (try reflexivity; discriminate). rewrite lex_blank_char.
    rewrite <- (app_nil_r_s (join ", " (map print_alias al))). rewrite lex_objects by (auto; reflexivity).
    rewrite lex_end. cbn [prepend]. now rewrite app_nil_r.
  - unfold stmt_of. rewrite find_op_none.
    + change (String.eqb "from" "import") with false. change (String.eqb "from" "from") with true. cbv iota zeta.
      rewrite skip_dots_repeat by reflexivity. cbn [dotted]. change (is_name "import") with false. cbv iota.
      assert (L : Nat.ltb (length (TWord "import" :: objects_toks al)) (length (repeat (TOp ".") (S n) ++ TWord "import" :: objects_toks al)) = true).
      { apply Nat.ltb_lt. rewrite app_length, repeat_length. lia. }
      rewrite L. cbn [is_word]. change (String.eqb "import" "import") with true. cbv iota. now rewrite object_aliases_toks by exact H.
    + cbn [forallb is_op negb andb]. rewrite forallb_app. assert (R : forallb (fun t => negb (is_op ";" t)) (repeat (TOp ".") (S n)) = true) by (generalize (S n) as k; induction k; cbn; auto).
      rewrite R. cbn [forallb is_op negb andb]. apply objects_toks_plain; discriminate.
Qed.

(* ------------------------------------------------------------------ *)
(** * Printing *)

Lemma renamed_aliases items r : renamed items r = map print_alias (map (fun x => (x, dget x (item_map r))) items).
Proof. unfold renamed. rewrite map_map. apply map_ext. intro x. unfold print_alias. cbn [fst snd]. now destruct (dget x (item_map r)). Qed.

Lemma print_imp_text i : print_imp i = match i with ModImp _ _ => import_text (aliases_of i) | ObjImp _ m _ => from_text 0 m (aliases_of i) end.
Proof. destruct i as [ms r|os m r]; unfold print_imp, import_text, from_text; cbn [aliases_of repeat string_of_list_ascii append]; now rewrite renamed_aliases. Qed.

Lemma parse_print_imp i : imp_ok i -> parse_lines [print_imp i] = Ok [SImport (normal i)].
Proof.
  intro H. rewrite print_imp_text. destruct i as [ms r|os m r].
  - apply parse_import_text. exact H.
  - destruct H as [Hm H]. apply (parse_from_text 0 m _ Hm H).
Qed.

(* ------------------------------------------------------------------ *)
(** * What is read is well formed *)

Lemma dotted_sound ts : forall n r, dotted ts = Some (n, r) -> dotted_name n.
Proof.
  induction ts as [ts IH] using (well_founded_induction (Wf_nat.well_founded_ltof _ (@length tok))). intros n r H.
  destruct ts as [|[a|a|c] rest]; try discriminate. cbn [dotted] in H. destruct (is_name a) eqn:Ea; [|discriminate].
  destruct (is_name_chars a Ea) as [Hc _].
  assert (Simple : forall q, Some (a, q) = Some (n, r) -> dotted_name n) by (intros q E; injection E as <- _; now apply is_name_dotted).
  destruct rest as [|[b|b|c] rest']; try (now apply (Simple _ H)).
  destruct (Ascii.eqb c ".") eqn:Ec.
  - apply Ascii.eqb_eq in Ec. subst c. destruct (dotted rest') as [[b q]|] eqn:E; [|discriminate]. injection H as <- _.
    assert (Hb : dotted_name b) by (apply (IH rest') with (r := q); [unfold Wf_nat.ltof; cbn; lia|exact E]).
    unfold dotted_name in *. destruct (is_name_dotted a Ea) as [_ Sa]. assert (D : has_char "." a = false).
    { destruct (has_char "." a) eqn:D; [|reflexivity]. exfalso. rewrite has_char_all_chars in D. apply negb_true_iff in D.
      assert (F : all_chars (fun y => negb (Ascii.eqb y ".")) a = true); [|congruence]. clear - Hc. induction a as [|c x IH]; [reflexivity|]. cbn [all_chars] in *.
      apply andb_prop in Hc as [H1 H2]. rewrite (IH H2), andb_true_r. destruct c as [[] [] [] [] [] [] [] []]; vm_compute in H1 |- *; congruence. }
    assert (E2 : split "." (a ++ String "." b)%string = a :: split "." b).
    { clear - D. induction a as [|c a IH]; [reflexivity|]. cbn [has_char] in D. apply orb_false_iff in D as [D1 D2]. cbn [append split]. rewrite D1.
      now rewrite (IH D2). }
    cbn [append]. rewrite E2. cbn [forallb]. now rewrite Ea.
  - assert (K : match TOp c :: rest' with TOp "."%char :: r' => true | _ => false end = false)
      by (destruct c as [[] [] [] [] [] [] [] []]; try reflexivity; discriminate).
    apply (Simple (TOp c :: rest')). rewrite <- H. clear - Ec. destruct c as [[] [] [] [] [] [] [] []]; try reflexivity. discriminate.
Qed.

Lemma as_part_sound n ts a : as_part n ts = Some a -> fst a = n /\ name_alias a.
Proof.
  destruct ts as [|[w|w|c] [|[b|b|d] [|? ?]]]; cbn; try discriminate.
  - intros [= <-]. now split.
  - destruct (String.eqb w "as" && is_name b) eqn:E; [|discriminate]. intros [= <-]. apply andb_prop in E as [_ E]. now split.
Qed.
Lemma module_alias_sound ts a : module_alias ts = Some a -> alias_ok a.
Proof.
  unfold module_alias. destruct (dotted ts) as [[n r]|] eqn:E; [|discriminate]. intro H. apply as_part_sound in H as [<- H]. split; [|exact H].
  now apply dotted_sound with (ts := ts) (r := r).
Qed.
Lemma object_alias_sound ts a : object_alias ts = Some a -> is_name (fst a) = true /\ name_alias a.
Proof.
  destruct ts as [|[w|w|c] r]; try discriminate. cbn [object_alias]. destruct (is_name w) eqn:E; [|discriminate].
  intro H. apply as_part_sound in H as [<- H]. now split.
Qed.

Lemma opt_list_sound {A B} (f : A -> option B) (P : B -> Prop) l bs : (forall a b, f a = Some b -> P b) -> opt_list f l = Some bs ->
  Forall P bs /\ length bs = length l.
Proof.
  intro HP. revert bs. induction l as [|a l IH]; intros bs H; cbn [opt_list] in H; [injection H as <-; now split|].
  destruct (f a) as [b|] eqn:E; [|discriminate]. destruct (opt_list f l) as [bs'|]; [|discriminate]. injection H as <-.
  destruct (IH bs' eq_refl) as [H1 H2]. split; [constructor; eauto|cbn; congruence].
Qed.

Lemma split_commas_nonempty ts : split_commas ts <> [].
Proof. destruct ts as [|t r]; [discriminate|]. cbn [split_commas]. destruct (is_op "," t); [discriminate|]. now destruct (split_commas r). Qed.

Lemma length_nonempty {A B} (a : list A) (b : list B) : length a = length b -> b <> [] -> a <> [].
Proof. intros H N ->. destruct b; [easy|discriminate]. Qed.

Lemma objects_list_sound l al : l <> [] -> opt_list object_alias l = Some al -> object_aliases_ok al.
Proof.
  intros N H. right. destruct (opt_list_sound object_alias _ l al object_alias_sound H) as [H1 H2].
  split; [now apply (length_nonempty al l)|exact H1].
Qed.

Lemma object_aliases_sound ts al : object_aliases ts = Some al -> object_aliases_ok al.
Proof.
  unfold object_aliases. destruct ts as [|t [|t2 r]]; [discriminate| |].
  - destruct (is_op "*" t); [intros [= <-]; now left|]. apply objects_list_sound. discriminate.
  - destruct (is_op "(" t).
    + destruct (rev (t2 :: r)) as [|cl inner]; [discriminate|]. destruct (is_op ")" cl); [|discriminate]. cbv zeta.
      apply objects_list_sound. pose proof (split_commas_nonempty (rev inner)) as N.
      destruct (rev (split_commas (rev inner))) as [|[|x xs] more]; [exact N| |exact N]. destruct more as [|m more]; [exact N|].
      intro K. apply (f_equal (@rev _)) in K. rewrite rev_involutive in K. discriminate.
    + apply objects_list_sound, split_commas_nonempty.
Qed.

(** how a statement that was read came about *)
Definition read_imp (i : imp) : Prop :=
  (exists al, module_aliases_ok al /\ i = of_import al) \/
  (exists al m, dotted_name m /\ object_aliases_ok al /\ i = ObjImp (map fst al) m (renames_of al)).

Lemma plain_stmt_no_import ts i : plain_stmt ts <> Ok (SImport i).
Proof.
  unfold plain_stmt, assign_of. repeat match goal with |- (match ?x with _ => _ end) <> _ => destruct x end; discriminate.
Qed.

Lemma stmt_of_import ts i : stmt_of ts = Ok (SImport i) -> read_imp i.
Proof.
  unfold stmt_of. destruct (find_op ";" 0 ts); [discriminate|]. destruct ts as [|[w|w|c] rest]; try discriminate;
    try (intro H; now apply plain_stmt_no_import in H).
  destruct (String.eqb w "import").
  - destruct (opt_list module_alias (split_commas rest)) as [al|] eqn:E; [|discriminate]. intros [= <-]. left. exists al. split; [|reflexivity].
    destruct (opt_list_sound module_alias _ _ al module_alias_sound E) as [H1 H2]. split; [|exact H1].
    exact (length_nonempty _ _ H2 (split_commas_nonempty rest)).
  - destruct (String.eqb w "from").
    + cbv zeta. destruct (dotted (skip_dots rest)) as [[m r]|] eqn:Ed.
      * destruct r as [|t names]; [discriminate|]. destruct (is_word "import" t); [|discriminate].
        destruct (object_aliases names) as [al|] eqn:E; [|discriminate]. cbn [of_import_from]. intros [= <-]. right. exists al, m.
        split; [now apply dotted_sound in Ed|]. split; [now apply object_aliases_sound in E|reflexivity].
      * destruct (Nat.ltb _ _); [|discriminate]. destruct (skip_dots rest) as [|t names]; [discriminate|]. destruct (is_word "import" t); [|discriminate].
        destruct (object_aliases names) as [al|] eqn:E; [|discriminate]. discriminate.
    + destruct (existsb _ clause_keywords); [destruct (is_op _ _); discriminate|]. destruct (existsb _ keywords); [discriminate|]. intro H. now apply plain_stmt_no_import in H.
Qed.

Lemma res_list_in {A B} (f : A -> res B) l bs b : res_list f l = Ok bs -> In b bs -> exists a, In a l /\ f a = Ok b.
Proof.
  revert bs. induction l as [|a l IH]; intros bs H Hb; cbn [res_list] in H; [injection H as <-; easy|].
  destruct (f a) as [b'|] eqn:E; [|discriminate]. destruct (res_list f l) as [bs'|]; [|discriminate]. injection H as <-.
  destruct Hb as [<- | Hb]; [exists a; cbn; auto|]. destruct (IH bs' eq_refl Hb) as (x & Hx & Ex). exists x. cbn. auto.
Qed.

Lemma parse_lines_imports ls st i : parse_lines ls = Ok st -> In (SImport i) st -> read_imp i.
Proof.
  unfold parse_lines. destruct (logical None ls) as [l|]; [|discriminate]. intros H Hi.
  destruct (res_list_in _ _ _ _ H Hi) as (ts & _ & E). now apply stmt_of_import in E.
Qed.

Lemma imports_of_in st is i : imports_of st = Ok is -> In i is -> In (SImport i) st.
Proof.
  revert is. induction st as [|x st IH]; intros is H Hi; cbn [imports_of] in H; [injection H as <-; easy|].
  destruct x; try discriminate; try (right; now apply (IH is)). destruct (imports_of st) as [is'|]; [|discriminate]. injection H as <-.
  destruct Hi as [<- | Hi]; [now left|]. right. now apply (IH is').
Qed.

(* ------------------------------------------------------------------ *)
(** * Renames *)

Lemma dget_item_map_snoc r q x : dget x (item_map (r ++ [q])) = if String.eqb x (fst q) then Some (snd q) else dget x (item_map r).
Proof.
  unfold item_map. rewrite fold_left_app. cbn [fold_left]. destruct (String.eqb x (fst q)) eqn:E.
  - apply String.eqb_eq in E. subst. apply dget_dset_eq.
  - apply dget_dset_neq. intro K. apply String.eqb_neq in E. congruence.
Qed.

Lemma renames_of_app a b : renames_of (a ++ b) = renames_of a ++ renames_of b.
Proof. unfold renames_of. apply flat_map_app. Qed.

Lemma item_map_last_as al x : dget x (item_map (renames_of al)) = last_as al x.
Proof.
  induction al as [|a al IH] using rev_ind; [reflexivity|]. unfold last_as. rewrite fold_left_app. cbn [fold_left].
  fold (last_as al x). rewrite renames_of_app. destruct a as [y [n|]]; unfold renames_of at 2; cbn [flat_map snd fst app].
  - rewrite dget_item_map_snoc. cbn [fst snd]. now rewrite IH.
  - rewrite app_nil_r, IH. now destruct (String.eqb x y).
Qed.

Lemma aliases_settled (al : list alias) : map (fun x => (x, dget x (item_map (renames_of al)))) (map fst al) = settled al.
Proof. unfold settled. rewrite map_map. apply map_ext. intros a. now rewrite item_map_last_as. Qed.

Lemma last_as_in al x n : last_as al x = Some n -> In (x, Some n) al.
Proof.
  induction al as [|a al IH] using rev_ind; [discriminate|]. unfold last_as. rewrite fold_left_app. cbn [fold_left]. fold (last_as al x).
  rewrite in_app_iff. destruct (String.eqb x (fst a)) eqn:E.
  - apply String.eqb_eq in E. destruct a as [y [m|]]; cbn [fst snd] in *; subst.
    + intros [= ->]. right. now left.
    + intro H. left. now apply IH.
  - intro H. left. now apply IH.
Qed.
Lemma last_as_none al x : last_as al x = None <-> forall n, ~ In (x, Some n) al.
Proof.
  split.
  - induction al as [|a al IH] using rev_ind; [easy|]. unfold last_as. rewrite fold_left_app. cbn [fold_left]. fold (last_as al x).
    intros H n. rewrite in_app_iff. destruct (String.eqb x (fst a)) eqn:E.
    + destruct (snd a) eqn:Ea; [discriminate|]. intros [K | [K | []]]; [now apply (IH H n)|]. subst a. discriminate.
    + intros [K | [K | []]]; [now apply (IH H n)|]. subst a. cbn in E. now rewrite String.eqb_refl in E.
  - intro H. destruct (last_as al x) as [n|] eqn:E; [|reflexivity]. apply last_as_in in E. now apply H in E.
Qed.

Lemma settled_one_way al : one_way al -> settled al = al.
Proof.
  intro H. unfold settled. transitivity (map (fun a : alias => a) al); [|apply map_id]. apply map_ext_in. intros [x o] Hx. cbn [fst]. f_equal.
  destruct (last_as al x) as [n|] eqn:E.
  - apply last_as_in in E. now apply (H x).
  - destruct o as [n|]; [|reflexivity]. apply last_as_none with (n := n) in E. contradiction.
Qed.
Lemma settled_is_one_way al : one_way (settled al).
Proof.
  intros x o1 o2 H1 H2. unfold settled in *. rewrite in_map_iff in H1, H2. destruct H1 as (a & Ea & _), H2 as (b & Eb & _).
  injection Ea as <- <-. injection Eb as Ex <-. now rewrite Ex.
Qed.
Lemma settled_iff al : settled al = al <-> one_way al.
Proof. split; [|apply settled_one_way]. intros <-. apply settled_is_one_way. Qed.
Lemma settled_names al : map fst (settled al) = map fst al.
Proof. unfold settled. rewrite map_map. reflexivity. Qed.

Lemma settled_in al x o : In (x, o) (settled al) -> (exists o', In (x, o') al) /\ (forall n, o = Some n -> In (x, Some n) al).
Proof.
  unfold settled. rewrite in_map_iff. intros ((y & o') & E & H). cbn [fst] in E. injection E as <- <-. split; [eauto|].
  intros n E. now apply last_as_in.
Qed.

Lemma settled_nil al : settled al = [] -> al = [].
Proof. now destruct al. Qed.

Lemma settled_module al : module_aliases_ok al -> module_aliases_ok (settled al).
Proof.
  intros [N H]. split; [intro K; now apply settled_nil in K|]. rewrite Forall_forall in *. intros [x o] Hx.
  destruct (settled_in al x o Hx) as [[o' H1] H2]. destruct (H _ H1) as [D _]. split; [exact D|]. unfold name_alias. cbn [snd].
  destruct o as [n|]; [|exact I]. destruct (H _ (H2 n eq_refl)) as [_ A]. exact A.
Qed.
Lemma settled_object al : object_aliases_ok al -> object_aliases_ok (settled al).
Proof.
  intros [-> | [N H]]; [left; reflexivity|]. right. split; [intro K; now apply settled_nil in K|]. rewrite Forall_forall in *. intros [x o] Hx.
  destruct (settled_in al x o Hx) as [[o' H1] H2]. destruct (H _ H1) as [D _]. split; [exact D|]. unfold name_alias. cbn [snd].
  destruct o as [n|]; [|exact I]. destruct (H _ (H2 n eq_refl)) as [_ A]. exact A.
Qed.

Lemma aliases_of_import al : aliases_of (of_import al) = settled al.
Proof. apply aliases_settled. Qed.
Lemma aliases_of_from al m : aliases_of (ObjImp (map fst al) m (renames_of al)) = settled al.
Proof. apply aliases_settled. Qed.

Lemma normal_import al : normal (of_import al) = of_import (settled al).
Proof. unfold normal, of_import at 1. fold (of_import al). now rewrite aliases_of_import. Qed.
Lemma normal_from al m : normal (ObjImp (map fst al) m (renames_of al)) = ObjImp (map fst (settled al)) m (renames_of (settled al)).
Proof. unfold normal. now rewrite aliases_of_from. Qed.

Lemma read_imp_ok i : read_imp i -> imp_ok i.
Proof.
  intros [(al & H & ->) | (al & m & Hm & H & ->)].
  - unfold imp_ok, of_import. fold (of_import al). rewrite aliases_of_import. now apply settled_module.
  - unfold imp_ok. rewrite aliases_of_from. split; [exact Hm|now apply settled_object].
Qed.

Lemma aliases_of_normal i : aliases_of (normal i) = aliases_of i.
Proof.
  assert (K : forall items (r : list (string * string)), let al := map (fun x => (x, dget x (item_map r))) items in
              map (fun x => (x, dget x (item_map (renames_of al)))) (map fst al) = al).
  { intros items r al. rewrite aliases_settled. apply settled_one_way. intros x o1 o2 H1 H2. subst al. rewrite in_map_iff in H1, H2.
    destruct H1 as (? & E1 & _), H2 as (? & E2 & _). congruence. }
  destruct i as [ms r|os m r]; cbn [normal]; apply K.
Qed.

Lemma normal_normal i : normal (normal i) = normal i.
Proof.
  destruct i as [ms r|os m r].
  - change (normal (normal (ModImp ms r))) with (ModImp (map fst (aliases_of (normal (ModImp ms r)))) (renames_of (aliases_of (normal (ModImp ms r))))).
    now rewrite aliases_of_normal.
  - change (normal (normal (ObjImp os m r))) with (ObjImp (map fst (aliases_of (normal (ObjImp os m r)))) m (renames_of (aliases_of (normal (ObjImp os m r))))).
    now rewrite aliases_of_normal.
Qed.

Lemma print_normal i : print_imp (normal i) = print_imp i.
Proof. rewrite !print_imp_text, aliases_of_normal. now destruct i. Qed.

Lemma imp_ok_normal i : imp_ok i -> imp_ok (normal i).
Proof. intro H. unfold imp_ok. rewrite aliases_of_normal. now destruct i. Qed.

Lemma normal_read i : imp_ok i -> read_imp (normal i).
Proof. intro H. apply (parse_lines_imports [print_imp i] [SImport (normal i)]); [now apply parse_print_imp|now left]. Qed.

(** * The sign of an assignment *)
Definition depth_from (d : nat) (ts : list tok) : nat := fold_left depth_after ts d.
Lemma depth_is ts : depth ts = depth_from 0 ts.
Proof.
  unfold depth, depth_from. generalize 0 as d. induction ts as [|t ts IH]; intros d; [reflexivity|]. cbn [fold_left]. rewrite IH. f_equal. destruct t as [s|s|c]; try reflexivity.
  clear. destruct c as [[] [] [] [] [] [] [] []]; reflexivity.
Qed.
Lemma depth_from_app d a b : depth_from d (a ++ b) = depth_from (depth_from d a) b.
Proof. apply fold_left_app. Qed.
(** the token before the end of [prev :: ts] *)
Definition last_tok (prev : option tok) (ts : list tok) : option tok := fold_left (fun _ t => Some t) ts prev.
Lemma last_tok_snoc p ts t : last_tok p (ts ++ [t]) = Some t.
Proof. unfold last_tok. now rewrite fold_left_app. Qed.
Lemma last_tok_cases p ts : (ts = [] /\ last_tok p ts = p) \/ exists b t, ts = b ++ [t] /\ last_tok p ts = Some t.
Proof.
  destruct ts as [|t0 ts] using rev_ind; [now left|]. right. exists ts, t0. split; [reflexivity|apply last_tok_snoc].
Qed.
Definition sign_at (d : nat) (prev : option tok) (b a : list tok) : bool :=
  Nat.eqb (depth_from d b) 0 && negb (eq_prefix (last_tok prev b)) && negb (match a with t :: _ => is_op "=" t | [] => false end).
Lemma find_eq_spec ts : forall d prev b a, find_eq d prev ts = Some (b, a) <->
  ts = b ++ TOp "=" :: a /\ sign_at d prev b a = true /\ forall b1 b2, b = b1 ++ TOp "=" :: b2 -> sign_at d prev b1 (b2 ++ TOp "=" :: a) = false.
Proof.
  induction ts as [|t r IH]; intros d prev b a; cbn [find_eq].
  - split; [discriminate|]. intros (H & _). destruct b; discriminate.
  - assert (S0 : is_op "=" t && Nat.eqb d 0 && negb (eq_prefix prev) && negb (match r with t' :: _ => is_op "=" t' | [] => false end) = is_op "=" t && sign_at d prev [] r).
    { unfold sign_at. cbn [depth_from last_tok fold_left]. now rewrite !andb_assoc. }
    rewrite S0. clear S0. destruct (is_op "=" t && sign_at d prev [] r) eqn:E.
    + apply andb_prop in E as [E1 E2]. assert (t = TOp "=") as -> by (destruct t; try discriminate; cbn in E1; apply Ascii.eqb_eq in E1; now subst). split.
      * intros [= <- <-]. split; [reflexivity|]. split; [exact E2|]. intros [|x b1] b2 H; discriminate.
      * intros (H & _ & N). destruct b as [|x b]; [cbn in H; injection H as <-; reflexivity|]. exfalso. cbn in H. injection H as <- H. specialize (N [] b eq_refl). rewrite <- H in N. congruence.
    + assert (Q : forall b0 a0, sign_at d prev (t :: b0) a0 = sign_at (depth_after d t) (Some t) b0 a0) by reflexivity.
      destruct (find_eq (depth_after d t) (Some t) r) as [[b' a']|] eqn:F.
      * apply (IH _ _ b' a') in F as (-> & S1 & N1). split.
        -- intros [= <- <-]. split; [reflexivity|]. split; [exact S1|]. intros [|x b1] b2 H; cbn in H.
           ++ injection H as -> ->. cbn in E. exact E.
           ++ injection H as <- H. rewrite Q. now apply N1.
        -- intros (H & S2 & N2). destruct b as [|x b]; cbn in H.
           ++ injection H as -> <-. cbn in E. congruence.
           ++ injection H as <- H. rewrite Q in S2. assert (X : find_eq (depth_after d t) (Some t) (b' ++ TOp "=" :: a') = Some (b, a)).
              { apply IH. split; [exact H|]. split; [exact S2|]. intros b1 b2 Hb. specialize (N2 (t :: b1) b2). cbn in N2. rewrite Hb in N2. specialize (N2 eq_refl). now rewrite Q in N2. }
              assert (Y : find_eq (depth_after d t) (Some t) (b' ++ TOp "=" :: a') = Some (b', a')) by (apply IH; auto). rewrite X in Y. injection Y as -> ->. reflexivity.
      * split; [discriminate|]. intros (H & S2 & N2). destruct b as [|x b]; cbn in H.
        -- injection H as -> <-. cbn in E. congruence.
        -- exfalso. injection H as <- H. rewrite Q in S2. assert (X : find_eq (depth_after d t) (Some t) r = Some (b, a)); [|congruence].
           apply IH. split; [exact H|]. split; [exact S2|]. intros b1 b2 Hb. specialize (N2 (t :: b1) b2). cbn in N2. rewrite Hb in N2. specialize (N2 eq_refl). now rewrite Q in N2.
Qed.
Lemma sign_at_iff b a : sign_at 0 None b a = true <-> assigns_between b a.
Proof.
  unfold sign_at, assigns_between. rewrite depth_is, !andb_true_iff, Nat.eqb_eq, !negb_true_iff. rewrite and_assoc. apply and_iff_compat_l. apply Morphisms_Prop.and_iff_morphism.
  - destruct (last_tok_cases None b) as [[-> E]|(b' & t & -> & E)]; rewrite E.
    + split; [intros _ [|] c H; discriminate|reflexivity].
    + split.
      * intros H b2 c H2 I. apply app_inj_tail in H2 as [-> ->]. cbn in H. assert (X : existsb (Ascii.eqb c) ["="; "!"; "<"; ">"; "+"; "-"; "*"; "/"; "%"; "&"; "|"; "^"; "@"; ":"]%char = true); [|cbn in X; congruence].
        apply existsb_exists. exists c. split; [exact I|apply Ascii.eqb_refl].
      * intros H. destruct t as [s|s|c]; try reflexivity. specialize (H b' c eq_refl). unfold eq_prefix. apply not_true_is_false. intros X. apply existsb_exists in X as (c' & I & X). apply Ascii.eqb_eq in X. now subst c'.
  - destruct a as [|t a]; [split; [discriminate|reflexivity]|]. destruct t as [s|s|c]; cbn [is_op]; try (split; [discriminate|reflexivity]). split.
    + intros H a0 [= ->]. discriminate.
    + intros H. apply Ascii.eqb_neq. intros ->. now apply (H a).
Qed.
Lemma find_eq_between ts b a : find_eq 0 None ts = Some (b, a) <->
  ts = b ++ TOp "=" :: a /\ assigns_between b a /\ forall b1 b2, b = b1 ++ TOp "=" :: b2 -> ~ assigns_between b1 (b2 ++ TOp "=" :: a).
Proof.
  rewrite find_eq_spec, sign_at_iff. split; intros (H1 & H2 & H3); split; auto; split; auto; intros b1 b2 Hb; specialize (H3 b1 b2 Hb).
  - rewrite <- sign_at_iff. congruence.
  - rewrite <- sign_at_iff in H3. now destruct (sign_at 0 None b1 (b2 ++ TOp "=" :: a)).
Qed.
(** an annotated assignment *)
Lemma annotated_assignment x ann value : is_name x = true -> value <> [] -> (forall t, In t ann -> t <> TOp "=") -> assigns_between (TWord x :: TOp ":" :: ann) value ->
  plain_stmt (TWord x :: TOp ":" :: ann ++ TOp "=" :: value) = Ok (SAssign (Asgn (TgName x) (Some ann) (Some value))).
Proof.
  intros Hx Hv Ha Hs. assert (F : find_eq 0 None (TWord x :: TOp ":" :: ann ++ TOp "=" :: value) = Some (TWord x :: TOp ":" :: ann, value)).
  { apply find_eq_between. split; [reflexivity|]. split; [exact Hs|]. intros [|y [|z b1]] b2 H; cbn in H; try discriminate. injection H as _ _ H. exfalso. apply (Ha (TOp "=")); [|reflexivity]. rewrite H. apply in_app_iff. right. now left. }
  unfold plain_stmt. rewrite F. destruct value as [|v value]; [congruence|]. cbn [find_op is_op depth_after Nat.eqb andb]. change (Ascii.eqb ":" ":") with true. cbn [andb].
  unfold assign_of. cbn [target_of]. now rewrite Hx.
Qed.
Lemma plain_assignment x value : is_name x = true -> value <> [] -> (forall a, value <> TOp "=" :: a) -> find_eq 0 None value = None ->
  plain_stmt (TWord x :: TOp "=" :: value) = Ok (SAssign (Asgn (TgName x) None (Some value))).
Proof.
  intros Hx Hv Ha Hn. assert (F : find_eq 0 None (TWord x :: TOp "=" :: value) = Some ([TWord x], value)).
  { apply find_eq_between. split; [reflexivity|]. split; [|intros [|y [|z b1]] b2 H; discriminate]. split; [reflexivity|]. split; [|exact Ha]. intros [|y [|z b]] c H; discriminate. }
  unfold plain_stmt. rewrite F. destruct value as [|v value]; [congruence|]. cbn [find_op is_op depth_after]. rewrite Hn. unfold assign_of. cbn [target_of]. now rewrite Hx.
Qed.
Lemma annotation_only x ann : is_name x = true -> ann <> [] -> (forall t, In t ann -> t <> TOp "=") ->
  plain_stmt (TWord x :: TOp ":" :: ann) = Ok (SAssign (Asgn (TgName x) (Some ann) None)).
Proof.
  intros Hx Ne Na. assert (F : find_eq 0 None (TWord x :: TOp ":" :: ann) = None).
  { destruct (find_eq 0 None (TWord x :: TOp ":" :: ann)) as [[b a]|] eqn:E; [|reflexivity]. exfalso. apply find_eq_between in E as (E & _).
    destruct b as [|b0 b]; [discriminate|]. injection E as <- E. destruct b as [|b1 b]; [discriminate|]. injection E as <- E.
    apply (Na (TOp "=")); [|reflexivity]. rewrite E. apply in_or_app. right. now left. }
  unfold plain_stmt. rewrite F. destruct ann as [|t ann]; [congruence|]. cbn [find_op is_op depth_after Nat.eqb andb]. change (Ascii.eqb ":" ":") with true. cbn [andb].
  assert (Ht : is_op "=" t = false).
  { destruct t as [w|w|c]; try reflexivity. cbn [is_op]. destruct (Ascii.eqb c "=") eqn:E; [|reflexivity]. apply Ascii.eqb_eq in E. subst c. destruct (Na (TOp "=") (or_introl eq_refl) eq_refl). }
  rewrite Ht. unfold assign_of. cbn [target_of]. now rewrite Hx.
Qed.
