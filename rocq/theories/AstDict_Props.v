(** C103: dicts in the source, as displays and as calls. *)
From Verif Require Import AstDict_Proofs.
Local Open Scope string_scope.
Local Open Scope list_scope.

(** A display whose keys are all strings gives their values, the last one for each key. *)
Theorem C103_display : forall items, (forall q, In q items -> exists s, fst q = KStr s) ->
  exists d, extract_dict (NDict items) = Ok d /\ dwf d /\
  forall k v, dget k d = Some v <-> exists a b, items = a ++ (KStr k, v) :: b /\ ~ In (KStr k) (map fst b).
Proof.
  intros items H. destruct (all_strings items H) as [l ->]. exists (dupdate [] l). split; [now apply display_ok|]. split; [apply dupdate_wf, dwf_nil|].
  intros k v. change (dupdate [] l) with (fold_left (fun d (q : string * node) => dset (fst q) (snd q) d) l []). rewrite dict_last, lastv_iff. unfold last_value. split.
  - intros (a & b & -> & N). exists (map (fun q => (KStr (fst q), snd q)) a), (map (fun q => (KStr (fst q), snd q)) b). split; [now rewrite map_app|].
    rewrite map_map. cbn. intros K. apply in_map_iff in K as (q & E & K). injection E as E. apply N. rewrite <- E. now apply in_map.
  - intros (a & b & E & N). apply map_eq_app in E as (a' & b' & -> & Ea & Eb). apply map_eq_cons in Eb as ([k' v'] & b'' & -> & Ek & Eb). injection Ek as -> ->.
    exists a', b''. split; [reflexivity|]. intros K. apply N. rewrite <- Eb, map_map. cbn. apply in_map_iff in K as (q & E & K). apply in_map_iff. exists q. now rewrite E.
Qed.

(** Any other key makes it raise, wherever it stands. *)
Theorem C103_other_keys : forall items, (exists q, In q items /\ forall s, fst q <> KStr s) -> extract_dict (NDict items) = Raise AttributeError.
Proof. intros items H. now apply display_bad. Qed.

(** What is neither a display nor a call raises a ValueError, and nothing else does. *)
Theorem C103_other_nodes : forall n, extract_dict n = Raise ValueError <-> exists label l, n = NNode label l.
Proof.
  intros n. split; [|intros (label & l & ->); reflexivity]. destruct n as [items|f args kws|label l]; [|discriminate|now exists label, l]. cbn [extract_dict]. generalize (@nil (string * node)).
  induction items as [|[[s|m|] v] items IH]; intros d; cbn [display_dict]; intros H; try discriminate. destruct (IH _ H) as (label & l & E). discriminate.
Qed.

(** A call gives the keywords found in it at any depth, the one that counts for each: the last, and the innermost. *)
Theorem C103_call : forall f args kws, exists d, extract_dict (NCall f args kws) = Ok d /\ dwf d /\ forall k, dget k d = counts k (NCall f args kws).
Proof.
  intros f args kws. exists (extract_keywords (NCall f args kws)). split; [reflexivity|]. split; [apply (dupdate_wf (A := node)), dwf_nil|]. intros k. unfold extract_keywords. now rewrite dict_last, keywords_counts.
Qed.

(** A name is a key iff there is such a keyword somewhere, and its value is the value of one. *)
Theorem C103_keys_of_calls : forall n k, (In k (dkeys (extract_keywords n)) <-> exists v, occurs k v n) /\ forall v, dget k (extract_keywords n) = Some v -> occurs k v n.
Proof.
  intros n k.
  assert (L : forall v, dget k (extract_keywords n) = Some v -> occurs k v n).
  { intros v H. unfold extract_keywords in H. rewrite dict_last in H. apply in_keywords. unfold lastv in H. apply dget_Some_In in H. now apply in_rev. }
  split; [|exact L]. rewrite In_dkeys_dget. split; intros [v H]; [exists v; now apply L|].
  apply in_keywords in H. unfold extract_keywords. rewrite dict_last. unfold lastv. destruct (dget k (rev (keywords_in n))) as [w|] eqn:E; [now exists w|]. exfalso.
  apply dget_None in E. apply E. unfold dkeys. rewrite map_rev. apply -> in_rev. change k with (fst (k, v)). now apply in_map.
Qed.

(** Dicts written as calls and as displays are read back; as calls, if there are no keywords in their values. *)
Theorem C103_read_back : forall d, dwf d -> extract_dict (displays d) = Ok d /\
  ((forall k v, In (k, v) d -> without_keywords v) -> extract_dict (dict_call d) = Ok d).
Proof.
  intros d W. split.
  - unfold displays. cbn [extract_dict]. rewrite (display_ok _ [] d eq_refl). f_equal. exact (dict_of_id d W).
  - intros N. change (extract_dict (dict_call d)) with (Ok (extract_keywords (dict_call d))). f_equal. unfold extract_keywords. rewrite flat_call by exact N. exact (dict_of_id d W).
Qed.
(** A dict is written as a call of [dict] whose keywords are the entries in their order, and nothing else. *)
Theorem C103_written : forall d, dict_call d = calls "Name dict" d.
Proof. reflexivity. Qed.

(** With keywords in the values they are not: the keywords in a value become keys, and may replace it. *)
Theorem C103_calls_read_back_refuted : exists d e, dwf d /\ dwf e /\
  extract_dict (dict_call d) = Ok [("a", calls "f" [("b", one_)]); ("b", one_)] /\ d = [("a", calls "f" [("b", one_)])] /\
  extract_dict (dict_call e) = Ok [("a", one_)] /\ e = [("a", calls "f" [("a", one_)])].
Proof. exists [("a", calls "f" [("b", one_)])], [("a", calls "f" [("a", one_)])]. repeat split; repeat constructor; intros []. Qed.

(** So the same dict as a display and as a call is not always the same. *)
Theorem C103_displays_and_calls_agree_refuted : exists d, dwf d /\ extract_dict (displays d) <> extract_dict (dict_call d).
Proof. exists [("a", calls "f" [("b", one_)])]. split; [repeat constructor; intros []|discriminate]. Qed.

(** Keywords looked up by name: those in the values of other keywords do not count. *)
Theorem C103_by_name : forall name n, extract_called name n = match counts_outside name n with Some v => [(name, v)] | None => [] end.
Proof. intros name n. unfold extract_called. rewrite set_last by (try apply dwf_nil; intros j []). now rewrite called_counts. Qed.

Theorem C103_by_name_agrees_refuted : exists n v w, extract_called "b" n = [("b", v)] /\ dget "b" (extract_keywords n) = Some w /\ v <> w.
Proof. exists (calls "f" [("b", one_); ("a", calls "g" [("b", two_)])]), one_, two_. repeat split. discriminate. Qed.

Example C103_premises : without_keywords one_ /\ ~ without_keywords (calls "f" [("b", one_)]) /\ dwf [("a", one_); ("b", two_)] /\
  (exists items : list (key * node), items <> [] /\ forall q, In q items -> exists s, fst q = KStr s) /\ counts "b" (calls "f" [("b", one_); ("b", two_)]) = Some two_.
Proof.
  split; [now apply none_without|]. split; [intros N; apply (N "b" one_), in_keywords; now left|]. split; [repeat constructor; cbn; intuition discriminate|]. split; [|reflexivity].
  exists [(KStr "a", one_)]. split; [discriminate|]. intros q [<-|[]]. now exists "a".
Qed.

Print Assumptions C103_display.
Print Assumptions C103_other_keys.
Print Assumptions C103_other_nodes.
Print Assumptions C103_call.
Print Assumptions C103_keys_of_calls.
Print Assumptions C103_read_back.
Print Assumptions C103_written.
Print Assumptions C103_calls_read_back_refuted.
Print Assumptions C103_displays_and_calls_agree_refuted.
Print Assumptions C103_by_name.
Print Assumptions C103_by_name_agrees_refuted.
