(** C79: the names of the items of class dicts. *)
From Verif Require Import ClassNames_Spec ClassNames_Proofs.
Local Open Scope string_scope.
Local Open Scope list_scope.

(** Loading gives the tree of the model in which names do not change, each item under the name its instance has then; it raises
    the same errors. *)
Theorem C79_loaded : forall u_new k name d,
  match cload u_new name d with
  | Ok s => from_dict (view_of u_new k) name d = Ok (seen (fun _ => k) (k_names s) (k_coll s)) /\
            fresh (k_names s) (k_coll s) /\ below (k_next s) (k_coll s)
  | Raise e => from_dict (view_of u_new k) name d = Raise e
  end.
Proof. intros u_new k name d. apply cload_spec. Qed.

(** If no instance changes its name, then after any session lookups give what they give in that model. *)
Theorem C79_names_kept : forall u_new k name d s l path,
  cload u_new name d = Ok s -> keeps_names u_new l s ->
  let s' := session u_new l s in
  exists c, from_dict (view_of u_new k) name d = Ok c /\
    seen_res (fun _ => k) (k_names s') (cc_get (k_coll s') path) = coll_get (fold_left (static_step u_new k) l c) path.
Proof.
  intros u_new k name d s l path L K s'. pose proof (cload_spec u_new k name d) as H. rewrite L in H. destruct H as (H1 & H2 & H3).
  eexists. split; [exact H1|]. destruct (session_static u_new k l s H2 H3 K) as (F & _ & E). fold s' in F, E. rewrite <- E. symmetry. now apply get_seen.
Qed.

(** Otherwise an item stays where it was found, whatever its name becomes and whatever takes its name, as long as nothing is
    added to a section on the way. *)
Theorem C79_found_until_added : forall u_new l s q i, sane (k_coll s) -> quiet u_new q l s ->
  (cc_get (k_coll (session u_new l s)) q = Ok (MFItem i) <-> cc_get (k_coll s) q = Ok (MFItem i)).
Proof. intros u_new l s q i. apply session_keeps. Qed.

(** Creating an item adds it, or the first of its sections that is missing, to the last section on its path that is there.
    Everything in that section is found under the name it has now from then on, the last one of a name; what does not lie there
    is found as before. *)
Theorem C79_create : forall u_new path item s s' files, sane (k_coll s) -> ccreate u_new path item s = Ok (s', files) ->
  sane (k_coll s') /\
  let g := grown (k_coll s) path in
  exists sec e', cc_get (k_coll s) g = Ok (MFSec sec) /\ added (skipn (List.length g) path) (MItem (k_next s)) e' /\
    (forall x, mem x coll_reserved = false ->
       cc_get (k_coll s') (g ++ [x]) = match last_now (k_names s') x (cc_entries sec ++ [e']) with
                                       | Some e => Ok (found_of e)
                                       | None => Raise AttributeError
                                       end) /\
    forall q i, (~ exists r, q = g ++ r) -> (cc_get (k_coll s') q = Ok (MFItem i) <-> cc_get (k_coll s) q = Ok (MFItem i)).
Proof.
  intros u_new path item s s' files S H. destruct (create_Ok u_new path item s s' files S H) as (n & c & U & E & Nm & _ & _).
  destruct (set_at _ path _ (MItem _) _ S I E) as (S' & sec & e' & A & B & C & D). split; [exact S'|]. exists sec, e'. split; [exact A|]. split; [exact C|]. split; [|exact D].
  intros x R. assert (K : forall c q y, cc_get c q = Ok (MFSec (cc_append (set_name (k_next s) n (k_names s)) sec e')) ->
    cc_get c (q ++ [y]) = cc_get (cc_append (set_name (k_next s) n (k_names s)) sec e') [y]).
  { clear. intros c q y. revert c. induction q as [|z q IH]; intros c; [now intros [= ->]|]. cbn [cc_get app].
    destruct (cc_getattr c z) as [[i|c'|]|]; try discriminate; try (destruct q; discriminate). apply IH. }
  rewrite (K _ _ x B). unfold cc_append. cbn [cc_get]. rewrite (new_getattr _ _ _ x R), Nm. destruct (last_now _ x _) as [[i|c0]|]; reflexivity.
Qed.

(** The new item itself is found at its path under the name its instance has. *)
Theorem C79_created : forall u_new path item s s' files n, sane (k_coll s) -> ccreate u_new path item s = Ok (s', files) ->
  u_new (PStr item) = Ok n -> mem n coll_reserved = false -> cc_get (k_coll s') (path ++ [n]) = Ok (MFItem (k_next s)).
Proof.
  intros u_new path item s s' files n S H U R. destruct (create_Ok u_new path item s s' files S H) as (n' & c & U' & E & Nm & _ & _).
  rewrite U in U'. injection U' as <-. destruct (set_there _ path _ _ _ S E) as (s0 & A & _). set (h := set_name (k_next s) n (k_names s)) in *.
  assert (K : forall c q y s1, cc_get c q = Ok (MFSec s1) -> cc_get c (q ++ [y]) = cc_get s1 [y]).
  { clear. intros c q y s1. revert c. induction q as [|z q IH]; intros c; [now intros [= ->]|]. cbn [cc_get app].
    destruct (cc_getattr c z) as [[i|c'|]|]; try discriminate; try (destruct q; discriminate). apply IH. }
  rewrite (K _ _ n _ A). unfold cc_append. cbn [cc_get]. rewrite (new_getattr h _ _ n R), last_now_app. cbn [last_now now].
  unfold h at 1. rewrite set_name_same, String.eqb_refl. reflexivity.
Qed.

(** The config files of its whole section are written then, under the current names. *)
Theorem C79_files_written : forall u_new path item s s' files f, sane (k_coll s) -> ccreate u_new path item s = Ok (s', files) ->
  exists sec, cc_get (k_coll s') path = Ok (MFSec sec) /\
    (In f files <-> exists p i, lies sec p i /\ f = path ++ p ++ [(k_names s' i ++ ".py")%string]).
Proof.
  intros u_new path item s s' files f S H. destruct (create_Ok u_new path item s s' files S H) as (n & c & U & E & Nm & _ & G & ->).
  exists c. split; [exact G|]. rewrite Nm. apply files_lies.
Qed.

(** Creating fails only because the class cannot be made or the path leads into an item or an attribute. *)
Theorem C79_create_fails : forall u_new path item s e, sane (k_coll s) -> ccreate u_new path item s = Raise e ->
  u_new (PStr item) = Raise e \/
  exists n, u_new (PStr item) = Ok n /\ cc_set (set_name (k_next s) n (k_names s)) (k_coll s) path (MItem (k_next s)) = Raise e.
Proof. intros u_new path item s e. apply create_fails. Qed.

(** Items do not stay at their paths: one that was given another name is lost when another item is created next to it, and is
    found under the other name, for which a file is written that nobody asked for. *)
Theorem C79_items_stay_refuted : exists s' files,
  let s := rename 0 "z" cn_state in
  cc_get (k_coll s) ["s"; "a"] = Ok (MFItem 0) /\ ccreate same_name ["s"] "c" s = Ok (s', files) /\
  cc_get (k_coll s') ["s"; "a"] = Raise AttributeError /\ cc_get (k_coll s') ["s"; "z"] = Ok (MFItem 0) /\
  files = [["s"; "z.py"]; ["s"; "b.py"]; ["s"; "c.py"]].
Proof. eexists. eexists. repeat split; vm_compute; reflexivity. Qed.

(** A path may lead to another item afterwards. *)
Theorem C79_paths_keep_meaning_refuted : exists s' files,
  let s := rename 1 "a" cn_state in
  cc_get (k_coll s) ["s"; "a"] = Ok (MFItem 0) /\ ccreate same_name ["s"] "c" s = Ok (s', files) /\
  cc_get (k_coll s') ["s"; "a"] = Ok (MFItem 1) /\ cc_get (k_coll s') ["s"; "b"] = Raise AttributeError.
Proof. eexists. eexists. repeat split; vm_compute; reflexivity. Qed.

(** With a section file that gives all items one name (C78), only one of them is left. *)
Theorem C79_common_name_refuted : exists s' files,
  let s := rename 1 "z" (rename 0 "z" cn_state) in
  ccreate same_name ["s"] "c" s = Ok (s', files) /\ (forall x, cc_get (k_coll s') ["s"; x] <> Ok (MFItem 0)) /\
  files = [["s"; "z.py"]; ["s"; "z.py"]; ["s"; "c.py"]].
Proof.
  eexists. eexists. split; [vm_compute; reflexivity|]. split; [|reflexivity]. intro x. cbn [k_coll cc_get].
  unfold cc_getattr at 1. change (mem "s" coll_reserved) with false. cbn [cc_index cc_entries dget String.eqb Ascii.eqb Bool.eqb nth_error].
  unfold cc_getattr. destruct (mem x coll_reserved); [discriminate|]. cbn [cc_index dget].
  destruct (String.eqb x "z"); [discriminate|]. destruct (String.eqb x "c"); discriminate.
Qed.

(** A created item need not be found under the name it was created with. *)
Theorem C79_own_path_refuted : exists u_new s' files,
  ccreate u_new ["s"] "C" cn_state = Ok (s', files) /\ cc_get (k_coll s') ["s"; "C"] = Raise AttributeError /\
  files = [["s"; "a.py"]; ["s"; "b.py"]; ["s"; "c.py"]].
Proof. exists (fun _ => Ok "c"). eexists. eexists. repeat split; vm_compute; reflexivity. Qed.

(** example: the state above is loaded from its dict, and a session with a created item keeps the names *)
Example C79_ex : exists s, cload same_name "ks" cn_dict = Ok s /\ sane (k_coll s) /\
  (forall path, cc_get (k_coll s) path = cc_get (k_coll cn_state) path) /\
  keeps_names same_name [Init 0 "a"; Create ["s"; "t"] "c"; Init 2 "c"] s /\
  cc_get (k_coll (session same_name [Init 0 "a"; Create ["s"; "t"] "c"; Init 2 "c"] s)) ["s"; "t"; "c"] = Ok (MFItem 2) /\
  quiet same_name ["s"; "a"] [Init 0 "z"; Create ["t"; "u"; "s"] "c"; Create ["t"; "u"; "s"] "d"] (session same_name [Create ["t"; "u"; "s"] "e"] s).
Proof.
  eexists. split; [vm_compute; reflexivity|]. split.
  { set (h := set_name 1 "b" (set_name 0 "a" (fun _ => ""))). apply (fresh_sane h).
    change (fresh h (cc_new h "ks" [MSec (cc_new h "s" [MItem 0; MItem 1])])). apply Fresh. intros c [[= <-]|[]].
    change (fresh h (cc_new h "s" [MItem 0; MItem 1])). apply Fresh. intros c [H|[H|[]]]; discriminate. }
  split; [intro path; reflexivity|]. split; [repeat split|]. split; [vm_compute; reflexivity|].
  repeat split; intros (r & H); vm_compute in H; discriminate.
Qed.

Print Assumptions C79_loaded.
Print Assumptions C79_names_kept.
Print Assumptions C79_found_until_added.
Print Assumptions C79_create.
Print Assumptions C79_created.
Print Assumptions C79_files_written.
Print Assumptions C79_create_fails.
Print Assumptions C79_items_stay_refuted.
Print Assumptions C79_paths_keep_meaning_refuted.
Print Assumptions C79_common_name_refuted.
Print Assumptions C79_own_path_refuted.
