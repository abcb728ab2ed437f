(** C53, continued: section paths that go on below an item. *)
From Verif Require Import BelowItem_Spec BelowItem_Proofs ConfigTree_Proofs.
Local Open Scope string_scope.
Local Open Scope list_scope.

(** A path that goes on below an item never leads to a config, and nothing changes: ValueError if the item's config (or its
    file, if it was not loaded) has an attribute of the name, AttributeError otherwise or if there are more parts. *)
Theorem C53_path_below_an_item : forall base st path p y rest x,
  path_parts path = p ++ y :: rest -> see st p = Some x -> is_item x ->
  let e := below_error x y rest in
  (forall d persist kw, cm_update d (Some path) persist kw st = (st, Raise e)) /\
  cm_refresh path st = (st, Raise e) /\ cm_get path st = (st, Raise e) /\
  (forall k, cm_pop k (Some path) st = (st, Raise e)) /\
  (forall create, cm_reset base (Some path) create st = (st, Raise e)).
Proof.
  intros base st path p y rest x P S I e.
  assert (E := gf_below st p y rest x S I). assert (L := lookup_below st p y rest x S I).
  split; [|split; [|split; [|split]]].
  - intros. unfold cm_update, bind, stored_config. now rewrite P, E.
  - unfold cm_refresh, bind, stored_config. now rewrite P, E.
  - unfold cm_get, bind. now rewrite P, E.
  - intro. unfold cm_pop, bind, stored_config. now rewrite P, E.
  - intro. unfold cm_reset, bind, default_for. rewrite P, L. unfold e, below_error.
    now destruct (has_attribute x y && _).
Qed.

(** not so: whether the item was loaded makes no difference *)
Theorem C53_path_below_an_item_same_when_loaded_refuted : exists st st' path r,
  cm_get "f" st = (st', Ok r) /\ snd (cm_refresh path st) <> snd (cm_refresh path st').
Proof.
  exists bi_st, bi_loaded, "f.a", (Some (CItem ["f"])). split; [vm_compute; reflexivity|]. vm_compute. discriminate.
Qed.

Example C53_ex_below :
  path_parts "f.a" = ["f"] ++ "a" :: [] /\ see bi_st ["f"] = Some (SFile ([], "f.py") "f") /\
  snd (cm_refresh "f.a" bi_st) = Raise AttributeError /\ snd (cm_refresh "f.a" bi_loaded) = Raise ValueError /\
  snd (cm_refresh "f.keys" bi_loaded) = Raise ValueError /\ snd (cm_refresh "f.a.b" bi_loaded) = Raise AttributeError.
Proof. vm_compute. auto 10. Qed.

Print Assumptions C53_path_below_an_item.
Print Assumptions C53_path_below_an_item_same_when_loaded_refuted.
