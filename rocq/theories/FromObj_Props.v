(** C101: a config made from an object, and the base class for updates. *)
From Verif Require Import FromObj_Spec FromObj_Proofs FuncArgs_Spec.
Local Open Scope string_scope.
Local Open Scope list_scope.

(** The config has the parameters of __init__ except self, in order. A parameter stands for the attribute of the object if it has one
    that is not None, and else for its default, or for None without one. None and a string under the key attribute become nodes of
    source, all other values stay objects. *)
Theorem C101_config_of_an_object : forall (V : Type) (none : V) (is_none : V -> bool) (as_str : V -> option string) (attr : string -> res V) (s : sig V) key,
  (forall v, is_none v = true <-> v = none) -> sig_ok s -> key <> "self" -> In key (map fst (seen s)) ->
  readable attr (filter (fun x => negb (String.eqb x "self")) (map fst (seen s))) ->
  exists c, from_obj none is_none as_str attr s key = Ok c /\ dkeys c = filter (fun x => negb (String.eqb x "self")) (map fst (seen s)) /\
    forall x o, In (x, o) (seen s) -> x <> "self" -> exists v w, chosen none attr x o v /\ stands none as_str key x v w /\ dget x c = Some w.
Proof. intros V none is_none as_str attr s key N H Nk Hk R. apply from_obj_ok; auto. now rewrite wanted_keys. Qed.

(** Making the object again with this config gives every parameter that value. *)
Theorem C101_object_made_again : forall (V : Type) (none : V) (is_none : V -> bool) (as_str : V -> option string) (of_str : string -> V) (attr : string -> res V) (s : sig V) rest obj key,
  (forall v, is_none v = true <-> v = none) -> (forall v t, as_str v = Some t -> of_str t = v) ->
  sig_ok s -> s_posonly s = [] -> s_args s = "self" :: rest -> visible s -> key <> "self" -> In key (map fst (params s)) ->
  readable attr (filter (fun x => negb (String.eqb x "self")) (map fst (seen s))) ->
  exists c b, from_obj none is_none as_str attr s key = Ok c /\ call s [obj] (all_means none of_str c) = Ok (Bound b [] []) /\ dget "self" b = Some obj /\
    forall x o, In (x, o) (params s) -> x <> "self" -> exists v, chosen none attr x o v /\ dget x b = Some v.
Proof. intros V none is_none as_str of_str attr s rest obj key N M H P A Hv Nk Hk R. apply (made_again none is_none N as_str of_str M attr s rest); auto. now rewrite wanted_keys. Qed.

(** It raises KeyError if the key attribute is no such parameter, and what reading an attribute raises, if it is not AttributeError. *)
Theorem C101_key_is_no_parameter : forall (V : Type) (none : V) (is_none : V -> bool) (as_str : V -> option string) (attr : string -> res V) (s : sig V) key,
  sig_ok s -> key = "self" \/ ~ In key (map fst (seen s)) ->
  readable attr (filter (fun x => negb (String.eqb x "self")) (map fst (seen s))) ->
  from_obj none is_none as_str attr s key = Raise KeyError.
Proof. intros V none is_none as_str attr s key H Hk R. apply from_obj_key; auto. now rewrite wanted_keys. Qed.

Theorem C101_attribute_raises : forall (V : Type) (none : V) (is_none : V -> bool) (as_str : V -> option string) (attr : string -> res V) (s : sig V) key pre x post e,
  sig_ok s -> filter (fun x => negb (String.eqb x "self")) (map fst (seen s)) = pre ++ x :: post -> readable attr pre -> attr x = Raise e -> e <> AttributeError ->
  from_obj none is_none as_str attr s key = Raise e.
Proof. intros V none is_none as_str attr s key pre x post e H E. rewrite <- wanted_keys in E. now apply (from_obj_raises none is_none as_str attr s key pre x post e H E). Qed.

(** An attribute that is None does not come back if its parameter has another default. *)
Theorem C101_none_comes_back_refuted : exists (s : sig string) attr c b, sig_ok s /\ from_obj "None" ex_is_none ex_str attr s "name" = Ok c /\
  call s ["object"] (all_means "None" (fun t => t) c) = Ok (Bound b [] []) /\ attr "a" = Ok "None" /\ dget "a" b = Some "1".
Proof.
  exists ex_sig, ex_attr. eexists. eexists. split; [split; [cbn; lia|]|].
  - cbn. repeat (apply NoDup_cons; [cbn; intuition discriminate|]). apply NoDup_nil.
  - repeat split; vm_compute; reflexivity.
Qed.

(** Updating an object whose class derives from PyfileconfBase does what updating does without it: __init__ gets the same. *)
Theorem C101_base_class_changes_nothing : forall (V : Type) (none : V) (s : sig V) rest obj c kw,
  sig_ok s -> s_posonly s = [] -> s_args s = "self" :: rest -> relevant_for_obj none c s = Ok kw -> base_update s obj kw = call s [obj] kw.
Proof. intros V none s rest obj c kw. apply base_of_self. Qed.

(** For any other first parameter of __init__ this is so exactly if there is no entry named self; with one, the update raises. *)
Theorem C101_base_class : forall (V : Type) (s : sig V) obj kw,
  (~ In "self" (dkeys kw) -> base_update s obj kw = call s [obj] kw) /\ (In "self" (dkeys kw) -> base_update s obj kw = Raise TypeError).
Proof. intros V s obj kw. split; intros H; [apply base_without_self; now apply dmem_false|apply base_with_self; now apply dmem_In]. Qed.

Theorem C101_base_class_any_class_refuted : exists (s : sig string) c kw b, sig_ok s /\ relevant_for_obj "None" c s = Ok kw /\
  call s ["object"] kw = Ok b /\ base_update s "object" kw = Raise TypeError.
Proof.
  exists ex_other, [("self", "1")], [("self", "1")]. eexists. split; [split; [cbn; lia|]|].
  - cbn. repeat (apply NoDup_cons; [cbn; intuition discriminate|]). apply NoDup_nil.
  - repeat split; vm_compute; reflexivity.
Qed.

Example C101_premises : sig_ok ex_sig /\ visible ex_sig /\ readable ex_attr (filter (fun x => negb (String.eqb x "self")) (map fst (seen ex_sig))) /\
  from_obj "None" ex_is_none ex_str ex_attr ex_sig "name" = Ok [("name", CStr "n"); ("a", CObj "1"); ("b", CObj "2")].
Proof.
  split; [split; [cbn; lia|cbn; repeat (apply NoDup_cons; [cbn; intuition discriminate|]); apply NoDup_nil]|].
  split; [right; exists "b", "2"; now left|]. split; [|vm_compute; reflexivity].
  intros x H. vm_compute in H. destruct H as [<-|[<-|[<-|[]]]]; [left; now exists "n"|left; now exists "None"|now right].
Qed.
Example C101_base : relevant_for_obj "None" [("name", "n"); ("a", "2"); ("z", "3")] ex_sig = Ok [("name", "n"); ("a", "2")] /\
  base_update ex_sig "object" [("name", "n"); ("a", "2")] = Ok (Bound [("self", "object"); ("name", "n"); ("a", "2"); ("b", "2")] [] []).
Proof. split; vm_compute; reflexivity. Qed.

Print Assumptions C101_config_of_an_object.
Print Assumptions C101_object_made_again.
Print Assumptions C101_key_is_no_parameter.
Print Assumptions C101_attribute_raises.
Print Assumptions C101_none_comes_back_refuted.
Print Assumptions C101_base_class_changes_nothing.
Print Assumptions C101_base_class.
Print Assumptions C101_base_class_any_class_refuted.
