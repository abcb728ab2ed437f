(** Facts about the examples of executed config files. *)
From Verif Require Import Exec_Model Exec_Spec ExecEx_Spec Exec_Proofs FileStr_Proofs.
Local Open Scope string_scope.
Local Open Scope list_scope.

Lemma look_local ns ns' x : dget x ns = dget x ns' -> look ns x = look ns' x.
Proof. unfold look. now intros ->. Qed.
Lemma mini_local : local mini mini_uses.
Proof.
  intros e ns ns' H. cbn [mini py_eval].
  assert (E : forall x r, e = TWord x :: r -> look ns x = look ns' x) by (intros x r ->; apply look_local, H; now left).
  destruct e as [|[x|l|c] e]; try reflexivity. specialize (E x e eq_refl). unfold mini_eval.
  repeat (first [rewrite E; reflexivity | match goal with |- context [match ?y with _ => _ end] => is_var y; destruct y end | reflexivity]).
Qed.

Lemma value_ok_by x v a : forallb (fun l => negb (has_char nl_c l)) (assign_lines x v) = true -> tail_ok (assign_lines x v) ->
  parse_lines (assign_lines x v) = Ok [SAssign a] -> a_target a = TgName x -> value_ok x v.
Proof.
  intros H1 H2 H3 H4. split; [|split; [exact H2|exists a; auto]]. apply Forall_forall. intros l Hl. rewrite forallb_forall in H1. apply negb_true_iff. now apply H1.
Qed.
Ltac item_ok_tac :=
  split; [repeat constructor; cbn; intuition discriminate|]; split; [constructor|]; split; [|split].
Lemma shadow_item_ok : item_ok shadow_item.
Proof.
  item_ok_tac.
  - intros x v [H|[H|[]]]; injection H as <- <-; (eapply value_ok_by; [vm_compute; reflexivity|vm_compute; reflexivity|vm_compute; reflexivity|reflexivity]).
  - intros p [[<-|[]]|[<-|[]]].
    + split; [discriminate|]. repeat constructor.
    + split; [reflexivity|]. right. split; [discriminate|]. repeat constructor.
  - now left.
Qed.
Lemma frame_item_ok : item_ok frame_item.
Proof.
  item_ok_tac.
  - intros x v [H|[H|[]]]; injection H as <- <-; (eapply value_ok_by; [vm_compute; reflexivity|vm_compute; reflexivity|vm_compute; reflexivity|reflexivity]).
  - intros p [[<-|[]]|[<-|[]]]; (split; [reflexivity|]; right; split; [discriminate|]; repeat constructor).
  - now left.
Qed.

(** the example of C76 *)
Lemma ex_one_meaning : one_meaning mini (ex_file_program ++ ex_new_program).
Proof.
  assert (G : forall s x w, In s (ex_file_program ++ ex_new_program) -> gives mini s x w ->
    In (x, w) [("os", MModule "os"); ("Selector", MVal (VStr "pyfileconf.Selector")); ("DataFrame", MVal (VStr "pandas.DataFrame"))]).
  { intros s x w Hs [(al & a & -> & Ha & <- & ->)|(dots & m & al & a & -> & Ha & <- & E)]; cbn in Hs; repeat destruct Hs as [Hs|Hs]; try discriminate; try contradiction; injection Hs; intros; subst;
      cbn in Ha; repeat destruct Ha as [Ha|Ha]; subst; try contradiction; cbn in *; try injection E as <-; tauto. }
  intros s s' x w w' Hs Hs' H H'. apply G in H; [|exact Hs]. apply G in H'; [|exact Hs']. cbn in H, H'.
  repeat destruct H as [H|H]; try contradiction; injection H as <- <-; repeat destruct H' as [H'|H']; try contradiction; injection H'; intros; subst; try reflexivity; discriminate.
Qed.
Lemma ex_kept : exists f, supported ex_file f /\ scaffold ex_astor frame_item (Some ex_file) = Ok ex_new_file /\
  program ex_file = Some ex_file_program /\ program ex_new_file = Some ex_new_program /\
  Forall simple_stmt (ex_file_program ++ ex_new_program) /\ Forall plain_aliases ex_file_program /\
  (forall s, In s ex_file_program -> ~ imports s "s") /\ clear_of mini_uses (put_before frame_item f) ex_file_program.
Proof.
  eexists. split. { split; [vm_compute; reflexivity|]. split; [|vm_compute; reflexivity]. constructor; [right; eexists; vm_compute; reflexivity|]. constructor; [left; reflexivity|constructor]. }
  split; [vm_compute; reflexivity|]. split; [vm_compute; reflexivity|]. split; [vm_compute; reflexivity|].
  split. { repeat constructor; intros a [<-|[]]; discriminate. }
  split. { repeat constructor. intros x o1 o2 [H1|[]] [H2|[]]. congruence. }
  split.
  { intros s Hs [(al & a & -> & Ha & E)|(dots & m & al & a & -> & Ha & E)]; cbn in Hs; repeat destruct Hs as [Hs|Hs]; try discriminate; try contradiction; injection Hs; intros; subst; cbn in Ha;
      repeat destruct Ha as [Ha|Ha]; subst; try contradiction; discriminate. }
  assert (T : forall x i, In i [ObjImp ["Selector"] "pyfileconf" []; ModImp ["os"] []; ObjImp ["DataFrame"] "pandas" []] -> touches (imp_stmt i) x -> In x ["Selector"; "os"; "DataFrame"]).
  { intros x i Hi Tx. cbn in Hi. repeat destruct Hi as [<-|Hi]; try contradiction; inversion Tx as [? a Ha|? ? ? a Ha|? ? ? a ? Ha Es| | | | | | | | | | | |]; subst; destruct Ha as [<-|[]]; cbn in *; try tauto; discriminate. }
  assert (B : forall x, put_before frame_item (Loaded [ModImp ["os"] []] [Asgn (TgName "k") None (Some [TWord "os"; TOp "."; TWord "sep"]); Asgn (TgName "m") None (Some [TWord "k"])] ["k = os.sep"; "m = k"] []) x ->
     In x ["Selector"; "os"; "DataFrame"; "s"]).
  { intros x [(i & Hi & Ti)|[-> _]]; [|cbn; tauto]. assert (K : In x ["Selector"; "os"; "DataFrame"]) by (apply (T x i); [exact Hi|exact Ti]). cbn in *. tauto. }
  assert (O : touches (PImport [("os", None)]) "os") by (change "os" with (import_name ("os", None)) at 2; constructor; now left).
  cbn [clear_of ex_file_program needs mini_uses flat_map app name In].
  split; [intros x []|]. split.
  { intros x [<-|[<-|[]]] [K N]; [exact (N O)|]. apply B in K. cbn in K. repeat destruct K as [K|K]; try contradiction; discriminate. }
  split; [|exact I]. intros x [<-|[]] [[K _] _]. apply B in K. cbn in K. repeat destruct K as [K|K]; try contradiction; discriminate.
Qed.
