(** Proofs for [CreateErr_Props]. *)
From Verif Require Import CreateErr_Spec PipeDict_Proofs Project_Proofs Create_Proofs.
Local Open Scope string_scope.
Local Open Scope list_scope.

Section CreateErr.
Variable parse : bool -> string -> res (dict pd).
Variable inst : ccfg -> pd -> res (string * thing).
Variable cfg : bool -> string -> thing -> option string -> res string.
Variable config_dir : fs -> ConfigTree_Model.dir.
Variable save : bool -> option string -> string -> dict pd -> res string.
Variable u : user.

Lemma dict_there_iff f pl d : load_dict parse (pl_general pl) f (pl_file pl) = Ok d <-> dict_there parse f pl d.
Proof.
  unfold load_dict, dict_there. split.
  - destruct (f (pl_file pl)) as [[|text]|]; [discriminate|eauto|]. destruct (pl_general pl); [|discriminate]. intros [= <-]. auto.
  - intros [(G & -> & ->)|(text & -> & P)]; [now rewrite G|exact P].
Qed.

Lemma entry_fault_iff f pl e : pl_section pl <> [] ->
  add_to_dict parse save (pl_general pl) (pl_file pl) (pl_section pl) (pl_name pl) f = ([], Raise e) <-> entry_fault parse save f pl e.
Proof.
  intro S. unfold add_to_dict. rewrite pbind_pfs. fold (content f (pl_file pl)). split.
  - destruct (load_dict parse (pl_general pl) f (pl_file pl)) as [d|e0] eqn:L.
    + apply dict_there_iff in L.
      assert (T := add_at_type_error (pl_section pl) d (new_entry (pl_general pl) (pl_name pl))).
      assert (V := add_at_value_error (pl_section pl) d (new_entry (pl_general pl) (pl_name pl)) S).
      assert (O := add_at_outcomes (pl_section pl) d (new_entry (pl_general pl) (pl_name pl))).
      destruct (add_at d (pl_section pl) _) as [d' [[]|e1]] eqn:A; cbn [snd] in *.
      * destruct (save _ _ _ d') as [text|e2] eqn:Sv; [|intros [= <-]; eapply Not_saved; eassumption].
        unfold write. destruct (f (pl_file pl)) as [[|t]|] eqn:F; [|intro H; discriminate|].
        -- intros [= <-]. now apply Dict_folder.
        -- destruct (f (parent (pl_file pl))) as [[|t]|] eqn:Fp; try (intro H; discriminate);
             (intros [= <-]; eapply No_folder; try eassumption; congruence).
      * intros [= <-]. destruct O as [O|[O|O]]; [discriminate| |]; injection O as ->.
        -- eapply Through_entries; [exact L|]. now apply T.
        -- destruct (proj1 V eq_refl) as (v & V1 & V2). eapply Onto_sections; eassumption.
    + intros [= <-]. unfold load_dict in L. destruct (f (pl_file pl)) as [[|text]|] eqn:F.
      * injection L as <-. now apply Dict_folder.
      * eapply Dict_text; eassumption.
      * destruct (pl_general pl) eqn:G; [discriminate|]. injection L as <-. now apply Dict_missing.
  - intros [G F|F|text e' F P|d D T|d v D V1 V2|d d' e' D A Sv|d d' text D A Sv F Fp].
    + unfold load_dict. now rewrite F, G.
    + unfold load_dict. now rewrite F.
    + unfold load_dict. now rewrite F, P.
    + apply dict_there_iff in D. rewrite D. apply (add_at_type_error _ _ (new_entry (pl_general pl) (pl_name pl))) in T.
      destruct (add_at d (pl_section pl) _) as [d' r]. cbn [snd] in T. subst r. reflexivity.
    + apply dict_there_iff in D. rewrite D.
      assert (X := proj2 (add_at_value_error (pl_section pl) d (new_entry (pl_general pl) (pl_name pl)) S) (ex_intro _ v (conj V1 V2))).
      destruct (add_at d (pl_section pl) _) as [d' r]. cbn [snd] in X. subst r. reflexivity.
    + apply dict_there_iff in D. now rewrite D, A, Sv.
    + apply dict_there_iff in D. rewrite D, A, Sv. unfold write. rewrite F. destruct (f (parent (pl_file pl))) as [[|t]|]; congruence.
Qed.

Lemma placed_section s path func pl : path <> [] -> placed s path func pl -> pl_section pl <> [].
Proof.
  intros N H. inversion H as [n t|c C1 C2 L]; subst; cbn [pl_section general_place class_place]; [exact N|].
  destruct path as [|a [|b [|c' r]]]; cbn in *; try lia. discriminate.
Qed.
Lemma create_fault shared s path func pl f p e : path <> [] -> placed s path func pl -> entry_fault parse save f pl e ->
  pm_create parse inst cfg config_dir save u shared s path func f p = ([], p, Raise e).
Proof.
  intros N P F. apply entry_fault_iff in F; [|now apply (placed_section s path func)].
  inversion P as [n t Nc|c C1 C2 L]; subst; unfold pm_create; cbn [pl_general pl_file pl_section pl_name general_place class_place] in F.
  - apply class_of_None in Nc. now rewrite Nc, F.
  - destruct (class_of s (hd "" path)) as [own|] eqn:E; [|apply class_of_None with (c := c) in E; [congruence|exact C1]].
    assert (X : Nat.ltb (List.length path) 3 = false) by (apply Nat.ltb_ge; exact L). now rewrite X, F.
Qed.
End CreateErr.
