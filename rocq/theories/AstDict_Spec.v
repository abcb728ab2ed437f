(** What is said about dicts in the source. *)
From Verif Require Export AstDict_Model.
Local Open Scope string_scope.
Local Open Scope list_scope.

(** a keyword [k = v] stands somewhere in a node *)
Inductive occurs (k : string) (v : node) : node -> Prop :=
| oc_keyword f args kws q : In q kws -> fst q = Some k \/ fst q = None /\ k = "**" -> snd q = v -> occurs k v (NCall f args kws)
| oc_value f args kws q : In q kws -> occurs k v (snd q) -> occurs k v (NCall f args kws)
| oc_func f args kws : occurs k v f -> occurs k v (NCall f args kws)
| oc_arg f args kws a : In a args -> occurs k v a -> occurs k v (NCall f args kws)
| oc_key items x w : In (KNode x, w) items -> occurs k v x -> occurs k v (NDict items)
| oc_item items x w : In (x, w) items -> occurs k v w -> occurs k v (NDict items)
| oc_part label l x : In x l -> occurs k v x -> occurs k v (NNode label l).
(** no keywords in a node *)
Definition without_keywords (n : node) : Prop := forall k v, ~ occurs k v n.

(** the last value given to a key *)
Definition last_value (k : string) (l : list (string * node)) (v : node) : Prop := exists a b, l = a ++ (k, v) :: b /\ ~ In k (map fst b).

(** examples: 1, [f(...)] and [{...}] *)
Definition one_ : node := NNode "1" [].
Definition two_ : node := NNode "2" [].
Definition calls (f : string) (d : dict node) : node := NCall (NNode f []) [] (map (fun q => (Some (fst q), snd q)) d).
Definition displays (d : dict node) : node := NDict (map (fun q => (KStr (fst q), snd q)) d).

(** the value that counts for a keyword: of the parts of a node the last that has one; a keyword in the value of another one, or of
    itself, more than that one *)
Definition later (a b : option node) : option node := match b with Some _ => b | None => a end.
Definition last_of {A} (g : A -> option node) : list A -> option node :=
  fix go l := match l with [] => None | x :: rest => later (g x) (go rest) end.
Fixpoint counts (k : string) (n : node) : option node :=
  match n with
  | NDict items => later (last_of (fun q => match fst q with KNode x => counts k x | _ => None end) items) (last_of (fun q => counts k (snd q)) items)
  | NCall f args kws =>
      later (counts k f) (later (last_of (counts k) args)
        (last_of (fun q => later (if String.eqb (match fst q with Some a => a | None => "**" end) k then Some (snd q) else None) (counts k (snd q))) kws))
  | NNode _ l => last_of (counts k) l
  end.
(** the same, if keywords with other names are not looked into *)
Fixpoint counts_outside (k : string) (n : node) : option node :=
  match n with
  | NDict items => later (last_of (fun q => match fst q with KNode x => counts_outside k x | _ => None end) items) (last_of (fun q => counts_outside k (snd q)) items)
  | NCall f args kws =>
      later (counts_outside k f) (later (last_of (counts_outside k) args)
        (last_of (fun q => match fst q with
                           | Some a => if String.eqb a k then later (Some (snd q)) (counts_outside k (snd q)) else None
                           | None => None
                           end) kws))
  | NNode _ l => last_of (counts_outside k) l
  end.
