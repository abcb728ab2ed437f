(** Statements about projects and their files. *)
From Verif Require Export Project_Model.
Local Open Scope string_scope.
Local Open Scope list_scope.

(** file systems: what exists lies in a folder *)
Definition wf (f : fs) : Prop := f [] = Some Dir /\ forall p x, f (p ++ [x]) <> None -> f p = Some Dir.
Definition prefix (q p : path) : Prop := exists r, p = q ++ r.
(** no file where a folder is needed to get to [p] *)
Definition reachable (f : fs) (p : path) : Prop := forall q r, p = q ++ r -> r <> [] -> forall s, f q <> Some (File s).
Definition prefixb (q p : path) : bool := if list_eq_dec string_dec (firstn (length q) p) q then true else false.
(** [st] is [f] with all folders on the way to [p] *)
Definition adds (f : fs) (p : path) (st : fs) : Prop :=
  forall q, st q = match f q with Some n => Some n | None => if prefixb q p then Some Dir else None end.
Definition same (f g : fs) : Prop := forall q, f q = g q.
Definition begins (t s : string) : Prop := exists u, s = (t ++ u)%string.

(** what a file holds *)
Definition content (f : fs) (p : path) : option string := match f p with Some (File s) => Some s | _ => None end.

(** The steps of a program in order: making a folder, making a file that is missing, and writing the file of an item. *)
Inductive act : Type := AMk (p : path) | ANew (p : path) (s : string) | AUpd (general : bool) (p : path) (n : string) (t : thing).
Definition act_path (a : act) : path := match a with AMk p | ANew p _ | AUpd _ p _ _ => p end.

(** what an action may change *)
Definition touches (a : act) (q : path) : Prop := match a with AMk p => prefix q p | ANew p _ | AUpd _ p _ _ => q = p end.
(** what comes to be at a path where nothing was *)
Fixpoint made (l : list act) (q : path) : option node :=
  match l with
  | [] => None
  | AMk p :: l' => if list_eq_dec string_dec (firstn (length q) p) q then Some Dir else made l' q
  | ANew p s :: l' => if path_eqb p q then Some (File s) else made l' q
  | AUpd _ _ _ _ :: l' => made l' q
  end.

Section Acts.
Variable cfg : bool -> string -> thing -> option string -> res string.
Definition run_act (a : act) : P unit :=
  match a with
  | AMk p => ensure_dir p
  | ANew p s => ensure_file p s
  | AUpd g p n t => pbind (read_if_exists p) (fun old => match cfg g n t old with Ok s => write p s | Raise e => praise e end)
  end.

(** when an action succeeds *)
Definition can (f : fs) (a : act) : Prop :=
  match a with
  | AMk p => reachable f p
  | ANew p _ => f p <> None \/ f (parent p) = Some Dir
  | AUpd g p n t => f p <> Some Dir /\ (f p <> None \/ f (parent p) = Some Dir) /\ exists s, cfg g n t (content f p) = Ok s
  end.
(** what it leaves *)
Definition done (f : fs) (a : act) (st : fs) : Prop :=
  match a with
  | AMk p => adds f p st
  | ANew p s => same st (match f p with Some _ => f | None => put p (File s) f end)
  | AUpd g p n t => exists s, cfg g n t (content f p) = Ok s /\ same st (put p (File s) f)
  end.
(** what can be found while it is going on *)
Definition during (f : fs) (a : act) (st : fs) : Prop :=
  match a with
  | AMk p => exists q, prefix q p /\ adds f q st
  | ANew p s => f p = None /\ exists t, begins t s /\ same st (put p (File t) f)
  | AUpd g p n t => exists s u, cfg g n t (content f p) = Ok s /\ begins u s /\ same st (put p (File u) f)
  end.
(** all actions, one after the other *)
Inductive runs : fs -> list act -> fs -> Prop :=
| runs_nil f : runs f [] f
| runs_cons f a f1 l g : can f a -> done f a f1 -> runs f1 l g -> runs f (a :: l) g.
End Acts.

(** the steps of the library's functions *)
Definition project_acts (folder : path) (logs : option path) (names : list string) : list act :=
  AMk (folder ++ ["defaults"]) :: match logs with Some l => [AMk l] | None => [] end ++
  ANew (folder ++ ["pipeline_dict.py"]) pipeline_text :: map (fun n => ANew (dict_file folder n) class_text) names.
Fixpoint coll_acts (g : bool) (base : path) (c : coll) : list act :=
  match c with
  | Coll _ l => AMk base :: (if g then [ANew (base ++ ["section.py"]) (String "010" "")] else []) ++
                (fix go l := match l with
                             | [] => []
                             | EItem n t :: l' => AUpd g (base ++ [(n ++ ".py")%string]) n t :: go l'
                             | EColl c' :: l' => coll_acts g (base ++ [coll_name c']) c' ++ go l'
                             end) l
  end.
Definition all_acts (defaults : path) (i : items) : list act :=
  flat_map (fun r => coll_acts false (defaults ++ [reg_name r]) (reg_coll r)) (i_specific i) ++ coll_acts true defaults (i_general i).

(** items and sections with their files and folders *)
Inductive item_at (base : path) : coll -> path -> string -> thing -> Prop :=
| item_here c n t : In (EItem n t) (coll_entries c) -> item_at base c (base ++ [(n ++ ".py")%string]) n t
| item_below c c' p n t : In (EColl c') (coll_entries c) -> item_at (base ++ [coll_name c']) c' p n t -> item_at base c p n t.
Inductive section_at (base : path) : coll -> path -> Prop :=
| section_here c : section_at base c base
| section_below c c' p : In (EColl c') (coll_entries c) -> section_at (base ++ [coll_name c']) c' p -> section_at base c p.

(** the items of a manager: which collection they are in, and their files and sections *)
Inductive file_of (defaults : path) (i : items) : bool -> path -> string -> thing -> Prop :=
| file_specific r p n t : In r (i_specific i) -> item_at (defaults ++ [reg_name r]) (reg_coll r) p n t -> file_of defaults i false p n t
| file_general p n t : item_at defaults (i_general i) p n t -> file_of defaults i true p n t.
Inductive folder_of (defaults : path) (i : items) : bool -> path -> Prop :=
| folder_specific r p : In r (i_specific i) -> section_at (defaults ++ [reg_name r]) (reg_coll r) p -> folder_of defaults i false p
| folder_general p : section_at defaults (i_general i) p -> folder_of defaults i true p.

(** the files that are written, one after the other *)
Definition written (l : list act) : list path := flat_map (fun a => match a with AMk _ => [] | ANew p _ | AUpd _ p _ _ => [p] end) l.

(** Trees whose files do not get into each other's way: in every section the names of files and folders differ. *)
Definition entry_file (e : entry) : string := match e with EItem n _ => (n ++ ".py")%string | EColl c => coll_name c end.
Inductive tidy (g : bool) : coll -> Prop :=
| Tidy n l : NoDup (map entry_file l) -> (g = true -> ~ In "section.py" (map entry_file l)) -> (forall c, In (EColl c) l -> tidy g c) -> tidy g (Coll n l).
Definition tidy_items (i : items) : Prop :=
  NoDup (map reg_name (i_specific i)) /\ (forall r, In r (i_specific i) -> tidy false (reg_coll r) /\ reg_name r <> "section.py" /\ ~ In (reg_name r) (map entry_file (coll_entries (i_general i)))) /\
  tidy true (i_general i).

(** [h] is [g], but for the texts of the files in [P], which may be others that [R] allows *)
Definition alike (R : string -> string -> Prop) (P : path -> Prop) (g h : fs) : Prop :=
  forall q, h q = g q \/ P q /\ exists a b, g q = Some (File a) /\ h q = Some (File b) /\ R a b.
(** the config files of items *)
Definition config_file (defaults : path) (i : items) (q : path) : Prop := exists g n t, file_of defaults i g q n t.
(** writing the config files again gives texts that [R] allows *)
Definition rewriting (cfg : bool -> string -> thing -> option string -> res string) (R : string -> string -> Prop) (defaults : path) (i : items) (f : fs) : Prop :=
  forall g p n t a, file_of defaults i g p n t -> cfg g n t (content f p) = Ok a -> forall b, R a b -> exists c, cfg g n t (Some b) = Ok c /\ R a c.
