(** Model of the creation of project folders (main.py) and of writing the config files of all items (collections), as
    programs on a file system that may be interrupted at any point. *)
From Verif Require Export Collection_Model.
Local Open Scope string_scope.
Local Open Scope list_scope.

(** A path is the list of the names on the way from the root. Simplification: no links, no permissions, and names contain no
    slash. *)
Definition path : Type := list string.
Inductive node : Type := Dir | File (content : string).
Definition fs : Type := path -> option node.
Definition path_eqb (p q : path) : bool := if list_eq_dec string_dec p q then true else false.
Definition put (p : path) (n : node) (f : fs) : fs := fun q => if path_eqb p q then Some n else f q.
(** os.path.exists *)
Definition exists_ (f : fs) (p : path) : bool := match f p with Some _ => true | None => false end.

(** A program passes through states of the file system, the last of which is the final one. If it dies, one of them or the
    initial one is left. *)
Definition P (A : Type) : Type := fs -> list fs * res A.
Definition final (f : fs) (l : list fs) : fs := last l f.
Definition pret {A} (a : A) : P A := fun _ => ([], Ok a).
Definition praise {A} (e : exn) : P A := fun _ => ([], Raise e).
Definition pbind {A B} (m : P A) (k : A -> P B) : P B :=
  fun f => match m f with
           | (l, Ok a) => let (l', r) := k a (final f l) in (l ++ l', r)
           | (l, Raise e) => (l, Raise e)
           end.
Definition pfs : P fs := fun f => ([], Ok f).
Fixpoint piter {A} (k : A -> P unit) (l : list A) : P unit :=
  match l with [] => pret tt | a :: l' => pbind (k a) (fun _ => piter k l') end.
(** what can be left if the program dies *)
Definition crash_states {A} (m : P A) (f : fs) : list fs := f :: fst (m f).

Definition parent (p : path) : path := removelast p.

(** os.mkdir *)
Definition mkdir (p : path) : P unit :=
  fun f => match f p with
           | Some _ => ([], Raise OSError)
           | None => match f (parent p) with
                     | Some Dir => ([put p Dir f], Ok tt)
                     | _ => ([], Raise OSError)
                     end
           end.
(** os.makedirs(p): [pre] is the part of the path seen so far. Parents that exist are skipped, the last folder must not exist. *)
Fixpoint makedirs_below (pre p : path) : P unit :=
  match p with
  | [] => pret tt
  | [x] => mkdir (pre ++ [x])
  | x :: rest => pbind pfs (fun f => pbind (if exists_ f (pre ++ [x]) then pret tt else mkdir (pre ++ [x])) (fun _ => makedirs_below (pre ++ [x]) rest))
  end.
Definition makedirs (p : path) : P unit := match p with [] => praise OSError | _ => makedirs_below [] p end.

(** all prefixes of a text, the shortest first *)
Fixpoint prefixes (s : string) : list string :=
  match s with "" => [""] | String c s' => "" :: map (String c) (prefixes s') end.
(** [with open(p, 'w') as f: f.write(s)]: the file is emptied or created and then written. How much is written at a time is up
    to the buffers; here it is one byte, so that all states that can occur are among those passed through. *)
Definition write (p : path) (s : string) : P unit :=
  fun f => match f p with
           | Some Dir => ([], Raise OSError)
           | Some (File _) => (map (fun t => put p (File t) f) (prefixes s), Ok tt)
           | None => match f (parent p) with
                     | Some Dir => (map (fun t => put p (File t) f) (prefixes s), Ok tt)
                     | _ => ([], Raise OSError)
                     end
           end.
(** [if os.path.exists(p): read it] *)
Definition read_if_exists (p : path) : P (option string) :=
  fun f => match f p with Some (File s) => ([], Ok (Some s)) | Some Dir => ([], Raise OSError) | None => ([], Ok None) end.

(* ------------------------------------------------------------------ *)
(** * Projects *)

Definition ensure_dir (p : path) : P unit := pbind pfs (fun f => if exists_ f p then pret tt else makedirs p).
Definition ensure_file (p : path) (s : string) : P unit := pbind pfs (fun f => if exists_ f p then pret tt else write p s).

Definition newline : string := String (ascii_of_nat 10) "".
Definition pipeline_text : string := (newline ++ "pipeline_dict = {}" ++ newline)%string.
Definition class_text : string := (newline ++ "class_dict = {}" ++ newline)%string.
Definition dict_file (folder : path) (name : string) : path := folder ++ [(name ++ "_dict.py")%string].

(** create_project, main.py:709-730 *)
Definition create_project (folder : path) (logs : option path) (names : list string) : P unit :=
  pbind (ensure_dir (folder ++ ["defaults"])) (fun _ =>
  pbind (match logs with Some l => ensure_dir l | None => pret tt end) (fun _ =>
  pbind (ensure_file (folder ++ ["pipeline_dict.py"]) pipeline_text) (fun _ =>
  piter (fun n => ensure_file (dict_file folder n) class_text) names))).

(** _need_to_create_project, main.py:603-613, with default_config_path from 72 *)
Definition need_to_create (f : fs) (folder : path) (default_folder : string) (logs : option path) (names : list string) : bool :=
  existsb (fun p => negb (exists_ f p)) [folder; folder ++ ["pipeline_dict.py"]; folder ++ [default_folder]] ||
  (match logs with Some l => negb (exists_ f l) | None => false end) ||
  existsb (fun n => negb (exists_ f (dict_file folder n))) names.
(** _create_project_if_needed, main.py:599-601 *)
Definition create_if_needed (folder : path) (default_folder : string) (logs : option path) (names : list string) : P unit :=
  pbind pfs (fun f => if need_to_create f folder default_folder logs names then create_project folder logs names else pret tt).

(* ------------------------------------------------------------------ *)
(** * Config files of all items *)

Section Walk.
(** What is written for an item, given what its file holds (FileStr_Model: scaffold and scaffold_class; reading the file or
    finding the defaults may raise). The first argument says whether the item is one of the general collection. *)
Variable cfg : bool -> string -> thing -> option string -> res string.

(** _output_config_file, pipelines/models/collection.py:43-62 and data/models/collection.py:55-101, for items *)
Definition output_item (general : bool) (base : path) (n : string) (t : thing) : P unit :=
  let p := base ++ [(n ++ ".py")%string] in
  pbind (read_if_exists p) (fun old => match cfg general n t old with Ok s => write p s | Raise e => praise e end).

(** _output_config_files with _output_section_config_file, pipelines/models/collection.py:35-41, 65-76 and
    data/models/collection.py:48-53. A section lies in the folder of its name (from_dict, basemodels/collection.py:100-131). *)
Fixpoint output_files (general : bool) (base : path) (c : coll) : P unit :=
  let entry e := match e with
                 | EItem n t => output_item general base n t
                 | EColl c' => output_files general (base ++ [coll_name c']) c'
                 end in
  match c with
  | Coll _ l =>
      pbind (ensure_dir base) (fun _ =>
      pbind (if general then ensure_file (base ++ ["section.py"]) newline else pret tt) (fun _ =>
      (fix iter l := match l with [] => pret tt | e :: l' => pbind (entry e) (fun _ => iter l') end) l))
  end.

(** create_registrars, main.py:760-764, after reading the dict files *)
Definition scaffold_all (defaults : path) (i : items) : P unit :=
  pbind (piter (fun r => output_files false (defaults ++ [reg_name r]) (reg_coll r)) (i_specific i)) (fun _ =>
  output_files true defaults (i_general i)).
End Walk.
