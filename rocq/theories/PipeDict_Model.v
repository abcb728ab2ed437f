(** Model of the dict files (pipeline_dict.py and <class>_dict.py): adding an entry
    (pyfileconf/dictfiles/modify.py), writing and reading the dict, and the tree of sections built from it
    (pyfileconf/basemodels/collection.py, pyfileconf/basemodels/registrar.py). *)
From Verif Require Export Collection_Model Py_Dict.
Local Open Scope string_scope.
Local Open Scope list_scope.

(** A value of a loaded dict, io/file/load/parsers/collections.py:65-92: dicts and lists are converted,
    everything else stays an ast node unless strings are converted too (class dicts). [PName] is an
    ast.Name, [PStr] a converted string, [POther] any other ast node. Simplification: keys are strings. *)
Inductive pd : Type :=
| PName (id : string)
| PStr (s : string)
| POther (src : string)
| PList (l : list pd)
| PDict (l : list (string * pd)).

(* ------------------------------------------------------------------ *)
(** * Adding an entry *)

(** add_item_into_nested_dict_at_section_path, modify.py:9-55. The dict is changed in place, so the result
    is the dict afterwards together with the outcome. Indexing a list, a str or an ast node with a str
    raises TypeError. *)
Fixpoint add_at (d : dict pd) (path : list string) (item : pd) : dict pd * res unit :=
  match path with
  | [] => (d, Ok tt)
  | x :: rest =>
      match rest with
      | [] => match dget x d with
              | None => (dset x (PList [item]) d, Ok tt)
              | Some (PList l) => (dset x (PList (l ++ [item])) d, Ok tt)
              | Some _ => (d, Raise ValueError)
              end
      | _ :: _ => match dget x d with
                  | None => let (d', r) := add_at [] rest item in (dset x (PDict d') d, r)
                  | Some (PDict e) => let (d', r) := add_at e rest item in (dset x (PDict d') d, r)
                  | Some _ => (d, Raise TypeError)
                  end
      end
  end.

(* ------------------------------------------------------------------ *)
(** * Writing *)

(** the items of a list, modify.py:72-75: [item.id], only an ast.Name has one *)
Fixpoint print_items (l : list pd) : res string :=
  match l with
  | [] => Ok ""
  | PName n :: r => match print_items r with Ok s => Ok (n ++ "," ++ s)%string | Raise e => Raise e end
  | _ :: _ => Raise AttributeError
  end.

(** modify.py:65-82, the text after [key]: *)
Fixpoint print_value (v : pd) : res string :=
  match v with
  | PName n => Ok (n ++ ",")%string
  | PStr s => Ok (s ++ ",")%string
  | PList l => match print_items l with Ok s => Ok ("[" ++ s ++ "],")%string | Raise e => Raise e end
  | PDict l =>
      match (fix go (l : list (string * pd)) : res string :=
               match l with
               | [] => Ok ""
               | (k, x) :: r => match print_value x with
                                | Raise e => Raise e
                                | Ok s => match go r with
                                          | Raise e => Raise e
                                          | Ok s' => Ok (quote ++ k ++ quote ++ ": " ++ s ++ s')%string
                                          end
                                end
               end) l with
      | Ok s => Ok ("{" ++ s ++ "},")%string
      | Raise e => Raise e
      end
  | POther _ => Raise ValueError
  end.

Fixpoint print_entries (l : dict pd) : res string :=
  match l with
  | [] => Ok ""
  | (k, x) :: r => match print_value x with
                   | Raise e => Raise e
                   | Ok s => match print_entries r with
                             | Raise e => Raise e
                             | Ok s' => Ok (quote ++ k ++ quote ++ ": " ++ s ++ s')%string
                             end
                   end
  end.

(** create_dict_assignment_str_from_nested_dict_with_ast_names, modify.py:58-90, before black is called *)
Definition print_dict (name : string) (d : dict pd) : res string :=
  match print_entries d with
  | Ok s => Ok (name ++ " = {" ++ s ++ "}")%string
  | Raise e => Raise e
  end.

(** [repr] of a str: single quotes unless the text contains a single quote and no double quote.
    Simplification: of the characters that repr escapes only backslash, the quote, newline, return and
    tab are covered; other unprintable characters are kept as they are. *)
Definition squote : ascii := ascii_of_nat 39.
Definition dquote : ascii := ascii_of_nat 34.
Definition bslash : ascii := ascii_of_nat 92.
Definition repr_char (q c : ascii) : string :=
  if Ascii.eqb c q || Ascii.eqb c bslash then String bslash (String c "")
  else match nat_of_ascii c with
       | 10 => String bslash "n"
       | 13 => String bslash "r"
       | 9 => String bslash "t"
       | _ => String c ""
       end.
Fixpoint repr_chars (q : ascii) (s : string) : string :=
  match s with
  | EmptyString => ""
  | String c r => (repr_char q c ++ repr_chars q r)%string
  end.
Definition repr_quote (s : string) : ascii :=
  if has_char squote s && negb (has_char dquote s) then dquote else squote.
Definition repr_str (s : string) : string :=
  let q := repr_quote s in (String q (repr_chars q s) ++ String q "")%string.

(** [str] of the dict, main.py:513: ast nodes print as <ast.Name object at ...> *)
Fixpoint repr (v : pd) : string :=
  match v with
  | PName _ => "<ast.Name object>"
  | POther _ => "<ast object>"
  | PStr s => repr_str s
  | PList l => ("[" ++ join ", " (map repr l) ++ "]")%string
  | PDict l => ("{" ++ join ", " (map (fun kv => (repr_str (fst kv) ++ ": " ++ repr (snd kv))%string) l) ++ "}")%string
  end.
Definition repr_dict (name : string) (d : dict pd) : string := (name ++ " = " ++ repr (PDict d))%string.

(* ------------------------------------------------------------------ *)
(** * Reading *)

(** A reader for the part of Python's expression syntax that dict files are made of. It rejects everything
    else, also things Python accepts (comments, string prefixes, adjacent strings, rare escapes, calls).
    Simplification: a newline counts as a blank everywhere outside strings. *)
Inductive tok : Type := TName (s : string) | TStr (s : string) | TP (c : ascii).

Definition nat_between (a n b : nat) : bool := Nat.leb a n && Nat.leb n b.
Definition ident_start (c : ascii) : bool :=
  let n := nat_of_ascii c in nat_between 65 n 90 || nat_between 97 n 122 || Nat.eqb n 95.
Definition ident_char (c : ascii) : bool := ident_start c || nat_between 48 (nat_of_ascii c) 57.
Definition is_punct (c : ascii) : bool :=
  match c with "{" | "}" | "[" | "]" | ":" | "," | "=" | "." => true | _ => false end%char.
(** characters that may not stand in a string literal: NUL, newline, return *)
Definition is_break (c : ascii) : bool :=
  match nat_of_ascii c with 0 | 10 | 13 => true | _ => false end.
Definition escape (c : ascii) : option ascii :=
  match c with
  | "n" => Some (ascii_of_nat 10) | "r" => Some (ascii_of_nat 13) | "t" => Some (ascii_of_nat 9)
  | _ => if Ascii.eqb c bslash || Ascii.eqb c squote || Ascii.eqb c dquote then Some c else None
  end%char.

Inductive lmode : Type := LOut | LName (acc : string) | LStr (q : ascii) (acc : string) | LEsc (q : ascii) (acc : string).

Definition cons_tok (t : tok) (r : option (list tok)) : option (list tok) :=
  match r with Some l => Some (t :: l) | None => None end.
Definition snoc (s : string) (c : ascii) : string := (s ++ String c "")%string.

Fixpoint lex (m : lmode) (s : string) : option (list tok) :=
  match s with
  | EmptyString => match m with LOut => Some [] | LName a => Some [TName a] | _ => None end
  | String c r =>
      let out := if is_space c then lex LOut r
                 else if ident_start c then lex (LName (String c "")) r
                 else if Ascii.eqb c squote || Ascii.eqb c dquote then lex (LStr c "") r
                 else if is_punct c then cons_tok (TP c) (lex LOut r)
                 else None in
      match m with
      | LOut => out
      | LName a => if ident_char c then lex (LName (snoc a c)) r else cons_tok (TName a) out
      | LStr q a => if Ascii.eqb c q then cons_tok (TStr a) (lex LOut r)
                    else if Ascii.eqb c bslash then lex (LEsc q a) r
                    else if is_break c then None
                    else lex (LStr q (snoc a c)) r
      | LEsc q a => match escape c with Some x => lex (LStr q (snoc a x)) r | None => None end
      end
  end.

Definition constants : list string := ["None"; "True"; "False"].
Definition keywords : list string :=
  ["and"; "as"; "assert"; "async"; "await"; "break"; "class"; "continue"; "def"; "del"; "elif"; "else"; "except";
   "finally"; "for"; "from"; "global"; "if"; "import"; "in"; "is"; "lambda"; "nonlocal"; "not"; "or"; "pass"; "raise";
   "return"; "try"; "while"; "with"; "yield"].

(** the attributes behind a name: [.a.b] *)
Fixpoint pattrs (src : string) (ts : list tok) : string * list tok :=
  match ts with
  | TP "." :: TName a :: r => pattrs (src ++ "." ++ a)%string r
  | _ => (src, ts)
  end%char.

Definition pname (x : string) (ts : list tok) : option (pd * list tok) :=
  if mem x keywords then None
  else match pattrs x ts with
       | (src, r) => Some (if mem x constants || negb (String.eqb src x) then POther src else PName x, r)
       end.

(** Python's parser followed by _ast_dict_to_dict, _ast_list_to_list and
    _convert_to_str_if_ast_str_and_desired ([conv] is convert_str_values), collections.py:65-97.
    [fuel] bounds the recursion. *)
Fixpoint pval (fuel : nat) (conv : bool) (ts : list tok) : option (pd * list tok) :=
  match fuel with
  | 0 => None
  | S n => match ts with
           | TName x :: r => pname x r
           | TStr s :: r => Some (if conv then PStr s else POther s, r)
           | TP "[" :: r => match plist n conv r with Some (l, r') => Some (PList l, r') | None => None end
           | TP "{" :: r => match pdict n conv [] r with Some (l, r') => Some (PDict l, r') | None => None end
           | _ => None
           end
  end%char
with plist (fuel : nat) (conv : bool) (ts : list tok) : option (list pd * list tok) :=
  match fuel with
  | 0 => None
  | S n => match ts with
           | TP "]" :: r => Some ([], r)
           | _ => match pval n conv ts with
                  | Some (v, TP "," :: r) => match plist n conv r with Some (l, r') => Some (v :: l, r') | None => None end
                  | Some (v, TP "]" :: r) => Some ([v], r)
                  | _ => None
                  end
           end
  end%char
with pdict (fuel : nat) (conv : bool) (acc : dict pd) (ts : list tok) : option (dict pd * list tok) :=
  match fuel with
  | 0 => None
  | S n => match ts with
           | TP "}" :: r => Some (acc, r)
           | TStr k :: TP ":" :: r =>
               match pval n conv r with
               | Some (v, TP "," :: r') => pdict n conv (dset k v acc) r'
               | Some (v, TP "}" :: r') => Some (dset k v acc, r')
               | _ => None
               end
           | _ => None
           end
  end%char.

(** the file [name = <dict>] as PipelineDictLoader.load and SpecificClassDictLoader.load see it,
    io/file/load/lazy/pipeline.py:6-13, io/file/load/lazy/datadict.py:6-13 *)
Definition read (conv : bool) (name text : string) : option (dict pd) :=
  match lex LOut text with
  | Some (TName x :: TP "=" :: ts) =>
      if String.eqb x name
      then match pval (2 * List.length ts) conv ts with
           | Some (PDict d, []) => Some d
           | _ => None
           end
      else None
  | _ => None
  end%char.

(* ------------------------------------------------------------------ *)
(** * The tree of sections *)

(** collection.py:58-62: elements of the list passed to the constructor *)
Inductive pre : Type := PreColl (c : coll) | PreItem (v : pd).

Section Tree.
  (** What becomes of an element of a list: for a PipelineCollection
      ObjectView.from_ast_and_imports(item, imports) (pipelines/models/collection.py:20-33) with its name
      and what importing it gives, for a SpecificClassCollection
      convert_to_empty_obj_if_necessary(item, klass) (data/logic/convert.py:8-20). *)
  Variable view : pd -> res (string * thing).

  (** Collection._transform_items, collection.py:173-174 *)
  Fixpoint transform (l : list pre) : res (list entry) :=
    match l with
    | [] => Ok []
    | p :: r => match (match p with
                       | PreColl c => Ok (EColl c)
                       | PreItem v => match view v with Ok (n, t) => Ok (EItem n t) | Raise e => Raise e end
                       end) with
                | Raise e => Raise e
                | Ok e => match transform r with Ok es => Ok (e :: es) | Raise x => Raise x end
                end
    end.

  (** Collection.__init__, collection.py:40-54 *)
  Definition mk_coll (name : string) (l : list pre) : res coll :=
    match transform l with Ok es => Ok (Coll name es) | Raise e => Raise e end.

  (** Collection.from_dict (collection.py:100-131) of a dict and Collection.from_list
      (collection.py:133-168) of a list. Other values: from_dict skips them; not called by from_list on
      them. *)
  Fixpoint from_pd (name : string) (v : pd) : res coll :=
    match v with
    | PDict l =>
        match (fix go (l : list (string * pd)) : res (list pre) :=
                 match l with
                 | [] => Ok []
                 | (k, x) :: r =>
                     match x with
                     | PDict _ | PList _ =>
                         match from_pd k x with
                         | Raise e => Raise e
                         | Ok c => match go r with Ok ps => Ok (PreColl c :: ps) | Raise e => Raise e end
                         end
                     | _ => go r
                     end
                 end) l with
        | Ok ps => mk_coll name ps
        | Raise e => Raise e
        end
    | PList l =>
        match (fix go (l : list pd) : res (list pre) :=
                 match l with
                 | [] => Ok []
                 | x :: r =>
                     match (match x with
                            | PDict d =>
                                (fix go' (d : list (string * pd)) : res (list pre) :=
                                   match d with
                                   | [] => Ok []
                                   | (k, y) :: d' =>
                                       match (match y with
                                              | PDict _ | PList _ =>
                                                  match from_pd k y with Ok c => Ok (PreColl c) | Raise e => Raise e end
                                              | _ => Ok (PreItem y)
                                              end) with
                                       | Raise e => Raise e
                                       | Ok p => match go' d' with Ok ps => Ok (p :: ps) | Raise e => Raise e end
                                       end
                                   end) d
                            | _ => Ok [PreItem x]
                            end) with
                     | Raise e => Raise e
                     | Ok ps => match go r with Ok ps' => Ok (ps ++ ps') | Raise e => Raise e end
                     end
                 end) l with
        | Ok ps => mk_coll name ps
        | Raise e => Raise e
        end
    | _ => Ok (Coll name [])
    end.

  Definition from_dict (name : string) (d : dict pd) : res coll := from_pd name (PDict d).
End Tree.

(** [obj.append(entry)], collection.py:86-88 *)
Definition coll_append (c : coll) (e : entry) : coll := Coll (coll_name c) (coll_entries c ++ [e]).

(** the change of the section [x] of [l] that a lookup finds, which is the last one of that name *)
Fixpoint replace_last (x : string) (new : entry) (l : list entry) : list entry :=
  match l with
  | [] => []
  | e :: rest => match last_entry x rest with
                 | Some _ => e :: replace_last x new rest
                 | None => if String.eqb x (entry_name e) then new :: rest else e :: rest
                 end
  end.

(** Registrar.set, registrar.py:76-97, from a collection on: walks down with [getattr], appends missing
    sections and appends the value to the last one. Simplification: if the path runs into an item or a
    method this counts as AttributeError. *)
Fixpoint coll_set (c : coll) (path : list string) (e : entry) : res coll :=
  match path with
  | [] => Ok (coll_append c e)
  | x :: rest =>
      match coll_getattr c x with
      | Ok (FColl c') => match coll_set c' rest e with
                         | Ok c2 => Ok (Coll (coll_name c) (replace_last x (EColl c2) (coll_entries c)))
                         | Raise r => Raise r
                         end
      | Ok _ => Raise AttributeError
      | Raise _ => match coll_set (Coll x []) rest e with
                   | Ok c2 => Ok (coll_append c (EColl c2))
                   | Raise r => Raise r
                   end
      end
  end.

(** Registrar.set from the registrar: [registrar.collection] is the collection itself, other attributes of
    the registrar are no collections *)
Definition reg_set (c : coll) (path : list string) (e : entry) : res coll :=
  match path with
  | [] => Ok (coll_append c e)
  | x :: rest => if String.eqb x "collection" then coll_set c rest e
                 else if mem x reg_reserved then Raise AttributeError
                      else coll_set c path e
  end.

(* ------------------------------------------------------------------ *)
(** * Creating an entry *)

(** The dict file of the general registrar together with the tree in memory. *)
Record world : Type := World { w_text : string; w_coll : coll }.

Section Create.
  Variable black : string -> res string.       (* black.format_str, modify.py:93-96 *)

  (** main.py:522-542: the new text of pipeline_dict.py (without the imports, for these see Imports_Model)
      when [func] is the name of the function or class *)
  Definition create_entry (text : string) (path : list string) (func : string) : res string :=
    match read false "pipeline_dict" text with
    | None => Raise SyntaxError
    | Some d => match add_at d path (PName func) with
                | (_, Raise e) => Raise e
                | (d', Ok _) => match print_dict "pipeline_dict" d' with
                                | Raise e => Raise e
                                | Ok s => black s
                                end
                end
    end.

  (** main.py:498-520: the new text of <class>_dict.py; [path] is section_path[1:-1] *)
  Definition create_class_entry (text : string) (path : list string) (item : string) : res string :=
    match read true "class_dict" text with
    | None => Raise SyntaxError
    | Some d => match add_at d path (PStr item) with
                | (_, Raise e) => Raise e
                | (d', Ok _) => black (repr_dict "class_dict" d')
                end
    end.

  (** PipelineManager.create, main.py:408-456, for the main pipeline dict; [t] is what importing the passed
      object from its module gives. If the update of the tree fails the file stays written. Not modelled
      here: the config file written for the entry, see FileStr_Model, and the reset of its config. *)
  Definition create (path : list string) (func : string) (t : thing) : M world unit := fun w =>
    match create_entry (w_text w) path func with
    | Raise e => (w, Raise e)
    | Ok text => match reg_set (w_coll w) path (EItem func t) with
                 | Raise e => (World text (w_coll w), Raise e)
                 | Ok c => (World text c, Ok tt)
                 end
    end.

  (** the same for a specific class *)
  Definition create_class (path : list string) (item : string) (t : thing) : M world unit := fun w =>
    match create_class_entry (w_text w) path item with
    | Raise e => (w, Raise e)
    | Ok text => match reg_set (w_coll w) path (EItem item t) with
                 | Raise e => (World text (w_coll w), Raise e)
                 | Ok c => (World text c, Ok tt)
                 end
    end.
End Create.

(** Black changes the layout of a text only: it may fail, but what it returns reads as the same dict. *)
Definition layout_only (black : string -> res string) : Prop :=
  forall conv name text out d, read conv name text = Some d -> black text = Ok out -> read conv name out = Some d.
