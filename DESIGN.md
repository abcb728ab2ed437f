# Formal model of py-file-conf: design

The Python source in /repo (package `pyfileconf`) is modelled in Coq 8.16.1 as shallow, total,
computable Gallina functions, one per Python function, with exceptions as values. Everything is in
`rocq/theories`. Only Coq's standard library is used.

## Layout

For every area `X` there are up to four kinds of files:

* `X_Model.v`  – the model only. Each definition cites the file and lines it models and says
  where it simplifies.
* `X_Spec.v`   – the vocabulary the theorems are stated in, written without the model's helpers
  wherever that is possible, and the data of examples.
* `X…_Proofs.v` – lemmas. `X_Example.v`: data and lemmas for examples of larger areas.
* `X_Props.v`  – the property theorems, concrete `Example`s that meet their hypotheses, and
  `Print Assumptions` for every theorem.

Common parts: `Py_Str.v` (Python `str` operations), `Py_Dict.v` (insertion-ordered `dict`),
`Py_Val.v` (Python values and `==` with its three outcomes), `Py_Exn.v` (exceptions, and a
state + exception monad in which the state survives an exception, as Python's heap does).

Theorems are called `Cxx_…` after the property in `properties.jsonl`. A property is stated as the
exact behaviour of the code, including its caveats. Where a user would expect more (from the
documentation or the name of a function), the expectation is refuted by a theorem
`Cxx_…_refuted` with a concrete witness; these are the findings, listed at the end.

`tools/set_props.py`, `tools/mk_manifest.py` and `tools/notes.json` keep `properties.jsonl` and
`MANIFEST.json` current. `tools/mutate.py` builds edited copies of the model outside of /verif,
`tools/mk_log.py` turns the results into `seeded/LOG.jsonl`.

## What is modelled and how it is proved

| properties | files | model | proof |
|----|----|-------|-------|
| C01, C02, C04 | `SectionPath` | strings, split/join | induction on strings and lists |
| C03 | `PosixPath`, `SectionPath` | `join`, `normpath`, `abspath`, `relpath` | normal form of `normpath`, prefix arithmetic on component lists |
| C05, C06 | `Registry` | manager registries; names to object identities | string prefix = component prefix; fold over histories = "last created, if not finalised" |
| C07–C09, C58 | `Config` | `ConfigBase`: values and `_applied_updates`, value equality | case analysis, invariant over histories |
| C10–C17, C53 | `ConfigTree` (`ConfigOps`, `ConfigLoad`, `ConfigWf`, `BelowItem`, `Hidden`) | heap of config objects, section tree whose instance attributes shadow the item map, `ConfigManager`, building the tree from files | heap frame lemmas, induction on paths, invariant over operation lists |
| C18–C20, C27 | `Runner`, `Collection` | registrars and runner on top of `ConfigTree`, loaded objects and a trace of hooks | invariants over histories, exact step lemmas |
| C18, C21–C25, C57 | `Run` (`RunErr`, `Debug`) | `run`, `_run_section`, `get`, force_continue, auto_pdb; user functions as an oracle | induction on lists and trees |
| C64 | `Clash` | the models of C07, C10 and C19 | exact step lemmas, traces of failing steps |
| C65–C67 | `View` | selector/models/itemview.py calls, reads and writes; runner.py method of a class dict | the chain of accesses to an item and to a section, an invariant of the dead state over all later operations |
| C68 | `Names` | imports/logic/load/name.py; imports written by create | first-match characterisation |
| C69 | `Report` | the texts made for the log of a run, on top of `View` and `Runner` | exact outcome of a run, raw string reader |
| C70–C72 | `Setup` (`SetupErr`) | main.py constructor, load, create_registrars; puts `Registry`, `PipeDict`, `Project`, `ConfigTree` and `Runner` together | acceptance as an independent predicate on files; the path of a value from a file to a call |
| C73–C77 | `Exec` (`ExecText`, `ExecSave`, `ExecRun`, `Layout`) | io/file/load/active: executing a config file; statements as trees, the program in the text of a plain file | frame and last-writer lemmas for executions, agreement of namespaces, the program of the written text, combination with `Setup` |
| C78 | `ClassRun` | main.py, runner, data/models/collection.py: items of class dicts from the files to the call | combination of `Setup`, `ExecRun` for instances |
| C79 | `ClassNames` | data/models/collection.py, basemodels/collection.py, registrar.py: names of instances that change, the cached name map | simulation by the tree with fixed names, frame lemmas for adding an item |
| C26 | `GetAttr` | the state machine of attribute access on a manager | induction over access sequences |
| C28–C30 | `Iterate`, `Product` | `run_product`, `IterativeRunner` | induction; counting argument for the product |
| C31, C56 | `Batch` | `BatchUpdater`, plugin contributions | dict algebra, induction |
| C32, C33, C59 | `Opts` | options, callbacks, file log handler | invariant over histories |
| C34 | `Stdout` | stdout redirection | induction over run trees |
| C35–C37 | `Context` | execution stack and dependency maps; programs = trees of nested run/load/raise actions | induction over programs |
| C38, C39 | `Deps` (`DepsEnd`, `DepsOrder`) | refresh loop with arbitrary visiting order | rank induction on acyclic graphs |
| C40–C42, C51 | `PipeDict` | pipeline dicts: tree, writer, reader, `create` | structural induction, printer/parser round trip, refinement |
| C43–C45 | `FileStr` (`FileStrRead`, `FileStrOps`), `PySource` | reading Python source (lines, tokens, statements), config files, scaffolding | list lemmas, fixed point, growth by induction |
| C47, C48, C60 | `Imports`, `PySource` | import statements and containers | round trip |
| C46, C55, C61 | `Project` (`ProjectWalk`) | file system with byte-wise writes and crashes, `create_project`, the walk that writes config files | all prefixes of the steps, non-interference of paths |
| C49, C50, C62, C63 | `FuncArgs` | signatures at run time and in the source, search for definitions, imports they need | list arithmetic, induction on chains of imports |
| C52 | `Modules` | `sys.modules`, import tracker, loads and reloads | invariant over action lists |
| C54 | `Selector` | selector and item views | induction on paths |
| C80 | `FindFile` | imports/logic/load/ext_importlib.py and the parts of importlib it uses | independent relation of what import does, induction on the parts of the name; composed with C63 |
| C81 | `ItemLoad` | views/object.py, parsers/kwargs.py, execution of imports, logic/get.py | evaluation of expressions in Python as comparison, induction on the chain of imports and on sequences of accesses |
| C82 | `Dir` | `__dir__` methods of manager, registrar, collection, selector, item view, config manager, config section, config | counting in lists, lookups of C26 and C54 as comparison |
| C83 | `Always` | SpecificClassConfigFile.__init__, from_str of imports and assignments, FunctionConfigFile.save, ConfigBase.to_file | reduction to the scaffolding of C43 |
| C84 | `Plugins` | plugin/*, and the places where hooks are called in run, update, update_batch and iterate | order of calls as three lists; reduction to C20, C28 and C31 where plugins are harmless |
| C85 | `SectionDeps` | dependents that are section.py files; attributes of the config manager and of sections that hold configs | refresh of a path in a world of managers, with the files as a function of the world |
| C86 | `DictFile` | reading dict files with any contents, against executing them | syntax trees with displays, names, strings and other nodes; an evaluator with parameters for the rest |
| C87 | `ViewClass` | isinstance on item views; views given to run, update, comparisons and section paths | on top of `View` and `Selector`; equality with the models that compare views purely |
| C88 | `Create`, `CreateEx`, `CreateErr` | pm.create as a whole | on top of `PipeDict`, `Project`, `ConfigTree`, `Runner`, `Setup` |
| C89 | `FilePath` | what file paths mean, names from paths | on top of `PosixPath`, `SectionPath`, `Registry` |
| C90 | `Alias` | config values as shared objects that can be changed in place | on top of `Config`, `Runner`; justifies that the other areas treat objects as values |
| C91 | `AliasIterate` | run_product with objects that can be changed in place: copies of the updates, sharing between cases | on top of `Alias`, `Iterate` |
| C92 | `Isolation`, `IsolationTwin`, `IsolationRun` | two histories side by side: frame of operations on other items, agreement of operations on the item | on top of `Runner`, `ConfigTree` |
| C93 | `Managers` | two histories of a set of managers | every operation is made of operations on the managers it names; on top of `Batch`, `Iterate`, `Runner` |
| C94 | `Failed` | states left behind by operations that raise | on top of `Runner`, `ConfigTree`, `Isolation` |
| C95 | `LastSet` | the value an argument has after any history | on top of `Runner`, `ConfigTree`, `Isolation` |
| C96 | `OneArg` | a machine for what one argument goes through in any history | on top of `Runner`, `ConfigTree`, `Isolation`, `LastSet` |
| C97 | `Again` | doing an operation again, merging and undoing updates | on top of `Runner`, `Failed` |
| C98 | `Parts` | a run or get of sections and lists as those of their functions, in any history | on top of `Run`, `OneArg` |
| C99 | `EditFiles` | config files edited by hand between the operations | on top of `OneArg` |
| C100 | `Inside` | functions that run, get, update, reset and refresh items while they run, and the dependencies recorded for them | `Runner`; on top of `OneArg`, `Parts` |
| C101 | `FromObj` | configs made from objects, the base class for the user's classes | `FuncArgs` |
| C102 | `Session` | sessions: operations and loads in any order, and what a load undoes | on top of `Setup`, `Project`, `Runner` |
| C103 | `AstDict` | dicts in the source as displays and as calls, keywords of calls | `Py_Dict` |
| C104 | `Container` | containers of statements, equality of assignments, collections of renames, positions | `Imports` |
| C105 | `Merge` | summaries of merges | `Py_Dict` |
| C106 | `Whole` | items of the pipeline dict: their views and config files, from the definition to the call | `ItemLoad`, `ExecRun` |
| C107 | `Hooks` | hooks as programs that may raise, in run, update, update_batch, iterate and the change of a config | `Runner`, `Deps` |
| C108 | `Spread` | calls of the config_changed hooks while a change spreads to dependents | `Deps` |
| C109 | `Phase` | item views for managers in any state of loading | `View`, `Setup` |
| C110 | `Undo` | resets and how they spread to dependents | `Deps`, `Spread` |
| C111 | `Lines` | splitting of config files and assignments by lines | `FileStr` |

Crash points (C46) are modelled by cutting the list of file system steps after any number of steps,
a write being a truncation followed by one step per byte. Schedules: the library is single-threaded;
the orders it leaves open (sets, dependency refresh) are parameters or arbitrary permutations.

### Not modelled

* texts of messages (of `selector/logic/exc/typo.py` only the exceptions are modelled).
* the package `mixins`: `SimplePropertyCacheMixin` and `EqOnAttrsMixin` are not part of the repository; the names
  say what they do (cache an attribute, compare attributes), and the comparison is assumed not to raise.
* pluggy beyond its order of calls (C84), the logging module beyond handlers,
  `black` (assumed to change the layout of printed values only: premise `layout_only`/`value_ok`).
* Threads, timing, memory, and the user's code: it is an oracle, a list of actions or a parameter.

## Trusted base

* Coq 8.16.1's kernel (`coqc`, including `vm_compute`).
* No axioms: `Print Assumptions` stands under every property theorem and prints
  "Closed under the global context" for each of them. `coqchk` additionally lists seven constants of
  the standard library's `Coq.ssr.ssrunder`; they are loaded with the standard library and used by no
  theorem.
* The reading of the Python code recorded in the comments of the model files. The code was read, not
  run. The semantics assumed for Python itself: insertion-ordered dicts, `==` with identity short cut in
  containers, attribute lookup (instance before class, `__getattr__` last), `posixpath`, `os.makedirs`,
  `inspect.getfullargspec`, binding of arguments in calls (`call` in `FuncArgs_Spec`), `try/finally`.

### Simplifications that matter for reading the theorems

Each stands in a comment at the definition concerned. The main ones:

* Dunder names, and attributes of attributes, are left out of the tables of reserved names
  (`Collection`, `ConfigTree`, `GetAttr`, `Selector`). The paths `section`, `local_config` and `….config`, which lead to
  attributes that hold configs, are in `SectionDeps`; elsewhere they count as attributes without a config.
* Names of items and sections are used as file names directly; theorems about paths say which names
  this is right for. Paths are POSIX paths.
* Values (`Py_Val`): None, booleans, numbers, strings, lists, item views, callables, arrays and frames (whose `==`
  gives no truth value). Other objects appear as opaque ids with an equality. Objects are values outside `Alias` (C90),
  which says when this is enough: nobody changes a list in place.
* Item views among config values and paths are compared and converted without looking up their class; C87 says when this is
  right.
* The file system has no links and no permissions; every OS error is `OSError`; names contain no slash.
* The reader of Python source covers logical lines, brackets, strings, comments, import statements and
  assignments; other statements are opaque; kinds of brackets are not told apart.
* Dependency refresh (`Deps`): items are named by their full path, section configs have dependents like
  items, and a refresh evaluates an arbitrary function of the values read.
* `run_product` (C29) has side conditions on the keys updated by the cases; the refuted theorems show why.
* Executing config files (`Exec`): the meaning of expressions and imports is a parameter; expressions bind no names,
  annotations are evaluated, objects are not changed in place.
* Signatures: no `__new__`, no metaclasses; sets have an arbitrary order; unlimited recursion stands for
  RecursionError.
* Config files are read anew whenever the library reads them (no bytecode cache): with Python's cache, an edit made within the same second that leaves the size of the file unchanged can go unseen (matters for C99 only).

## Testing the theorems

`seeded/LOG.jsonl` records edits of the model that a realistic bug would cause: the definition, the edit,
the claim it breaks, the theorems that failed, and the theorems tightened because none did.

## Findings

Expectations that the code does not meet, each with a witness checked by Coq:

* C03: empty part
* C04: suffix law
* C05: innermost owner
* C07: update then read
* C08: persisted always survives
* C11: get is pure
* C12: innermost wins; reading a section affects items
* C14: project wide update works
* C15: reset discards updates
* C16: reset with create restores
* C17: every item reachable
* C19: other arguments keep their value
* C20: section update reaches loaded items
* C22: list gives list
* C23: positions
* C26: failed lookup has no effect; looking at a section has no effect
* C27: keyword d skips the post hook; post hook after every change
* C29: dict argument unused; new keys leak; section values interfere
* C30: configs restored; frames iterate
* C31: atomic
* C32: handler follows options
* C33: inner block restores outer
* C34: output after a failed run
* C35: balanced despite reset
* C37: acyclic
* C38: everything up to date after an exception; new names appear; order does not matter with section values
* C39: loop ends
* C41: any key; attribute entries; backslash
* C42: any path; failure leaves file; lambda; name clash
* C45: below a comment; comment deleted; future import; import over lines; relative import; setting comes and goes; setting deleted
* C46: old or new; settings survive
* C47: two names lose one
* C48: hidden name; package not found; shadowed name
* C49: other keywords; required keyword only
* C50: keyword only
* C51: every entry reachable; key in list
* C52: interrupted reload; load in own load; nested load
* C54: all contained reachable; follows reloads; methods are items
* C55: class dict called pipeline; other config folder; repaired after interruption
* C58: attribute is value
* C60: name behind as
* C61: removed items cleaned up; section config kept
* C62: annotations; builtin in default; lambda; module variable; parameters
* C63: circle; class without init; item of module; positional only self; two definitions
* C64: refresh rereads everything
* C65: arguments reach the item; every contained item can be called; set can be read
* C66: run uses own method; view and run agree
* C67: wrong name is harmless
* C68: alias; other object; works in another process; found object has a name
* C69: result returned; log is pure; log cannot fail; run keeps views usable; text is code
* C70: free names accepted; general registrar found; constructed can be loaded; failed constructor unregistered
* C71: failed reload undone
* C72: leftover folder harmless
* C73: assignments are settings; only assignments are settings
* C74: executable loads; loaded scaffolds; scaffolded loads; seen is set; last in text counts; declared has no value; import after
* C75: defaults work; only parameters
* C76: imported settings kept; imported s kept; imports kept; stays loadable
* C77: imports in sections harmless
* C78: items keep their own name
* C79: items stay at their paths; paths keep their meaning; items with a common name; items are found where they were created
* C80: modules that can be imported are found (KeyError for nested packages without `__init__`); what is found can be imported; the signature is that of the function imported
* C81: an item `tool.f` is f; with `import c`, `c.f` is f; dotted imports; submodules; a DataPipeline is run under its own name; the outer name counts
* C82: dir() of a manager raises TypeError before load; class dicts are listed twice; update_batch, create and config are not listed; autocompletion after `pm.section.` offers the runner's attributes; views of functions list attributes of ObjectView; `config.x` is None for every key x
* C83: an empty tuple of always_assign_strs keeps the selector although an empty list removes it; `s = Selector()` given as a string is written after the settings that may use it; comments in strings are lost; to_file of a config that was read from a file overwrites that file instead of writing the new path
* C84: hookspec pyfileconf_pre_run promises that a returned list is run and that the input can be modified in place: the list makes the run fail after everything else was run, and the change in place is ignored; post_run hooks are called once per item with force_continue although documented as called at the end of run; update_batch with a generator loses the caller's updates if any plugin iterates over it; a plugin returning the updates unchanged doubles them; remove_default_plugins makes update_batch a silent no-op and run_product raise IndexError; of two plugins contributing the same key to an update, the one called first loses
* C85: update reaches dependents (KeyError if one of them is a section.py, after the item was changed); the order of dependents does not matter
* C86: the file means what it means to Python (statements after the assignment and calls around the display are ignored; entries with values like `[f] + [g]` vanish silently); any attribute assignment in the file is an AttributeError
* C87: class checks have no effect; run runs the item of the view; force_continue catches everything; views are only looked up when used
* C88: sections made by create can be configured before the next load; every new section gets a section.py; creating an entry again is harmless; a create that raises leaves the dict file alone; a created item can always be run
* C89: files have section paths of their own (a.b.py and a/b.py share one); the stack frame of a dict file has a usable section path (it has empty parts)
* C90: runs without changes in between pass the same arguments (the function gets the config's own list); lists given to update stay as they are; a list changed in place is noticed when given again; refresh brings a persisted list back; reset always lets go of the caller's list
* C91: each case of run_product runs with the values given for it, and its result does not depend on the cases before (cases share one copy of an update and the config's own default objects, which the function may change)
* C92: an update addressed to a path unrelated to an item leaves it alone (the second name `r.x` of the config of a section x around the item); an item run in a list or as part of a section depends on the items before it
* C93: a batch of updates for several managers is independent for each (one that fails at one manager does not get to the next)
* C94: an update whose new values the loaded instance rejects is stored in the config anyway; repeating the update succeeds without giving the values to the instance
* C95: a persistent update that gives the same value as a transient update before it is found not to change anything, is not remembered, and is lost with the next refresh
* C96: the value of a section around an item is stored in the item's config as a persistent update by the next run and by the get that loads it, without reaching an object that is loaded; the next effective update of any other argument then hands it to the object, and a refresh of the item keeps it
* C97: an update that was not persistent cannot be made persistent by repeating it with `pyfileconf_persist=True`: it is no change, so it is dropped and not recorded (basemodels/config.py:136-157, config/models/manager.py:61-66)
* C99: whether an edit of a config file is seen by the next run depends on whether the file happens to have been read before, also by an update of another argument; section files are read on loading, items' files on first use.
* C100: an item that has run another one is refreshed whenever the other one's config changes, and then loses its own updates that are not persistent; a section is not run with the configs at its start; what a failing function has done to the configs stays.
* C101: a config made from an object (`SpecificClassConfig.from_obj`) does not keep attributes that are None where the parameter has another default.
* C102: updates with `pyfileconf_persist=True` (the default) survive refreshes only: `load` and `reload` forget them (the docstring of `reload` says so) and they never reach a file.
* C103: a dict written as a call is read with the keywords of calls in its values as further keys (`dict(a=f(b=1))` gives a and b).
* C104: assignments that differ only in the annotation count as equal, those that differ in the value do not: a name can stand in a container twice.
* C105: `display_merge_summary` with both a method and a function without `__name__` (a partial) fails after computing everything, although only the method is used.
* C106: a default of a new config file that refers to an object of the module gets the value of an earlier parameter if that has the same name.
* C107: a user's pyfileconf_post_config_changed hook that raises leaves all dependents of the changed config stale for good (the user's hooks are called before the default one that refreshes, and the same update again changes nothing); force_continue and auto_pdb do not cover pre_run hooks; an exception in a post_run hook throws the result of a successful run away; update changes the caller's dictionary even if it fails.
* C108: hooks are not told of changes that a load makes (values of sections), nor after changes of items that are not loaded, contrary to their documentation; hooks of installed packages are told of the changes of dependents before the change that caused them.
* C38, C65: config files that refer to each other in a circle make a RecursionError that `ItemView.__getattr__` takes for a typo: the user is told to check the spelling of a name that is right.
* C109: item views of managers that are not loaded report a wrong name instead; the message for managers that have not been created is never given; after a reload that failed, trying a newly added item through a view makes all items of the manager unreachable through views.
* C110: a reset of a config whose updates left the values of its file forgets nothing: the updates go on hiding what the file gives later; after a reset the object lacks the values of its sections.
* C111: the import section of a file that has only blank lines keeps one of them; the function that splits lines into name and value takes comparisons and keyword arguments for assignments, and annotations for parts of names.
