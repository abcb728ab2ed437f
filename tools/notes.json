{
 "C41": {
  "note": "Black is assumed to change only the layout; the reader covers the part of Python's syntax that dict files are made of."
 },
 "C42": {
  "note": "Imports of the dict file enter as the function that says what a name stands for; black is assumed to change only the layout."
 },
 "C43": {
  "note": "The text is read by the line reader of PySource_Model (statements over tokens), not by an abstract parser. Layout by black is assumed to change layout only for values that are printed and is a premise on the values (value_ok). The cleanup_kwargs of data pipelines are part of C83. Declarations without a value (x: int) are settings (C43_declared_setting)."
 },
 "C44": {
  "note": "'survive' excludes relative imports and others that printing changes (C47); see C45 for what happens to them."
 },
 "C45": {
  "note": "The growth theorem is general; each refuted theorem gives the file that is damaged."
 },
 "C52": {
  "note": "What happens in a load is an arbitrary list of actions (imports, removals, exceptions, nested loads, try statements). Module objects are numbered by execution."
 },
 "C54": {
  "note": "Dunder attributes are left out; what an attribute that is not contained gives (the attribute of the real item) is left open."
 },
 "C46": {
  "note": "Writes are modelled byte by byte, so that the crash states include all that buffering can produce. Non-interference of files needs trees in which names of files and folders of a section differ (tidy). The refuted theorems use the model of config files (C43)."
 },
 "C55": {
  "note": "File system without links and permissions; all OS errors are OSError. Missing parents etc. follow os.makedirs."
 },
 "C61": {
  "note": "The content written for an item is a parameter (cfg), to be taken from C43; the walk over collections, folders and section files is modelled."
 },
 "C49": {
  "note": "Python's binding of arguments is modelled by call in FuncArgs_Spec. Classes without __new__ and metaclass."
 },
 "C50": {
  "note": "Run-time signatures and those read from the source; C50_keyword_only_refuted and the placeholder theorems give the cases where the expectation fails."
 },
 "C62": {
  "note": "The order of sets is a parameter (set_order). The refuted theorems list signatures that cannot be scaffolded."
 },
 "C63": {
  "note": "Files of modules are given by a function; import_section_path_str is None, as for all items of the collections; a lack of fuel stands for RecursionError."
 },
 "C64": {
  "note": "Exact outcomes for each clashing name. Mapping values of E, d_ and d, which would be merged as further entries, are outside the value model."
 },
 "C65": {
  "note": "The attributes of the user's own objects (missing, method, class, value) are a parameter; what a called function does is outside. The dependency record made by views is in C35 to C37."
 },
 "C66": {
  "note": "Classes are compared as callables of the model; the subclass relation is a parameter."
 },
 "C67": {
  "note": "The wrong name must not be the beginning of a name below the section, nor of one of the collections' own attributes; completing such a beginning by the next access can reach an item."
 },
 "C68": {
  "note": "Modules are lists of names with object identities; importing a module anew is not modelled, another process is another list of modules."
 },
 "C69": {
  "note": "Stated for functions; classes use the same texts. The text of a value is a parameter. Whatever an object has under the name _is_selector counts as true."
 },
 "C70": {
  "note": "How dict files are parsed, what their entries stand for and what is written for an item are parameters here; C41, C51, C43 and C63 are about these. Loading and wiping of modules (C52) is separate."
 },
 "C71": {
  "note": "The list of imported modules kept by the manager is not part of this model (C52)."
 },
 "C72": {
  "note": "Stated for functions of the pipeline dict. The folder seen by the config manager is described from the file system; C72_folders_described shows that this is possible for every folder with finitely many names and levels."
 },
 "C73": {
  "note": "Expressions are known by their tokens; their values, imports, functions and classes are parameters (record python). Expressions bind no names, and objects are values: changing an object in place is not seen."
 },
 "C74": {
  "note": "C74_text connects programs with the text of plain files, read by PySource_Model; compound statements are given as trees."
 },
 "C75": {
  "note": "For items with item_ok (values with the source of an expression). The program is read from the written text, not assumed."
 },
 "C76": {
  "note": "For files of imports and assignments to names. Both files are supposed to load; C76_stays_loadable_refuted shows that the second may not."
 },
 "C77": {
  "note": "C72 with the execution of C73 and the text of C75; what files other than plain ones give is a parameter."
 },
 "C78": {
  "note": "C71, C72 and C75 for class dicts. C78_own_name_refuted: a section file that assigns key_attr renames all items below it."
 },
 "C79": {
  "note": "The attribute key_attr is there and is a string. Also says when the models with fixed names (C40 to C42, C51, C78) apply to class dicts. An item that was renamed is lost at its path when another one is created next to it."
 },
 "C80": {
  "note": "With Python's own finders; entries of sys.path are directories; executing a module changes neither sys.modules nor paths. C80_wrong_definition_refuted: from pkg.module.tool import run reads the signature of run in a top-level module tool."
 },
 "C81": {
  "note": "C81_config_of_the_object supposes that the modules do what their files say (as_written). The mixin for cached properties is outside of the repository."
 },
 "C82": {
  "note": "Names with double underscores and those of the mixins package are left out; the order of the listed names is not modelled."
 },
 "C83": {
  "note": "What astor prints for values and annotations of strings is a parameter. Strings are read with the parser of C43. Declarations without value in strings are printed like assignments."
 },
 "C84": {
  "note": "Hooks are functions of what they are given (and, for generators, say whether they iterate over it); hooks that raise are in C107, wrappers and historic calls are left out. pluggy's order of calls is modelled from its documentation."
 },
 "C85": {
  "note": "What executing config files yields is a parameter that may depend on the state of all managers; recorded dependencies are given; executing a file again records nothing new."
 },
 "C86": {
  "note": "From the syntax tree on (reading texts is in C40-C42 and C51). A constant key that is no string raises TypeError when it is read, instead of when the path is joined. The evaluation of expressions that are no displays and the effect of other statements are parameters."
 },
 "C87": {
  "note": "isinstance as in CPython: the real type first, then __class__, for which an AttributeError counts as no class. The class of attributes of items and the answer of pandas' equals are parameters. A view that claims to be a string or a SectionPath is not followed further."
 },
 "C88": {
  "note": "Reading and writing of dict files, the meaning of names, instantiation of class dict entries and the text of config files are parameters, the writing being assumed to say what it should where this matters (see C42 and C68 for the real writers). Paths with names that registrars or collections define themselves are left out of the in-step theorems."
 },
 "C89": {
  "note": "posixpath is modelled, not assumed; symbolic links and other systems than POSIX are left out, the working directory is a parameter."
 },
 "C90": {
  "note": "Of the objects only lists can change in place, their elements are values; one function item outside sections with configs."
 },
 "C91": {
  "note": "Updates of one item that is itself run; deep copies of item views (which copy the loaded item) are left out."
 },
 "C92": {
  "note": "No pre-run items contributed by hooks (u_pre_run empty); hooks observe only, so dependents refreshed by the default hooks are outside (C37-C39, C85)."
 },
 "C93": {
  "note": "The code of items returns values and may look at all managers, but changes none itself; hooks observe only, so dependents in other managers refreshed by the default hooks are outside (C37-C39, C85)."
 },
 "C94": {
  "note": "What the user's __init__ did to the instance before it raised is not tracked; user code returns values and changes no configs; hooks observe only."
 },
 "C95": {
  "note": "Values are ordinary ones (numbers, strings, lists of them); user code returns values and changes no configs; no pre-run hooks; the updates and resets of the item go through (for those that raise see C94)."
 },
 "C96": {
  "note": "Values are ordinary ones (numbers, strings, lists of them); user code returns values and changes no configs and accepts its arguments; no pre-run hooks; the updates, resets and refreshes of the item and around it go through (for those that raise see C94). Runs and gets of whole sections around the item and of lists follow in C98; resets with allow_create are not among the operations."
 },
 "C97": {
  "note": "The laws for two updates and for undoing ask for values that can be compared (plain ones) and names the config knows. The refresh law is for items whose files and updates do not set E."
 },
 "C98": {
  "note": "Sections contain functions with names that can be reached by their paths (as in C24); no pre-run hooks, and for the results no post-run hooks."
 },
 "C99": {
  "note": "As in C96. The edited files can be read before and after; in the item's file and the section files around it the argument is given after the edit if and only if it was given before, with an ordinary value. Python's bytecode cache, which can hide an edit made within the same second that leaves the size of the file unchanged, is not modelled."
 },
 "C100": {
  "note": "One manager; constructors and config files do not use the manager, item views are left out; no paths are added by plugins before runs. Sections that are run contain functions and sections with proper names (C100_projects_of_functions gives a sufficient condition); gets of sections are one plain operation."
 },
 "C101": {
  "note": "Reading an attribute twice gives the same; nothing in the library calls from_obj. Python's binding of arguments is modelled by call in FuncArgs_Spec."
 },
 "C102": {
  "note": "Conditions: the names of files do not get into each other's way, the folder for configs is not called pipeline_dict.py, and writing a config file again gives a text that is read alike; C102_files_of_the_library shows this for the files that scaffolding (C43, C44) writes, in which no import stands among the settings. What user functions do to files and the wiping of imported modules (C52) are left out."
 },
 "C103": {
  "note": "Trees are displays, calls and other nodes; constants other than strings have no attribute s; a keyword without name (**d) has the key **, which stands for None."
 },
 "C104": {
  "note": "The equality of items does not raise; str.strip and str.lower for characters below 128."
 },
 "C105": {
  "note": "Data frames are opaque; reading and calling a method are one step; the text of arguments is a parameter; display_df_dict is of another package."
 },
 "C106": {
  "note": "Composition of the models of views, signatures, config files, execution and projects."
 },
 "C107": {
  "note": "The steps between the hooks are parameters; with hooks that do nothing the models of runs (C20, C84) and of dependents (C38) result, which is proved. Hooks called for the refreshes of the dependents themselves (C108) and changes of arguments in place are left out. pluggy's order and its behaviour on exceptions are modelled from its documentation."
 },
 "C108": {
  "note": "The model is that of C38 with the calls of the hooks added; that leaving them out gives it back is proved. Hooks look, write down and raise, but do not change configs."
 },
 "C109": {
  "note": "Dependency records (C36) are left out."
 },
 "C110": {
  "note": "On top of the models of C38 and C108. The theorems about undoing and the order need user types that keep the values of their config and are updated by calling __init__ again, an equality of values that is exact, no values of sections, and files whose names do not depend on other items."
 },
 "C111": {
  "note": "The function that splits assignments is not called by the library. Characters below 128."
 }
}