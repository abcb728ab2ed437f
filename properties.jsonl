{"id": "C01", "title": "Section paths and part lists convert without loss", "statement": "Splitting a section path string into its parts and joining the parts with '.' gives back exactly the same string, for every string. Conversely building a section path from any non-empty list of dot-free parts yields a path with exactly those parts, so two different part lists never collide. (An empty part list is the one exception: it becomes the path '' whose parts are [''].)", "quantifier": "every string; every list of strings", "why_tests_cant": "Unit tests use a handful of well-formed paths; losslessness has to hold for empty parts, leading/trailing/double dots and any length.", "anchors": ["pyfileconf/sectionpath/sectionpath.py: SectionPath.__init__, from_section_str_list, _section_path_str_to_section_strs, _section_strs_to_section_path_str"]}
{"id": "C02", "title": "Joining section paths concatenates parts", "statement": "SectionPath.join(a, b) is the path whose text is a + '.' + b and whose parts are the parts of a followed by the parts of b; joining is associative; two section paths are equal exactly when their parts are equal, and equal paths hash alike.", "quantifier": "all pairs/triples of section paths (any strings)", "why_tests_cant": "Algebraic law over an unbounded string domain.", "anchors": ["pyfileconf/sectionpath/sectionpath.py: SectionPath.join, __eq__, __hash__, __add__"]}
{"id": "C03", "title": "Config file location and section path are inverse", "statement": "For any base folder (absolute or relative, normalised or not) and any working directory, the section path computed from the config file 'section_path.to_filepath(base)' + '.py' is the original section path, provided no part is empty or contains '/'. Hence two different such section paths never share a config file.", "quantifier": "all base folders, working directories and section paths", "why_tests_cant": "os.path.relpath/normpath/join interact on '..', '.', '//' and relative bases; tests only use one fixed base folder.", "anchors": ["pyfileconf/sectionpath/sectionpath.py: SectionPath.to_filepath, from_filepath, _relpath_to_section_path, _strip_py"]}
{"id": "C04", "title": "Suffix test on section paths", "statement": "a.endswith(b) holds when the last parts of a are the parts of b, and, whenever a has at least as many parts as b, only then. The code violates the 'only then' when a is shorter: it answers True if a is a prefix of b (e.g. module path 'six' is reported to end with 'six.moves', so module 'six' is skipped when the defining module of an object is searched).", "quantifier": "all pairs of section paths", "why_tests_cant": "Existing tests never compare a shorter path with a longer one; the law must hold for all lengths.", "anchors": ["pyfileconf/sectionpath/sectionpath.py: SectionPath.endswith", "pyfileconf/imports/logic/load/name.py: _should_skip_module, get_module_and_name_imported_from"]}
{"id": "C05", "title": "A file is attributed to a manager only if it lies in that manager's folder", "statement": "Looking up the manager responsible for a config file returns the first registered manager whose folder is a proper ancestor of the file at path-component boundaries (folder '/a/b' never claims '/a/bc/x.py'), and raises when there is none. A manager whose folder is the file system root never claims anything.", "quantifier": "all sets of registered managers, folders, working directories and file paths", "why_tests_cant": "Prefix tests on strings are the classic source of boundary mistakes that a few example paths do not exercise.", "anchors": ["pyfileconf/main.py: PipelineManager.get_manager_by_filepath", "pyfileconf/pmcontext/stack.py: PyfileconfStackFrame.from_file_path"]}
{"id": "C06", "title": "Manager name registry always reflects the latest live manager", "statement": "After any sequence of creating and finalising pipeline managers, looking a name up yields exactly the most recently created manager of that name, unless that very manager has been finalised, in which case the name is unknown; finalising an older manager of the same name never unregisters the newer one. A path whose first part is the name of no live manager raises NoPipelineManagerForSectionPathException, also the empty path.", "quantifier": "every history of manager creations and finalisations, in any order", "why_tests_cant": "Depends on interleavings of object construction and garbage collection which tests cannot enumerate.", "anchors": ["pyfileconf/main.py: PipelineManager.__init__, __del__, get_manager_by_section_path_str", "pyfileconf/pmcontext/main.py: PyfileconfContext", "pyfileconf/main.py:478-495"]}
{"id": "C07", "title": "Effect of one update on a stored config", "statement": "Updating an item's config stores exactly the given values (keyword values winning over the dict) and leaves every other key alone when at least one already present key changes value; otherwise it changes nothing at all. So a request that only names keys the config does not have yet is silently dropped, while the same keys are stored when combined with a real change.", "quantifier": "all configs and all update dictionaries", "why_tests_cant": "The all-or-nothing gate depends on the combination of present/absent/equal keys.", "anchors": ["pyfileconf/config/models/manager.py: ConfigManager.update, _determine_and_track_if_config_would_be_updated", "pyfileconf/basemodels/config.py: ConfigBase.update, would_update"]}
{"id": "C08", "title": "Refresh keeps persisted updates and re-reads everything else", "statement": "After any history of persistent and transient updates and of edits to the config file, refreshing an item gives, for every key: the latest persisted update of that key that was reported as a change if there is one, else the value now in the file if the file defines it, else the value it had before. The manager's refresh does this exactly when some stored key would change and nothing otherwise, so a key newly added to the file is not picked up on its own; and an update equal to the current value is not recorded, so it does not survive a later edit of the file.", "quantifier": "every sequence of updates (persistent or not), file edits and refreshes", "why_tests_cant": "It is a statement about histories of unbounded length.", "anchors": ["pyfileconf/basemodels/config.py: ConfigBase.update, refresh, change_from_refresh, _applied_updates"]}
{"id": "C09", "title": "Change detection is exact on present keys", "statement": "An update or refresh counts as a change (pre_config_changed hook fires, new values are stored) exactly when some key already present compares unequal to its new value, where values whose comparison raises count as different and pandas objects are compared with .equals. Consequently 1 -> True is not a change, and a value whose comparison has no truth value (a multi-element array) makes the call raise instead of updating.", "quantifier": "all configs, updates and value kinds", "why_tests_cant": "Quantifies over all value pairs including ones whose == raises or is not a bool.", "anchors": ["pyfileconf/basemodels/config.py: would_update, _values_are_equal", "pyfileconf/config/models/manager.py: _determine_and_track_if_config_would_be_updated", "pyfileconf/plugin/hookspecs.py: pyfileconf_pre_config_changed"]}
{"id": "C10", "title": "Config precedence for an item", "statement": "Getting the config of a function or class yields for every key the value from, in order of priority: the local config, the innermost enclosing section that sets it, ... the outermost enclosing section, the project config, and only then the item's own config; keys set nowhere are absent. This holds for any nesting depth. An item whose own config is empty gets no inherited keys.", "quantifier": "all section trees of any depth, all configs", "why_tests_cant": "Nesting depth and the combination of which levels set a key are unbounded.", "anchors": ["pyfileconf/config/models/manager.py: ConfigManager.get"]}
{"id": "C11", "title": "Reading a config twice gives the same answer and touches nothing else", "statement": "Getting a function/class config twice in a row returns the same values, and getting one item's config leaves the values seen by every other item unchanged.", "quantifier": "all section trees and all paths", "why_tests_cant": "get() mutates stored state internally, so read-onlyness is not evident from any finite set of calls.", "anchors": ["pyfileconf/config/models/manager.py: ConfigManager.get"]}
{"id": "C12", "title": "Reading a section's own config", "statement": "Getting the config of a section path does not honour the innermost-wins rule: values of the enclosing sections overwrite the section's own values permanently, so merely reading config.get('a.b') changes what items below a.b see afterwards. (Documented expectation, innermost section wins and reading is free of side effects, is violated.)", "quantifier": "all section trees with a key set at two levels", "why_tests_cant": "The violation needs a specific combination of levels and a specific order of reads.", "anchors": ["pyfileconf/config/models/manager.py: ConfigManager.get"]}
{"id": "C13", "title": "Updates are local to the addressed item", "statement": "Updating or refreshing the item at one path leaves the stored config of every path that addresses a different config object exactly as it was, including its record of persisted updates, whether the call succeeds or raises; a reset affects only its path and, for a section, what lies below it.", "quantifier": "all trees, all pairs of different paths", "why_tests_cant": "Frame property over arbitrary trees and aliasing.", "anchors": ["pyfileconf/config/models/manager.py: update, refresh, reset, set"]}
{"id": "C14", "title": "Project-wide (local) updates never take effect", "statement": "Calling update without a section path is meant to set local overrides with the highest priority. In every history starting from a freshly loaded manager and consisting of update/refresh/reset/get calls, the local config stays empty, so such calls never have any effect.", "quantifier": "every history of public config operations", "why_tests_cant": "Needs an induction over all histories: the defect is that no sequence of calls can ever make the feature work.", "anchors": ["pyfileconf/config/models/manager.py: update, local_config", "pyfileconf/basemodels/config.py: would_update"]}
{"id": "C15", "title": "Effect of reset", "statement": "Resetting a loaded item re-reads its file. If some value the file gives for an existing key differs from the stored one the stored config becomes exactly the file's content with no persisted updates; otherwise nothing changes, in particular keys that are not in the file and the record of persisted updates survive the reset. In either case every key of the file that was already present ends up with a value equal to the file's. A section with a config of its own is read from disk and then refused with TypeError.", "quantifier": "all configs, update histories and file contents", "why_tests_cant": "Depends on the relation between arbitrary history and arbitrary file content.", "anchors": ["pyfileconf/config/models/manager.py: reset, set, _get_default_func_or_section_config", "pyfileconf/runner/models/runner.py: Runner.reset"]}
{"id": "C16", "title": "reset(allow_create=True) on an existing item", "statement": "Resetting with permission to create should restore an existing item's stored config to its file. For every item that already exists in the tree it does not change what later get() calls return at all.", "quantifier": "all trees and existing items", "why_tests_cant": "Universal negative: no tree/path makes the call effective.", "anchors": ["pyfileconf/config/models/manager.py: reset, set, _set_func_or_config_with_create, _get_func_or_section_configs", "pyfileconf/config/models/section.py: ConfigSection.__getattr__, append"]}
{"id": "C17", "title": "An item named like its section is shadowed", "statement": "An item or subsection is reachable by its path unless its name equals the name of the section containing it and that section has a section.py config: then the section's own config is returned in its place (so section a with function a gives the function the section's config).", "quantifier": "all section trees and names", "why_tests_cant": "Name coincidences over arbitrary trees.", "anchors": ["pyfileconf/config/models/section.py: ConfigSection.__getattr__", "pyfileconf/config/models/manager.py: _get_func_or_section_configs"]}
{"id": "C18", "title": "An item is loaded once", "statement": "Repeatedly getting or running the same item, interleaved with any updates, refreshes and resets, always uses the very same loaded object until the manager is reloaded; the object is built from the config in force at the first access. What is neither a collection nor a function, class or instance can not be got: ValueError, and nothing changes.", "quantifier": "every history of get/run/update/refresh/reset calls", "why_tests_cant": "Statement over unbounded histories and object identity.", "anchors": ["pyfileconf/runner/models/runner.py: _get_one_func_with_config, _get_one_obj_with_config, _loaded_objects"]}
{"id": "C19", "title": "Config changes reach a loaded function", "statement": "After a successful change of an item's config (update), the already loaded function carries the new values for all of its bound arguments that the update touched; the others take the stored config's value, so they are unchanged exactly when the function agreed with its config before (which holds after the first access and is preserved by updates). Arguments it was not bound with before are not added. A loaded instance gets its constructor called again with the whole new config.", "quantifier": "all configs, updates and function signatures", "why_tests_cant": "Quantifies over all signatures/updates.", "anchors": ["pyfileconf/runner/models/runner.py: Runner.update", "pyfileconf/config/logic/apply.py: apply_config, _apply_config_to_partial"]}
{"id": "C20", "title": "Section updates do not reach loaded items", "statement": "After an enclosing section's config is updated, an item that was loaded before still runs with the old values although the config reported for it shows the new ones, whereas an item not yet loaded runs with the new ones.", "quantifier": "all trees, sections and keys set by a section", "why_tests_cant": "Outcome depends on the order of first access and update; a test fixes one order.", "anchors": ["pyfileconf/runner/models/runner.py: update, _run_one_func, _get_one_func_with_config"]}
{"id": "C21", "title": "Running a list runs every entry once, in order", "statement": "Running a list of n section paths (n different from 1) returns a list of n results in which the i-th is the result of running the i-th path, each executed exactly once, in list order; if one raises, the later ones are not run.", "quantifier": "all lists of section paths, all user functions", "why_tests_cant": "Lists of any length with failures at any position.", "anchors": ["pyfileconf/runner/models/runner.py: Runner.run, _run", "pyfileconf/main.py: PipelineManager.run"]}
{"id": "C22", "title": "Result shape for one-element lists", "statement": "The documentation says a list argument gives a list result. This holds exactly for lists whose length is not 1: a one-element list is unwrapped and a bare result is returned (when no plugin adds items).", "quantifier": "all run arguments", "why_tests_cant": "Shape law over all argument lists and plugin contributions.", "anchors": ["pyfileconf/main.py: PipelineManager.run", "pyfileconf/logic/combine.py: combine_items_into_list_whether_they_are_lists_or_not_then_extract_from_list_if_only_one_item"]}
{"id": "C23", "title": "force_continue", "statement": "With force_continue every path in the list is run exactly once regardless of failures, the returned list consists of the results of the successful ones in order, and the failures are collected in order; so the result list has the length of the argument list exactly when nothing failed, and otherwise positions no longer correspond. A single failing path returns an empty list.", "quantifier": "all lists and failure patterns", "why_tests_cant": "All 2^n failure patterns for every n.", "anchors": ["pyfileconf/main.py: _run_with_force_continue, _try_except_run_func_except_user_interrupts"]}
{"id": "C24", "title": "Running a section", "statement": "Running a section of functions runs every function in it (recursively through subsections) exactly once in definition order and returns the results in the same nested shape. If the section contains, at any level, a class entry, running it raises instead, after having run the functions before that entry. If the first entry of a section that is no function is a class or an instance (directly in the section), the section is looked up in its place: ConfigManagerNotLoadedException if it has no config of its own, otherwise TypeError.", "quantifier": "all section trees", "why_tests_cant": "Arbitrary nesting and position of the offending entry.", "anchors": ["pyfileconf/runner/models/runner.py: _run_section"]}
{"id": "C25", "title": "Getting a section", "statement": "Getting a section returns a list of its loaded functions in order if it has no subsections, a dict keyed by subsection name if it has only subsections, and raises when both kinds are mixed. Getting a section caches a bound constructor for class entries, after which getting that class by its own path no longer returns an instance.", "quantifier": "all section trees and access orders", "why_tests_cant": "Depends on order of accesses and shape of the tree.", "anchors": ["pyfileconf/runner/models/runner.py: _get_section, _get_one_func_with_config, _get_one_obj_with_config"]}
{"id": "C26", "title": "Attribute access after a failed lookup", "statement": "Accessing pm.a.b.item by attributes from a clean state resolves exactly the item at path a.b.item. After any failed attribute lookup, or after stopping at a section, every following lookup is resolved relative to the leftover prefix; after a failed lookup of a name that is no prefix of a real path, no later attribute access ever succeeds again. Every later access raises the same AttributeError. The objects' own attributes and methods, and nothing else, shadow items of the same name; reading them changes nothing.", "quantifier": "every sequence of attribute accesses", "why_tests_cant": "Hidden state accumulates over an unbounded history of accesses.", "anchors": ["pyfileconf/runner/models/runner.py: Runner.__getattr__, _full_getattr", "pyfileconf/main.py: PipelineManager.__getattr__", "pyfileconf/main.py:54-93"]}
{"id": "C27", "title": "Change hooks", "statement": "The post_config_changed hook fires after an update, reset or refresh exactly when the stored config changed and the item has been loaded by get/run before; the pre_config_changed hook fires exactly when it changes, loaded or not. So the documented 'called just after a config changes' is violated for items not loaded yet.", "quantifier": "every history of operations", "why_tests_cant": "Event pairing over histories.", "anchors": ["pyfileconf/runner/models/runner.py: update, refresh, reset", "pyfileconf/plugin/hookspecs.py", "pyfileconf/config/models/manager.py: _determine_and_track_if_config_would_be_updated"]}
{"id": "C28", "title": "run_product enumerates the full product", "statement": "The cases of an iterative run are exactly all ways to choose one of the given configs per section path, each once (as index combinations), section paths in order of first appearance, in lexicographic order with the last path varying fastest; the number of cases is the product of the numbers of configs per path, and with no configs there is exactly one empty case.", "quantifier": "all lists of config updates", "why_tests_cant": "Combinatorial completeness for all sizes.", "anchors": ["pyfileconf/iterate.py: get_config_product, IterativeRunner.get_cases"]}
{"id": "C29", "title": "Cases do not leak into each other", "statement": "When case i of an iterative run executes, every config mentioned in the cases holds, for each key it had at the start, case i's value or else the default captured at the start, and functions called get these values, no matter which cases ran before. This needs: the configs are different and none belongs to a section above another one; sections above do not set the keys given in the cases and do not contradict each other; values compare normally; objects loaded before agree with their configs. Otherwise cases can leak: keys the config does not have and keys set by sections above keep values of earlier cases. An empty base path counts as none for the items that are updated, while the items that are run are then looked for in a manager with the empty name.", "quantifier": "all case lists, all positions", "why_tests_cant": "Isolation over an unbounded sequence of cases.", "anchors": ["pyfileconf/iterate.py: _run_case, _fill_case_with_defaults, get_defaults", "pyfileconf/plugin/default_hooks.py: pyfileconf_iter_update_for_case", "pyfileconf/iterate.py:98-101", "pyfileconf/sectionpath/sectionpath.py:41-64"]}
{"id": "C30", "title": "Progress and final state of an iterative run", "statement": "Consuming k results of the generator has executed exactly the first k cases and no more; run() returns one (case, result) pair per case in case order; afterwards configs stay at the values of the last case (they are not restored). Before a case runs, exactly those of its configs are updated, in their order, that were not in the case before with the same path, keys, values and dict argument.", "quantifier": "all case lists and all k", "why_tests_cant": "Laziness and final state for every prefix length.", "anchors": ["pyfileconf/iterate.py: run, run_gen, _run, _run_case"]}
{"id": "C31", "title": "Batch updates equal the sequence of single updates", "statement": "A batch update over one or several managers has exactly the effect of performing its single updates one after another in the given order; if the k-th one fails, exactly the first k-1 have taken effect and the failure is raised (no atomicity). The same holds for a batch of resets, none of which creates anything. Whether an update in a batch is persisted is decided by the truth value given; d_ = None counts as none; another d_ that is no dict, and self, are refused without effect.", "quantifier": "all batches, managers and failure positions", "why_tests_cant": "All batch lengths and failure points.", "anchors": ["pyfileconf/batch.py: BatchUpdater.update, reset", "pyfileconf/main.py: PipelineManager.update_batch", "pyfileconf/batch.py:60-71"]}
{"id": "C32", "title": "File log handler matches the log_folder option", "statement": "Starting from defaults, as long as the log folder is never switched directly from one folder to another, exactly one file handler is attached when log_folder is set and none otherwise. A direct switch from one folder to another leaves the old handler attached, and from then on resetting the options raises and leaves the later options unreset. A handler keeps the rotation settings of the time its folder was set, and if opening the log file fails the option stays set without a handler. A folder that can not be compared with the one before is stored, then ValueError comes and the handlers stay.", "quantifier": "every history of option changes and resets", "why_tests_cant": "State machine over unbounded histories.", "anchors": ["pyfileconf/opts/__init__.py", "pyfileconf/opts/filelog.py", "pyfileconf/logger/logger.py: add_file_handler, remove_file_handler"]}
{"id": "C33", "title": "Leaving an options context", "statement": "Leaving 'with pyfileconf.options...' sets every option to its built-in default. It does not restore the values in force before entering: this coincides with restoring exactly when all options were at their default on entry, so inner contexts discard the settings of outer ones.", "quantifier": "all option states and nestings", "why_tests_cant": "All nestings of contexts.", "anchors": ["pyfileconf/opts/__init__.py: __enter__, __exit__, reset"]}
{"id": "C34", "title": "sys.stdout after running with stdout logging", "statement": "With stdout logging enabled, after a run that completes normally sys.stdout is the stream it was before, at any nesting of runs. If the user function raises, sys.stdout stays replaced, and every further failing run adds one more layer. While sys.stdout is not replaced everything goes to the stream in order; an item that puts a stream in place during a logged run takes the rest of its output away from the log, and after a normal end the stream from before the run is back.", "quantifier": "every nesting and every pattern of failures", "why_tests_cant": "All nestings and exception points.", "anchors": ["pyfileconf/logger/bind_stdout.py: stdout_also_logged", "pyfileconf/main.py: PipelineManager.run"]}
{"id": "C35", "title": "The execution stack is balanced", "statement": "Whatever nested sequence of running items, loading files and running iteratively takes place, including exceptions at any point, the context's stack afterwards is exactly what it was before, unless the context is reset meanwhile. A reset inside a run makes that run raise IndexError at its end.", "quantifier": "all call trees with exceptions at arbitrary points", "why_tests_cant": "Every exception point of every call tree.", "anchors": ["pyfileconf/pmcontext/tracing.py: StackTracker", "pyfileconf/pmcontext/stack.py: PyfileconfStack", "pyfileconf/pmcontext/main.py: add_frame_to_stack, stack"]}
{"id": "C36", "title": "Attribution to the innermost running item / loading file", "statement": "At any time the item reported as currently running is the one whose run was started last and has not ended; likewise for the config file being loaded. Dependencies are recorded for exactly that item or file.", "quantifier": "all nested histories", "why_tests_cant": "All nestings.", "anchors": ["pyfileconf/pmcontext/main.py: currently_running_section_path_str, currently_loading_file_section_path"]}
{"id": "C37", "title": "Dependency records are well-formed", "statement": "In every history no item is ever recorded as depending on itself, every forced dependency is also an ordinary dependency, and recorded dependencies are only ever added (until the context is reset).", "quantifier": "every history", "why_tests_cant": "Invariant over histories.", "anchors": ["pyfileconf/pmcontext/main.py: add_config_dependency, add_config_dependency_for_currently_running_item_if_exists"]}
{"id": "C38", "title": "Changes propagate to all dependents whatever the order", "statement": "When configs refer to attributes of other items without cycles, then after an update that succeeds every loaded item has the values its file yields for the present values of other items, overridden by its own persisted updates, for every order in which dependents are visited; the resulting values do not depend on that order if no section config gives values for the items. Known limits, also stated: names that the file assigns only for the new value are not added, section values make the result depend on the order, an exception leaves later dependents out of date, items that refer to each other in a circle cannot be loaded, which is reported as a wrong name (ItemNotFoundException); however deep references go, RecursionError never comes out of a load of an item.", "quantifier": "all acyclic dependency graphs, all visiting orders of the dependent sets", "why_tests_cant": "Python set order varies between runs; diamonds of arbitrary depth.", "anchors": ["pyfileconf/config/models/manager.py: refresh_dependent_configs", "pyfileconf/plugin/default_hooks.py: pyfileconf_post_config_changed", "pyfileconf/runner/models/runner.py: refresh", "pyfileconf/selector/models/itemview.py:42-59", "pyfileconf/selector/logic/exc/typo.py:24-26"]}
{"id": "C39", "title": "Dependency refresh always terminates without the resolve error", "statement": "Refreshing dependents never raises the 'cannot resolve config dependencies' error, refreshes each dependent at most once per call even if dependents are added while it runs, and ends if only finitely many items can become dependents.", "quantifier": "all dependency states, including ones changing during the loop", "why_tests_cant": "Loop termination for all evolutions of the dependency sets.", "anchors": ["pyfileconf/config/models/manager.py: refresh_dependent_configs"]}
{"id": "C40", "title": "Adding an entry to a pipeline dict", "statement": "Adding an item under a section path puts it at the end of the list at exactly that path, creating missing levels; what stands at any path not leading there is unchanged and dicts on the way keep the order of their keys, a new key being last. It fails exactly if the path passes through something that is not a dict (TypeError) or leads to something that is not a list (ValueError), and then nothing has changed.", "quantifier": "all nested dicts and section paths", "why_tests_cant": "All shapes of nested dictionaries.", "anchors": ["pyfileconf/dictfiles/modify.py: add_item_into_nested_dict_at_section_path"]}
{"id": "C41", "title": "Written pipeline dict parses back to the same dict", "statement": "The text written for a pipeline dict reads back as the same nested dict with the same entries in the same order, for all nested dicts of names whose keys contain no double quote, backslash or line break; a key with a double quote breaks the file, one with a backslash may change. Class dicts, which are written with repr, read back for all strings. A pipeline dict can be written only if its lists consist of plain names: with an entry like module.func no further entry can be created. A key with a line break in it, written as an escape in the file, makes the written file unreadable.", "quantifier": "all nested pipeline dicts", "why_tests_cant": "Round trip for unbounded nesting.", "anchors": ["pyfileconf/dictfiles/modify.py: create_dict_assignment_str_from_nested_dict_with_ast_names"]}
{"id": "C42", "title": "Creating an entry equals reloading", "statement": "After pm.create the section tree in memory is the one reloading the written dict file gives, for general items and specific classes and after any sequence of calls, and a failing call changes neither, provided that the path avoids names defined by the tree objects and the file does not use the name of the object for something else. Counterexamples: a section called collection, a section named like an attribute, two objects with the same name, a lambda. The dict file is written whenever the new text can be made, even if the tree then refuses the entry; a failing call leaves the tree alone. The same holds for the items of classes. A dict file that can not be read raises SyntaxError and nothing changes; a section named like something of the registrar raises AttributeError after the file was written.", "quantifier": "all pipeline dicts and create calls (any sequence)", "why_tests_cant": "Two independent update paths must agree on all trees.", "anchors": ["pyfileconf/main.py: create, _create_func_or_class_entry", "pyfileconf/basemodels/registrar.py: Registrar.set", "pyfileconf/basemodels/collection.py: from_dict"]}
{"id": "C43", "title": "Scaffolding never changes user settings", "statement": "Rewriting a config file that can be read writes: its imports and those still missing, the selector if the file does not assign s, every line below the header unchanged and in order, and one assignment for each argument (or string always assigned) that the file does not assign, and for no other. For files whose header consists of single-line imports and blank lines, and whose last line does not end in a backslash, reading the result gives the old assignments in order with only the new ones around them, and every setting of the file keeps its value. A file that cannot be read raises and nothing is written. Values read from the file are never printed anew. Files of specific classes are written in the same way. A file with an annotated attribute can not be scaffolded (AttributeError). Text that can not be read raises SyntaxError and nothing else, whatever is wrong with it.", "quantifier": "all file texts, all argument lists with values that read back", "why_tests_cant": "All file contents and all signatures.", "anchors": ["pyfileconf/io/file/write/base.py", "pyfileconf/io/file/interfaces/config.py", "pyfileconf/config/logic/load.py: _split_lines_into_import_and_assignment", "pyfileconf/pipelines/models/collection.py: _output_config_file"]}
{"id": "C44", "title": "Scaffolding is idempotent", "statement": "If a file of the form in C43 has no import below its header and its imports survive printing and reading, rewriting it again and again only takes away newlines at its end, one per rewriting, so it settles after finitely many loads, and with the second rewriting if neither the file nor a value ends in an empty line. It is not byte for byte stable from the first rewriting.", "quantifier": "all such files, all numbers of rewritings", "why_tests_cant": "Fixed point for all contents and all numbers of loads.", "anchors": ["pyfileconf/io/file/write/base.py: FileStr"]}
{"id": "C45", "title": "Headers outside the supported form are damaged", "statement": "Imports below the header (a comment in the first line puts all of them there) are copied to the top by every rewriting, without bound. A setting in the header whose line contains the text 'import' is deleted and not added again; with no other setting it comes and goes for ever. Comments in the header containing 'import' are deleted, an import over several lines makes the file unreadable, relative imports lose their dots, and the import of the selector is put in front of imports from __future__.", "quantifier": "growth for all files and all numbers of loads; counterexamples for the others", "why_tests_cant": "Unbounded growth is a statement about all numbers of loads.", "anchors": ["pyfileconf/config/logic/load.py: _split_lines_into_import_and_assignment", "pyfileconf/io/file/write/base.py"]}
{"id": "C46", "title": "Crash while writing", "statement": "While a config file is being written, exactly the beginnings of its new content (including the empty one) can be found in it after a crash; nothing else changes. A crashed load of all items leaves a completed initial part of the work: every path is as before or as after the full load, except at most one file that holds a beginning of its new content. The documented hope that a file is old or new is refuted: a cut file can be read without error with another value, and a setting can be replaced by the default at the next load.", "quantifier": "every crash point of every load, all trees of items and file systems", "why_tests_cant": "Crash points cannot be enumerated by tests.", "anchors": ["pyfileconf/io/file/write/base.py: save", "pyfileconf/main.py: create_registrars", "pyfileconf/pipelines/models/collection.py: _output_config_files"]}
{"id": "C47", "title": "Import statements survive print and parse", "statement": "Every import statement read from any source is written as one line that reads back as the same statement, with every name standing as it was last given a new name in it. So the statement survives unchanged exactly if it imports no name in two ways; writing it again gives the same line. Relative imports lose their dots; 'from . import x' makes reading the imports fail; a name imported under two names loses the first.", "quantifier": "all import statements", "why_tests_cant": "Round trip over all statements.", "anchors": ["pyfileconf/imports/models/statements/obj.py", "pyfileconf/imports/models/statements/module.py", "pyfileconf/imports/models/statements/importbase.py: _renamed"]}
{"id": "C48", "title": "Finding the import that binds a name", "statement": "Looking up a name among a file's imports returns, from the first statement in which it stands as an original or as a new name, an import of that single name, and raises exactly if it stands in none. For a name bound in one way only and not hidden behind 'as', the import returned binds the name to what Python finds for it. Hidden original names match too, shadowed names give the first binding instead of the last, and the package bound by 'import a.b' is not found.", "quantifier": "all import lists and names", "why_tests_cant": "Shadowing/renaming combinations.", "anchors": ["pyfileconf/imports/models/statements/container.py: get_import_for_module_or_obj_name"]}
{"id": "C49", "title": "Only accepted arguments are passed to the function", "statement": "A function is called with exactly those config entries whose key is one of its parameters, with the config's values; keyword-only parameters only count if one of them has a default. Without positional-only parameters the call succeeds exactly if the config has every parameter without a default, and every parameter then has the config's value or its default. Functions whose keyword-only parameters are all required, and functions with a required positional-only parameter, can never be run; other entries never reach **kwargs. Classes and updates of objects work the same way without the first parameter: an entry named like it makes creating the object fail, an update sets parameters not in the config back to their defaults.", "quantifier": "all signatures and configs", "why_tests_cant": "All signatures.", "anchors": ["pyfileconf/pipelines/models/config.py: for_function", "pyfileconf/imports/logic/load/func.py: function_args_as_dict", "pyfileconf/config/logic/apply.py: apply_config_to_obj"]}
{"id": "C50", "title": "Defaults extracted from a signature", "statement": "The defaults taken from a signature contain every parameter (keyword-only ones only if one of them has a default) exactly once, in order, mapped to its own default value, or None if it has none; for methods and classes without the first parameter. The config made of them makes the function run. Objects made from a name have that name and the defaults, provided the first parameter of __init__ is called self and the key attribute is a parameter. For signatures that can be scaffolded the defaults in the source evaluate to those found at run time.", "quantifier": "all signatures", "why_tests_cant": "Right-alignment arithmetic for every number of parameters/defaults.", "anchors": ["pyfileconf/imports/logic/load/func.py", "pyfileconf/imports/logic/load/klass.py", "pyfileconf/data/logic/convert.py", "pyfileconf/io/func/load/config.py"]}
{"id": "C51", "title": "Every entry of a pipeline dict is reachable", "statement": "In the tree built from a pipeline dict with distinct names per section and for paths without names reserved by the tree objects, a path finds an item or a section exactly if it is written there, otherwise the lookup raises AttributeError. Values given directly are dropped, the key of an entry in a dict in a list is lost, later items hide earlier ones of the same name, collection is a second name of the whole tree, and building the tree fails exactly if an element of a list cannot be turned into an item. Below the attributes and methods of the registrar nothing is found either.", "quantifier": "all pipeline dicts and paths", "why_tests_cant": "All tree shapes.", "anchors": ["pyfileconf/basemodels/collection.py: from_dict, from_list, get, name_dict", "pyfileconf/basemodels/registrar.py:29-30"]}
{"id": "C52", "title": "Modules after failed load and reload", "statement": "A load that raises an exception takes out of sys.modules exactly what was not there when it started; if it only imported, sys.modules is as before. A load that succeeds remembers exactly the modules that came in. A reload executes the remembered modules anew and keeps all others. In histories of loads and reloads that are not nested and not interrupted, every reload finds the modules it takes out and no module is remembered by two managers. Loading twice without reload forgets the modules of the first load. After an interrupt during a reload, or a reload of a manager that loads another one, reloading raises KeyError, removes modules nevertheless and keeps raising until a load. Reloading before the first load raises PipelineManagerNotLoadedException. Modules imported before an error that the loaded code itself catches are remembered too.", "quantifier": "every history of loads, reloads and imports with arbitrary bodies, failure points and numbers of managers", "why_tests_cant": "Histories and failure points.", "anchors": ["pyfileconf/main.py: load, reload, _wipe_loaded_modules", "pyfileconf/imports/models/tracker.py: ImportTracker"]}
{"id": "C53", "title": "Config tree built from files", "statement": "The config tree built from a folder shows at every path exactly what the files say: a sub-folder whose name does not start with '_' or '.' is a section, section.py is the section's own config, every other .py file is an item under its base name. A folder hides a file of the same name next to it, and a section.py that raises ValueError is silently treated as missing. If an item's config file is gone, refresh and reset raise OSError, call no hook and change nothing, and an item that was not loaded before cannot be used. A path that goes on below an item raises and changes nothing: ValueError if the item's config (or its file object, while the item is not loaded) has an attribute of that name, otherwise AttributeError; so loading an item may change the exception. What lies in folders whose names start with an underscore or a dot has no effect on loading; in all other folders every section.py is run, and the first exception other than ValueError, in the order of the folders, is what the load raises.", "quantifier": "all directory trees", "why_tests_cant": "All tree shapes.", "anchors": ["pyfileconf/config/models/section.py: ConfigSection.from_files", "pyfileconf/logic/get.py:8-39", "pyfileconf/basemodels/config.py:55-59", "pyfileconf/config/models/section.py:71-109"]}
{"id": "C54", "title": "Selector membership", "statement": "For a selector made from loaded managers, a path of a known manager is reported as contained exactly when it is the manager, one of its class dicts, or leads through that manager's specific class dicts or its general pipeline dict to an existing section, item or method of a collection, and only for the last two a dependency is recorded; an unknown manager raises KeyError; later loads are not seen; attribute access gives a view of a path exactly when the path is contained, as long as no part is named like an attribute of the view. The names that a selector or a view defines itself are not looked up among the managers or items. A class dict called _general takes the place of the pipeline dict in the selector.", "quantifier": "all managers, trees and paths", "why_tests_cant": "All trees and paths, including names that collide with attributes of collections, selectors and views.", "anchors": ["pyfileconf/selector/models/selector.py: __contains__, _get_collection_obj_and_relative_section_path_from_structure", "pyfileconf/selector/models/selector.py:58-66", "pyfileconf/selector/models/selector.py:94-119", "pyfileconf/selector/models/selector.py:171-186"]}
{"id": "C55", "title": "create_project never overwrites", "statement": "Creating a project leaves everything that exists unchanged at every moment, succeeds iff no file lies where a folder is needed, adds exactly the missing folders and the empty dict files, and does nothing the second time. After a crash, creating it again completes everything but the one file that was being written, which stays damaged. Refuted: with another name for the folder of the configs that folder is never made and the project counts as incomplete for ever; a class dict called pipeline shares the file of the pipeline dict. If all parts exist, with the config folder under its configured name, nothing is created, even if there is no folder named defaults; if one part is missing, all missing ones are created.", "quantifier": "all initial file systems, folders, log folders, class dict names and crash points", "why_tests_cant": "All pre-existing contents and crash points.", "anchors": ["pyfileconf/main.py: create_project, _need_to_create_project, _create_project_if_needed", "pyfileconf/main.py:599-613"]}
{"id": "C56", "title": "Plugin contributions to an update", "statement": "With update plugins registered, the values stored are the caller's dict overridden by the plugins' contributions in hook order, overridden by the caller's keyword values overridden by the plugins' contributions.", "quantifier": "all plugin lists and updates", "why_tests_cant": "All plugin combinations.", "anchors": ["pyfileconf/main.py: PipelineManager.update", "pyfileconf/plugin/hookspecs.py: pyfileconf_pre_update"]}
{"id": "C57", "title": "auto_pdb turns exceptions into None", "statement": "With the auto_pdb setting a run that does not raise is exactly the plain run; a run that raises drops into the debugger and then returns None instead of raising, with all effects up to the exception kept, so the caller cannot tell it from a run returning None; user interrupts end the program. auto_pdb may also be a function, which is called instead of the debugger, without arguments; what it raises, or TypeError if the setting is true but no boolean and no function, replaces the exception of the run. force_continue is ignored then. Leaving a debugger counts as an interrupt. The debugging function itself does nothing for False.", "quantifier": "all run arguments, user functions and states", "why_tests_cant": "Must hold for every exception at every position of every run.", "anchors": ["pyfileconf/main.py: _run_with_auto_pdb, _try_except_run_func_except_user_interrupts", "pyfileconf/debug.py:4-26", "pyfileconf/main.py:199-222", "pyfileconf/main.py:636-673"]}
{"id": "C58", "title": "Attribute access on a config never gives a value", "statement": "Reading a key of a config object as an attribute gives None whatever value the key has, and raises AttributeError exactly for the keys the config does not have.", "quantifier": "all configs and keys", "why_tests_cant": "Holds for every key and value; a test that only checks that no exception is raised passes.", "anchors": ["pyfileconf/basemodels/config.py: ConfigBase.__getattr__"]}
{"id": "C59", "title": "Assigning to an option attribute kills the option", "statement": "Assigning a value to an option attribute of the options interface, as its docstring shows, does not set the option: its value and everything controlled by it stay as they were. From then on setting or resetting that option raises AttributeError, and so do resetting all options and leaving a with-block of options, which leave the later options unreset.", "quantifier": "all options, values and histories of option changes", "why_tests_cant": "All histories; the failure shows up only later, at the next reset.", "anchors": ["pyfileconf/opts/__init__.py: PyfileconfOptionsManager"]}
{"id": "C60", "title": "Adding an import that may be there already", "statement": "Adding an import statement to the imports of a file keeps all its statements in order. The statement is left out exactly if one statement has all its names and renames, so everything it binds is then bound, provided no statement hides one of its names behind 'as'; next to 'import a as b', 'import a' is left out and the name stays unbound.", "quantifier": "all lists of import statements, all statements added", "why_tests_cant": "All combinations of names, renames and statements.", "anchors": ["pyfileconf/imports/models/statements/container.py: __contains__", "pyfileconf/basemodels/container.py: add_if_missing"]}
{"id": "C61", "title": "Files written by a load", "statement": "Loading the items writes only the config files of items, makes only the folders of sections and missing section.py files; at no moment is anything removed or another file changed. After success every item's file holds the content due to it given its former content. A failing load has completed exactly the steps before the failing one. Loading again changes nothing if rewriting the single files changes nothing, and otherwise succeeds and changes no more than rewriting the single files does. Refuted: an item called section rewrites the config of the section; files of removed items are cleaned up.", "quantifier": "all trees of items, file systems, crash points and failures", "why_tests_cant": "All trees and all other files on the disk.", "anchors": ["pyfileconf/pipelines/models/collection.py: _output_config_files, _output_section_config_file", "pyfileconf/data/models/collection.py", "pyfileconf/main.py: create_registrars"]}
{"id": "C62", "title": "Imports for defaults and annotations", "statement": "Scaffolding an item finds the imports its signature needs exactly if all annotations are built from names, one-dot attributes, strings, subscripts and tuples, no keyword-only parameter is required, no default belongs to a positional-only parameter, and every name in a default or (unless a builtin type) in an annotation stands in an import statement of the module. Each such name that is bound in one way is then bound to the same thing as in the module, and nothing else is imported. Variables and classes of the module itself, builtin functions in defaults and parameters of lambdas make scaffolding fail.", "quantifier": "all signatures, import statements and orders of sets", "why_tests_cant": "All shapes of annotations and defaults; set order varies between runs.", "anchors": ["pyfileconf/io/func/load/extractimp.py", "pyfileconf/io/func/load/config.py", "pyfileconf/io/file/load/parsers/extname.py"]}
{"id": "C63", "title": "The definition of an item is found through imports", "statement": "If a name stands for a function or a class with its own __init__, through any chain of object imports, also renaming ones, in files where each name is bound in one way, then the signature used is that of this definition, without the first parameter of __init__. Whatever is used comes from the only definition of some name in some module. Two definitions of a name, classes without __init__ (such as dataclasses), items written as attributes of a module and circular imports raise exceptions. Items without a name and statements importing several modules at once are errors. A class whose __init__ has no parameter to leave out raises IndexError.", "quantifier": "all files and chains of imports", "why_tests_cant": "Chains of any length.", "anchors": ["pyfileconf/io/func/load/args.py", "pyfileconf/io/file/load/parsers/funcdef.py", "pyfileconf/views/object.py"]}
{"id": "C64", "title": "Parameters named like parameters of the library's own functions", "statement": "An update passed as a dict accepts every parameter name. As a keyword, config_ is always rejected without effect; E is rejected exactly if the update would change something, after the pre hook has been called; d is rejected on a loaded item after the config and the object have been changed, so that dependents are not refreshed, and is accepted otherwise. An item whose file assigns self, pyfileconf_persist or a value to E cannot be refreshed once there is something to refresh, and E = None is skipped by a refresh; an item whose file assigns self, config_, section_path_str or a value to d_ can never be reset, and with a value for d the reset takes effect and then fails. Where the file assigns None to d_ or d, a reset passes over d_ in the comparison and for the pre hook and over d for the post hook, and the config gets both. A reset that puts a whole section back tells no hook; if an object is kept under the path of the section it raises TypeError, with the section put back.", "quantifier": "all configs, files, updates and states of the runner", "why_tests_cant": "The outcome depends on the name, on whether the item is loaded and on whether values change; tests use names that do not clash.", "anchors": ["pyfileconf/main.py:319-406", "pyfileconf/runner/models/runner.py", "pyfileconf/config/models/manager.py", "pyfileconf/basemodels/config.py", "pyfileconf/runner/models/runner.py:385-393"]}
{"id": "C65", "title": "Calling and setting through an item view", "statement": "Calling the view of a function calls, with the arguments given, the very object that pm.get returns for the same path, and raises what pm.get raises; calling the view of a class of the pipeline dict returns the configured object and ignores the arguments; calling the view of an item of a class dict calls a method of its object. Setting an attribute of a view is pm.update of that one parameter at the path of the item, except for the view's own names, which change nothing in the project. After setting a parameter of a loaded function, calling the view passes the new value. Reading an attribute through the view of an item loads the item as pm.get does and reads it from that object; what loading raises is raised, except that RecursionError and PipelineManagerNotLoadedException become ItemNotFoundException.", "quantifier": "all projects, selectors, views of items, arguments, keys and values", "why_tests_cant": "Equality with pm.get has to hold for every project and state; tests call one or two views.", "anchors": ["pyfileconf/selector/models/itemview.py:74-155", "pyfileconf/selector/models/selector.py:144-165", "pyfileconf/logic/get.py:8-39", "pyfileconf/selector/models/itemview.py:32-72", "pyfileconf/selector/logic/exc/typo.py:9-27"]}
{"id": "C66", "title": "Which method runs an item of a class dict", "statement": "pm.run executes the method named by the last class dict of the manager whose class is the class of the item; calling a view executes the method named by the last class dict for this class over all managers known when the selector was created. Both are the method of the item's own class dict if all class dicts for this class name the same method, and items whose class is only a subclass raise KeyError.", "quantifier": "all managers, class dicts, classes and selectors", "why_tests_cant": "The difference only shows with several class dicts or managers for one class.", "anchors": ["pyfileconf/runner/models/runner.py:34-44", "pyfileconf/runner/models/runner.py:207-219", "pyfileconf/selector/models/itemview.py:117-120", "pyfileconf/selector/models/itemview.py:204-216"]}
{"id": "C67", "title": "Wrong names and sections in selectors", "statement": "Reading a wrong name below a section through a selector raises AttributeError, and the manager keeps the wrong path: from then on no read, call or get through a view of this manager reaches its item. Getting the real item of a section or calling its view leaves the path of the section behind in the same way. Wrong names directly below a manager are harmless. If something is found under __self__ in a section, calling the view of the section raises ValueError, unless it is an instance of a class dict's class.", "quantifier": "all projects, sections, names and sequences of later operations", "why_tests_cant": "The effect is on later, unrelated operations; it needs arbitrary sequences.", "anchors": ["pyfileconf/selector/models/itemview.py:32-72", "pyfileconf/selector/models/selector.py:144-155", "pyfileconf/runner/models/runner.py:46-65", "pyfileconf/logic/get.py:8-39", "pyfileconf/selector/models/itemview.py:124-152"]}
{"id": "C68", "title": "The import written for an object", "statement": "The module found for an object is the first module in sys.modules that is not skipped and has the object under any name. The import that create writes for a function or class gives this object again exactly if that module has it under the name the object was defined with; it does if no module has the object under another name. The name of an object in a module is the first one in dir() order, and it is found unless some attribute of the module cannot be read. An object that is not in the module has no name there (ValueError); in a process where the module is missing the import raises ModuleNotFoundError.", "quantifier": "all sets of loaded modules, objects and names", "why_tests_cant": "It depends on which modules happen to be loaded, in which order, and under which names they import the object.", "anchors": ["pyfileconf/imports/logic/load/name.py:10-129", "pyfileconf/main.py:441-447", "pyfileconf/main.py:522-531"]}
{"id": "C69", "title": "The log of a run", "statement": "Running a configured function writes one line with all its values and one with its result. If no value is a view and everything can be printed, the run is the same as without the log. A value that cannot be printed prevents the call; a result that cannot be printed makes the run fail after the call. A value that is the view of an item is loaded for the log; a value that is the view of a section leaves the section's path in its manager, after which no view of this manager reaches its item. The text of a string is a literal for it exactly if it is the body of a raw string literal.", "quantifier": "all projects, functions, configs and results", "why_tests_cant": "Tests use printable values, and look at the result of the run rather than at the state of the managers afterwards.", "anchors": ["pyfileconf/runner/models/runner.py:185-194", "pyfileconf/config/logic/write.py:3-6", "pyfileconf/assignments/logic/write.py:7-65", "pyfileconf/selector/models/itemview.py:32-72"]}
{"id": "C70", "title": "Making and loading a manager", "statement": "Loading reads all dict files and checks the descriptions of the class dicts before it writes anything: if a dict file cannot be read, a class dict has no name or class or has unknown keys, its name is used by another one, by a section at the top of the pipeline dict or is one of scaffold_config, get, basepath and name, then loading raises and neither the files nor the manager change. Otherwise what is loaded is determined by the files, the config files are written, and every path belongs to the section or the class dict it begins with. The constructor registers nothing if a name is missing or the options exclude each other; otherwise the manager is registered even if making the project fails. Which error a refused load raises is determined by the first fault: the pipeline dict file, then the class dicts in order, each with its description, its file, its keys and its items, then the items of the pipeline dict, then the names. The project is made with the names given.", "quantifier": "all file systems, dict files, class dicts, options and states of the manager", "why_tests_cant": "The checks are spread over reading, building and comparing names; tests try one wrong description at a time, not all combinations of files, and do not look for what a rejected load has written.", "anchors": ["pyfileconf/main.py:59-82", "pyfileconf/main.py:301-317", "pyfileconf/main.py:592-632", "pyfileconf/main.py:734-844", "pyfileconf/main.py:734-744"]}
{"id": "C71", "title": "Loading again", "statement": "A load that fails keeps the runner. Either the manager stays as it was, or the config files have all been written, executing one of them raised, and the manager has the new registrars with the old runner. Whether a load succeeds, what it writes and what it loads does not depend on earlier loads, failed or not.", "quantifier": "all managers, file systems before and after, and states left by earlier loads", "why_tests_cant": "It relates two loads from arbitrary states; tests load once, or twice from the same files.", "anchors": ["pyfileconf/main.py:301-317", "pyfileconf/main.py:545-568", "pyfileconf/main.py:747-766"]}
{"id": "C72", "title": "From the files to a call", "statement": "If a project loads and its pipeline dict contains a function at a path, then the function's config file has been written from its old text, and running the path calls the function exactly once, with exactly those parameters that the section files on the way or its own file set: a section file counts more than the function's own file and an inner section more than an outer one; if the own file sets nothing, nothing is passed. Conditions: the names are distinct and not those of attributes, and there is no folder with the function's name.", "quantifier": "all projects, dict files, config files, functions and paths", "why_tests_cant": "It goes through all stages (dict file, tree, written files, config tree, inheritance, runner) for arbitrary projects; tests check single values in one small project.", "anchors": ["pyfileconf/main.py:545-568", "pyfileconf/main.py:786-844", "pyfileconf/config/models/manager.py:114-198", "pyfileconf/runner/models/runner.py:127-194", "pyfileconf/runner/models/runner.py:300-362"]}
{"id": "C73", "title": "The settings a config file gives", "statement": "Executing a config file gives as settings exactly the names its module has afterwards, without those bound to modules and those that begin with two underscores, in the order in which they were bound first. Only names that a statement outside of functions and classes binds become settings, and the last statement that binds or unbinds a name counts. Loading fails exactly if the syntax tree has something unsupported or executing the file raises, with that exception. Objects the file imports become settings, too; modules it assigns do not.", "quantifier": "all programs built from imports, assignments of all kinds, del, expressions, functions, classes, if, for and try, and all meanings of expressions and imports", "why_tests_cant": "It speaks about every program, including nested blocks and handled exceptions; tests load two or three fixed files.", "anchors": ["pyfileconf/io/file/load/active/userdef.py:10-52", "pyfileconf/io/file/load/active/loader.py:9-18", "pyfileconf/config/models/file.py:14-27"]}
{"id": "C74", "title": "Two readings of a config file", "statement": "The library reads a config file from its syntax tree when scaffolding and executes it when running. It loads exactly the files without chained targets and without imports that only have dots, at any depth; it scaffolds exactly those whose targets are furthermore names, or attributes without annotation. For files of imports and plain assignments, the names bound are those assigned and imported, scaffolding sees those assigned or declared, and a setting's value is that of the expression scaffolding sees, evaluated where it stands, unless the name is imported as well. Which blanks (spaces, tabs, form feeds) stand between tokens, indentation and comments make no difference to the syntax tree that is read. Text in quotes is no code either: an assignment of a string without such quotes and backslashes inside is read as that, whatever else the string contains, and a string in triple quotes on lines of its own is skipped. The names read are exactly Python's identifiers that are no keywords.", "quantifier": "all programs (acceptance), all programs of imports and plain assignments (values), all meanings of expressions", "why_tests_cant": "It relates two independent readers on every file; tests compare neither.", "anchors": ["pyfileconf/io/file/load/lazy/base/impassign.py:11-21", "pyfileconf/io/file/load/lazy/config.py:11-22", "pyfileconf/io/file/load/parsers/assign.py:9-31", "pyfileconf/io/file/load/parsers/imp.py:16-34", "pyfileconf/io/file/load/active/loader.py:9-18"]}
{"id": "C75", "title": "Executing a new config file", "statement": "The file written for a new item is a program of its imports, the selector and one assignment per parameter, in order. Executed, each parameter has the value of the expression written for it, evaluated after the imports, the selector and the parameters before it; the parameters before it do not matter unless the expression uses their names. Nothing else becomes a setting but the selector and imported objects.", "quantifier": "all items, signatures and meanings of expressions", "why_tests_cant": "It holds for the values of arbitrary defaults; tests compare the text of a few files.", "anchors": ["pyfileconf/pipelines/models/collection.py:43-63", "pyfileconf/io/file/write/base.py:27-77", "pyfileconf/io/file/load/active/userdef.py:10-52"]}
{"id": "C76", "title": "Writing a config file again keeps its values", "statement": "A plain config file that the library writes again is again a plain file: all imports, the selector if it was not assigned, the old statements below the imports, and the missing parameters. Its settings keep their values when executed if no name is imported with two meanings, no statement imports a thing under two names, the file imports nothing called s, and no expression uses a name that is put before it. Without these conditions values change, or the file cannot be loaded any more.", "quantifier": "all plain config files and items, all meanings of expressions and imports", "why_tests_cant": "It compares the executions of two files for every file and every item; tests check that settings survive in the text.", "anchors": ["pyfileconf/io/file/write/base.py:27-77", "pyfileconf/basemodels/config.py:76-112", "pyfileconf/config/logic/load.py:5-45", "pyfileconf/io/file/load/active/userdef.py:10-52"]}
{"id": "C77", "title": "A new function is called with its defaults", "statement": "If a project loads and its pipeline dict has a function without config file, then the file written for it is a program, and if that can be executed, running the function calls it once, only with its parameters; each parameter about which the section files say nothing is given the value of its default, evaluated after the imports, the selector and the parameters before it.", "quantifier": "all projects, functions, signatures and meanings of expressions", "why_tests_cant": "It goes from the signature through the written text and its execution to the call, for arbitrary projects.", "anchors": ["pyfileconf/main.py:545-568", "pyfileconf/pipelines/models/collection.py:43-63", "pyfileconf/io/file/load/active/userdef.py:10-52", "pyfileconf/runner/models/runner.py:127-194"]}
{"id": "C78", "title": "Items of class dicts, from the files to the call", "statement": "If a project loads and a class dict has an item at a path, the item has a config file, written from the signature of the class and what the file held before. Running the item initialises its instance with exactly the parameters of the class to which the section files or the item's own file give a value, and if that does not raise, calls it once. For an item without a file, the file assigns each parameter its default and key_attr the name of the item, and the instance gets those values unless a section file says otherwise.", "quantifier": "all projects, class dicts, classes, signatures and meanings of expressions", "why_tests_cant": "It goes from the class dict through the written text and its execution to the call, for arbitrary projects; tests run a few items of one class.", "anchors": ["pyfileconf/data/models/collection.py:36-62", "pyfileconf/main.py:545-568", "pyfileconf/runner/models/runner.py:127-194", "pyfileconf/config/logic/apply.py:14-21"]}
{"id": "C79", "title": "Names of the items of class dicts", "statement": "Collections know the items of class dicts by the names their instances had when the collection was last changed. If no instance changes its name, lookups are those of a tree with fixed names after any session. Otherwise an item stays where it is found until something is added to a section on the way; creating an item makes everything in the section where it or its first new section is added known by its current name, the last one of a name, and writes the config files of the section under the current names.", "quantifier": "all class dicts, classes, sequences of initialisations and creations", "why_tests_cant": "It concerns interleavings of arbitrary renamings with creations; tests create items of classes that keep their names.", "anchors": ["pyfileconf/data/models/collection.py:24-62", "pyfileconf/basemodels/collection.py:68-95", "pyfileconf/basemodels/registrar.py:64-97", "pyfileconf/main.py:419-455"]}
{"id": "C80", "title": "Finding the file of a module without importing it", "statement": "The file of a module is searched without importing its packages. The search gives what Python's import would use: the loaded module, the first module or package of this name in the path, or the directories of this name together. The exceptions: a package without __init__ file inside a package that is not loaded raises KeyError, and below a module that is no package the module of this name in sys.path is taken. Otherwise ValueError (no file) or AttributeError (not found). So signatures (C63) are read from the files that Python would import.", "quantifier": "all directory contents, paths, contents of sys.modules and module names", "why_tests_cant": "It quantifies over directory trees and import states; tests import what they search from few packages, which are usually loaded already.", "anchors": ["pyfileconf/imports/logic/load/ext_importlib.py:7-12", "pyfileconf/imports/logic/load/ext_importlib.py:14-54", "pyfileconf/io/func/load/args.py:100-117"]}
{"id": "C81", "title": "Which object an item of the pipeline dict is", "statement": "An item of the pipeline dict is loaded by executing the import found for the one name in it. A name imported from a module is what Python takes it for, also renamed; its config (C63) is then that of the object. Attributes, calls and subscripts around the name do not matter; for a module it is the attribute called like the name; submodules are not imported. Items without name cannot be loaded, those with several names or without import raise. Each item has one name, except that a DataPipeline is kept and saved under the name given to it but run under the name DataPipeline. Executing an import statement gives its objects in the order of the statement.", "quantifier": "all items, import statements, modules, orders in which names are read", "why_tests_cant": "It relates arbitrary expressions and import statements to what Python evaluates; tests use plain names of functions and no DataPipeline.", "anchors": ["pyfileconf/views/object.py:24-103", "pyfileconf/io/file/load/parsers/kwargs.py:19-33", "pyfileconf/imports/models/statements/obj.py:75-77", "pyfileconf/imports/models/statements/module.py:72-73", "pyfileconf/logic/get.py:42-62"]}
{"id": "C82", "title": "The names dir() lists and the names that can be accessed", "statement": "After loading, dir() of a manager lists nine methods, name, the class dicts and the top-level sections and items except two names; class dicts twice, everything else once. Listed sections, items and class dicts are found by attribute access unless collections or registrars use the name themselves, and what is found is listed, except collection. The selector lists the managers; views of sections list exactly the names whose access gives a view. Config sections list names that can be accessed; configs list their keys. Before loading, dir() raises; sections reached from the manager list the runner's attributes, views of functions those of a placeholder, and attributes of configs are None. Which names lead to a method or attribute of collections, registrars, config sections and the config manager instead of to an entry is stated name by name.", "quantifier": "all managers, trees of items, names, selectors, paths, configs", "why_tests_cant": "It relates the listed names to lookups for all trees and names; autocompletion is hardly tested, and only for single names.", "anchors": ["pyfileconf/main.py:95-123", "pyfileconf/basemodels/registrar.py:29-42", "pyfileconf/basemodels/collection.py:68-75", "pyfileconf/selector/models/selector.py:67-92", "pyfileconf/selector/models/itemview.py:88-94", "pyfileconf/config/models/manager.py:29-43", "pyfileconf/config/models/section.py:23-32", "pyfileconf/basemodels/config.py:55-62"]}
{"id": "C83", "title": "What config files always get", "statement": "A string in always_import_strs or always_assign_strs is accepted iff it parses and has exactly one import or assignment at any depth; only the statement read counts. Missing strings or an empty tuple keep the selector, an empty list removes it. A name gets the value of the last string assigning it and the annotation of the last annotating it, after all parameters and in order of the strings; attribute targets are ignored, other targets raise at saving. A DataPipeline's cleanup_kwargs that is missing or None is written as dict() at the end. A config that comes from a file is saved to that file, whatever path is given. Import strings follow the imports of the signature in their order, those already covered are left out, and the selector's own import comes first.", "quantifier": "all strings, sequences of strings, signatures, file contents, paths", "why_tests_cant": "It holds for all strings and file contents; tests have one class with one import and one assignment.", "anchors": ["pyfileconf/data/models/file.py:26-53", "pyfileconf/assignments/models/statement.py:133-142", "pyfileconf/imports/models/statements/obj.py:40-51", "pyfileconf/io/file/load/parsers/imp.py:36-67", "pyfileconf/io/file/load/parsers/assign.py:33-45", "pyfileconf/basemodels/file.py:71-104", "pyfileconf/pipelines/models/file.py:26-49", "pyfileconf/basemodels/config.py:76-94", "pyfileconf/basemodels/container.py:40-54"]}
{"id": "C84", "title": "Plugins: which are called, in which order, and what becomes of what they return", "statement": "Hooks are called in reverse order of registration, so user plugins before the default plugin and plugins of installed packages after it; tryfirst and trylast are respected. Single paths contributed before a run are run after the caller's; a list contributed makes a plain run raise AttributeError after everything before it was run; changes in place have no effect. Results of post_run hooks are appended one by one, per item with force_continue. In an update the value of the plugin called last wins. A batch is what the plugins return in order of calls, repeated for each that returns the updates; a generator that any plugin iterates over is lost. Without the default plugin a batch does nothing and iterations raise IndexError. A contributed case with an item that the first case doesn't have raises KeyError before anything is run.", "quantifier": "all sets of plugins, hooks, orders of registration, paths, updates, cases", "why_tests_cant": "It holds for all combinations of plugins; tests register one plugin at a time.", "anchors": ["pyfileconf/plugin/manager_utils.py:1-23", "pyfileconf/plugin/default_hooks.py:1-88", "pyfileconf/plugin/hookspecs.py:1-219", "pyfileconf/main.py:125-160", "pyfileconf/runner/models/runner.py:89-125", "pyfileconf/batch.py:33-58", "pyfileconf/iterate.py:58-66", "pyfileconf/iterate.py:131-136", "pyfileconf/logic/combine.py:1-30"]}
{"id": "C85", "title": "The config of a section (section.py) as a dependent of an item", "statement": "What a section.py depends on is recorded for the path `manager.section path.section` (for the project's own section.py: `manager.section`). Under the former nothing is found (KeyError) unless the section itself has the name `section` (then its own config) or has a section of this name (then that one's config). Refreshing it raises without any effect; an update of an item with such a dependent raises after the item and the dependents before it were changed and leaves those after it alone. The project's own section.py is found and read again, but loaded items aren't told, so that it depends on the order of a set whether they get the new value. `sec.config` and `local_config` are further paths for the config of a section and the local config. An update fails only because its own change fails, because that of a dependent does, or because dependents are nested too deep.", "quantifier": "all config folders, paths, managers, items, dependents, orders of sets, updates", "why_tests_cant": "Dependents in section.py files are in no test; the outcome depends on the names of folders and on the iteration order of a set of strings.", "anchors": ["pyfileconf/pmcontext/stack.py:29-39", "pyfileconf/config/models/manager.py:23-30", "pyfileconf/config/models/manager.py:68-93", "pyfileconf/config/models/manager.py:200-230", "pyfileconf/config/models/manager.py:366-372", "pyfileconf/config/models/section.py:18-29", "pyfileconf/plugin/default_hooks.py:67-88", "pyfileconf/runner/models/runner.py:378-401"]}
{"id": "C86", "title": "Which dict a dict file with any contents stands for", "statement": "pipeline_dict.py and <class>_dict.py are not executed but searched: for exactly one assignment to `pipeline_dict` / `class_dict`, at any depth, in whose annotation and value there is exactly one outermost display, a dict whose keys (at all depths) are string literals. Then what is read stands for the value Python gives to the display, and to the variable if there is nothing around it; a missing `pipeline_dict` is empty. Statements after it, blocks and whatever is around the display are ignored. Any assignment in the file to an attribute, an element or a tuple makes it unreadable (AttributeError), one with several targets too (NotImplementedError), as do two assignments or two displays (ValueError), a list or no display, keys that are no literals and `**` (AttributeError).", "quantifier": "all files (statements, nested blocks, expressions), both kinds of dict files, all meanings of other expressions and statements", "why_tests_cant": "The tests use dict files with one literal dict only.", "anchors": ["pyfileconf/io/file/load/parsers/assign.py:9-76", "pyfileconf/io/file/load/parsers/collections.py:1-97", "pyfileconf/io/file/load/lazy/pipelineast.py:1-26", "pyfileconf/io/file/load/lazy/dataast.py:1-21", "pyfileconf/io/file/load/lazy/base/impassign.py:11-21", "pyfileconf/assignments/models/statement.py:59-84", "pyfileconf/assignments/models/statement.py:111-123", "pyfileconf/basemodels/collection.py:100-168"]}
{"id": "C87", "title": "Class checks on item views, and giving views to the library", "statement": "An item view claims the class of its item, so every isinstance check on it looks the item up: functions (not partials), classes and items of class dicts give their class, sections a collection, managers and class dicts none; the module of the item is imported, and an exception other than AttributeError is raised by the check, as is a KeyError if the manager is gone. With a selector older than the item the check loads the item (and for a section leaves the manager in the state of C26). pm.run(view) first checks the class, outside force_continue and auto_pdb, then runs the path without the manager in the manager it is given to; in lists there is no check. Conversion to section paths and comparison of config values agree with C01 and C09 as long as the class is found and is no string, list or frame. pm.update records a dependency for every view given as a value, which already looks its class up: if that raises, the update is not made and the dependencies before it stay.", "quantifier": "all worlds of loaded managers, selectors, paths, settings of run, argument lists, updates", "why_tests_cant": "The tests give views of loadable items of the same manager, with fresh selectors.", "anchors": ["pyfileconf/selector/models/itemview.py:32-72", "pyfileconf/selector/models/itemview.py:183-194", "pyfileconf/selector/models/itemview.py:237-258", "pyfileconf/selector/models/selector.py:121-142", "pyfileconf/main.py:125-160", "pyfileconf/main.py:364-394", "pyfileconf/main.py:573-590", "pyfileconf/sectionpath/sectionpath.py:41-87", "pyfileconf/basemodels/config.py:136-191", "pyfileconf/pmcontext/main.py:52-65"]}
{"id": "C88", "title": "pm.create as a whole: dict file, tree, config files and configuration stay in step", "statement": "pm.create rejects arguments that do not fit together without changing anything; all others belong to exactly one entry of one dict file. Either the entry can not be added and nothing changes, or the dict file has it in the end, however the call goes on. If the manager's items were those of the dict files before, they are so afterwards, whatever the outcome, for pipeline dicts and class dicts, so that a load gives the same items. A function that was created can be run at once; it is called with the values of the file written for it and of the sections around it, in the usual order, and nothing else in the configuration changes. Not so: sections made on the way can be configured (ConfigManagerNotLoadedException until the next load) and all have a section.py; creating twice is harmless; a call that raises changed nothing; after a failed reload the new item can be run. Which error is raised when no entry is made is determined as well: by the dict file (missing, a folder, not readable), by a section on the way that holds something else, by the formatting, or by a missing folder. Without a runner create never succeeds: after a first load that failed it writes everything and then raises PipelineManagerNotLoadedException. For a class whose registrar is not among the loaded items it writes the entry and raises KeyError.", "quantifier": "all projects, readers and writers of dict files, class dicts, paths, functions, states of the disk and of the manager, outcomes of each step", "why_tests_cant": "The tests create one item in a small project and compare the files; none calls create on an unloaded manager, twice, with failing steps, or configures a new section.", "anchors": ["pyfileconf/main.py:408-456", "pyfileconf/main.py:498-542", "pyfileconf/dictfiles/modify.py:9-55", "pyfileconf/basemodels/registrar.py:64-97", "pyfileconf/config/models/manager.py:95-106", "pyfileconf/runner/models/runner.py:385-393"]}
{"id": "C89", "title": "File paths mean a place, however they are written", "statement": "Absolute paths as used for looking up managers, config sections and section paths are the place a path means when read from left to right (.. goes up, stays at the root), so two ways to write one place are treated alike (but for a leading //); normalising keeps the meaning and is idempotent. The relative path between two places goes up to the last folder they share, then down, and leads there. The section path of a file below a folder is the way to it without .py, and leads back if no name has a dot; a config section is named as its folder. Not so: different files have different section paths (a.b.py and a/b.py); files outside the config folder, as the dict files of a manager, get section paths that begin with empty parts and do not lead back.", "quantifier": "all working directories, folders, file paths in any notation, registered managers", "why_tests_cant": "Tests use a handful of clean paths; the notations of a path are infinitely many and the dict file case is never looked at.", "anchors": ["pyfileconf/sectionpath/sectionpath.py:30-34", "pyfileconf/sectionpath/sectionpath.py:97-99", "pyfileconf/sectionpath/sectionpath.py:125-137", "pyfileconf/main.py:459-476", "pyfileconf/pmcontext/stack.py:29-39", "pyfileconf/config/models/section.py:75", "pyfileconf/basemodels/file.py:44-46"]}
{"id": "C90", "title": "Config values are the objects themselves, never copies", "statement": "As long as nobody changes a list in place, an item with its config, persisted updates and loaded partial behaves as in the model where objects are values. Whatever was changed in place, update, refresh and reset do to the present contents what they do there, change no list themselves, and a run passes what the objects in the config contain at that moment. An update that changes something stores the very objects given (all keys of the call), one that changes nothing stores none; changing a list in place changes exactly the keys that hold it, at once, in the config, the persisted updates and the loaded item. Lists written out in a file are new at each execution and one per name, so a reset that changes something leaves only imported lists shared. Lists the item does not hold play no part. Not so: running twice passes the same arguments (a function that appends to its list changes the config); lists given to update stay as they are; a changed list is noticed when given again; refresh brings a persisted list back; a reset always lets go of the caller's list.", "quantifier": "all config files with values, list displays and imported lists, all parameters, functions that change their list arguments in any way, all sequences of update, refresh, reset, run, new lists and changes in place", "why_tests_cant": "The tests pass fresh immutable values and run functions that do not change their arguments; histories in which the caller, the function and the config share an object are not tried.", "anchors": ["pyfileconf/basemodels/config.py:65-74", "pyfileconf/basemodels/config.py:124-174", "pyfileconf/config/models/manager.py:47-77", "pyfileconf/config/models/manager.py:95-106", "pyfileconf/config/models/manager.py:160-197", "pyfileconf/runner/models/runner.py:299-310", "pyfileconf/runner/models/runner.py:378-401", "pyfileconf/config/logic/apply.py:24-29", "pyfileconf/pipelines/models/config.py:24-36", "pyfileconf/config/models/file.py:14-27"]}
{"id": "C91", "title": "run_product copies each update once; cases share the copies and the config's own objects", "statement": "run_product takes one deep copy of every update: same contents, new lists, sharing kept inside one update and never between updates. The whole run is a sequence of updates and runs as in C90. Whatever the function does to its arguments, a list the config does not hold - so also the ones in the updates given - stays as it is. In a case in which the config was updated the function gets the present contents of the objects of the case filled with the defaults; in another one it gets those of the objects in the config, whatever the case says. If the function changes no list, the run is the one of the model in which objects are values. Not so: every case runs with the values given for it (a case that is repeated has the copy that the function has changed); what the function gets is what the case contains; a case does not depend on the ones before.", "quantifier": "all config files with values, list displays and imported lists, all states reached by any calls, functions that change their list arguments in any way, all lists of updates of one item and all orders of cases", "why_tests_cant": "The tests iterate with immutable values over functions that do not change their arguments, so copies, sharing between cases and changed defaults make no difference there.", "anchors": ["pyfileconf/iterate.py:53-56", "pyfileconf/iterate.py:68-95", "pyfileconf/iterate.py:103-136", "pyfileconf/iterate.py:199-233", "pyfileconf/plugin/default_hooks.py:32-57"]}
{"id": "C92", "title": "What is done to other items does not matter for an item", "statement": "Take two histories of one project with the same operations on an item (get, run, update, refresh, reset), on the configs of the sections around it (update, refresh) and on the local config (update, reset), and in each history any operations on other items in between: get, run, lists of runs, run and get of whole sections elsewhere, update, refresh, reset without creation, whether they succeed or raise. Afterwards the item has the same own values, the same effective config, loaded objects with the same function and arguments (or no loaded object in both), and the next run of it calls the same with the same arguments or fails in the same way before anything is called; if the called code does not depend on earlier calls the result is the same too. A single operation on another item changes neither what the tree has at the item nor the loaded object. Not so: lists of runs with the item in them and runs of a section around it (an item before may fail and the item is not reached); updates of a path that leads neither to the item nor to a section around it (it may be the second name r.x of the config of a section r called x).", "quantifier": "all projects with distinct names in each folder, all items that are functions, classes or instances and have a config, all user functions and classes, all pairs of histories of any length", "why_tests_cant": "Isolation is a relation between two runs of any length with arbitrary other operations mixed in; a test compares two histories at most, and the suite never compares runs with and without activity on other items.", "anchors": ["pyfileconf/runner/models/runner.py:89-401", "pyfileconf/config/models/manager.py:47-311"]}
{"id": "C93", "title": "What is done to other managers does not matter for a manager", "statement": "Take two histories of several managers with the same operations on one of them (get, run, update, reset, refresh, batches of updates and resets, run_product and other iterations naming only this manager, making, reloading and closing it), and in each history any operations naming only other managers in between, whether they succeed or raise. Afterwards the manager is in the same state (configs, loaded objects, calls made), and the next operation on it gives the same result or exception, provided the code of its items does not look at other managers. Operations naming other managers only change nothing in it, whatever the code looks at. The manager named is the first name of the base path or, without one, of the entry itself (the second for a view stripped of its first name); run_product leaves other managers alone even if given views of their items. A batch that names several managers and succeeds does for each what its own part does. Not so: a batch that fails at another manager may not get to this one; code that looks at other managers.", "quantifier": "all sets of managers, all user code, all pairs of histories of any length, all batches, iterations and base paths", "why_tests_cant": "Isolation of managers relates two histories of any length with arbitrary operations mixed in; the suite has single tests with two managers and never compares histories.", "anchors": ["pyfileconf/main.py:162-185", "pyfileconf/main.py:319-394", "pyfileconf/main.py:478-495", "pyfileconf/batch.py:33-71", "pyfileconf/iterate.py:31-152"]}
{"id": "C94", "title": "What an operation that raises leaves behind", "statement": "An update, refresh or reset that raises either leaves everything as it was, or has changed the config of its target and nothing else: all other configs, the files, the loaded objects and the calls made stay. In the second case the configured values are the ones the operation asked for (the update's values over the old ones; what the refresh of well-behaved code leads to; what the file says), and the initialisation of the loaded instance with these values raised, or a keyword (or, for a reset, a variable of the file) is called d, which raises TypeError after the object got the values. Making the same update again then succeeds and does nothing: the values never reach the instance until some other update changes the config, which passes all configured values. A get of an item that raises loads and calls nothing and may be tried again with the same arguments. A run of an item that raises has either loaded and called nothing, or made exactly the one call that raised, of an object that stays loaded and is called again by the next run.", "quantifier": "all configurations, all user code (including different code when the operation is tried again), all items, values and exceptions", "why_tests_cant": "The state after a failure is not looked at by any test of the suite; the statement covers every point at which any of the operations can raise, and every later attempt.", "anchors": ["pyfileconf/runner/models/runner.py:185-234", "pyfileconf/runner/models/runner.py:299-333", "pyfileconf/runner/models/runner.py:378-401", "pyfileconf/config/logic/apply.py:7-29"]}
{"id": "C95", "title": "A run uses the value set last", "statement": "Take an item of a loaded project whose config file gives a value for one of its arguments, while the configs that override the item's (the local config, those of the sections around it, the project's) say nothing about that argument. After any history of operations that keep it so, the item's config has the value given by the last update of the item that mentioned the argument, or the file's value if the item was reset after that or no update mentioned it; a loaded object works with that value, and the next run passes it on (a function is called exactly once). The history may contain any operations on other items, runs, gets, resets and refreshes of the item, and updates, refreshes and resets of the sections around it. Refreshes of the item itself are included only if all its updates of the argument were persistent: a refresh drops a transient update, and also a persistent one that gave the value a transient one had given before. A value set for a section around the item wins over one that is set for the item later, and an update for an argument that the file does not mention is ignored.", "quantifier": "all projects, all user code, all items and arguments, all histories of any length", "why_tests_cant": "This is the promise of the whole package, and it is about sequences of operations of any length and in any order; the tests look at a handful of fixed sequences of two or three operations.", "anchors": ["pyfileconf/basemodels/config.py:65-74", "pyfileconf/basemodels/config.py:124-191", "pyfileconf/config/models/manager.py:47-158", "pyfileconf/config/models/manager.py:160-198", "pyfileconf/runner/models/runner.py:185-234", "pyfileconf/runner/models/runner.py:299-333", "pyfileconf/runner/models/runner.py:378-401", "pyfileconf/config/logic/apply.py:7-29"]}
{"id": "C96", "title": "What a single argument goes through", "statement": "For one argument of an item, a small machine with a handful of fields says exactly what happens in any history of operations: the value in the item's config, the update its config remembers, the value in the loaded object if there is one, and, for each config around the item (local, sections, project), the value, the remembered update and what the file says. The machine follows every permitted history in one way only, its fields are the values that are there, and the next run calls the item once, with the value of the loaded object, or, if none is loaded, with the value that counts around the item, or else the config's. Which other values change enters in one place only: whether an operation changes a value under another name, because an update, reset or refresh that changes nothing is dropped as a whole. It follows that a loaded object is not reached by anything done to the sections around or to the local config; that a run stores the value that counts around in the item's config as if it had been set there persistently; that an update of another argument can then hand it to the loaded object; that a reset gives the object the file's value where the first run had used the section's; and that a reset does not forget a persistent update if the values are the file's already. A reset of a section around the item puts back what the files say, in the item's config and in those of the sections between, and forgets the updates there, while the loaded object keeps its value.", "quantifier": "all projects, all user code, all items and arguments, all histories of any length including updates of the sections around", "why_tests_cant": "C95 covers histories in which nothing around the item mentions the argument. How the layers, the stored values and the loaded objects interact over long histories can only be pinned down by a statement about all of them; the tests look at single interactions.", "anchors": ["pyfileconf/basemodels/config.py:65-74", "pyfileconf/basemodels/config.py:124-191", "pyfileconf/config/models/manager.py:47-158", "pyfileconf/config/models/manager.py:160-198", "pyfileconf/runner/models/runner.py:185-234", "pyfileconf/runner/models/runner.py:299-333", "pyfileconf/runner/models/runner.py:378-401", "pyfileconf/config/logic/apply.py:7-29", "pyfileconf/config/models/section.py:71-109", "pyfileconf/config/models/manager.py:264-288"]}
{"id": "C97", "title": "Doing it again, two updates at once, undoing an update", "statement": "An update, refresh or reset that has succeeded can be made again and then nothing happens at all: no config, loaded object or file is different and no hook is called, whether or not the second is persistent. So an update that was not persistent cannot be made persistent by asking for it again. Exceptions are values that are not equal to themselves: an array makes the second update raise, a value whose comparison raises is a change each time, and so is a refresh while the file sets a variable called E. Two updates one after the other give the same values as one update with everything they ask for, provided the config knows all the names; with a name it does not know the outcomes differ in both directions. An update that is not persistent is undone by another such update with the old values; after a persistent one the next refresh brings its value back.", "quantifier": "all managers, paths, updates, values and user code", "why_tests_cant": "These are laws relating runs of operations for all values; the tests make each update once, with numbers.", "anchors": ["pyfileconf/config/models/manager.py:47-77", "pyfileconf/config/models/manager.py:95-106", "pyfileconf/basemodels/config.py:65-74", "pyfileconf/basemodels/config.py:124-174", "pyfileconf/runner/models/runner.py:378-404"]}
{"id": "C98", "title": "A section is run as its functions, one after the other", "statement": "Running any mixture of items and sections of functions leaves exactly the state that running the list of all their functions leaves, in definition order and through all subsections, with the same values (apart from the nesting) and the same exception. A list can be run in two parts unless the first raises. In any history, and with any of the settings force_continue and auto_pdb, a run or get of sections and lists can be replaced by single runs or gets of their functions, for each path up to the function that raises. So the machine of C96 also says what an argument goes through, and what the next run uses, if the history contains runs and gets of whole sections around the item and of lists. For sections that contain a class it is not so.", "quantifier": "all projects, sections, lists, states, settings, user code and histories", "why_tests_cant": "An equality between different ways of running, in all states and after any history, for all section trees; the tests run each section once.", "anchors": ["pyfileconf/runner/models/runner.py:89-194", "pyfileconf/runner/models/runner.py:221-297", "pyfileconf/main.py:125-263"]}
{"id": "C99", "title": "Config files edited by hand while the manager is in use", "statement": "When config files are written by hand in between the operations, one more bit of state says what happens: whether the item's file has been read since it was loaded or since a section around it was reset. Together with the machine of C96 it says exactly, for any history of operations and edits, what an argument's value is in the config, among the remembered updates, in the loaded object and in the configs around, and which value the next run uses. As long as the file has not been read, an edit is in force at once; once it has been read (by a run, a get that loads the object, an update, a refresh or a reset of the item), an edit is not seen until the item is refreshed or reset or a section around it is reset. A section's file is always read on loading, so an edit of it is not seen even by the first run until the section is refreshed or read again. A reset of the item after the edit brings the new value into the config and the loaded object; a refresh does so only if no update of the argument is remembered. A reset of a section around the item makes its config follow the file again, while the loaded object keeps its value. An edit itself changes nothing in memory.", "quantifier": "all projects, all user code, all items and arguments, all histories of operations and edits of any length", "why_tests_cant": "The tests write files before the manager is created; when an edit is seen depends on what was done before, in a way only visible over all histories.", "anchors": ["pyfileconf/config/models/manager.py:200-230", "pyfileconf/config/models/manager.py:351-363", "pyfileconf/config/models/file.py:14-26", "pyfileconf/io/file/load/active/userdef.py:9-51", "pyfileconf/config/models/section.py:72-106", "pyfileconf/basemodels/config.py:117-135"]}
{"id": "C100", "title": "Functions that use the manager while they run", "statement": "User functions may themselves run, get, update, reset and refresh items through the manager, to any depth. Whatever they do, an operation leaves exactly the state that a list of plain operations leaves, one after the other, with functions that do not use the manager: a run is the runs of its items in order, each followed by what the operations in its body amount to; an update, reset or refresh that reaches a loaded object is followed by refreshes of the items recorded as depending on it. If the functions do not use the manager, states and answers are those of the plain model. A dependency is recorded only for an item that is running, never of an item on itself, never twice, and is never forgotten; an item run successfully by a running item is always recorded. So if what the user and the functions do is of the kinds permitted in C96, everything that is done is, and if it passes, an argument follows the machine of C96 and the next run uses its value. A function that runs itself and passes exceptions on never succeeds, at whatever depth the Python stack is full.", "quantifier": "all projects whose sections contain functions and sections, all user functions as programs over the manager's operations (with any use of the answers, exceptions included), all depths, all histories", "why_tests_cant": "The tests have a few functions that run or get other items; that nesting never leaves a state that could not be reached without it, for any program and any depth, cannot be tested.", "anchors": ["pyfileconf/runner/models/runner.py:89-219", "pyfileconf/runner/models/runner.py:299-327", "pyfileconf/runner/models/runner.py:378-409", "pyfileconf/main.py:125-160", "pyfileconf/main.py:199-263", "pyfileconf/pmcontext/main.py:52-70", "pyfileconf/pmcontext/stack.py:76-82", "pyfileconf/plugin/default_hooks.py:67-89", "pyfileconf/config/models/manager.py:79-93", "pyfileconf/config/models/manager.py:366-372"]}
{"id": "C101", "title": "A config made from an object, and the base class for updates", "statement": "SpecificClassConfig.from_obj makes a config with exactly the parameters of __init__ the library sees, without self and in order; a parameter stands for the object's attribute if that exists and is not None, else for its default, or None without one; None and a string under the key attribute become source nodes, everything else stays the object. Making an object with it gives every parameter that value, so an attribute that is None does not come back where the default is another value. It raises KeyError if the key attribute is no such parameter, and passes on what reading an attribute raises unless it is an AttributeError. Deriving from PyfileconfBase changes nothing about updates, except that an update with an entry named self, possible only if the first parameter of __init__ has another name, raises.", "quantifier": "all signatures, objects, key attributes and configs", "why_tests_cant": "from_obj is not covered by any test, and the base class only for one signature; attributes that are None or missing and the name self are corner cases of every signature.", "anchors": ["pyfileconf/data/models/config.py:44-82", "pyfileconf/data/models/astitems.py:3-11", "pyfileconf/imports/logic/load/klass.py:6-21", "pyfileconf/userbase.py:1-20", "pyfileconf/config/logic/apply.py:14-35"]}
{"id": "C102", "title": "What a session leaves behind, and what loading again undoes", "statement": "After a load, gets, runs, updates, resets, refreshes and further loads, in any number and order and whether they fail or not, change no file but the config files of items, and those only by what writing them again changes: the files the library writes (C44) lose newlines at their ends and nothing else, and reading them gives the same. The manager keeps its items. A load at the end of all this always succeeds and gives the manager exactly as the first load gave it: the same configuration, nothing loaded, nothing called. A new process loading the project gets the same. So updates with pyfileconf_persist=True, which survive refreshes, do not survive a load. If others change files in between, then after a load that succeeds only the files it found count: two sessions that differ in everything before it go on alike. A load that fails leaves the runner and its configs as if only the files had changed. Refuted: sessions change no file (the file of a new function loses its last newline with the second load). In a new process the same operations give the same calls, arguments, objects and configs, whatever was done in the old one. Objects that are made after a load are none of those from before it. Changes of files by others leave configuration, loaded objects and calls as they are until something is read. Until a load succeeds, operations leave the manager as it is.", "quantifier": "all projects, dict files, config files, user functions and histories of operations and loads", "why_tests_cant": "Tests reload after one or two operations and look at single values; that no history of operations can be seen after a reload, or makes it fail, is a statement about all of them.", "anchors": ["pyfileconf/main.py:284-317", "pyfileconf/main.py:545-571", "pyfileconf/runner/models/runner.py:30-42", "pyfileconf/config/models/manager.py:44-60", "pyfileconf/pipelines/models/file.py"]}
{"id": "C103", "title": "Dicts in the source", "statement": "A dict display whose keys are all strings is read as the dict with the last value of each key; any other key raises. A dict written as a call is read as all keywords at any depth, the innermost and last counting, so it is read back only if its values contain no keywords; otherwise keywords in the values become keys and may replace the value they stand in. Keywords looked up by name are not looked for in the values of other keywords. A dict is written as a call of dict whose keywords are its entries in their order, and nothing else.", "quantifier": "all syntax trees of displays and calls", "why_tests_cant": "Tests use flat dicts; that keywords in nested calls leak into the result, and exactly which one counts, needs all nestings.", "anchors": ["pyfileconf/io/file/load/parsers/fromdict.py:6-26", "pyfileconf/io/file/load/parsers/kwargs.py:3-33", "pyfileconf/data/models/astitems.py:4-23"]}
{"id": "C104", "title": "Containers of statements", "statement": "Adding to a container leaves an item out iff the same one is there; otherwise it goes to the front or the end as it prefers, or to a position counted as Python does. After adding any items one by one each is there, none twice, those in front in opposite order. Assignments are equal iff name and value are, so a differing annotation is lost and a name can be assigned twice. Renames are found by name, the last counting; the maps between names and new names are inverse if none is repeated. A position means the front iff it is one of five words, case and blanks around it aside.", "quantifier": "all containers, equalities, sequences of items, renames, strings", "why_tests_cant": "Order and duplicates after arbitrary sequences of additions, and all spellings of positions, are too many to test.", "anchors": ["pyfileconf/basemodels/container.py:5-62", "pyfileconf/assignments/models/statement.py:37-57", "pyfileconf/assignments/models/container.py:17-18", "pyfileconf/imports/models/statements/rename.py:36-73", "pyfileconf/imports/models/statements/container.py:158-178", "pyfileconf/mixins/orderpref.py:3-14", "pyfileconf/logic/userinput.py:1-7"]}
{"id": "C105", "title": "Summaries of merges", "statement": "A summary of a merge shows the two data sets and the result, in this order, under names that never coincide. Each is used exactly once, even if others fail; an exception is shown in place of the value, except interrupts, which stop. What is used is the method, else the function, else the attribute given, else head, and the title says just that. A function without name makes it fail after everything was computed, even if a method is given. Arguments called df or merge cannot be passed on, and data that cannot be loaded raise.", "quantifier": "all data frames, merges, methods, functions, attributes and arguments", "why_tests_cant": "No test covers this code; which of several given ways is used, and that the title agrees with it, concerns all combinations.", "anchors": ["pyfileconf/data/logic/merge/__init__.py:3-13", "pyfileconf/data/logic/merge/display.py:9-61", "pyfileconf/data/logic/merge/summarize.py:4-15"]}
{"id": "C106", "title": "From the definition of a function to the call", "statement": "Let an item of the pipeline dict be imported, directly or through other modules, from the module that defines a function, let all modules do what their files say, and let what astor prints for the defaults mean the same as the defaults. If the project loads and there was no config file for the item, one is written. If that file can be executed, running the item calls exactly the function of this definition, once, with parameters of the definition only; a parameter no section file mentions is given the value of the default in the definition (None if there is none), evaluated after the imports of the signature, the selector and the parameters before it. If the defaults use no names, the call has the effect of a call without arguments. The object of an item is imported late: an item that cannot be imported is an entry all the same; an item whose name is in no import statement or that contains several names raises when the dict is read. It is wrong that a default always has the value it has in the definition: a parameter before it hides an object of the same name. DataPipeline(..., name='s') is an entry with the name s that stands for DataPipeline itself. An item that has a config file already keeps its settings; after them come those of the parameters the file does not assign, with expressions that mean their defaults. If the old file cannot be read or else the definition cannot, no file is written. An expression without any name in it raises TypeError.", "quantifier": "all module graphs, chains of imports, signatures without positional-only parameters, pipeline dicts, file systems, section files and values of expressions", "why_tests_cant": "The property spans reading source files, imports, writing and executing config files, loading a project and running it; tests look at a few fixed functions.", "anchors": ["pyfileconf/views/object.py:24-103", "pyfileconf/io/func/load/config.py:8-46", "pyfileconf/io/func/load/args.py:35-97", "pyfileconf/pipelines/models/collection.py:12-63", "pyfileconf/basemodels/config.py:76-112", "pyfileconf/runner/models/runner.py:127-194"]}
{"id": "C107", "title": "Hooks that raise", "statement": "Implementations of a hook are called in order; the first that raises ends the call. An exception of a hook before a run reaches the caller and nothing is run, whatever force_continue and auto_pdb are. An exception of a hook after a run counts as an exception of what was run: in a plain run all results are lost, with auto_pdb it is debugged and the result is None, with force_continue it is reported for the item, whose result is lost, and the other items are run; user interrupts in it end the program. An exception of a hook before an update leaves config and the caller's dictionary alone; otherwise the caller's dictionary gets what the hooks return, even if the update fails; hooks after an update are called only if it succeeds, and it stays made when they raise. A batch stops at the first update that raises, with those before it made and the hooks after the batch uncalled. A hook that raises while cases are made means that there is no iteration; one that raises in the update for a case means that the case is not run and is not the last case, and the results of the cases before it are lost. An exception of a user's hook after the change of a config leaves config and object changed and everything that depends on them as it was. Refuted: force_continue covers hooks; the result of an item that did not raise is returned; a batch is made as a whole or not at all; dependents are refreshed after every change of a loaded item, or at least when the same update is tried again. Otherwise the cases of all hooks are put together, each hook that changes cases gets what the one before it left, the defaults are those of the last list, and the iteration gives the results of the cases that are to be run, under the cases without defaults.", "quantifier": "all states, hooks (as programs that change the state and may raise), items, settings, updates, cases", "why_tests_cant": "Tests have plugins that return; none raises.", "anchors": ["pyfileconf/main.py:125-160", "pyfileconf/main.py:199-263", "pyfileconf/main.py:319-345", "pyfileconf/main.py:636-673", "pyfileconf/runner/models/runner.py:89-125", "pyfileconf/runner/models/runner.py:378-401", "pyfileconf/batch.py:33-58", "pyfileconf/iterate.py:53-66", "pyfileconf/iterate.py:103-136", "pyfileconf/config/models/manager.py:47-77", "pyfileconf/config/models/manager.py:314-343", "pyfileconf/plugin/default_hooks.py:67-89", "pyfileconf/iterate.py:58-66", "pyfileconf/iterate.py:103-120"]}
{"id": "C108", "title": "What hooks are told while a change spreads", "statement": "pyfileconf_pre_config_changed and pyfileconf_post_config_changed hooks during loads, updates and refreshes. Hooks that do not raise do not influence anything. Loads tell nothing. An update that changes no value tells nothing; one that does tells the hooks of the config as it is and of the updates; if the object is loaded, the user's hooks are told after config and object have changed, then dependents are refreshed with all that is told for them in the same way, and at last the installed packages' hooks are told. Hooks are told before a change only if some value is to become a different one; when the user's hooks are told after a change, the config has the values of the updates, except those that its sections give. A hook that raises ends the whole operation, however deep: nothing more is told and the caller gets its exception. Without values of sections no config changes untold. Refuted: every change is announced (a load takes values of sections into a config, untold); every change is told afterwards (not for items that are not loaded); configs have the values of the updates afterwards; all hooks are told of a change before those of the dependents (installed ones get the opposite order).", "quantifier": "all config files (as programs that read values of other items), values of sections, states, orders of dependents, operations, hooks that may raise depending on all they were told", "why_tests_cant": "Tests have one plugin that counts calls for a single item; none looks at the order of calls or at dependents.", "anchors": ["pyfileconf/config/models/manager.py:47-93", "pyfileconf/config/models/manager.py:314-343", "pyfileconf/runner/models/runner.py:378-401", "pyfileconf/plugin/default_hooks.py:67-89", "pyfileconf/plugin/hookspecs.py:174-220"]}
{"id": "C109", "title": "Item views over the life of their managers", "statement": "While no load of a manager has succeeded (it is new, its first load is going on, or its loads failed), getting, calling and setting its items through views raise PipelineManagerNotLoadedException and change nothing; reading an attribute gives a view for what the selector knows (from whichever manager had the name before) and otherwise raises ItemNotFoundException, never PipelineManagerNotLoadedException. Only names that the manager has itself are found. Reading through a view of a manager that is gone raises KeyError, and so does reading a class dict that the manager now registered has but the one known to the selector had not. A selector cannot be made while any active manager has no registrars. Once a load has succeeded, what views reach is decided by the runner of the last successful load alone: an item that a failed load has added is contained in new selectors, but calling it raises AttributeError, and from then on no item of the manager can be reached through a view. If the last load of every manager succeeded, all this is C65 to C67. Refuted: what a new selector contains can be called; reading says that a manager is not loaded.", "quantifier": "all worlds of managers in any state of loading, selectors of any age, paths, names, arguments and values", "why_tests_cant": "Tests load every manager before they use selectors, and none uses a selector after a load that failed or after a manager was replaced.", "anchors": ["pyfileconf/selector/models/itemview.py:32-72", "pyfileconf/selector/logic/exc/typo.py:9-15", "pyfileconf/main.py:77-93", "pyfileconf/main.py:300-317", "pyfileconf/main.py:545-568", "pyfileconf/selector/models/selector.py:144-186", "pyfileconf/selector/models/itemview.py:96-155"]}
{"id": "C110", "title": "Resets and what depends on the item", "statement": "After a reset that ends well, every config is up to date with its file and persisted updates that was so before, whatever refers to the item, so all are after any history of loads, persisted updates, refreshes and resets. All names in the file of the item have the values that the file gives now. If a config has no remembered updates and no names but those of its file, then a reset undoes any number of persisted updates of names of the file, with loads, refreshes and resets of the item in between: all that was loaded before, also what depends on the item indirectly, has the same values again. The order in which dependents are visited does not matter. Hooks that do not raise change nothing; what is told in a reset, and in which order, is as for updates, it holds, and a hook that raises ends the reset. Refuted: after a reset the config follows its file again (updates that left the values of the file are not forgotten and hide later changes); a reset undoes updates of names that are not in the file; values of sections win over those of the file (the object gets those of the file).", "quantifier": "all files that refer to other items without cycles, user types and their __init__, states, histories of operations, orders of visiting dependents, hooks and depths", "why_tests_cant": "Tests reset single items; none resets an item that others refer to, and none changes what a config refers to after its reset.", "anchors": ["pyfileconf/runner/models/runner.py:385-393", "pyfileconf/config/models/manager.py:95-105", "pyfileconf/config/models/manager.py:160-198", "pyfileconf/config/models/manager.py:264-288", "pyfileconf/config/models/manager.py:79-93", "pyfileconf/config/models/manager.py:312-325"]}
{"id": "C111", "title": "Splitting config files by lines", "statement": "A config file is split at the first line that neither contains the word import nor is blank: from there on it is the assignment section, which is what is kept when the file is rewritten. The import section is what comes before, without the blank lines at its end, except that of blank lines alone the first one stays; nothing else is lost, and newlines are removed at both ends of lines if asked for. A line is split into name and value at its first =, both without whitespace around them, and gives nothing if it has no =. Refuted: the import section does not end with blank lines; it has only imports and blank lines (any text with import in it counts); all imports are in it; what stands before the = is the name assigned to.", "quantifier": "all lists of lines and all lines", "why_tests_cant": "Tests only split files that the library wrote itself.", "anchors": ["pyfileconf/config/logic/load.py:9-43", "pyfileconf/config/logic/load.py:45-61", "pyfileconf/config/logic/load.py:63-83", "pyfileconf/io/file/load/lazy/config.py:28-39"]}
