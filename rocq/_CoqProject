-Q theories Verif
theories/Py_Str.v
theories/Py_Exn.v
theories/Py_Dict.v
theories/PosixPath_Model.v
theories/SectionPath_Model.v
theories/SectionPath_Proofs.v
theories/SectionPath_Props.v
theories/Registry_Model.v
theories/Registry_Spec.v
theories/Registry_Proofs.v
theories/Registry_Props.v
theories/Py_Val.v
theories/Config_Model.v
theories/Config_Spec.v
theories/Config_Proofs.v
theories/Config_Props.v
theories/ConfigTree_Model.v
theories/ConfigTree_Spec.v
theories/ConfigTree_Proofs.v
theories/ConfigOps_Proofs.v
theories/ConfigLoad_Proofs.v
theories/ConfigTree_Example.v
theories/ConfigTree_Props.v
theories/ConfigWf_Proofs.v
theories/Collection_Model.v
theories/Runner_Model.v
theories/Runner_Spec.v
theories/Runner_Proofs.v
theories/RunnerOps_Proofs.v
theories/Runner_Example.v
theories/Runner_Props.v
theories/Run_Spec.v
theories/Run_Proofs.v
theories/RunList_Proofs.v
theories/Run_Props.v
theories/GetAttr_Model.v
theories/GetAttr_Spec.v
theories/GetAttr_Proofs.v
theories/GetAttr_Props.v
theories/Batch_Model.v
theories/Iterate_Model.v
theories/Iterate_Spec.v
theories/Product_Proofs.v
theories/Iterate_Proofs.v
theories/IterateRun_Proofs.v
theories/IterateCase_Proofs.v
theories/Batch_Proofs.v
theories/Iterate_Example.v
theories/Iterate_Props.v
theories/IterateSame_Spec.v
theories/IterateSame_Proofs.v
theories/IterateSame_Props.v
theories/Batch_Props.v
theories/Opts_Model.v
theories/Opts_Spec.v
theories/Opts_Proofs.v
theories/Opts_Props.v
theories/Stdout_Model.v
theories/Stdout_Spec.v
theories/Stdout_Proofs.v
theories/Stdout_Props.v
theories/Context_Model.v
theories/Context_Spec.v
theories/Context_Proofs.v
theories/Context_Props.v
theories/Deps_Model.v
theories/Deps_Spec.v
theories/Deps_Proofs.v
theories/DepsEnd_Proofs.v
theories/DepsOrder_Proofs.v
theories/Deps_Props.v
theories/PipeDict_Model.v
theories/PipeDict_Spec.v
theories/PipeDict_Proofs.v
theories/PipeDictText_Proofs.v
theories/PipeDict_Props.v
theories/Imports_Model.v
theories/PySource_Model.v
theories/PySource_Spec.v
theories/PySource_Proofs.v
theories/Imports_Proofs.v
theories/Imports_Props.v
theories/FileStr_Model.v
theories/FileStr_Spec.v
theories/FileStr_Proofs.v
theories/FileStrRead_Proofs.v
theories/FileStrOps_Proofs.v
theories/FileStr_Props.v
theories/Modules_Model.v
theories/Modules_Spec.v
theories/Modules_Proofs.v
theories/Modules_Props.v
theories/Selector_Model.v
theories/Selector_Spec.v
theories/Selector_Proofs.v
theories/Selector_Props.v
theories/Project_Model.v
theories/Project_Spec.v
theories/Project_Proofs.v
theories/ProjectWalk_Proofs.v
theories/ProjectEx_Proofs.v
theories/Project_Props.v
theories/FuncArgs_Model.v
theories/FuncArgs_Spec.v
theories/FuncArgs_Proofs.v
theories/FuncArgs_Props.v
theories/Clash_Spec.v
theories/Clash_Proofs.v
theories/Clash_Props.v
theories/View_Model.v
theories/View_Spec.v
theories/View_Proofs.v
theories/View_Props.v
theories/Names_Model.v
theories/Names_Spec.v
theories/Names_Proofs.v
theories/Names_Props.v
theories/Report_Model.v
theories/Report_Spec.v
theories/Report_Proofs.v
theories/Report_Props.v
theories/Setup_Model.v
theories/Setup_Spec.v
theories/Setup_Proofs.v
theories/SetupFiles_Proofs.v
theories/SetupLoad_Proofs.v
theories/SetupEx_Spec.v
theories/SetupEx_Proofs.v
theories/Setup_Props.v
theories/Exec_Model.v
theories/Exec_Spec.v
theories/Exec_Proofs.v
theories/ExecRules_Spec.v
theories/ExecRules_Proofs.v
theories/ExecText_Proofs.v
theories/ExecSave_Proofs.v
theories/ExecEx_Spec.v
theories/ExecEx_Proofs.v
theories/Exec_Props.v
theories/ExecRun_Proofs.v
theories/ExecRunEx_Spec.v
theories/ExecRunEx_Proofs.v
theories/ExecRun_Props.v
theories/ClassRun_Spec.v
theories/ClassRunEx_Spec.v
theories/ClassRun_Proofs.v
theories/ClassRunEx_Proofs.v
theories/ClassRun_Props.v
theories/ClassNames_Model.v
theories/ClassNames_Spec.v
theories/ClassNames_Proofs.v
theories/ClassNames_Props.v
theories/FindFile_Model.v
theories/FindFile_Spec.v
theories/FindFile_Proofs.v
theories/FindFile_Props.v
theories/ItemLoad_Model.v
theories/ItemLoad_Spec.v
theories/ItemLoad_Proofs.v
theories/ItemLoad_Props.v
theories/Dir_Model.v
theories/Dir_Spec.v
theories/Dir_Proofs.v
theories/Dir_Props.v
theories/Always_Model.v
theories/Always_Spec.v
theories/Always_Proofs.v
theories/Always_Props.v
theories/Plugins_Model.v
theories/Plugins_Spec.v
theories/Plugins_Proofs.v
theories/Plugins_Props.v
theories/SectionDeps_Model.v
theories/SectionDeps_Spec.v
theories/SectionDeps_Proofs.v
theories/SectionDeps_Props.v
theories/DictFile_Model.v
theories/DictFile_Spec.v
theories/DictFile_Proofs.v
theories/DictFile_Props.v
theories/ViewClass_Model.v
theories/ViewClass_Spec.v
theories/ViewClass_Proofs.v
theories/ViewClass_Props.v
theories/Create_Model.v
theories/Create_Spec.v
theories/Create_Proofs.v
theories/CreateEx_Spec.v
theories/CreateEx_Proofs.v
theories/Create_Props.v
theories/FilePath_Model.v
theories/FilePath_Spec.v
theories/FilePath_Proofs.v
theories/FilePath_Props.v
theories/Alias_Model.v
theories/Alias_Spec.v
theories/Alias_Proofs.v
theories/Alias_Props.v
theories/RemovedFile_Spec.v
theories/RemovedFile_Proofs.v
theories/RemovedFile_Props.v
theories/AliasIterate_Model.v
theories/AliasIterate_Spec.v
theories/AliasIterate_Proofs.v
theories/AliasIterate_Props.v
theories/BelowItem_Spec.v
theories/BelowItem_Proofs.v
theories/BelowItem_Props.v
theories/Layout_Spec.v
theories/Layout_Proofs.v
theories/Layout_Props.v
theories/SetupErr_Spec.v
theories/SetupErr_Proofs.v
theories/SetupErr_Props.v
theories/RunErr_Proofs.v
theories/RunErr_Props.v
theories/CreateErr_Spec.v
theories/CreateErr_Proofs.v
theories/CreateErr_Props.v
theories/Hidden_Spec.v
theories/Hidden_Proofs.v
theories/Hidden_Props.v
theories/Isolation_Spec.v
theories/Isolation_Proofs.v
theories/IsolationTwin_Proofs.v
theories/IsolationRun_Proofs.v
theories/Isolation_Props.v
theories/Managers_Spec.v
theories/Managers_Proofs.v
theories/Managers_Props.v
theories/Failed_Spec.v
theories/Failed_Proofs.v
theories/Failed_Props.v
theories/BatchReset_Spec.v
theories/BatchReset_Proofs.v
theories/BatchReset_Props.v
theories/LastSet_Spec.v
theories/LastSet_Proofs.v
theories/LastSet_Props.v
theories/OneArg_Spec.v
theories/OneArg_Proofs.v
theories/OneArg_Props.v
theories/Again_Spec.v
theories/Again_Proofs.v
theories/Again_Props.v
theories/Parts_Spec.v
theories/Parts_Proofs.v
theories/Parts_Props.v
theories/EditFiles_Spec.v
theories/EditFiles_Proofs.v
theories/EditFiles_Props.v
theories/Inside_Model.v
theories/Inside_Spec.v
theories/Inside_Proofs.v
theories/Inside_Props.v
theories/FromObj_Model.v
theories/FromObj_Spec.v
theories/FromObj_Proofs.v
theories/FromObj_Props.v
theories/Session_Model.v
theories/Session_Spec.v
theories/Session_Proofs.v
theories/SessionText_Proofs.v
theories/Session_Props.v
theories/AstDict_Model.v
theories/AstDict_Spec.v
theories/AstDict_Proofs.v
theories/AstDict_Props.v
theories/Container_Model.v
theories/Container_Spec.v
theories/Container_Proofs.v
theories/Container_Props.v
theories/Debug_Model.v
theories/Debug_Spec.v
theories/Debug_Props.v
theories/Merge_Model.v
theories/Merge_Spec.v
theories/Merge_Proofs.v
theories/Merge_Props.v
theories/Whole_Model.v
theories/Whole_Spec.v
theories/Whole_Proofs.v
theories/WholeEx_Spec.v
theories/WholeEx_Proofs.v
theories/Whole_Props.v
theories/Hooks_Model.v
theories/Hooks_Spec.v
theories/Hooks_Proofs.v
theories/Hooks_Props.v
theories/Spread_Model.v
theories/Spread_Spec.v
theories/Spread_Proofs.v
theories/Spread_Props.v
theories/Phase_Model.v
theories/Phase_Spec.v
theories/Phase_Proofs.v
theories/Phase_Props.v
theories/Undo_Model.v
theories/Undo_Spec.v
theories/Undo_Proofs.v
theories/Undo_Props.v
theories/Lines_Model.v
theories/Lines_Spec.v
theories/Lines_Proofs.v
theories/Lines_Props.v
