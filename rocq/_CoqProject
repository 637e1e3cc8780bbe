-Q theories Verif
theories/Py.v
theories/Re.v
theories/ReJoin.v
theories/FloatLib.v
theories/ConvertModel.v
theories/ConvertSpec.v
theories/DurationProofs.v
theories/SizeProofs.v
theories/SortLib.v
theories/StrOrder.v
theories/GrammarSpec.v
theories/ParserModel.v
theories/ParserProofs.v
theories/P_Expr.v
theories/PathModel.v
theories/PathSpec.v
theories/PathProofs.v
theories/EntryModel.v
theories/EntrySpec.v
theories/EntryProofs.v
theories/P_Path.v
theories/P_Convert.v
theories/GlobModel.v
theories/GlobSpec.v
theories/GlobProofs.v
theories/GlobPathProofs.v
theories/OsPath.v
theories/IgnoreModel.v
theories/IgnoreSpec.v
theories/IgnoreProofs.v
theories/IgnoreListProofs.v
theories/IgnoreTreeProofs.v
theories/P_Glob.v
theories/P_Ignore.v
theories/ExprModel.v
theories/ExprSpec.v
theories/ExprProofs.v
theories/TypeModel.v
theories/TypeSpec.v
theories/RegistryModel.v
theories/TestModel.v
theories/TypeProofs.v
theories/TestProofs.v
theories/P_Type.v
theories/RegistrySpec.v
theories/RegistryProofs.v
theories/RefProofs.v
theories/P_Registry.v
theories/ArgsModel.v
theories/ArgsSpec.v
theories/ArgsValueSpec.v
theories/ArgsProofs.v
theories/ArgsMoreProofs.v
theories/ArgsValueProofs.v
theories/ArgsTableProofs.v
theories/P_Args.v
theories/ArgumentsModel.v
theories/ArgumentsSpec.v
theories/SliceProofs.v
theories/DirectoryProofs.v
theories/DepthProofs.v
theories/ArgumentsProofs.v
theories/P_Arguments.v
theories/PermTac.v
theories/WalkModel.v
theories/WalkSpec.v
theories/WalkProofs.v
theories/WalkInvProofs.v
theories/WalkEndProofs.v
theories/WalkScanProofs.v
theories/WalkHaltProofs.v
theories/WalkStatusProofs.v
theories/WalkErrProofs.v
theories/WalkRuns.v
theories/PoolModel.v
theories/PoolSpec.v
theories/PoolProofs.v
theories/StopModel.v
theories/StopProofs.v
theories/P_Walk.v
theories/FieldModel.v
theories/SortModel.v
theories/SortSpec.v
theories/SortProofs.v
theories/SortKeyProofs.v
theories/NaturalProofs.v
theories/SortRunProofs.v
theories/P_Sort.v
theories/CountModel.v
theories/CountSpec.v
theories/CountProofs.v
theories/CountLoopProofs.v
theories/CountPrintProofs.v
theories/CountLinesProofs.v
theories/BaseSpec.v
theories/BaseProofs.v
theories/CountSumProofs.v
theories/P_Count.v
theories/TemplateModel.v
theories/TemplateSpec.v
theories/TemplateProofs.v
theories/BatchModel.v
theories/BatchProofs.v
theories/P_Exec.v
theories/JsonModel.v
theories/JsonSpec.v
theories/JsonProofs.v
theories/ConsoleModel.v
theories/ConsoleSpec.v
theories/ConsoleProofs.v
theories/P_Console.v
theories/CacheModel.v
theories/CacheSpec.v
theories/CacheProofs.v
theories/CacheExamples.v
theories/P_Cache.v
theories/ApiModel.v
theories/ApiSpec.v
theories/ApiProofs.v
theories/ApiExamples.v
theories/P_Api.v
theories/FieldSyntax.v
theories/FieldSyntaxProofs.v
theories/P_Field.v
theories/TimeModel.v
theories/TimeSpec.v
theories/TimeProofs.v
theories/TimeMoreProofs.v
theories/P_Time.v
theories/HumanModel.v
theories/HumanSpec.v
theories/HumanProofs.v
theories/HumanOrderProofs.v
theories/P_Human.v
theories/GlobExactProofs.v
theories/SearchModel.v
theories/SearchSpec.v
theories/SearchTestProofs.v
theories/SearchProofs.v
theories/SearchTreeProofs.v
theories/SearchEndProofs.v
theories/SearchRuns.v
theories/P_Search.v
theories/ReferenceModel.v
theories/ReferenceSpec.v
theories/ReferenceProofs.v
theories/ReferenceTestProofs.v
theories/P_Reference.v
theories/LinkModel.v
theories/LinkSpec.v
theories/LinkProofs.v
theories/P_Link.v
theories/GitModel.v
theories/GitSpec.v
theories/GitProofs.v
theories/P_Git.v
theories/OutputModel.v
theories/OutputSpec.v
theories/OutputProofs.v
theories/OutputRunProofs.v
theories/OutputRuns.v
theories/P_Output.v
theories/AttributeModel.v
theories/AttributeProofs.v
theories/P_Attribute.v
theories/PluginModel.v
theories/PluginSpec.v
theories/PluginProofs.v
theories/P_Plugin.v
theories/TextSpec.v
theories/TextProofs.v
theories/P_Text.v
theories/ActionModel.v
theories/ActionSpec.v
theories/ActionProofs.v
theories/ActionRuns.v
theories/P_Action.v
theories/CarryModel.v
theories/CarrySpec.v
theories/CarryProofs.v
theories/CarrySearchProofs.v
theories/CarryRuns.v
theories/CarryWhereProofs.v
theories/P_Carry.v
theories/MediaModel.v
theories/MediaSpec.v
theories/MediaProofs.v
theories/P_Media.v
theories/DeviceSpec.v
theories/DeviceProofs.v
theories/DeviceRuns.v
theories/P_Device.v
theories/NoColourProofs.v
theories/ColourSpec.v
theories/ColourProofs.v
theories/P_Colour.v
theories/PresentModel.v
theories/PresentSpec.v
theories/PresentProofs.v
theories/P_Present.v
theories/TestValueProofs.v
theories/P_Test.v
theories/ShlexModel.v
theories/ShlexSpec.v
theories/ShlexProofs.v
theories/P_Shlex.v
theories/OptionSpec.v
theories/OptionProofs.v
theories/P_Option.v
theories/StartModel.v
theories/StartSpec.v
theories/StartProofs.v
theories/P_Start.v
theories/LoadModel.v
theories/LoadSpec.v
theories/LoadProofs.v
theories/P_Load.v
theories/MainModel.v
theories/MainSpec.v
theories/MainProofs.v
theories/MainRunProofs.v
theories/MainRuns.v
theories/P_Main.v
theories/HelpModel.v
theories/HelpSpec.v
theories/HelpProofs.v
theories/HelpPageProofs.v
theories/HelpRuns.v
theories/P_Help.v
theories/WrapModel.v
theories/LogModel.v
theories/LogSpec.v
theories/WrapProofs.v
theories/LogProofs.v
theories/P_Log.v
theories/UsageModel.v
theories/UsageSpec.v
theories/UsageProofs.v
theories/ManualProofs.v
theories/P_Usage.v
theories/ListsModel.v
theories/ListsSpec.v
theories/ListsProofs.v
theories/P_Lists.v
theories/ElfModel.v
theories/ElfSpec.v
theories/ElfProofs.v
theories/P_Elf.v
theories/DocSpec.v
theories/DocProofs.v
theories/P_Doc.v
theories/TraceModel.v
theories/TraceSpec.v
theories/TraceProofs.v
theories/P_Trace.v
theories/LawSpec.v
theories/LawProofs.v
theories/P_Law.v
theories/DepthLawSpec.v
theories/DepthLawProofs.v
theories/P_DepthLaw.v
theories/LocalSpec.v
theories/LocalProofs.v
theories/P_Local.v
theories/PrintModel.v
theories/PrintSpec.v
theories/PrintProofs.v
theories/P_Print.v
theories/RewriteSpec.v
theories/RewriteProofs.v
theories/P_Rewrite.v
theories/FollowModel.v
theories/FollowSpec.v
theories/FollowProofs.v
theories/FollowRuns.v
theories/P_Follow.v
theories/MountedModel.v
theories/MountedSpec.v
theories/MountedProofs.v
theories/MountedRuns.v
theories/P_Mounted.v
theories/ArrayModel.v
theories/ArrayProofs.v
theories/ArrayRuns.v
theories/P_Array.v
theories/PipeModel.v
theories/PipeSpec.v
theories/PipeProofs.v
theories/P_Pipe.v
theories/IterModel.v
theories/IterSpec.v
theories/IterProofs.v
theories/P_Iter.v
theories/InterruptModel.v
theories/InterruptProofs.v
theories/P_Interrupt.v
theories/QueryModel.v
theories/QueryProofs.v
theories/P_Query.v
