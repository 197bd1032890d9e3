-Q theories Verif
theories/PyBase.v
theories/PyFacts.v
theories/Regex.v
theories/RegexFacts.v
theories/Utf8.v
theories/H5.v
theories/Findings.v
theories/Nxdl.v
theories/Core.v
theories/Catalog.v
theories/ItemName.v
theories/AttributeCheck.v
theories/Spec_Number.v
theories/NumberFacts.v
theories/GroupChecks.v
theories/AppDef.v
theories/DefaultPlot.v
theories/Validate.v
theories/Trace.v
theories/CheckFacts.v
theories/Report.v
theories/Samples.v
theories/Spec_Report.v
theories/ReportFacts.v
theories/CatalogFacts.v
theories/SampleFacts.v
theories/Properties_Report.v
theories/Spec_Regex.v
theories/Spec_Names.v
theories/RegexRead.v
theories/NameFacts.v
theories/Spec_Run.v
theories/RunFacts.v
theories/NameRun.v
theories/ClassNameRun.v
theories/Spec_Cache.v
theories/CacheFacts.v
theories/NameSamples.v
theories/Properties_Names.v
theories/Spec_Catalog.v
theories/PathFacts.v
theories/CatalogRun.v
theories/AddressFacts.v
theories/CatalogEnd.v
theories/CatalogTerm.v
theories/AddrRecord.v
theories/CatalogSamples.v
theories/Properties_Catalog.v
theories/Spec_Moments.v
theories/MomentFacts.v
theories/StepOne.v
theories/FindingSamples.v
theories/Properties_Findings.v
theories/Spec_Attributes.v
theories/PresenceFacts.v
theories/AttrRun.v
theories/AttrTotal.v
theories/AttrSamples.v
theories/Properties_Attributes.v
theories/Spec_Groups.v
theories/GroupRun.v
theories/AttrMore.v
theories/GroupEnd.v
theories/GroupSamples.v
theories/Properties_Groups.v
theories/SimFacts.v
theories/Spec_History.v
theories/HistoryFacts.v
theories/Handles.v
theories/Spec_Handles.v
theories/HandleFacts.v
theories/HistoryEnd.v
theories/Properties_History.v
theories/Spec_Plot.v
theories/PlotFacts.v
theories/PlotV2.v
theories/PlotEnd.v
theories/PlotRun.v
theories/PlotLink.v
theories/PlotSamples.v
theories/Properties_Plot.v
theories/Spec_AppDef.v
theories/AppFacts.v
theories/AppRun.v
theories/Properties_AppDef.v
theories/Spec_Values.v
theories/ValueFacts.v
theories/Properties_Values.v
theories/NxdlLoad.v
theories/Spec_Nxdl.v
theories/NxdlFacts.v
theories/NxdlShared.v
theories/NxdlSamples.v
theories/Properties_Nxdl.v
theories/Cache.v
theories/Spec_FileSets.v
theories/CacheSetFacts.v
theories/Properties_Cache.v
theories/Install.v
theories/Spec_Install.v
theories/InstallFacts.v
theories/InstallEnd.v
theories/InstallSafe.v
theories/Properties_Install.v
theories/H5Tree.v
theories/Spec_Tree.v
theories/TreeFacts.v
theories/TreeEnd.v
theories/Properties_Tree.v
theories/Spec_TreeMembers.v
theories/TreeMembers.v
theories/Properties_TreeMembers.v
theories/Cli.v
theories/Spec_Cli.v
theories/CliFacts.v
theories/Properties_Cli.v
theories/SchemaMgr.v
theories/ShippedXsd.v
theories/Spec_Schema.v
theories/SchemaFacts.v
theories/Properties_Schema.v
theories/NxdlSchema.v
theories/ShippedLines.v
theories/Session.v
theories/Spec_Session.v
theories/SessionFacts.v
theories/SessionSamples.v
theories/Spec_Defaults.v
theories/DefaultsHeap.v
theories/DefaultsParse.v
theories/DefaultsCat.v
theories/DefaultsTypes.v
theories/DefaultsSummary.v
theories/DefaultsEnd.v
theories/DefaultsCheck.v
theories/DefaultsLayout.v
theories/DefaultsRules.v
theories/Properties_Defaults.v
theories/Properties_Session.v
theories/Spec_Statuses.v
theories/StatusFacts.v
theories/Properties_Statuses.v
theories/Spec_Dims.v
theories/Properties_Dims.v
theories/Args.v
theories/Main.v
theories/Spec_Args.v
theories/ArgsFacts.v
theories/ArgsEnd.v
theories/ArgsCodes.v
theories/Properties_Main.v
theories/Json.v
theories/JsonFacts.v
theories/JsonEnd.v
theories/InfoFile.v
theories/Spec_Info.v
theories/InfoFacts.v
theories/InfoCrash.v
theories/Properties_Info.v
theories/Whole.v
theories/Spec_Whole.v
theories/WholeFacts.v
theories/WholeSamples.v
theories/Properties_Whole.v
theories/Properties_Others.v
theories/Managers.v
theories/NeverFacts.v
theories/Spec_Managers.v
theories/Properties_Managers.v
theories/Conc.v
theories/Spec_Conc.v
theories/ConcFacts.v
theories/ConcAlone.v
theories/Properties_Conc.v
theories/Properties_Chosen.v
theories/Properties_Loaded.v
theories/Spec_Success.v
theories/SuccessFacts.v
theories/Properties_Success.v
theories/Listing.v
theories/Spec_Listing.v
theories/ListingFacts.v
theories/Properties_Listing.v
theories/Spec_Live.v
theories/Properties_Live.v
theories/Spec_Copy.v
theories/Spec_Data.v
theories/CopyFacts.v
theories/Properties_Copy.v
theories/Spec_Effort.v
theories/EffortFacts.v
theories/Properties_Effort.v
theories/Texts.v
theories/TextFacts.v
theories/Properties_Texts.v
theories/Spec_Complete.v
theories/CompleteFacts.v
theories/Properties_Complete.v
theories/Spec_Verdict.v
theories/VerdictFacts.v
theories/Properties_Verdict.v
theories/Spec_TreeText.v
theories/TreeText.v
theories/Properties_TreeText.v
theories/Spec_Order.v
theories/OrderWorld.v
theories/OrderSim.v
theories/OrderFacts.v
theories/OrderRun.v
theories/OrderPlot.v
theories/Properties_Order.v
theories/Spec_Structure.v
theories/StructureFacts.v
theories/Properties_Structure.v
theories/Spec_Json.v
theories/JsonRead.v
theories/Properties_Json.v
theories/Properties_Patterns.v
theories/DataFacts.v
theories/Properties_Data.v
theories/ArgsDashes.v
theories/Properties_Dashes.v
theories/Properties_Exit.v
theories/Spec_Classes.v
theories/ClassUse.v
theories/Properties_Named.v
theories/Spec_Errors.v
theories/Raises.v
theories/Properties_Errors.v
theories/NxdlPrint.v
theories/Spec_Print.v
theories/PrintFacts.v
theories/Properties_Print.v
theories/Spec_Extra.v
theories/ExtraFacts.v
theories/Properties_Extra.v
theories/Spec_TreeOrder.v
theories/TreeOrderFacts.v
theories/Properties_TreeOrder.v
theories/Spec_Bare.v
theories/BareFacts.v
theories/Properties_Bare.v
theories/Spec_Proper.v
theories/ProperFacts.v
theories/Properties_Proper.v
theories/Spec_SetFiles.v
theories/SetFilesFacts.v
theories/Properties_SetFiles.v
theories/Spec_Items.v
theories/ItemsFacts.v
theories/Properties_Items.v
theories/Properties_Again.v
theories/Properties_Both.v
theories/Properties_Recovery.v
theories/Properties_Disturbed.v
