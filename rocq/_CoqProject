-Q theories Verif
theories/Str.v
theories/Util.v
theories/StrFacts.v
theories/SpecUtil.v
theories/UtilFacts.v
theories/PropertiesUtil.v
theories/Config.v
theories/SpecConfig.v
theories/ConfigFacts.v
theories/PropertiesConfig.v
theories/Ast.v
theories/Types.v
theories/Func.v
theories/Enum.v
theories/Includes.v
theories/Class.v
theories/Context.v
theories/SpecContext.v
theories/ContextFacts.v
theories/SortFacts.v
theories/WriteFacts.v
theories/TotalFacts.v
theories/SpecTypes.v
theories/SpecIncludes.v
theories/IncludesFacts.v
theories/RunFacts.v
theories/Samples.v
theories/PropertiesContext.v
theories/Regex.v
theories/RegexFacts.v
theories/TypesFacts.v
theories/NamesFacts.v
theories/PropertiesTypes.v
theories/SpecBind.v
theories/BindFacts.v
theories/PropertiesBind.v
theories/SpecClass.v
theories/ClassFacts.v
theories/StructFacts.v
theories/PropertiesClass.v
theories/SpecOutput.v
theories/PropertiesOutput.v
theories/Disk.v
theories/SpecDisk.v
theories/DiskFacts.v
theories/PropertiesDisk.v
theories/Memo.v
theories/SpecMemo.v
theories/MemoFacts.v
theories/PropertiesMemo.v
theories/StlBinders.v
theories/PropertiesStl.v
theories/SpecSettings.v
theories/SettingsFacts.v
theories/SettingsOrder.v
theories/SettingsRun.v
theories/Program.v
theories/ProgramFacts.v
theories/PropertiesProgram.v
theories/SpecLayout.v
theories/LayoutFacts.v
theories/LayoutRun.v
theories/PropertiesLayout.v
theories/SpecOrder.v
theories/OrderFacts.v
theories/PropertiesOrder.v
theories/SpecRequests.v
theories/RequestFacts.v
theories/PropertiesRequests.v
theories/SpecLex.v
theories/LexFacts.v
theories/LexText.v
theories/LexRun.v
theories/LexCheck.v
theories/PropertiesLex.v
theories/SpecImport.v
theories/ImportFacts.v
theories/ImportText.v
theories/PropertiesImport.v
theories/SpecStructure.v
theories/PropertiesStructure.v
theories/Scope.v
theories/SpecScope.v
theories/PropertiesScope.v
theories/SpecStyle.v
theories/StyleFacts.v
theories/StyleRun.v
theories/StyleConfig.v
theories/PropertiesStyle.v
theories/SpecMonotone.v
theories/MonotoneNames.v
theories/MonotoneFacts.v
theories/MonotoneConfig.v
theories/PropertiesMonotone.v
theories/PropertiesGrowth.v
theories/Fmt.v
theories/SpecFmt.v
theories/FmtFacts.v
theories/FmtStrings.v
theories/FmtTexts.v
theories/Formatted.v
theories/PropertiesFmt.v
theories/SpecAttributes.v
theories/AttributeFacts.v
theories/PropertiesAttributes.v
theories/SpecModules.v
theories/ModuleFacts.v
theories/PropertiesModules.v
theories/SpecCalls.v
theories/PropertiesCalls.v
theories/SpecNested.v
theories/PropertiesNested.v
theories/SpecHeaders.v
theories/PropertiesHeaders.v
theories/SpecHistory.v
theories/PropertiesHistory.v
theories/SpecStable.v
theories/PropertiesStable.v
theories/Console.v
theories/SpecConsole.v
theories/ConsoleFacts.v
theories/PropertiesConsole.v
theories/FailFacts.v
theories/SpecFail.v
theories/PropertiesFail.v
theories/SpecLines.v
theories/LinesFacts.v
theories/PropertiesLines.v
theories/SpecAbsent.v
theories/AbsentFacts.v
theories/AbsentRead.v
theories/PropertiesAbsent.v
theories/SpecSpelling.v
theories/PropertiesSpelling.v
theories/DocText.v
theories/SpecUnbound.v
theories/UnboundFacts.v
theories/PropertiesUnbound.v
theories/SpecDirectives.v
theories/PropertiesDirectives.v
theories/SpecSkips.v
theories/SkipsFacts.v
theories/PropertiesSkips.v
theories/SpecReject.v
theories/PropertiesReject.v
theories/PropertiesEnums.v
theories/SpecOptionLines.v
theories/PropertiesOptionLines.v
theories/SpecLeftOut.v
theories/PropertiesLeftOut.v
theories/SpecFunctions.v
theories/PropertiesFunctions.v
theories/SpecBoundTypes.v
theories/PropertiesBoundTypes.v
theories/SpecOrigin.v
theories/PropertiesOrigin.v
theories/Reference.v
