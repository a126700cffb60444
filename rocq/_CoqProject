-Q theories Verif
theories/Agree.v
theories/Arr.v
theories/BidiFacts.v
theories/BidiProps.v
theories/BidiShipped.v
theories/Build.v
theories/BuildFacts.v
theories/BuildRun.v
theories/BuilderArgs.v
theories/BuilderFacts.v
theories/BuilderMain.v
theories/Bytes.v
theories/CPTrie.v
theories/CPTrieBinary.v
theories/CPTrieBuild.v
theories/CPTrieEnum.v
theories/CPTrieExact.v
theories/CPTrieLazy.v
theories/CPTrieLookup.v
theories/CPTrieNever.v
theories/CPTrieRuns.v
theories/CPTrieStuck.v
theories/CaseFacts.v
theories/CaseProps.v
theories/CaseShipped.v
theories/CharNames.v
theories/CharProps.v
theories/CharPropsFacts.v
theories/CharRuns.v
theories/CharShipped.v
theories/CsvFacts.v
theories/CsvReader.v
theories/Data_Bidi.v
theories/Data_Case.v
theories/Data_CharProps.v
theories/Data_Modules.v
theories/Data_NFC.v
theories/Data_Names.v
theories/Data_Tests.v
theories/Data_Text.v
theories/Dict.v
theories/DictFacts.v
theories/EnumNatural.v
theories/EnumShipped.v
theories/Exhaustive.v
theories/ExhaustiveFacts.v
theories/ExprFacts.v
theories/HeaderDecls.v
theories/HeaderFacts.v
theories/HeaderFile.v
theories/HeaderValues.v
theories/HexFacts.v
theories/ICUDataFile.v
theories/ICUFacts.v
theories/ICUItems.v
theories/ICUKept.v
theories/MasterRuns.v
theories/ModuleBuilder.v
theories/ModuleFacts.v
theories/NamesFacts.v
theories/NamesFile.v
theories/NamesIter.v
theories/NamesLengths.v
theories/NamesMore.v
theories/NormDecompType.v
theories/NormFacts.v
theories/NormHangul.v
theories/NormShipped.v
theories/NormTable.v
theories/Normalizer2.v
theories/Normalizer2File.v
theories/ParseFacts.v
theories/Prop_Args.v
theories/Prop_BidiProps.v
theories/Prop_Breaks.v
theories/Prop_Build.v
theories/Prop_Builder.v
theories/Prop_BuilderMain.v
theories/Prop_CPExact.v
theories/Prop_CPLazy.v
theories/Prop_CPTrie.v
theories/Prop_Canonical.v
theories/Prop_CaseKeeps.v
theories/Prop_CaseKey.v
theories/Prop_CaseNorm.v
theories/Prop_CaseProps.v
theories/Prop_CharNames.v
theories/Prop_CharProps.v
theories/Prop_Collect.v
theories/Prop_CountRuns.v
theories/Prop_Counting.v
theories/Prop_Csv.v
theories/Prop_Dictionaries.v
theories/Prop_Digits.v
theories/Prop_Encodings.v
theories/Prop_Enum.v
theories/Prop_Enumerate.v
theories/Prop_Exhaustive.v
theories/Prop_Grammar.v
theories/Prop_Header.v
theories/Prop_HeaderValues.v
theories/Prop_Histories.v
theories/Prop_ICUDataFile.v
theories/Prop_IndexKept.v
theories/Prop_LastChange.v
theories/Prop_Lazy.v
theories/Prop_Mirror.v
theories/Prop_Modules.v
theories/Prop_NameFields.v
theories/Prop_NormValues.v
theories/Prop_Normalizer2.v
theories/Prop_OtherInts.v
theories/Prop_Outputs.v
theories/Prop_Paths.v
theories/Prop_RangeCounts.v
theories/Prop_Rebuild.v
theories/Prop_Search.v
theories/Prop_SetExact.v
theories/Prop_SetIdioms.v
theories/Prop_SetOrder.v
theories/Prop_SetProgram.v
theories/Prop_SetText.v
theories/Prop_SetValues.v
theories/Prop_Text.v
theories/Prop_TextChars.v
theories/Prop_TextFiles.v
theories/Prop_Tuples.v
theories/Prop_UCD.v
theories/Prop_UTrie2.v
theories/Prop_UnicodeSet.v
theories/Prop_Utilities.v
theories/Prop_Values.v
theories/Prop_Windows.v
theories/Py.v
theories/PyEval.v
theories/PyModule.v
theories/PyParse.v
theories/PyStr.v
theories/PyText.v
theories/RepoTests.v
theories/Runs.v
theories/SetLanguage.v
theories/SetProgram.v
theories/SetProgramFacts.v
theories/SpecChar.v
theories/SpecProgram.v
theories/SpecSet.v
theories/SpecText.v
theories/TextChars.v
theories/TextCodec.v
theories/TextCodecFacts.v
theories/TextFacts.v
theories/TextFilesFacts.v
theories/TextMade.v
theories/UCD.v
theories/UCDFacts.v
theories/UCDIndex.v
theories/UCDIndexFacts.v
theories/UTrie2.v
theories/UTrie2Build.v
theories/UTrie2Enum.v
theories/UTrie2EnumAll.v
theories/UTrie2EnumMany.v
theories/UTrie2EnumVal.v
theories/UTrie2Lazy.v
theories/UTrie2Lookup.v
theories/UTrie2Runs.v
theories/UnicodeSet.v
theories/UnicodeSetFacts.v
theories/UnicodeSetHeap.v
theories/UnicodeSetLaws.v
theories/UnicodeSetMerge.v
theories/UnicodeSetOps.v
theories/UnicodeSetReach.v
theories/UnicodeSetText.v
theories/UnicodeSetUnion.v
theories/UnicodeSetViews.v
theories/Utilities.v
theories/UtilitiesFacts.v
