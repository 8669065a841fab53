-Q theories Verif

theories/PyStr.v
theories/Value.v
theories/Shlex.v
theories/ArgParse.v
theories/Options.v
theories/Version.v
theories/TextSpec.v
theories/PyStrFacts.v
theories/ShlexFacts.v
theories/WordSpec.v
theories/WordFacts.v
theories/OptionsFacts.v
theories/VersionFacts.v
theories/ArgSpec.v
theories/ArgParseFacts.v
theories/ArgLineFacts.v
theories/ArgErrFacts.v
theories/Preprocess.v
theories/PreSpec.v
theories/PreFacts.v
theories/ArgDecl.v
theories/Packages.v
theories/PkgSpec.v
theories/PkgFacts.v
theories/Sections.v
theories/Parser.v
theories/Handler.v
theories/ArgLabelFacts.v
theories/ArgDeclFacts.v
theories/ArgSimple.v
theories/ArgTable.v
theories/ParserSpec.v
theories/ParserFacts.v
theories/ParserRel.v
theories/ParserLines.v
theories/ParserRun.v
theories/ParserPaste.v
theories/SectSpec.v
theories/SectFacts.v
theories/PkgHeadSpec.v
theories/PkgHeadFacts.v
theories/PkgTextSpec.v
theories/PkgTextFacts.v
theories/HandlerSpec.v
theories/HandlerFacts.v
theories/ClassTable.v
theories/HandlerMaps.v
theories/ClassModel.v
theories/MiniPy.v
theories/CmdTables.v
theories/CmdCode.v
theories/PyClass.v
theories/PyCheck.v
theories/PyCheckFacts.v
theories/NsFacts.v
theories/PyKeep.v
theories/PyFlow.v
theories/PyFlowFacts.v
theories/PyStrict.v
theories/PyText.v
theories/PyTextFacts.v
theories/PyWords.v
theories/PyWordsFacts.v
theories/PyRound.v
theories/PyRoundFacts.v
theories/PySame.v
theories/PySameFacts.v
theories/NsRange.v
theories/PropsText.v
theories/PropsArgs.v
theories/PropsPre.v
theories/PropsPkg.v
theories/PropsParse.v
theories/PropsSect.v
theories/PropsHead.v
theories/PropsPkgText.v
theories/PropsHandler.v
theories/PropsClass.v
theories/CmdFacts.v
theories/CmdFlow.v
theories/CmdLines.v
theories/CmdStrict.v
theories/PropsStorage.v
theories/RuleSpec.v
theories/RuleFacts.v
theories/PropsStore.v
theories/PropsRules.v
theories/Method.v
theories/MethodFacts.v
theories/PropsMethod.v
theories/ArgOne.v
theories/RoundSpec.v
theories/CmdWord.v
theories/CmdRound.v
theories/PropsRound.v
theories/PropsDash.v
theories/WholeSpec.v
theories/PropsFile.v
theories/PyLine.v
theories/CmdPlace.v
theories/PropsMaps.v
theories/PropsPlace.v
theories/PropsNames.v
theories/CmdFile.v
theories/PropsWhole.v
theories/PyInit.v
theories/PropsInit.v
theories/PyMark.v
theories/PropsMark.v
theories/RealmSpec.v
theories/Realm.v
theories/RealmFacts.v
theories/PropsRealm.v
theories/PropsRepo.v
theories/NamedFacts.v
theories/PropsNamed.v
theories/PropsInstall.v
theories/PropsProbe.v
theories/PropsKey.v
theories/PropsQuotes.v
theories/PropsSwitch.v
theories/PropsUrl.v
theories/PropsDriverdisk.v
theories/PropsTimesource.v
theories/PropsRootpw.v
theories/Tools.v
theories/ToolsFacts.v
theories/PropsTools.v
theories/PropsFlatten.v
theories/PropsShell.v
theories/VerDiff.v
theories/PropsVerdiff.v
theories/Multipath.v
theories/PropsMultipath.v
theories/Load.v
theories/PropsLoad.v
