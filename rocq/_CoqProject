-Q theories Verif
theories/PyStr.v
theories/PyBase.v
theories/Names.v
theories/State.v
theories/Ops.v
theories/Parser.v
theories/Render.v
theories/Csv.v
theories/Slug.v
theories/TextRows.v
theories/Maint.v
theories/Misc.v
theories/Attr.v
theories/Files.v
theories/Cli.v
theories/PyTests.v
theories/StrFacts.v
theories/HeapFacts.v
theories/SpecNames.v
theories/NameFacts.v
theories/ConstructFacts.v
theories/PropNames.v
theories/SpecOrder.v
theories/OrderFacts.v
theories/PropOrder.v
theories/SpecText.v
theories/TextFacts.v
theories/LineFacts.v
theories/CsvFacts.v
theories/SlugFacts.v
theories/PropText.v
theories/ListFacts.v
theories/SpecTree.v
theories/SpecStray.v
theories/TreeFacts.v
theories/YamlFacts.v
theories/SpecUrl.v
theories/UrlFacts.v
theories/PropTree.v
theories/RunFacts.v
theories/EmitFacts.v
theories/DigitFacts.v
theories/SpecParse.v
theories/SpecDoc.v
theories/RowFacts.v
theories/ParseFacts.v
theories/DocFacts.v
theories/ForestFacts.v
theories/ParseProps.v
theories/TotalFacts.v
theories/FrameFacts.v
theories/MetaFacts.v
theories/PropParse.v
theories/SpecInv.v
theories/InvFacts.v
theories/ChildFacts.v
theories/ListOps.v
theories/SpecFind.v
theories/SpecEdit.v
theories/OpFacts.v
theories/SecFacts.v
theories/FindFacts.v
theories/AddFacts.v
theories/EditFacts.v
theories/StepFacts.v
theories/DocProps.v
theories/PropDoc.v
theories/SpecDict.v
theories/SpecRows.v
theories/DictFacts.v
theories/RowsFacts.v
theories/PropRender.v
theories/SpecMaint.v
theories/MaintFacts.v
theories/MFrame.v
theories/VersionFacts.v
theories/IntFacts.v
theories/GenFacts.v
theories/WriteFacts.v
theories/PropMaint.v
theories/SpecPack.v
theories/PackFacts.v
theories/CleanFacts.v
theories/PropPack.v
theories/SpecRows03.v
theories/SimFacts.v
theories/PropRows03.v
theories/SpecNumber.v
theories/NumberFacts.v
theories/PropNumber.v
theories/SpecInclude.v
theories/IncludeFacts.v
theories/SpecKept.v
theories/GrowFacts.v
theories/DeclareFacts.v
theories/IncFacts.v
theories/SpecInherit.v
theories/InheritFacts.v
theories/DeclFacts.v
theories/PropInclude.v
theories/PropInherit.v
theories/PropDeclare.v
theories/SpecPad.v
theories/PadFacts.v
theories/PropPad.v
theories/SpecRound.v
theories/PrintFacts.v
theories/ReadFacts.v
theories/RoundFacts.v
theories/PropRound.v
theories/SpecOrderly.v
theories/OrderlyFacts.v
theories/PropOrderly.v
theories/SpecAttr.v
theories/AttrFacts.v
theories/PropAttr.v
theories/SpecHead.v
theories/HeadFacts.v
theories/PropHead.v
theories/SpecFiles.v
theories/FilesFacts.v
theories/PropFiles.v
theories/SpecCli.v
theories/CliFacts.v
theories/PropCli.v
theories/SpecKeep.v
theories/KeepFacts.v
theories/PropKeep.v
theories/Yaml.v
theories/SpecYaml.v
theories/YamlDocFacts.v
theories/PropYaml.v
theories/Resolve.v
theories/SpecResolve.v
theories/ResolveFacts.v
theories/PropResolve.v
theories/SpecWhere.v
theories/WhereFacts.v
theories/PropWhere.v
theories/SpecSyn.v
theories/SynFacts.v
theories/PropSyn.v
theories/SpecWipe.v
theories/WipeFacts.v
theories/PropWipe.v
theories/LookFacts.v
theories/PropLook.v
theories/SpecCalm.v
theories/CalmFacts.v
theories/CalmRowFacts.v
theories/PropCalm.v
theories/SpecOutline.v
theories/OutlineFacts.v
theories/PropOutline.v
theories/SpecAnswer.v
theories/AnswerFacts.v
theories/PropAnswer.v
theories/Origin.v
theories/SpecOrigin.v
theories/OriginFacts.v
theories/PropOrigin.v
theories/SpecSpread.v
theories/SpreadFacts.v
theories/RelineFacts.v
theories/PropSpread.v
theories/Report.v
theories/SpecReport.v
theories/ReportFacts.v
theories/PropReport.v
theories/Shared.v
theories/SharedFacts.v
theories/PropShared.v
theories/RowGen.v
theories/SpecSource.v
theories/SourceFacts.v
theories/PropSource.v
theories/Argv.v
theories/SpecArgv.v
theories/ArgvFacts.v
theories/PropArgv.v
theories/TermStream.v
theories/SpecStream.v
theories/StreamFacts.v
theories/StreamRowFacts.v
theories/StreamLoadFacts.v
theories/PropStream.v
theories/SpecMore.v
theories/MoreFacts.v
theories/PropMore.v
theories/SpecDeclared.v
theories/DeclaredFacts.v
theories/DeclaredRowFacts.v
theories/DeclaredFileFacts.v
theories/PropDeclared.v
theories/SpecOpened.v
theories/SpecDeclaring.v
theories/OpenedFacts.v
theories/DeclaringFacts.v
theories/PropOpened.v
theories/PropDeclaring.v
theories/SpecRefuse.v
theories/RefuseFacts.v
theories/PropRefuse.v
