-Q theories Verif
theories/Base.v
theories/Codec.v
theories/Package.v
theories/PropSet.v
theories/PropIds.v
theories/Store.v
theories/Shapes.v
theories/Props.v
theories/Nodes.v
theories/Doc.v
theories/Notebook.v
theories/BaseProofs.v
theories/SpecCodec.v
theories/CodecProofs.v
theories/CodecRT.v
theories/CodecRT2.v
theories/CodecRT3.v
theories/CodecRT4.v
theories/PropertiesCodec.v
theories/PackageProofs.v
theories/SpecPackage.v
theories/PackageRT.v
theories/PackageFacts.v
theories/PropertiesPackage.v
theories/PropSetProofs.v
theories/SpecPropSet.v
theories/PropSetRT.v
theories/PropertiesPropSet.v
theories/SpecAccept.v
theories/AcceptProofs.v
theories/PropertiesAccept.v
theories/SpecStore.v
theories/StoreProofs.v
theories/StoreProofs2.v
theories/StoreProofs3.v
theories/ExampleFile.v
theories/PropertiesStore.v
theories/SpecRefs.v
theories/RefsProofs.v
theories/PropertiesRefs.v
theories/SpecValues.v
theories/ValuesProofs.v
theories/PropertiesValues.v
theories/SpecNodes.v
theories/NodesProofs.v
theories/NodesProofs2.v
theories/NodesProofs3.v
theories/TagsProofs.v
theories/TypesProofs.v
theories/ColumnsProofs.v
theories/PropertiesNodes.v
theories/SpecDoc.v
theories/DocProofs.v
theories/DocProofs2.v
theories/DocProofs3.v
theories/DocProofs4.v
theories/DocProofs5.v
theories/DocProofs6.v
theories/ExampleSection.v
theories/PropertiesDoc.v
theories/SpecNotebook.v
theories/NotebookProofs.v
theories/NotebookProofs2.v
theories/NotebookProofs3.v
theories/ExampleNotebook.v
theories/LinkProofs.v
theories/PropertiesNotebook.v
theories/SpecKinds.v
theories/KindsProofs.v
theories/SpecApi.v
theories/ApiProofs.v
theories/ExtendProofs.v
theories/PropertiesApi.v
theories/SpecSame.v
theories/SameProofs.v
theories/WriterProofs.v
theories/PropertiesSame.v
theories/SpecForward.v
theories/ForwardProofs.v
theories/PropertiesForward.v
theories/SpecFile.v
theories/FileProofs.v
theories/AuthorProofs.v
theories/PropertiesFile.v
theories/SpecSize.v
theories/SizeProofs.v
theories/SpecValid.v
theories/DescProofs.v
theories/DescProofs2.v
theories/DescProofs3.v
theories/EncodeProofs.v
theories/WriteNodes.v
theories/WriteProofs.v
theories/WriteProofs2.v
theories/WriteProofs3.v
theories/WriteProofs4.v
theories/DoubleNodes.v
theories/DoubleProofs.v
theories/PropertiesSize.v
theories/PropertiesWrite.v
theories/SpecShelf.v
theories/RangeProofs.v
theories/RangeProofs2.v
theories/RangeProofs3.v
theories/PropertiesValid.v
theories/WriteProofs5.v
theories/ShelfProofs.v
theories/PropertiesShelf.v
theories/SpecRename.v
theories/RenameProofs.v
theories/RenameProofs2.v
theories/RenameProofs3.v
theories/PropertiesRename.v
theories/OnceProofs.v
theories/SpecBlame.v
theories/BlameProofs.v
theories/Cli.v
theories/SpecCli.v
theories/CliProofs.v
theories/PropertiesBlame.v
theories/SpecHistory.v
theories/HistoryProofs.v
theories/HistoryProofs2.v
theories/HistoryAuthor.v
theories/PropertiesHistory.v
theories/SampleFiles.v
theories/Conformance.v
theories/SpecSingle.v
theories/SingleProofs.v
theories/SingleProofs2.v
theories/SingleProofs3.v
theories/SingleProofs4.v
theories/PropertiesSingle.v
theories/SpecLocal.v
theories/LocalProofs.v
theories/PropertiesLocal.v
theories/Timed.v
theories/SpecTimed.v
theories/TimedProofs.v
theories/TimedProofs2.v
theories/TimedProofs3.v
theories/ExampleTimed.v
theories/PropertiesTimed.v
theories/SpecThreads.v
theories/ThreadProofs.v
theories/PropertiesThreads.v
theories/SpecOthers.v
theories/OthersProofs.v
theories/PropertiesOthers.v
theories/Report.v
theories/SpecReport.v
theories/ReportProofs.v
theories/PropertiesReport.v
theories/SpecAccess.v
theories/AccessProofs.v
theories/PropertiesAccess.v
theories/Windows.v
theories/SpecWindows.v
theories/WindowsProofs.v
theories/PropertiesWindows.v
theories/SpecStop.v
theories/StopProofs.v
theories/PropertiesStop.v
theories/SpecWeight.v
theories/WeightProofs.v
theories/CrowdProofs.v
theories/PropertiesWeight.v
theories/SpecCause.v
theories/CauseProofs.v
theories/CauseProofs2.v
theories/CauseProofs3.v
theories/CauseProofs4.v
theories/PropertiesCause.v
theories/SpecOpen.v
theories/OpenProofs.v
theories/OpenProofs2.v
theories/PropertiesOpen.v
theories/SpecFate.v
theories/FateProofs.v
theories/FateProofs2.v
theories/FateProofs3.v
theories/FateExample.v
theories/PropertiesFate.v
theories/SpecVoyage.v
theories/VoyageProofs.v
theories/ExampleVoyage.v
theories/PropertiesVoyage.v
theories/SpecMeanwhile.v
theories/MeanwhileProofs.v
theories/ExampleMeanwhile.v
theories/PropertiesMeanwhile.v
theories/GuidText.v
theories/SpecGuidText.v
theories/GuidTextProofs.v
theories/PropertiesGuidText.v
theories/Orders.v
theories/SpecOrders.v
theories/OrdersProofs.v
theories/PropertiesOrders.v
theories/SpecDeep.v
theories/DeepProofs.v
theories/DeepProofs2.v
theories/DeepProofs3.v
theories/PropertiesDeep.v
theories/Target.v
theories/TargetDoc.v
theories/SpecTarget.v
theories/TargetProofs.v
theories/TargetProofs2.v
theories/TargetProofs3.v
theories/TargetProofs4.v
theories/TargetExample.v
theories/PropertiesTarget.v
theories/Steps.v
theories/StepsProofs.v
theories/StoreSteps.v
theories/StoreStepsProofs.v
theories/CubeProofs.v
theories/PropertiesSteps.v
theories/Unix.v
theories/SpecUnix.v
theories/UnixProofs.v
theories/PropertiesUnix.v
theories/Message.v
theories/SpecMessage.v
theories/MessageProofs.v
theories/PropertiesMessage.v
theories/Bytes.v
theories/SpecBytes.v
theories/BytesProofs.v
theories/PropertiesBytes.v
theories/Main.v
theories/MainProofs.v
theories/PropertiesMain.v
theories/WinNotebook.v
theories/SpecWinNotebook.v
theories/WinNotebookProofs.v
theories/WinNotebookProofs2.v
theories/PropertiesWinNotebook.v
theories/Looks.v
theories/SpecLooks.v
theories/LooksProofs.v
theories/LooksProofs2.v
theories/LooksProofs3.v
theories/QuarticNodes.v
theories/QuarticProofs.v
theories/QuarticProofs2.v
theories/PropertiesLooks.v
theories/Getters.v
theories/SpecGetters.v
theories/GettersProofs.v
theories/GettersProofs2.v
theories/PropertiesGetters.v
theories/SpecBulk.v
theories/BulkProofs.v
theories/BulkProofs2.v
theories/PropertiesBulk.v
theories/SpecEntries.v
theories/EntriesProofs.v
theories/EntriesProofs2.v
theories/EntriesProofs3.v
theories/EntriesProofs4.v
theories/EntriesProofs5.v
theories/PropertiesEntries.v
