-Q theories Verif
theories/Prelude.v
theories/Model.v
theories/StdInst.v
theories/Lib.v
theories/Table.v
theories/SearchProofs.v
theories/SelectProofs.v
theories/InsertProofs.v
theories/QueryProofs.v
theories/ExhaustProofs.v
theories/IterProofs.v
theories/FlatProofs.v
theories/Spec.v
theories/SpecProofs.v
theories/Io.v
theories/IoBase.v
theories/SpecIo.v
theories/ConcDump.v
theories/Calls.v
theories/CallsProofs.v
theories/SpecBuilt.v
theories/IoProofs.v
theories/IoProofs2.v
theories/IoProofs3.v
theories/IoProofs4.v
theories/IoProofs5.v
theories/ConcDumpProofs.v
theories/BuiltProofs.v
theories/ReloadProofs.v
theories/IoProofs6.v
theories/Examples.v
theories/ExamplesIo.v
theories/SpecStart.v
theories/StartProofs.v
theories/PropsSearch.v
theories/PropsShort.v
theories/PropsIndex.v
theories/PropsIo.v
theories/PropsIo2.v
theories/PropsMisc.v
theories/Conc.v
theories/SpecConc.v
theories/ConcSeq.v
theories/ConcSafe.v
theories/ConcSafe2.v
theories/ConcSafe3.v
theories/ConcSafe4.v
theories/ConcGlobal.v
theories/ConcEnd.v
theories/ConcLive.v
theories/ExamplesConc.v
theories/PropsConc.v
theories/Ffi.v
theories/SpecFfi.v
theories/PropsFfi.v
theories/LocalProofs.v
theories/SpecInsert.v
theories/DivProofs.v
theories/LinkProofs.v
theories/InsertSpecProofs.v
theories/PropsInsert.v
theories/PropsUsed.v
theories/ReachProofs.v
theories/PropsReach.v
theories/LoadProofs.v
theories/PropsLoad.v
theories/FormatProofs.v
theories/PropsFormat.v
theories/ConcTrace.v
theories/PropsDump.v
theories/PropsRead.v
theories/Disk.v
theories/DiskProofs.v
theories/PropsDisk.v
theories/MonoProofs.v
theories/PropsMono.v
theories/SafeProofs.v
theories/PropsSafe.v
theories/NegProofs.v
theories/PropsNeg.v
theories/Nan.v
theories/NanProofs.v
theories/PropsNan.v
theories/NanProofs2.v
theories/NanProofs3.v
theories/PropsFail.v
theories/SpecFile.v
theories/FileProofs.v
theories/FileProofs2.v
theories/PropsFile.v
theories/MapProofs.v
theories/PropsMap.v
theories/LevelProofs.v
theories/Inspect.v
theories/InspectProofs.v
theories/PropsInspect.v
theories/OrderProofs.v
theories/PropsOrder.v
theories/SpecCut.v
theories/CutProofs.v
theories/PropsCut.v
theories/FloatProofs.v
theories/SpecGen.v
theories/PropsGen.v
theories/PropsCalls.v
theories/Reuse.v
theories/PropsReuse.v
theories/ConcCalls.v
theories/ConcCallsProofs.v
theories/PropsConcCalls.v
theories/Level.v
theories/SpecLevel.v
theories/FloatMul.v
theories/LawProofs.v
theories/LevelExamples.v
theories/PropsLevel.v
theories/ParamProofs.v
theories/PropsParam.v
theories/SpecLife.v
theories/LifeProofs.v
theories/PropsLife.v
theories/Ask.v
theories/SpecAsk.v
theories/AskProofs.v
theories/PropsAsk.v
theories/SpecUse.v
theories/UseProofs.v
theories/PropsUse.v
theories/Reserve.v
theories/ReserveProofs.v
theories/PropsReserve.v
theories/SpecMapLoad.v
theories/MapLoad.v
theories/MapLoadProofs.v
theories/PropsMapLoad.v
theories/Drop.v
theories/SpecDrop.v
theories/DropProofs.v
theories/PropsDrop.v
theories/SpecCMem.v
theories/PropsCMem.v
theories/View.v
theories/SpecView.v
theories/PropsView.v
theories/SpecDamage.v
theories/DamageProofs.v
theories/DamageProofs2.v
theories/PropsDamage.v
theories/InsertUsedProofs.v
theories/PropsInsertUsed.v
theories/PropsMapDamage.v
theories/MonoFilterProofs.v
theories/PropsMonoFilter.v
theories/PostFilterProofs.v
theories/PropsPostFilter.v
theories/Dumps.v
theories/DumpsProofs.v
theories/PropsDumps.v
theories/DumpLoad.v
theories/DumpLoadProofs.v
theories/PropsDumpLoad.v
theories/Power.v
theories/PropsPower.v
theories/ConcLinks.v
theories/PropsConcLinks.v
theories/ConcBest.v
theories/PropsConcBest.v
theories/ConcCounts.v
theories/PropsConcCounts.v
theories/PropsMutual.v
theories/PropsFlatFull.v
theories/PropsBare.v
