-Q theories Verif
theories/AccessConst.v
theories/AccessModel.v
theories/AccessProofs.v
theories/AccessSpec.v
theories/AlgoModel.v
theories/AlgoProofs.v
theories/AlgoSpec.v
theories/AtomicModel.v
theories/AtomicProofs.v
theories/AtomicSpec.v
theories/Base.v
theories/BitsetModel.v
theories/BitsetProofs.v
theories/BitsetSpec.v
theories/ChainExamples.v
theories/ChainModel.v
theories/ChainProofs.v
theories/ChainScreen.v
theories/ChainSpec.v
theories/CompareModel.v
theories/CompareProofs.v
theories/CompareSpec.v
theories/ConsoleExamples.v
theories/ConsoleFault.v
theories/ConsoleMessages.v
theories/ConsoleModel.v
theories/ConsolePrintf.v
theories/ConsoleProofs.v
theories/ConsoleReports.v
theories/ConsoleSpec.v
theories/DeferProofs.v
theories/DeferSpec.v
theories/DeleterModel.v
theories/DeleterProofs.v
theories/DeleterSpec.v
theories/DequeExact.v
theories/DequeExamples.v
theories/DequeFacts.v
theories/DequeLong.v
theories/DequeLongSpec.v
theories/DequeModel.v
theories/DequeOps.v
theories/DequeProofs.v
theories/DequeRun.v
theories/DequeSpec.v
theories/DequeStorage.v
theories/E820Model.v
theories/E820Proofs.v
theories/E820Spec.v
theories/FatExamples.v
theories/FatModel.v
theories/FatProofs.v
theories/FatSpec.v
theories/FlatCopy.v
theories/FlatExamples.v
theories/FlatModel.v
theories/FlatOpen.v
theories/FlatProofs.v
theories/FlatSpec.v
theories/FloatExamples.v
theories/FloatLoopProofs.v
theories/FloatProofs.v
theories/FloatSpec.v
theories/GateModel.v
theories/GateNull.v
theories/GateNullSpec.v
theories/GateProofs.v
theories/GateSpec.v
theories/GraphExamples.v
theories/GraphLong.v
theories/GraphLongSpec.v
theories/GraphModel.v
theories/GraphOps.v
theories/GraphProofs.v
theories/GraphRelease.v
theories/GraphRun.v
theories/GraphSpec.v
theories/GraphSteps.v
theories/GraphThms.v
theories/HwExamples.v
theories/InvokeModel.v
theories/InvokeProofs.v
theories/InvokeSpec.v
theories/IrqRaceGone.v
theories/IrqRaceModel.v
theories/IrqRaceProofs.v
theories/IrqRaceServed.v
theories/IrqRaceSpec.v
theories/IrqRaceTable.v
theories/IrqRaceText.v
theories/IterExamples.v
theories/IterModel.v
theories/IterProofs.v
theories/IterSpec.v
theories/LastExamples.v
theories/LastModel.v
theories/LastProofs.v
theories/LastRun.v
theories/LastScreen.v
theories/LastSpec.v
theories/ListExact.v
theories/ListExactExamples.v
theories/ListExactSpec.v
theories/ListExamples.v
theories/ListFacts.v
theories/ListModel.v
theories/ListMore.v
theories/ListOps.v
theories/ListProofs.v
theories/ListRun.v
theories/ListSpec.v
theories/ListWhole.v
theories/LiteralModel.v
theories/LiteralProofs.v
theories/LockExamples.v
theories/LockLong.v
theories/LockProofs.v
theories/LockSpec.v
theories/MapInitModel.v
theories/MapInitMore.v
theories/MapInitProofs.v
theories/MapInitSpec.v
theories/NestDeep.v
theories/NestExamples.v
theories/NestModel.v
theories/NestProofs.v
theories/NestSpec.v
theories/ObjModel.v
theories/ObjProofs.v
theories/ObjSpec.v
theories/OrderModel.v
theories/OrderProofs.v
theories/OrderSpec.v
theories/OwnExact.v
theories/OwnExactSpec.v
theories/OwnModel.v
theories/OwnProofs.v
theories/OwnSpec.v
theories/PageAllocProofs.v
theories/PageExact.v
theories/PageExactExamples.v
theories/PageExactSpec.v
theories/PageExamples.v
theories/PageLife.v
theories/PageLifeSpec.v
theories/PageLong.v
theories/PageLongSpec.v
theories/PageModel.v
theories/PageProofs.v
theories/PageSpec.v
theories/PagingModel.v
theories/PagingProofs.v
theories/PagingSpec.v
theories/PortModel.v
theories/PortProofs.v
theories/PortSpec.v
theories/PrintfCut.v
theories/PrintfCutSpec.v
theories/PrintfExamples.v
theories/PrintfLoopProofs.v
theories/PrintfModel.v
theories/PrintfProofs.v
theories/PrintfSpec.v
theories/PropertiesAccess.v
theories/PropertiesBoot.v
theories/PropertiesChain.v
theories/PropertiesCompare.v
theories/PropertiesConsole.v
theories/PropertiesDefer.v
theories/PropertiesDeleter.v
theories/PropertiesDeque.v
theories/PropertiesDequeExact.v
theories/PropertiesDequeLong.v
theories/PropertiesFlat.v
theories/PropertiesFloat.v
theories/PropertiesGateNull.v
theories/PropertiesGraph.v
theories/PropertiesGraphLong.v
theories/PropertiesHw.v
theories/PropertiesInt.v
theories/PropertiesInvoke.v
theories/PropertiesIrqRace.v
theories/PropertiesIter.v
theories/PropertiesLast.v
theories/PropertiesList.v
theories/PropertiesListExact.v
theories/PropertiesLock.v
theories/PropertiesLockLong.v
theories/PropertiesMapInit.v
theories/PropertiesMisc.v
theories/PropertiesNest.v
theories/PropertiesOwn.v
theories/PropertiesOwnExact.v
theories/PropertiesPage.v
theories/PropertiesPageExact.v
theories/PropertiesPageLife.v
theories/PropertiesPageLong.v
theories/PropertiesPort.v
theories/PropertiesPrintf.v
theories/PropertiesPrintfCut.v
theories/PropertiesQueueBlocks.v
theories/PropertiesRace.v
theories/PropertiesRaceLong.v
theories/PropertiesRb.v
theories/PropertiesRbExact.v
theories/PropertiesRbIter.v
theories/PropertiesRbMany.v
theories/PropertiesSetup.v
theories/PropertiesShared.v
theories/PropertiesSharedCopy.v
theories/PropertiesSharedCopyLong.v
theories/PropertiesSharedLong.v
theories/PropertiesSpecial.v
theories/PropertiesStage.v
theories/PropertiesStart.v
theories/PropertiesString.v
theories/PropertiesText.v
theories/PropertiesThreadsLong.v
theories/PropertiesTraits.v
theories/PropertiesUpcast.v
theories/PropertiesUtil.v
theories/PropertiesVector.v
theories/PropertiesVectorExact.v
theories/QueueBlocks.v
theories/QueueBlocksSpec.v
theories/RaceLockModel.v
theories/RaceLockProofs.v
theories/RaceLong.v
theories/RaceModel.v
theories/RaceProofs.v
theories/RaceSpec.v
theories/RbAdd.v
theories/RbBalance.v
theories/RbDel.v
theories/RbErase.v
theories/RbExact.v
theories/RbExactExamples.v
theories/RbExactSpec.v
theories/RbExamples.v
theories/RbHeap.v
theories/RbHist.v
theories/RbInsert.v
theories/RbIter.v
theories/RbIterExamples.v
theories/RbIterModel.v
theories/RbIterSpec.v
theories/RbKey.v
theories/RbMany.v
theories/RbManyExamples.v
theories/RbManyProofs.v
theories/RbManySpec.v
theories/RbModel.v
theories/RbOps.v
theories/RbPure.v
theories/RbRefused.v
theories/RbRefusedSpec.v
theories/RbRun.v
theories/RbSearch.v
theories/RbSpec.v
theories/RbThms.v
theories/RbThms2.v
theories/RbUnlink.v
theories/SetupExamples.v
theories/SetupModel.v
theories/SetupProofs.v
theories/SetupSpec.v
theories/SharedCopyLong.v
theories/SharedCopyModel.v
theories/SharedCopyProofs.v
theories/SharedExamples.v
theories/SharedHist.v
theories/SharedLong.v
theories/SharedLongSpec.v
theories/SharedModel.v
theories/SharedProofs.v
theories/SharedRun.v
theories/SharedSpec.v
theories/SpecialModel.v
theories/SpecialProofs.v
theories/SpecialSpec.v
theories/StageModel.v
theories/StageProofs.v
theories/StageSpec.v
theories/StartModel.v
theories/StartProofs.v
theories/StartSpec.v
theories/StartThms.v
theories/StringExamples.v
theories/StringModel.v
theories/StringProofs.v
theories/StringSpec.v
theories/StubExamples.v
theories/StubModel.v
theories/StubProofs.v
theories/StubSpec.v
theories/SwitchExamples.v
theories/SwitchModel.v
theories/SwitchProofs.v
theories/SwitchRun.v
theories/SwitchRun2.v
theories/SwitchRun3.v
theories/SwitchSpec.v
theories/SwitchThms.v
theories/TextModel.v
theories/TextProofs.v
theories/TextSpec.v
theories/ThreadsLong.v
theories/ThreadsLongSpec.v
theories/ThreadsModel.v
theories/ThreadsProofs.v
theories/ThreadsSpec.v
theories/TraitsExamples.v
theories/TraitsModel.v
theories/TraitsProofs.v
theories/TraitsSpec.v
theories/UpcastArrayModel.v
theories/UpcastArrayProofs.v
theories/UpcastArraySpec.v
theories/UpcastAssignModel.v
theories/UpcastAssignProofs.v
theories/UpcastModel.v
theories/UpcastProofs.v
theories/UpcastSpec.v
theories/VectorAgree.v
theories/VectorExact.v
theories/VectorExactExamples.v
theories/VectorExactSpec.v
theories/VectorExamples.v
theories/VectorFacts.v
theories/VectorModel.v
theories/VectorProofs.v
theories/VectorRun.v
theories/VectorSpec.v
theories/VectorWrong.v
theories/VesaModel.v
theories/VesaProofs.v
theories/VesaSpec.v
