-Q theories Verif
theories/PyBase.v
theories/Classes.v
theories/Values.v
theories/Codec.v
theories/Manager.v
theories/Threads.v
theories/Role.v
theories/Heap.v
theories/Asyn.v
theories/Text.v
theories/Frontend.v
theories/Tools.v
theories/SpecBER.v
theories/SpecSMI.v
theories/SpecTree.v
theories/SpecWire.v
theories/SpecMsg.v
theories/SpecManager.v
theories/SpecThreads.v
theories/SpecRole.v
theories/SpecNumber.v
theories/SpecAsyn.v
theories/SpecHeap.v
theories/SpecText.v
theories/SpecObj.v
theories/SpecFront.v
theories/SpecTools.v
theories/Bits.v
theories/ProofsInt.v
theories/ProofsOid.v
theories/ProofsText.v
theories/ProofsNumber.v
theories/ProofsScalar.v
theories/ProofsTree.v
theories/ProofsDecode.v
theories/ProofsWire.v
theories/ProofsMsg.v
theories/ProofsManager.v
theories/ProofsHistory.v
theories/ProofsThreads.v
theories/ProofsReceive.v
theories/ProofsCalls.v
theories/ProofsRun.v
theories/ProofsRole.v
theories/ProofsPrint.v
theories/ProofsAsyn.v
theories/ProofsHeap.v
theories/ProofsHeapKeep.v
theories/ProofsHeapCall.v
theories/ProofsAsynPoll.v
theories/ProofsAsynClose.v
theories/ProofsAsynLog.v
theories/ProofsObj.v
theories/ProofsLoop.v
theories/ProofsFront.v
theories/ProofsTools.v
theories/ProofsPrograms.v
theories/ProofsPrograms2.v
theories/ProofsListener.v
theories/ProofsProgress.v
theories/PropertiesInt.v
theories/PropertiesOid.v
theories/PropertiesScalar.v
theories/PropertiesTree.v
theories/PropertiesMsg.v
theories/PropertiesManager.v
theories/PropertiesThreads.v
theories/PropertiesTraffic.v
theories/PropertiesMisc.v
theories/PropertiesObj.v
theories/PropertiesFront.v
theories/PropertiesTools.v
theories/PropertiesAsyn.v
theories/ProofsHeapRun.v
theories/ProofsHeapMake.v
theories/ProofsHeapValue.v
theories/ProofsHeapFixed.v
theories/ProofsHeapRecv.v
theories/ProofsHeapEnd.v
theories/ProofsHeapBack.v
theories/ProofsHeapMore.v
theories/ProofsHeapNames.v
theories/SpecRefine.v
theories/ProofsRefine.v
theories/ProofsRefineCall.v
theories/ProofsRefineRun.v
theories/ProofsRefineStep.v
theories/ProofsRefineBoth.v
theories/PropertiesHeap.v
theories/PropertiesRefine.v
theories/SpecNetwork.v
theories/ProofsNetwork.v
theories/PropertiesNetwork.v
theories/SpecSize.v
theories/ProofsSize.v
theories/PropertiesSize.v
theories/SpecMib.v
theories/ProofsMib.v
theories/ProofsMibWalk.v
theories/ProofsMibEnd.v
theories/ProofsMibSet.v
theories/PropertiesMib.v
theories/Process.v
theories/SpecProcess.v
theories/ProofsProcess.v
theories/ProofsProcessStep.v
theories/ProofsProcessStack.v
theories/ProofsProcessLog.v
theories/ProofsProcessMore.v
theories/ProofsProcessCalm.v
theories/ProofsProcessClose.v
theories/ProofsProcessCause.v
theories/PropertiesProcess.v
theories/SpecServe.v
theories/ProofsProcessServe.v
theories/ProofsProcessTrip.v
theories/PropertiesServe.v
theories/Pollers.v
theories/SpecPollers.v
theories/ProofsPollers.v
theories/ProofsPollersLog.v
theories/ProofsPollersRun.v
theories/ProofsPollersServe.v
theories/ProofsPollersOrder.v
theories/ProofsPollersEnds.v
theories/PropertiesPollers.v
theories/Uptime.v
theories/SpecUptime.v
theories/ProofsUptime.v
theories/ProofsFloat.v
theories/PropertiesUptime.v
theories/Collect.v
theories/SpecCollect.v
theories/ProofsCollect.v
theories/PropertiesCollect.v
theories/CommandLine.v
theories/SpecCommand.v
theories/ProofsCommand.v
theories/PropertiesCommand.v
theories/SpecBound.v
theories/SpecCut.v
theories/ProofsBound.v
theories/ProofsCut.v
theories/ProofsCutOnly.v
theories/PropertiesBound.v
theories/PropertiesCut.v
