-Q theories Verif
theories/Base.v
theories/PyStruct.v
theories/Defines.v
theories/SlaveModel.v
theories/UtilsModel.v
theories/QueryModel.v
theories/DatabankModel.v
theories/MasterModel.v
theories/Spec.v
theories/BaseFacts.v
theories/StructFacts.v
theories/SlaveSpec.v
theories/SlaveProofs.v
theories/HandlerProofs.v
theories/RequestProofs.v
theories/GeneralProofs.v
theories/SlaveInv.v
theories/BlockSpec.v
theories/BlockProofs.v
theories/SlaveMore.v
theories/AtomicProofs.v
theories/PropSlave.v
theories/CrcSpec.v
theories/FrameSpec.v
theories/CrcProofs.v
theories/QueryProofs.v
theories/PropFrame.v
theories/TotalProofs.v
theories/DbSpec.v
theories/DatabankProofs.v
theories/PropDatabank.v
theories/StructMore.v
theories/MasterSpec.v
theories/MasterProofs.v
theories/DecodeProofs.v
theories/EndSpec.v
theories/EndProofs.v
theories/PropMaster.v
theories/TransportModel.v
theories/TransportSpec.v
theories/TransportProofs.v
theories/LinkSpec.v
theories/ResponseProofs.v
theories/PropTransport.v
theories/HooksModel.v
theories/HooksSpec.v
theories/PropHooks.v
theories/ConcModel.v
theories/ConcSpec.v
theories/ConcProofs.v
theories/ConcSlave.v
theories/SharedModel.v
theories/PropConc.v
theories/LockModel.v
theories/PropLocks.v
theories/LifecycleModel.v
theories/PropLifecycle.v
theories/OpenModel.v
theories/PropOpen.v
theories/TextModel.v
theories/SimulatorModel.v
theories/TextProofs.v
theories/SimulatorProofs.v
theories/PropSimulator.v
theories/QueueModel.v
theories/PropQueue.v
theories/RtuStopModel.v
theories/PropRtuStop.v
theories/SessionModel.v
theories/PropSession.v
theories/PropBroadcast.v
theories/CompositeModel.v
theories/PropComposite.v
theories/PropUnicast.v
theories/WorkerModel.v
theories/PropWorker.v
theories/LogModel.v
theories/PropLog.v
theories/TimeoutModel.v
theories/PropTimeout.v
theories/ClientModel.v
theories/PropClient.v
theories/EchoModel.v
theories/PropEcho.v
theories/NetModel.v
theories/NetSpec.v
theories/NetProofs.v
theories/PropNet.v
theories/AvailModel.v
theories/PropAvail.v
theories/BusModel.v
theories/PropBus.v
theories/TornModel.v
theories/PropTorn.v
theories/FloatModel.v
theories/FloatSpec.v
theories/FloatProofs.v
theories/PropFloat.v
theories/HookedTcpModel.v
theories/PropHookedTcp.v
theories/PropMore.v
theories/SelfCallModel.v
theories/PropSelfCall.v
theories/GatewayModel.v
theories/PropGateway.v
theories/HookedCallModel.v
theories/PropHookedCall.v
theories/ValueModel.v
theories/PropValue.v
theories/SharedMemModel.v
theories/PropSharedMem.v
theories/PropExact.v
theories/HmiModel.v
theories/PropHmi.v
theories/UnsafeModel.v
theories/PropUnsafe.v
theories/LoggingModel.v
theories/PropLogging.v
theories/RtuTimeModel.v
theories/PropRtuTime.v
theories/TcpTimeModel.v
theories/PropTcpTime.v
theories/PropAnswered.v
theories/NativeModel.v
theories/PropNative.v
theories/PropText.v
theories/PropStruct.v
theories/BytesModel.v
theories/PropBytes.v
theories/PropSame.v
theories/MySimuModel.v
theories/PropMySimu.v
theories/ConsoleModel.v
theories/PropConsole.v
theories/WatchModel.v
theories/PropWatch.v
theories/PropAccept.v
theories/PropTail.v
theories/PropRetry.v
theories/PropApart.v
theories/MonitorModel.v
theories/PropMonitor.v
theories/PropServerApart.v
theories/PropNetApart.v
theories/FdModel.v
theories/PropFd.v
theories/MasterExampleModel.v
theories/PropMalformed.v
theories/PropOverlap.v
theories/PropNoise.v
theories/RtuLoggingModel.v
theories/PropRtuLogging.v
theories/MasterLoggingModel.v
theories/PropMasterLogging.v
theories/DeviceSpec.v
theories/PropDevice.v
theories/PropPlant.v
theories/PropPlantNet.v
theories/PropMaint.v
theories/PropReadWrite.v
theories/PropUnits.v
theories/HandleModel.v
theories/PropHandle.v
theories/PropNetUnits.v
theories/BuiltSpec.v
theories/PropBuilt.v
theories/PropBuiltPlant.v
theories/PropBuiltNet.v
theories/PropBuiltSerial.v
theories/PropBusSite.v
theories/SimLifeModel.v
theories/PropSimLife.v
theories/PropRpcSite.v
theories/PropBothSite.v
theories/PropConfigSite.v
theories/PropConfigBoth.v
theories/PropRpcConfig.v
