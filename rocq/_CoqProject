-Q theories Verif
theories/Base.v
theories/CodecModel.v
theories/CodecSpec.v
theories/ErrnoModel.v
theories/CodecProofs.v
theories/PropsCodec.v
theories/SigModel.v
theories/SigSpec.v
theories/SigProofs.v
theories/PropsSig.v
theories/PathModel.v
theories/PathSpec.v
theories/PathProofs.v
theories/FsModel.v
theories/FsBoot.v
theories/FsSpec.v
theories/FsWalk.v
theories/PropsPath.v
theories/Count.v
theories/FsNames.v
theories/FsTr.v
theories/FsInv.v
theories/FsSteps.v
theories/FsSteps2.v
theories/FsInv2.v
theories/FsFrame.v
theories/FsReachSpec.v
theories/FsWinv.v
theories/FsTmp.v
theories/FsRestart.v
theories/FsReach.v
theories/FsAny.v
theories/FsAnySteps.v
theories/FsTree.v
theories/PropsTree.v
theories/FdSpec.v
theories/FsDesc.v
theories/PropsDesc.v
theories/FsNameSpec.v
theories/FsPath.v
theories/FsOps.v
theories/FsNameProofs.v
theories/FsFail.v
theories/ExclModel.v
theories/ExclProofs.v
theories/PropsNames.v
theories/FsPos.v
theories/FsIoSpec.v
theories/FsMode.v
theories/FsIo.v
theories/PropsIo.v
theories/PipeModel.v
theories/PipeSpec.v
theories/PipeProofs.v
theories/PropsPipe.v
theories/Sums.v
theories/SemModel.v
theories/SemSpec.v
theories/SemProofs.v
theories/LockModel.v
theories/LockSpec.v
theories/LockProofs.v
theories/PropsSync.v
theories/IpcModel.v
theories/IpcSpec.v
theories/IpcProofs.v
theories/IpcShm.v
theories/IpcFacts.v
theories/IpcHandles.v
theories/IpcPlay.v
theories/ShmRaceModel.v
theories/ShmRaceProofs.v
theories/PropsIpc.v
theories/LogModel.v
theories/LogSpec.v
theories/LogProofs.v
theories/PropsLog.v
theories/FsCrashSpec.v
theories/FsCrash.v
theories/FsCrash2.v
theories/FsCrash3.v
theories/FsCrash4.v
theories/FsCrash5.v
theories/PropsCrash.v
theories/PortModel.v
theories/PortSpec.v
theories/PortProofs.v
theories/PropsPort.v
theories/NetModel.v
theories/NetSpec.v
theories/NetInv.v
theories/NetStep.v
theories/NetData.v
theories/NetKeep.v
theories/NetCalls.v
theories/NetReady.v
theories/NetReq.v
theories/NetThm.v
theories/PeekModel.v
theories/PeekProofs.v
theories/PropsNet.v
theories/NetSpec2.v
theories/NetAbort.v
theories/PropsNet2.v
theories/AbiModel.v
theories/AbiSpec.v
theories/AbiProofs.v
theories/AbiText.v
theories/AbiBuf.v
theories/PropsAbi.v
theories/FdRaceModel.v
theories/FdRaceSpec.v
theories/FdRaceProofs.v
theories/PropsFdRace.v
theories/InetModel.v
theories/InetSpec.v
theories/InetInv.v
theories/InetStep.v
theories/InetConn.v
theories/InetName.v
theories/InetPort.v
theories/InetPort2.v
theories/InetPeer.v
theories/InetRun.v
theories/PropsInet.v
theories/InetSpec2.v
theories/InetKeep.v
theories/InetData.v
theories/InetUdp.v
theories/InetMode.v
theories/InetSel.v
theories/InetLive.v
theories/PropsInet2.v
theories/FsRaceModel.v
theories/FsRaceSpec.v
theories/FsRaceOrder.v
theories/FsRaceProofs.v
theories/FsRaceSerial.v
theories/FsRaceTie.v
theories/FsRaceEnd.v
theories/FsRaceCheck.v
theories/FsShard.v
theories/PropsFsRace.v
theories/LogRaceModel.v
theories/LogRaceSpec.v
theories/LogRaceProofs.v
theories/PropsLogRace.v
theories/FsCopyModel.v
theories/FsCopySpec.v
theories/FsCopyProofs.v
theories/FsCopyTree.v
theories/FsCopyUpdate.v
theories/FsCopyCheck.v
theories/PropsFsCopy.v
theories/CwdModel.v
theories/CwdSpec.v
theories/CwdProofs.v
theories/PropsCwd.v
theories/FsViewSpec.v
theories/FsViewInv.v
theories/FsView1.v
theories/FsView2.v
theories/FsView3.v
theories/FsViewDir.v
theories/FsViewPipe.v
theories/FsView4.v
theories/FsView5.v
theories/FsView6.v
theories/PropsFsView.v
theories/FsAbortSpec.v
theories/FsView7.v
theories/FsView8.v
theories/PropsFsAbort.v
theories/EntryModel.v
theories/EntrySpec.v
theories/EntryProofs.v
theories/EntryProofs2.v
theories/EntryProofs3.v
theories/EntryProofs4.v
theories/EntryProofs5.v
theories/EntryProofs6.v
theories/PropsEntry.v
theories/CancelModel.v
theories/CancelSpec.v
theories/CancelProofs.v
theories/CancelProofs2.v
theories/PropsCancel.v
theories/ToolModel.v
theories/ToolSpec.v
theories/ToolProofs1.v
theories/ToolProofs2.v
theories/ToolProofs3.v
theories/ToolProofs4.v
theories/PropsTool.v
theories/MapModel.v
theories/MapSpec.v
theories/MapProofs1.v
theories/MapProofs2.v
theories/MapProofs3.v
theories/MapProofs4.v
theories/MapProofs5.v
theories/MapProofs6.v
theories/PropsMap.v
theories/WireModel.v
theories/WireSpec.v
theories/WireProofs.v
theories/WireProofs2.v
theories/WireProofs3.v
theories/WireProofs4.v
theories/WireProofs5.v
theories/WireKeep.v
theories/WireProofs6.v
theories/PropsWire.v
theories/NetReadySpec.v
theories/NetEpoll.v
theories/WireReady.v
theories/PropsReady.v
theories/SegModel.v
theories/SegSpec.v
theories/SegProofs.v
theories/SegProofs2.v
theories/SegProofs3.v
theories/SegProofs4.v
theories/PropsSeg.v
theories/GateModel.v
theories/GateSpec.v
theories/GateProofs.v
theories/GateProofs2.v
theories/GateProofs3.v
theories/PropsGate.v
theories/DirectModel.v
theories/DirectSpec.v
theories/DirectProofs.v
theories/PropsDirect.v
theories/MapEntryModel.v
theories/MapEntrySpec.v
theories/MapEntryProofs.v
theories/PropsMapEntry.v
theories/InetWireModel.v
theories/InetWireSpec.v
theories/InetWireProofs.v
theories/InetWireProofs2.v
theories/InetWireProofs3.v
theories/InetWireProofs4.v
theories/PropsInetWire.v
theories/SigHistSpec.v
theories/SigHistProofs.v
theories/PropsSigHist.v
