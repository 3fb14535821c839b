-Q theories Verif
theories/Base.v
theories/Status.v
theories/StatusProofs.v
theories/PropStatus.v
theories/StringModel.v
theories/StringSpec.v
theories/StringProofs.v
theories/PropStrings.v
theories/UuidModel.v
theories/UuidSpec.v
theories/UuidProofs.v
theories/PropUuid.v
theories/CodecModel.v
theories/CodecSpec.v
theories/CodecProofs.v
theories/MemModel.v
theories/MemSpec.v
theories/MemProofs.v
theories/PropCodec.v
theories/PropMem.v
theories/AllocModel.v
theories/AllocProofs.v
theories/AllocSpec.v
theories/PropAlloc.v
theories/BigintModel.v
theories/BigintProofs.v
theories/BigintSpec.v
theories/Heap.v
theories/PropSmall.v
theories/TriggerModel.v
theories/TriggerProofs.v
theories/TriggerSpec.v
theories/FdModel.v
theories/FdProofs.v
theories/FdSpec.v
theories/PropFd.v
theories/AsyncModel.v
theories/AsyncProofs.v
theories/AsyncSpec.v
theories/BrModel.v
theories/BrSpec.v
theories/BrProofs.v
theories/BrInst.v
theories/PropAsync.v
theories/PropBr.v
theories/ListModel.v
theories/ListSpec.v
theories/ListProofs.v
theories/PropLists.v
theories/RbModel.v
theories/RbSpec.v
theories/RbProofs.v
theories/RbInsert.v
theories/RbDelete.v
theories/RbFixup.v
theories/RbRemove.v
theories/RbInv.v
theories/RbSteps.v
theories/PropRbtree.v
theories/SchedModel.v
theories/TabModel.v
theories/SchedSpec.v
theories/TabSpec.v
theories/TabProofs.v
theories/SchedProofs.v
theories/TabRb.v
theories/SchedHist.v
theories/PropSched.v
theories/MsgModel.v
theories/MsgSpec.v
theories/DiscFrame.v
theories/MsgProofs.v
theories/MsgHist.v
theories/PropMsg.v
theories/CondModel.v
theories/CondSpec.v
theories/CondProofs.v
theories/PropCond.v
theories/AsmModel.v
theories/AsmSpec.v
theories/AsmProofs.v
theories/PropAsm.v
theories/IoModel.v
theories/IoSpec.v
theories/IoProofs.v
theories/IoRound.v
theories/PropIo.v
theories/IoRoom.v
theories/ThreadModel.v
theories/ThreadSpec.v
theories/ThreadProofs.v
theories/PropThread.v
theories/OwnModel.v
theories/OwnSpec.v
theories/OwnProofs.v
theories/OwnSep.v
theories/OwnBuild.v
theories/OwnSched.v
theories/OwnDisc.v
theories/PropOwn.v
theories/SockModel.v
theories/SockSpec.v
theories/SockProofs.v
theories/PropSock.v
theories/EventModel.v
theories/EventSpec.v
theories/EventProofs.v
theories/PropEvent.v
theories/KqModel.v
theories/KqSpec.v
theories/KqProofs.v
theories/KqHist.v
theories/PropKq.v
theories/PropVt.v
theories/VtModel.v
theories/VtSpec.v
theories/EchoModel.v
theories/EchoProofs.v
theories/EchoSpec.v
theories/PropEcho.v
theories/DispModel.v
theories/DispProofs.v
theories/DispSpec.v
theories/PropDisp.v
theories/MandModel.v
theories/MandProofs.v
theories/MandSpec.v
theories/MandInv.v
theories/MandStep.v
theories/MandLive.v
theories/MandSafe.v
theories/MandFail.v
theories/PropMand.v
theories/ServModel.v
theories/ServSpec.v
theories/ServInv.v
theories/ServSwitch.v
theories/ServSteps.v
theories/ServCalls.v
theories/ServWaits.v
theories/ServRound.v
theories/ServReach.v
theories/ServEnd.v
theories/PropServ.v
theories/ImgModel.v
theories/ImgSpec.v
theories/ImgProofs.v
theories/PropImg.v
theories/ExitModel.v
theories/ExitSpec.v
theories/PropExit.v
theories/ExitProofs.v
theories/CtlModel.v
theories/CtlSpec.v
theories/PropCtl.v
theories/EndProofs.v
theories/EndSpec.v
theories/PropEnd.v
theories/ImpModel.v
theories/ImpTable.v
theories/ImpSpec.v
theories/ImpProofs.v
theories/PropImp.v
theories/UsrModel.v
theories/UsrSpec.v
theories/UsrProofs.v
theories/PropUsr.v
theories/TurnModel.v
theories/TurnSpec.v
theories/TurnProofs.v
theories/PropTurn.v
theories/TextProofs.v
theories/TextSpec.v
theories/PropText.v
theories/DocSpec.v
theories/DocProofs.v
theories/PropDoc.v
theories/OutModel.v
theories/OutSpec.v
theories/OutProofs.v
theories/PropOut.v
theories/RelModel.v
theories/RelSpec.v
theories/RelProofs.v
theories/PropRel.v
