-Q theories Verif

theories/Base.v
theories/World.v
theories/MemSim.v
theories/Context.v
theories/Dump.v
theories/Elf.v
theories/GdbLog.v
theories/CmdLine.v
theories/Platform.v
theories/Comm.v
theories/MainProg.v
theories/TryCatch.v
theories/Mocks.v
theories/CommWin.v
theories/TrySpec.v
theories/TryThms.v
theories/BaseLemmas.v
theories/MemSpec.v
theories/Sat.v
theories/MemFair.v
theories/MemLemmas.v
theories/MemInv.v
theories/MemOps.v
theories/MemOps2.v
theories/MemOps3.v
theories/MemHist.v
theories/MemHist2.v
theories/MemThms.v
theories/MemThms2.v
theories/TextLemmas.v
theories/MemThms3.v
theories/HitSpec.v
theories/MemHits.v
theories/DumpSpec.v
theories/DumpRef.v
theories/DumpLemmas.v
theories/DumpConv.v
theories/DumpThms.v
theories/DumpSafe.v
theories/DumpFault.v
theories/ElfSpec.v
theories/ElfThms.v
theories/LogSpec.v
theories/LogFmt.v
theories/LogRef.v
theories/LogThms.v
theories/LogMem.v
theories/MemEx.v
theories/Closed.v
theories/ElfClean.v
theories/CmdSpec.v
theories/StartSpec.v
theories/CmdThms.v
theories/CmdSafe.v
theories/CtxBytes.v
theories/CmdFull.v
theories/AliasSpec.v
theories/CmdAlias.v
theories/CmdMsg.v
theories/MsgThms.v
theories/CmdMain.v
theories/PlatSpec.v
theories/PlatInit.v
theories/PlatThms.v
theories/PlatSess.v
theories/PlatView.v
theories/GdbSpec.v
theories/GdbView.v
theories/PropMem.v
theories/PropAccess.v
theories/PropLatch.v
theories/PropDump.v
theories/PropLog.v
theories/PropElf.v
theories/PropCmd.v
theories/PropStart.v
theories/PropAlias.v
theories/PropPlat.v
theories/PropSess.v
theories/PropGdb.v
theories/TargetSpec.v
theories/TargetThms.v
theories/PropTarget.v
theories/NumSpec.v
theories/PropNum.v
theories/MockSpec.v
theories/PropMock.v
theories/WinSpec.v
theories/PropWin.v
theories/PropTry.v
theories/MapSpec.v
theories/MapThms.v
theories/MapFaith.v
theories/PropMap.v
theories/MsgSpec.v
theories/DumpMsg.v
theories/ElfMsg.v
theories/PropText.v
theories/PropMsg.v
theories/ChanSpec.v
theories/ChanThms.v
theories/PropChan.v
theories/WhySpec.v
theories/WhyThms.v
theories/WhyFault.v
theories/PropWhy.v
theories/TestLib.v
theories/TestMem.v
theories/TestDump.v
theories/TestLog.v
theories/TestElf.v
theories/TestCmd.v
theories/TestPlat.v
theories/TestMisc.v
theories/TestMock.v
theories/XmlSpec.v
theories/PropXml.v
theories/ReproSpec.v
theories/Repro.v
theories/PropRepro.v
theories/OomSpec.v
theories/Oom.v
theories/PropOom.v
theories/StartAnySpec.v
theories/StartAny.v
theories/PropStartAny.v
theories/SessAnySpec.v
theories/SessAny.v
theories/PropSessAny.v
theories/OpenSpec.v
theories/OpenThms.v
theories/PropOpen.v
theories/SizeSpec.v
theories/SizeThms.v
theories/PropSize.v
theories/HitBound.v
theories/PropHits.v
theories/LoadSpec.v
theories/LoadThms.v
theories/PropLoad.v
theories/LeakSpec.v
theories/LeakThms.v
theories/PropLeak.v
theories/KeepThms.v
theories/PropKeep.v
theories/FlashSpec.v
theories/FlashThms.v
theories/PropFlash.v
theories/PropLater.v
