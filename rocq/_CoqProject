-Q theories Verif
theories/Base.v
theories/ListLemmas.v
theories/PrimeModel.v
theories/PrimeProofs.v
theories/PrimeProps.v
theories/HashModel.v
theories/HashSpec.v
theories/HashProofs.v
theories/HashOps.v
theories/HashOps2.v
theories/HashIter.v
theories/HashHist.v
theories/HashProps.v
theories/CStr.v
theories/HashFnModel.v
theories/HashFnProofs.v
theories/HashFnProps.v
theories/SetModel.v
theories/SetSpec.v
theories/SetAlg.v
theories/SetProofs.v
theories/SetWorld.v
theories/SetHist.v
theories/SetProps.v
theories/BitModel.v
theories/BitProofs.v
theories/BitProps.v
theories/BaseNModel.v
theories/BaseNSpec.v
theories/BaseNProofs.v
theories/BaseNProps.v
theories/Alloc.v
theories/StackModel.v
theories/StackProofs.v
theories/StackProps.v
theories/ObjModel.v
theories/ObjProofs.v
theories/ObjHist.v
theories/ObjProps.v
theories/MemModel.v
theories/MemProofs.v
theories/MemHist.v
theories/MemProps.v
theories/ListModel.v
theories/ListProofs.v
theories/ListHist.v
theories/ListProps.v
theories/SkipModel.v
theories/SkipSpec.v
theories/SkipProofs.v
theories/SkipWorld.v
theories/SkipHist.v
theories/SkipProps.v
theories/StrModel.v
theories/StrProofs.v
theories/StrHist.v
theories/StrProps.v
theories/ArgModel.v
theories/ArgSpec.v
theories/ArgProofs.v
theories/ArgHist.v
theories/ArgProps.v
theories/NameTab.v
theories/FlagModel.v
theories/FlagSpec.v
theories/FlagProofs.v
theories/FlagHist.v
theories/FlagProps.v
theories/TextModel.v
theories/TextSpec.v
theories/TextProofs.v
theories/TextProps.v
theories/LogModel.v
theories/LogSpec.v
theories/LogProofs.v
theories/LogHist.v
theories/LogProps.v
theories/HashSim.v
theories/TimerModel.v
theories/TimerSpec.v
theories/TimerProofs.v
theories/TimerProps.v
theories/PrsModel.v
theories/PrsSpec.v
theories/PrsProofs.v
theories/PrsProps.v
theories/XmallocModel.v
theories/XmallocProps.v
theories/SourceModel.v
theories/SourceSpec.v
theories/SourceProofs.v
theories/SourceHist.v
theories/SourceMsg.v
theories/SourceProps.v
theories/PrModel.v
theories/PrSpec.v
theories/PrProofs.v
theories/PrHist.v
theories/PrRw.v
theories/PrPit.v
theories/PrProps.v
theories/PrProps2.v
theories/PrEx.v
theories/MaaModel.v
theories/MaaLists.v
theories/MaaSkips.v
theories/MaaSpec.v
theories/MaaProofs.v
theories/MaaProps.v
theories/MaaEx.v
theories/PrintModel.v
theories/PrintSpec.v
theories/PrintProofs.v
theories/PrintProps.v
theories/StrProps2.v
theories/SetSelf.v
theories/SetProps2.v
theories/Trace.v
theories/HashTrace.v
theories/HashProps2.v
theories/SetTrace.v
theories/StackTrace.v
theories/ListTrace.v
theories/SkipTrace.v
theories/TraceProps.v
theories/LogProps2.v
theories/StrTrace.v
theories/TraceProps2.v
theories/NullProps.v
theories/HashTop.v
theories/OrderProps.v
theories/GlobTrace.v
theories/GlobProps.v
theories/ObjTrace.v
theories/MemTrace.v
theories/TraceProps3.v
theories/ArgTrace.v
theories/TraceProps4.v
theories/FlagTrace.v
theories/TimerTrace.v
theories/TraceProps5.v
theories/SrcTrace.v
theories/TraceProps6.v
theories/LogTrace.v
theories/TraceProps7.v
theories/DebugModel.v
theories/DebugTrace.v
theories/DebugProps.v
theories/HashFrame.v
theories/HashMem.v
theories/HashMemProps.v
theories/DebugSpec.v
theories/DebugSrcModel.v
theories/DebugPrModel.v
theories/DebugFollow.v
theories/DebugSrcProofs.v
theories/DebugProps2.v
theories/DebugPrSpec.v
theories/DebugPrProofs.v
theories/DebugProps3.v
theories/SetFrame.v
theories/SetMem.v
theories/SetMemProps.v
theories/HashGrow.v
theories/HashGrowProps.v
theories/SetGrowProps.v
theories/HashOrder.v
theories/HashOrderProps.v
theories/SetOrderProps.v
theories/SetOrder.v
theories/Replay.v
theories/ReplayList.v
theories/ReplayNum.v
theories/ReplayBase.v
theories/ReplayMem.v
theories/ReplaySet.v
theories/ReplayHash.v
theories/ReplayArg.v
theories/ReplayLog.v
theories/PipeSpec.v
theories/PrPipe.v
theories/PipeProps.v
theories/StrOrder.v
theories/StrOrderProps.v
theories/HashStat.v
theories/StatProps.v
theories/StatProps2.v
theories/AllocaModel.v
theories/AllocaSpec.v
theories/AllocaProofs.v
theories/AllocaProps.v
theories/RndTable.v
theories/RndModel.v
theories/RndSpec.v
theories/RndProofs.v
theories/RndProps.v
theories/SkipCheckModel.v
theories/SkipCheckSpec.v
theories/SkipCheckProofs.v
theories/SkipCheckProps.v
theories/SkipMagicModel.v
theories/SkipMagicHist.v
theories/SkipMagicProps.v
theories/SkipMsgModel.v
theories/SkipMsgSpec.v
theories/SkipMsgHead.v
theories/SkipMsgHist.v
theories/SkipMsgProps.v
