-Q theories Verif
theories/Base.v
theories/Lib.v
theories/SyncModel.v
theories/SyncInv.v
theories/SyncStep.v
theories/SyncStepB.v
theories/SyncCases.v
theories/SyncCons.v
theories/SyncTag.v
theories/SyncRun.v
theories/SyncSpec.v
theories/SyncOnce.v
theories/SyncCall.v
theories/SyncVis.v
theories/SyncVisRun.v
theories/SyncEmit.v
theories/SyncLimit.v
theories/SyncLive.v
theories/SyncIdle.v
theories/SyncFit.v
theories/SyncQuiet.v
theories/SyncMore.v
theories/SyncSafe.v
theories/SyncEx.v
theories/SyncFacts.v
theories/SyncProps.v
theories/SyncWrap.v
theories/SyncKeys.v
theories/SyncLate.v
theories/Attr.v
theories/AttrSpec.v
theories/AttrProofs.v
theories/AttrProps.v
theories/Num.v
theories/Agg.v
theories/AggSpec.v
theories/AggProofs.v
theories/AggSync.v
theories/AggProps.v
theories/AggFloat.v
theories/Async.v
theories/AsyncSpec.v
theories/AsyncProofs.v
theories/AsyncRun.v
theories/AsyncHist.v
theories/AsyncProps.v
theories/View.v
theories/CaseSpec.v
theories/ViewSpec.v
theories/ViewProofs.v
theories/ViewRun.v
theories/ViewHist.v
theories/ViewMore.v
theories/ViewProps.v
theories/Data.v
theories/DataSpec.v
theories/DataProofs.v
theories/DataProps.v
theories/Prov.v
theories/ProvSpec.v
theories/ProvProofs.v
theories/ProvMore.v
theories/ProvProps.v
theories/Per.v
theories/PerSpec.v
theories/PerProofs.v
theories/PerMore.v
theories/PerProps.v
theories/Exp.v
theories/ExpSpec.v
theories/ExpProofs.v
theories/ExpProps.v
theories/Trace.v
theories/TraceSpec.v
theories/TraceProofs.v
theories/TraceProps.v
theories/Pipe.v
theories/Launch.v
theories/LaunchSpec.v
theories/LaunchProofs.v
theories/LaunchProps.v
theories/LaunchMore.v
theories/LaunchEnv.v
theories/Rt.v
theories/RtSpec.v
theories/RtProofs.v
theories/RtProps.v
theories/Every.v
theories/EverySpec.v
theories/EveryProofs.v
theories/EveryProps.v
theories/Host.v
theories/HostSpec.v
theories/HostProps.v
theories/Conf.v
theories/ConfSpec.v
theories/ConfProofs.v
theories/ConfProps.v
theories/Flow.v
theories/FlowSpec.v
theories/FlowProofs.v
theories/FlowProps.v
theories/Pref.v
theories/PrefSpec.v
theories/PrefProps.v
theories/Calls.v
theories/CallsSpec.v
theories/CallsProofs.v
theories/CallsProps.v
theories/CallsMore.v
theories/Reg.v
theories/RegSpec.v
theories/RegProofs.v
theories/RegMore.v
theories/RegProps.v
theories/Inst.v
theories/InstSpec.v
theories/InstProofs.v
theories/InstMore.v
theories/InstProps.v
theories/Conc.v
theories/ConcSpec.v
theories/ConcProofs.v
theories/ConcStep.v
theories/ConcInv.v
theories/ConcCells.v
theories/ConcSnap.v
theories/ConcIn.v
theories/ConcLoc.v
theories/ConcHist.v
theories/ConcMore.v
theories/ConcProps.v
theories/Client.v
theories/ClientSpec.v
theories/ClientProofs.v
theories/ClientProps.v
theories/Mem.v
theories/MemSpec.v
theories/MemProofs.v
theories/MemProps.v
theories/MemMore.v
theories/Atom.v
theories/AtomSpec.v
theories/AtomProofs.v
theories/AtomMore.v
theories/AtomBound.v
theories/AtomCas.v
theories/AtomLast.v
theories/AtomProps.v
theories/Deliv.v
theories/DelivSpec.v
theories/DelivProofs.v
theories/DelivProps.v
theories/Sent.v
theories/SentSpec.v
theories/SentProofs.v
theories/SentProps.v
theories/ShapeSpec.v
theories/ShapeProofs.v
theories/ShapeProps.v
theories/ConcKeys.v
theories/Seen.v
theories/SeenSpec.v
theories/SeenProofs.v
theories/SeenProps.v
theories/ConcMem.v
theories/ConcOut.v
theories/ConcMemProps.v
theories/SeenMem.v
theories/ConcForget.v
