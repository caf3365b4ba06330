-Q theories Verif

theories/Base.v
theories/RegistryModel.v
theories/RegistrySpec.v
theories/RegistryProofs.v
theories/RegistryProps.v
theories/TimersModel.v
theories/TimersSpec.v
theories/TimersProofs.v
theories/TimersProps.v
theories/SubsModel.v
theories/SubsSpec.v
theories/SubsProofs.v
theories/SubsProps.v
theories/KernelModel.v
theories/KernelSpec.v
theories/KernelProofs.v
theories/KernelProps.v
theories/RequestsModel.v
theories/RequestsSpec.v
theories/RequestsProofs.v
theories/AddrMapProofs.v
theories/RequestsProps.v
theories/ErrorsModel.v
theories/ErrorsSpec.v
theories/ErrorsProofs.v
theories/ErrorsProps.v
theories/ConfigModel.v
theories/ConfigSpec.v
theories/ConfigProofs.v
theories/ConfigProps.v
theories/FlagModel.v
theories/FlagSpec.v
theories/FlagProofs.v
theories/FlagProps.v
theories/ThreadWakeModel.v
theories/ThreadWakeSpec.v
theories/ThreadWakeProofs.v
theories/ThreadWakeProps.v
theories/FltkWakeModel.v
theories/FltkWakeSpec.v
theories/FltkWakeProofs.v
theories/FltkWakeProps.v
theories/ChildMgrModel.v
theories/ChildMgrSpec.v
theories/ChildMgrProofs.v
theories/ChildMgrTrace.v
theories/ChildMgrFacts.v
theories/ChildMgrProps.v
theories/StateModel.v
theories/LifeModel.v
theories/LifeSpec.v
theories/LifeProofs.v
theories/LifeFacts.v
theories/LifeProps.v
theories/Prog.v
theories/ActorModel.v
theories/ActorSpec.v
theories/ActorMoves.v
theories/ActorReach.v
theories/ActorProofs.v
theories/ActorFacts.v
theories/ActorSteps.v
theories/ActorAsked.v
theories/ActorProps.v
theories/TeardownModel.v
theories/TeardownSpec.v
theories/TeardownProofs.v
theories/TeardownSteps.v
theories/TeardownRun.v
theories/TeardownFacts.v
theories/TeardownProps.v
theories/ActorSafeSpec.v
theories/ActorSafe.v
theories/ActorSafeRun.v
theories/ActorSafeProps.v
theories/ActorLiveSpec.v
theories/ActorLive.v
theories/ActorLiveProps.v
theories/LoopWakeModel.v
theories/LoopWakeSpec.v
theories/LoopWakeProofs.v
theories/LoopWakeProps.v
theories/LoopTimersModel.v
theories/LoopTimersSpec.v
theories/LoopTimersProofs.v
theories/LoopTimersProps.v
theories/FamilyModel.v
theories/FamilySpec.v
theories/FamilySteps.v
theories/FamilyFold.v
theories/FamilyInv.v
theories/FamilyChild.v
theories/FamilyProofs.v
theories/FamilyInit.v
theories/FamilyProps.v
theories/DispatchModel.v
theories/DispatchSpec.v
theories/DispatchProofs.v
theories/DispatchProps.v
theories/TreeModel.v
theories/TreeSpec.v
theories/TreeSteps.v
theories/TreeInv.v
theories/TreeNode.v
theories/TreeProofs.v
theories/TreeFacts.v
theories/TreeProps.v
theories/NetModel.v
theories/NetSpec.v
theories/NetLocal.v
theories/NetViews.v
theories/NetSteps.v
theories/NetSettle.v
theories/NetPair.v
theories/NetInv.v
theories/NetRun.v
theories/NetProofs.v
theories/NetEnds.v
theories/NetProps.v
theories/LocalityModel.v
theories/LocalitySpec.v
theories/LocalityProofs.v
theories/LocalityProps.v
theories/NamesModel.v
theories/NamesSpec.v
theories/NamesLocal.v
theories/NamesEvents.v
theories/NamesFlight.v
theories/NamesViews.v
theories/NamesInv.v
theories/NamesAct.v
theories/NamesProofs.v
theories/NamesCancel.v
theories/NamesProps.v
theories/MemModel.v
theories/MemSpec.v
theories/MemInv.v
theories/MemProofs.v
theories/MemTemps.v
theories/MemFacts.v
theories/MemEnds.v
theories/MemKept.v
theories/MemProps.v
theories/SystemModel.v
theories/SystemSpec.v
theories/SystemSteps.v
theories/SystemFam.v
theories/SystemInv.v
theories/SystemProofs.v
theories/SystemProps.v
theories/WorldModel.v
theories/WorldSpec.v
theories/WorldTree.v
theories/WorldInv.v
theories/WorldProofs.v
theories/WorldProps.v
theories/CostSpec.v
theories/CostActor.v
theories/CostNet.v
theories/CostProofs.v
theories/CostProps.v
theories/FlowSpec.v
theories/FlowInv.v
theories/FlowProofs.v
theories/FlowQuota.v
theories/FlowEndless.v
theories/FlowProps.v
theories/FlowTreeSpec.v
theories/FlowTreeProofs.v
theories/FlowTreeProps.v
theories/LoopCallModel.v
theories/LoopCallSpec.v
theories/LoopCallProofs.v
theories/LoopCallProps.v
theories/UnsubModel.v
theories/UnsubSpec.v
theories/UnsubProofs.v
theories/UnsubProps.v
theories/ReplyMapModel.v
theories/ReplyMapSpec.v
theories/ReplyMapProofs.v
theories/ReplyMapProps.v
theories/IterModel.v
theories/IterSpec.v
theories/IterProofs.v
theories/IterProps.v
theories/TypesModel.v
theories/TypesSpec.v
theories/TypesProofs.v
theories/TypesProps.v
theories/DumpModel.v
theories/DumpSpec.v
theories/DumpProofs.v
theories/DumpProps.v
theories/WorldFlowSpec.v
theories/WorldFlowProofs.v
theories/WorldFlowProps.v
theories/FamilyEndSpec.v
theories/FamilyEndProofs.v
theories/FamilyEndMain.v
theories/FamilyEndFacts.v
theories/FamilyEndProps.v
theories/TreeEndSpec.v
theories/TreeEndProofs.v
theories/TreeEndMain.v
theories/TreeEndProps.v
theories/FamilyStartSpec.v
theories/FamilyStartProofs.v
theories/TreeStartSpec.v
theories/TreeStartProofs.v
theories/StartProps.v
theories/PolicySpec.v
theories/PolicyProofs.v
theories/PolicyProps.v
theories/IntervalModel.v
theories/IntervalSpec.v
theories/IntervalProofs.v
theories/IntervalProps.v
theories/FamilyUpSpec.v
theories/FamilyUpProofs.v
theories/FamilyUpProps.v
theories/TreeUpSpec.v
theories/TreeUpProofs.v
theories/TreeUpProps.v
theories/ContextModel.v
theories/ContextSpec.v
theories/ContextProofs.v
theories/ContextProps.v
theories/TreeTopSpec.v
theories/TreeTopProofs.v
theories/TreeTopProps.v
theories/FamilyOnce.v
theories/TreeAllSpec.v
theories/TreeAllProofs.v
theories/TreeLateProofs.v
theories/TreeAllProps.v
theories/TriggerSpec.v
theories/TriggerProofs.v
theories/TriggerOnce.v
theories/TriggerProps.v
theories/TriggerFamily.v
theories/TimersPresent.v
theories/TimersHandlers.v
