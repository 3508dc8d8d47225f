-Q theories Verif
theories/CInt.v
theories/Lane.v
theories/LaneSpec.v
theories/LaneProofs.v
theories/LaneProofs2.v
theories/LaneProofs3.v
theories/LaneProofs4.v
theories/LaneCor.v
theories/PropLane.v
theories/VecModel.v
theories/VecSpec.v
theories/VecProofs.v
theories/VecEl.v
theories/VecFam.v
theories/VecPerm.v
theories/VecFrame.v
theories/VecRound.v
theories/VecCor.v
theories/PropVec.v
theories/ConvModel.v
theories/ConvSpec.v
theories/ConvProofs.v
theories/ConvProofs2.v
theories/PropConv.v
theories/MemModel.v
theories/MemSpec.v
theories/MemProofs.v
theories/PropMem.v
theories/DecodeTypes.v
theories/DecodeTable.v
theories/DecodeModel.v
theories/DecodeSpec.v
theories/DecodeProofs.v
theories/DecodeProofs2.v
theories/DecodeProofs3.v
theories/DecodeProofs4.v
theories/PropDecode.v
theories/TopModel.v
theories/TopSpec.v
theories/TopProofs.v
theories/TopProofs2.v
theories/TopProofs3.v
theories/TopProofs4.v
theories/DbgSpec.v
theories/TopCor.v
theories/DbgProofs.v
theories/TopToy.v
theories/PropTop.v
theories/LogModel.v
theories/LogSpec.v
theories/LogProofs.v
theories/PropLog.v
theories/V2Model.v
theories/V2Spec.v
theories/V2Proofs.v
theories/PropV2.v
theories/CosimModel.v
theories/CosimSpec.v
theories/CosimProofs.v
theories/PropCosim.v
theories/RenodeModel.v
theories/RenodeSpec.v
theories/RenodeProofs.v
theories/PropRenode.v
theories/RenodeMem.v
theories/RenodeMemSpec.v
theories/RenodeMemProofs.v
theories/RenodeMemProofs2.v
theories/PropRenodeMem.v
theories/HwSimModel.v
theories/HwSimSpec.v
theories/HwSimProofs.v
theories/PropHwSim.v
theories/ConcModel.v
theories/ConcSpec.v
theories/ConcProofs.v
theories/PropConc.v
theories/V2DecTypes.v
theories/V2Table.v
theories/V2DecModel.v
theories/V2DecSpec.v
theories/V2DecProofs.v
theories/V2DecProofs2.v
theories/PropV2Dec.v
theories/V1Aux.v
theories/V1ScalModel.v
theories/V1ScalSpec.v
theories/V1ScalProofs.v
theories/V1ScalProofs2.v
theories/V1ScalProofs3.v
theories/V1ScalProofs4.v
theories/PropV1Scal.v
theories/CliModel.v
theories/CliSpec.v
theories/CliProofs.v
theories/PropCli.v
theories/MachModel.v
theories/MachSpec.v
theories/RvSpec.v
theories/MachProofs.v
theories/MachProofs2.v
theories/MachProofs3.v
theories/MachProofs4.v
theories/MachProofs5.v
theories/MachProofs6.v
theories/PropMach.v
theories/RenodeTopModel.v
theories/RenodeTopSpec.v
theories/RenodeTopProofs.v
theories/PropRenodeTop.v
theories/MachInvSpec.v
theories/MachInvProofs.v
theories/MachInvProofs2.v
theories/PropMachInv.v
theories/KernSessSpec.v
theories/RenodeTotProofs.v
theories/KernSessProofs.v
theories/PropKernSess.v
theories/MachVecSpec.v
theories/MachProofs7.v
theories/PropMachVec.v
theories/MatSpec.v
theories/MatProofs.v
theories/MatProofs2.v
theories/PropMat.v
theories/TraceModel.v
theories/TraceSpec.v
theories/TraceProofs.v
theories/TraceProofs2.v
theories/PropTrace.v
theories/FootSpec.v
theories/FootProofs.v
theories/FootProofs2.v
theories/FootProofs3.v
theories/PropFoot.v
theories/PropDbg.v
theories/WatchSpec.v
theories/WatchProofs.v
theories/KernWatch.v
theories/PropWatch.v
theories/CsrModel.v
theories/CsrSpec.v
theories/CsrProofs.v
theories/PropCsr.v
theories/CntModel.v
theories/CntSpec.v
theories/CntProofs.v
theories/PropCnt.v
theories/ConsModel.v
theories/ConsSpec.v
theories/ConsProofs.v
theories/ConsProofs2.v
theories/ConsProofs3.v
theories/ConsProofs4.v
theories/PropCons.v
theories/TallyModel.v
theories/TallySpec.v
theories/TallyProofs.v
theories/TallyProofs2.v
theories/TallyProofs3.v
theories/PropTally.v
theories/HostModel.v
theories/HostSpec.v
theories/HostProofs.v
theories/HostProofs2.v
theories/HostProofs3.v
theories/PropHost.v
theories/V2MachModel.v
theories/V2MachSpec.v
theories/V2MachProofs.v
theories/V2MachProofs2.v
theories/PropV2Mach.v
theories/V2CopySpec.v
theories/V2Copy.v
theories/PropV2Copy.v
theories/CosimSpec2.v
theories/CosimProofs2.v
theories/PropCosim2.v
