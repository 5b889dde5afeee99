-Q theories Verif
theories/Base.v
theories/RingIface.v
theories/RingModel.v
theories/RingSpec.v
theories/RingProofs.v
theories/RingProps.v
theories/SpscModel.v
theories/SpscSpec.v
theories/SpscProofs.v
theories/SpscForce.v
theories/SpscProps.v
theories/LifeModel.v
theories/LifeSpec.v
theories/LifeProofs.v
theories/LifeProps.v
theories/ZMap.v
theories/ReaderModel.v
theories/ReaderSpec.v
theories/ReaderProofs.v
theories/ReaderProps.v
theories/AudioBufIface.v
theories/AudioBufModel.v
theories/AudioBufSpec.v
theories/AudioBufRing.v
theories/AudioBufProofs.v
theories/AudioBufProps.v
theories/AudioRaceModel.v
theories/AudioRaceProps.v
theories/SlicedIface.v
theories/SlicedModel.v
theories/SlicedSpec.v
theories/SlicedProofs.v
theories/SlicedProps.v
theories/PoolModel.v
theories/PoolSpec.v
theories/PoolProofs.v
theories/PoolProps.v
theories/EventModel.v
theories/EventSpec.v
theories/EventProofs.v
theories/EventProps.v
theories/NetModel.v
theories/NetProofs.v
theories/PipeModel.v
theories/PipeSpec.v
theories/PipeProofs.v
theories/PipeProps.v
theories/JsonModel.v
theories/JsonSpec.v
theories/JsonProofs.v
theories/JsonProps.v
theories/NamesModel.v
theories/NamesProps.v
theories/CtlModel.v
theories/CtlSpec.v
theories/CtlProofs.v
theories/CtlProps.v
theories/Bytes.v
theories/IsoModel.v
theories/IsoSpec.v
theories/IsoProofs.v
theories/IsoProps.v
theories/DashModel.v
theories/DashSpec.v
theories/DashProofs.v
theories/DashProps.v
theories/NalModel.v
theories/NalSpec.v
theories/NalProofs.v
theories/NalProps.v
theories/MpdModel.v
theories/MpdSpec.v
theories/MpdProofs.v
theories/MpdProps.v
theories/F32.v
theories/MixModel.v
theories/MixSpec.v
theories/MixProofs.v
theories/MixProps.v
theories/VidModel.v
theories/VidSpec.v
theories/VidProofs.v
theories/VidProps.v
theories/TxModel.v
theories/TxSpec.v
theories/TxProofs.v
theories/TxProps.v
theories/SinkModel.v
theories/SinkSpec.v
theories/SinkProofs.v
theories/SinkProps.v
theories/SpsModel.v
theories/SpsSpec.v
theories/SpsProofs.v
theories/SpsProps.v
theories/ShmModel.v
theories/ShmSpec.v
theories/ShmProofs.v
theories/ShmProps.v
theories/DmxModel.v
theories/DmxSpec.v
theories/DmxProofs.v
theories/DmxProps.v
theories/SyncModel.v
theories/SyncSpec.v
theories/SyncProofs.v
theories/SyncProps.v
theories/EncModel.v
theories/EncSpec.v
theories/EncProofs.v
theories/EncProps.v
theories/RcvModel.v
theories/RcvSpec.v
theories/RcvProofs.v
theories/RcvProps.v
theories/SdpModel.v
theories/SdpSpec.v
theories/SdpProofs.v
theories/SdpProps.v
theories/SessModel.v
theories/SessSpec.v
theories/SessProofs.v
theories/SessProps.v
theories/StatModel.v
theories/StatSpec.v
theories/StatProofs.v
theories/StatProps.v
theories/RsmModel.v
theories/RsmSpec.v
theories/RsmProofs.v
theories/RsmProps.v
theories/VdcModel.v
theories/VdcSpec.v
theories/VdcProofs.v
theories/VdcProps.v
theories/AdcModel.v
theories/AdcSpec.v
theories/AdcProofs.v
theories/AdcProps.v
theories/AenModel.v
theories/AenSpec.v
theories/AenProofs.v
theories/AenProps.v
theories/HspModel.v
theories/HspSpec.v
theories/HspProofs.v
theories/HspProps.v
theories/SeqModel.v
theories/SeqSpec.v
theories/SeqProofs.v
theories/SeqProps.v
theories/DlyModel.v
theories/DlySpec.v
theories/DlyProofs.v
theories/DlyProps.v
theories/V4lModel.v
theories/V4lSpec.v
theories/V4lProofs.v
theories/V4lProps.v
theories/V4fModel.v
theories/V4fSpec.v
theories/V4fProofs.v
theories/V4fProps.v
theories/RndModel.v
theories/RndSpec.v
theories/RndProofs.v
theories/RndProps.v
theories/RtsModel.v
theories/RtsSpec.v
theories/RtsProofs.v
theories/RtsProps.v
theories/FtxModel.v
theories/FtxSpec.v
theories/FtxProofs.v
theories/FtxProps.v
theories/EvtModel.v
theories/EvtSpec.v
theories/EvtProofs.v
theories/EvtProps.v
theories/MxmModel.v
theories/MxmSpec.v
theories/MxmProofs.v
theories/MxmProps.v
theories/RepModel.v
theories/RepSpec.v
theories/RepProofs.v
theories/RepProofs2.v
theories/RepProofs3.v
theories/RepProofs4.v
theories/RepProofs5.v
theories/RepProps.v
theories/AnnModel.v
theories/AnnSpec.v
theories/AnnProofs.v
theories/AnnRecv.v
theories/AnnProofs2.v
theories/AnnProps.v
theories/OpnModel.v
theories/OpnSpec.v
theories/OpnProofs.v
theories/OpnProps.v
theories/AorModel.v
theories/AorSpec.v
theories/AorProofs.v
theories/AorProps.v
theories/WireSpec.v
theories/WireProofs.v
theories/WireKeep.v
theories/WireProps.v
theories/RrpModel.v
theories/RrpSpec.v
theories/RrpProofs.v
theories/RrpProps.v
theories/StuModel.v
theories/StuSpec.v
theories/StuProofs.v
theories/StuReg.v
theories/StuProps.v
theories/CskModel.v
theories/CskSpec.v
theories/CskProofs.v
theories/CskProps.v
theories/LckModel.v
theories/LckSpec.v
theories/LckProofs.v
theories/LckProps.v
theories/RcpModel.v
theories/RcpSpec.v
theories/RcpProofs.v
theories/RcpProps.v
theories/AacModel.v
theories/AacSpec.v
theories/AacProofs.v
theories/AacProps.v
theories/StpModel.v
theories/StpSpec.v
theories/StpProofs.v
theories/StpProps.v
theories/DmmModel.v
theories/DmmSpec.v
theories/DmmProofs.v
theories/DmmProps.v
theories/SgmModel.v
theories/SgmSpec.v
theories/SgmProofs.v
theories/SgmProps.v
theories/ShoModel.v
theories/ShoSpec.v
theories/ShoProofs.v
theories/ShoProps.v
theories/RqdModel.v
theories/RqdSpec.v
theories/RqdProofs.v
theories/RqdProps.v
theories/ExdModel.v
theories/ExdSpec.v
theories/ExdProofs.v
theories/ExdProps.v
