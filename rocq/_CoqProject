-Q theories Verif
theories/PyBase.v
theories/BitLemmas.v
theories/TlpModel.v
theories/TlpSpec.v
theories/TlpProofs.v
theories/PropsTlp.v
theories/BarModel.v
theories/BarSpec.v
theories/BarProofs.v
theories/PropsBar.v
theories/SplitModel.v
theories/SplitSpec.v
theories/SplitProofs.v
theories/SplitProofs2.v
theories/PropsSplit.v
theories/CapModel.v
theories/CapSpec.v
theories/CapProofs.v
theories/PropsCap.v
theories/CfgModel.v
theories/CfgSpec.v
theories/CfgBits.v
theories/CfgLayout.v
theories/CfgProofs.v
theories/MsiModel.v
theories/MsiProofs.v
theories/PropsCfg.v
theories/AllocModel.v
theories/AllocProofs.v
theories/EnumModel.v
theories/RouteModel.v
theories/EnumSpec.v
theories/EnumProofs1.v
theories/EnumProofs2.v
theories/EnumProofs3.v
theories/EnumProofs4.v
theories/EnumProofs5.v
theories/RouteSpec.v
theories/RouteProofs.v
theories/EnumWitness.v
theories/PropsEnum.v
theories/UsModel.v
theories/UsSpec.v
theories/UsProofs.v
theories/PropsUs.v
theories/UsStreamModel.v
theories/UsStreamSpec.v
theories/UsStreamProofs.v
theories/UsStreamProofs2.v
theories/UsStreamProofs3.v
theories/PropsUsStream.v
theories/DevModel.v
theories/DevSpec.v
theories/DevProofs.v
theories/DevProofs2.v
theories/DevProofs3.v
theories/PropsDev.v
theories/RtlModel.v
theories/RtlSpec.v
theories/RtlProofs.v
theories/RtlProofs2.v
theories/PropsRtl.v
theories/PcieIfModel.v
theories/PcieIfSpec.v
theories/PcieIfProofs.v
theories/PcieIfProofs2.v
theories/PcieIfProofs3.v
theories/PcieIfProofs4.v
theories/PropsPcieIf.v
theories/PcieIfStreamModel.v
theories/PcieIfStreamSpec.v
theories/PcieIfStreamProofs.v
theories/PcieIfStreamProofs2.v
theories/PcieIfStreamProofs3.v
theories/PcieIfStreamProofs4.v
theories/PropsPcieIfStream.v
theories/PsdpModel.v
theories/PsdpSpec.v
theories/PsdpProofs.v
theories/PsdpProofs2.v
theories/PsdpProofs3.v
theories/PsdpProofs4.v
theories/PsdpProofs5.v
theories/PropsPsdp.v
theories/AxisModel.v
theories/AxisSpec.v
theories/AxisProofs.v
theories/PropsAxis.v
theories/AxilModel.v
theories/AxilSpec.v
theories/AxilProofs.v
theories/AxilProofs2.v
theories/AxilProofs3.v
theories/PropsAxil.v
theories/AxiModel.v
theories/AxiSpec.v
theories/AxiProofs.v
theories/AxiProofs2.v
theories/AxiProofs3.v
theories/AxiProofs4.v
theories/PropsAxi.v
theories/IoModel.v
theories/IoSpec.v
theories/IoProofs.v
theories/IoProofs2.v
theories/IoProofs3.v
theories/IoProofs4.v
theories/IoProofs5.v
theories/PropsIo.v
theories/UspModel.v
theories/UspSpec.v
theories/UspProofs.v
theories/PropsUsp.v
theories/DmaRamModel.v
theories/DmaRamSpec.v
theories/DmaRamProofs.v
theories/DmaRamProofs2.v
theories/PropsDmaRam.v
theories/PortModel.v
theories/PortSpec.v
theories/PortProofs.v
theories/PortProofs2.v
theories/PropsPort.v
theories/MsiHostModel.v
theories/MsiHostSpec.v
theories/MsiHostProofs.v
theories/PropsMsiHost.v
theories/RtlFcModel.v
theories/RtlFcSpec.v
theories/RtlFcProofs.v
theories/PropsRtlFc.v
theories/RtlIrqModel.v
theories/RtlIrqSpec.v
theories/RtlIrqProofs.v
theories/PropsRtlIrq.v
theories/RtlMsiModel.v
theories/RtlMsiSpec.v
theories/RtlMsiProofs.v
theories/RtlMsiProofs2.v
theories/PropsRtlMsi.v
theories/RtlMuxModel.v
theories/RtlMuxSpec.v
theories/RtlMuxProofs.v
theories/RtlMuxProofs2.v
theories/RtlMuxProofs3.v
theories/PropsRtlMux.v
theories/RtlDemuxModel.v
theories/RtlDemuxSpec.v
theories/RtlDemuxProofs.v
theories/RtlDemuxProofs2.v
theories/RtlDemuxProofs3.v
theories/PropsRtlDemux.v
theories/RtlRamModel.v
theories/RtlRamSpec.v
theories/RtlRamProofs.v
theories/RtlRamProofs2.v
theories/PropsRtlRam.v
theories/RtlRamDemuxModel.v
theories/RtlRamDemuxSpec.v
theories/RtlRamDemuxProofs.v
theories/RtlRamDemuxProofs2.v
theories/RtlRamDemuxProofs3.v
theories/RtlRamDemuxProofs4.v
theories/RtlRamDemuxProofs5.v
theories/PropsRtlRamDemux.v
theories/RtlTlpDemuxModel.v
theories/RtlTlpDemuxSpec.v
theories/RtlTlpDemuxProofs.v
theories/RtlTlpDemuxProofs2.v
theories/PropsRtlTlpDemux.v
theories/RtlTlpMuxModel.v
theories/RtlTlpMuxSpec.v
theories/RtlTlpMuxProofs.v
theories/RtlTlpMuxProofs2.v
theories/RtlTlpMuxProofs3.v
theories/RtlTlpMuxProofs4.v
theories/PropsRtlTlpMux.v
theories/RtlMsixModel.v
theories/RtlMsixSpec.v
theories/RtlMsixProofs.v
theories/RtlMsixProofs2.v
theories/RtlMsixProofs3.v
theories/RtlMsixProofs4.v
theories/RtlMsixProofs5.v
theories/RtlMsixProofs6.v
theories/PropsRtlMsix.v
theories/RtlSrcModel.v
theories/RtlSrcSpec.v
theories/RtlSrcProofs.v
theories/RtlSrcProofs2.v
theories/PropsRtlSrc.v
theories/RtlSinkModel.v
theories/RtlSinkSpec.v
theories/RtlSinkProofs.v
theories/RtlSinkProofs2.v
theories/PropsRtlSink.v
theories/RtlCfgModel.v
theories/RtlCfgSpec.v
theories/RtlCfgProofs.v
theories/PropsRtlCfg.v
theories/RtlAxmModel.v
theories/RtlAxmSpec.v
theories/RtlAxmProofs.v
theories/RtlAxmProofs2.v
theories/RtlAxmProofs3.v
theories/PropsRtlAxm.v
theories/RtlAxwModel.v
theories/RtlAxwSpec.v
theories/RtlAxwProofs.v
theories/RtlAxwProofs2.v
theories/RtlAxwProofs3.v
theories/RtlAxwProofs4.v
theories/PropsRtlAxw.v
theories/RtlUsIfModel.v
theories/RtlUsIfSpec.v
theories/RtlUsIfProofs.v
theories/RtlUsIfProofs2.v
theories/RtlUsIfProofs3.v
theories/RtlUsIfProofs4.v
theories/PropsRtlUsIf.v
theories/RtlUsTxModel.v
theories/RtlUsTxSpec.v
theories/RtlUsTxProofs.v
theories/RtlUsTxProofs2.v
theories/RtlUsTxProofs3.v
theories/RtlUsTxProofs4.v
theories/RtlUsTxProofs5.v
theories/RtlUsTxProofs6.v
theories/PropsRtlUsTx.v
theories/RtlTileCfgModel.v
theories/RtlTileCfgSpec.v
theories/RtlTileCfgProofs.v
theories/RtlTileCfgProofs2.v
theories/PropsRtlTileCfg.v
theories/RtlTileRxModel.v
theories/RtlTileRxSpec.v
theories/RtlTileRxProofs.v
theories/RtlTileRxProofs2.v
theories/RtlTileRxProofs3.v
theories/RtlTileRxProofs4.v
theories/PropsRtlTileRx.v
theories/RtlFifoModel.v
theories/RtlFifoSpec.v
theories/RtlFifoProofs.v
theories/RtlFifoProofs2.v
theories/PropsRtlFifo.v
theories/RtlFmuxModel.v
theories/RtlFmuxSpec.v
theories/RtlFmuxProofs.v
theories/RtlFmuxProofs2.v
theories/RtlFmuxProofs3.v
theories/RtlFmuxProofs4.v
theories/PropsRtlFmux.v
theories/RtlFmuxProofs5.v
theories/RtlPtTxModel.v
theories/RtlPtTxSpec.v
theories/RtlPtTxProofs.v
theories/RtlPtTxProofs2.v
theories/PropsRtlPtTx.v
theories/RtlPtTxProofs3.v
theories/PropsRtlPtTx2.v
theories/RtlIfMuxModel.v
theories/RtlIfMuxSpec.v
theories/RtlIfMuxProofs.v
theories/PropsRtlIfMux.v
theories/RtlS10TxModel.v
theories/RtlS10TxSpec.v
theories/RtlS10TxProofs.v
theories/PropsRtlS10Tx.v
theories/RtlS10FcModel.v
theories/RtlS10FcSpec.v
theories/RtlS10FcProofs.v
theories/PropsRtlS10Fc.v
theories/RtlAxlModel.v
theories/RtlAxlSpec.v
theories/RtlAxlProofs.v
theories/RtlAxlProofs2.v
theories/RtlAxlProofs3.v
theories/PropsRtlAxl.v
