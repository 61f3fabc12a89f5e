-Q theories Verif
theories/Agc.v
theories/AgcFacts.v
theories/AgcSpec.v
theories/Allocation.v
theories/AllocationFacts.v
theories/AllocationSpec.v
theories/ApplicationClient.v
theories/ApplicationClientCount.v
theories/ApplicationClientFacts.v
theories/ApplicationClientSpec.v
theories/ApplicationServer.v
theories/ApplicationServerFacts.v
theories/ApplicationServerSpec.v
theories/Assembly.v
theories/AssemblyFacts.v
theories/AssemblySpec.v
theories/AssociationFacts.v
theories/AssociationIes.v
theories/AssociationSpec.v
theories/Autocorr.v
theories/AutocorrFacts.v
theories/AutocorrSpec.v
theories/Base.v
theories/Beacons.v
theories/BeaconsFacts.v
theories/BeaconsSpec.v
theories/Beamforming.v
theories/BeamformingFacts.v
theories/BeamformingSpec.v
theories/Bimap.v
theories/BimapFacts.v
theories/BimapSpec.v
theories/BitSolve.v
theories/ByteFacts.v
theories/Bytes.v
theories/Callbacks.v
theories/CallbacksFacts.v
theories/CallbacksSpec.v
theories/CapabilityFacts.v
theories/CapabilityIes.v
theories/Cells.v
theories/CellsCheck.v
theories/CellsFacts.v
theories/CellsSpec.v
theories/CellsTables.v
theories/ChannelLut.v
theories/ChannelLutFacts.v
theories/ChannelLutRunFacts.v
theories/ChannelLutSpec.v
theories/Channels.v
theories/ChannelsSpec.v
theories/Chscan.v
theories/ChscanFacts.v
theories/ChscanSpec.v
theories/ChunkSearch.v
theories/ChunkSearchFacts.v
theories/ChunkSearchSpec.v
theories/Combining.v
theories/CombiningFacts.v
theories/CombiningSpec.v
theories/ContactList.v
theories/ContactListFacts.v
theories/ContactListSpec.v
theories/DatagramQueue.v
theories/DatagramQueueFacts.v
theories/DatagramQueueSpec.v
theories/Decoder.v
theories/DecoderFacts.v
theories/DecoderSpec.v
theories/Duration.v
theories/DurationSpec.v
theories/Feedback.v
theories/FeedbackFacts.v
theories/FeedbackSpec.v
theories/Fields.v
theories/GainLut.v
theories/GainLutFacts.v
theories/GainLutSpec.v
theories/Graph.v
theories/HarqPool.v
theories/HarqPoolFacts.v
theories/HarqPoolSpec.v
theories/Identity.v
theories/IeBase.v
theories/IeCursor.v
theories/IeFacts.v
theories/IeListFacts.v
theories/IeLists.v
theories/InfoIes.v
theories/InfoIesSpec.v
theories/IntHelpers.v
theories/IntHelpersFacts.v
theories/IntHelpersSpec.v
theories/IrregularQueue.v
theories/IrregularQueueFacts.v
theories/IrregularQueueSpec.v
theories/JobQueue.v
theories/JobQueueFacts.v
theories/JobQueueMc.v
theories/JobQueueMcFacts.v
theories/JobQueueMcSpec.v
theories/JobQueueSpec.v
theories/JsonExport.v
theories/JsonExportFacts.v
theories/JsonExportSpec.v
theories/LinkAdapt.v
theories/LinkAdaptFacts.v
theories/LinkAdaptSpec.v
theories/LoadFacts.v
theories/Loopback.v
theories/LoopbackFacts.v
theories/LoopbackRunFacts.v
theories/LoopbackSpec.v
theories/MacHeader.v
theories/MacHeaderFacts.v
theories/MacHeaderSpec.v
theories/MeasureFw.v
theories/MeasureFwFacts.v
theories/MeasureFwSpec.v
theories/MimoEst.v
theories/MimoEstFacts.v
theories/MimoEstSpec.v
theories/MovSum.v
theories/MovSumFacts.v
theories/MovSumSpec.v
theories/Mux.v
theories/MuxFacts.v
theories/MuxSpec.v
theories/NeighbouringFacts.v
theories/P01_DatagramQueue.v
theories/P02_JobQueue.v
theories/P03_Token.v
theories/P04_Sync.v
theories/P05_IrregularQueue.v
theories/P06_HarqPool.v
theories/P07_TxBuffers.v
theories/P08_RxRing.v
theories/P09_Callbacks.v
theories/P10_Bimap.v
theories/P11_ContactList.v
theories/P12_Plcf.v
theories/P13_PlcfDecoder.v
theories/P14_Feedback.v
theories/P15_Identity.v
theories/P16_MacHeader.v
theories/P17_Mux.v
theories/P18_IntHelpers.v
theories/P19_Channels.v
theories/P20_Graph.v
theories/P21_Duration.v
theories/P22_Ppx.v
theories/P23_Pll.v
theories/P24_Allocation.v
theories/P25_P2pPlan.v
theories/P26_Beacons.v
theories/P27_Decoder.v
theories/P28_Assembly.v
theories/P29_Unicast.v
theories/P2p.v
theories/P2pFacts.v
theories/P2pInvFacts.v
theories/P2pSpec.v
theories/P2pStepFacts.v
theories/P30_SmallIes.v
theories/P31_PacketSizes.v
theories/P32_TransportBlock.v
theories/P33_PacketClass.v
theories/P34_RxRequest.v
theories/P35_Cells.v
theories/P36_TxCells.v
theories/P37_Resampler.v
theories/P38_ApplicationClient.v
theories/P39_Vspace.v
theories/P40_SimTx.v
theories/P41_ResourceIes.v
theories/P42_Association.v
theories/P43_InfoIes.v
theories/P44_LoadInfo.v
theories/P45_CapabilityIes.v
theories/P46_UsrpTx.v
theories/P47_RxPacer.v
theories/P48_Autocorr.v
theories/P49_ChunkSearch.v
theories/P50_TbEncode.v
theories/P51_TbDecode.v
theories/P52_Pcc.v
theories/P53_P2p.v
theories/P54_ApplicationServer.v
theories/P55_RxSymbols.v
theories/P56_Rtt.v
theories/P57_Agc.v
theories/P58_GainLut.v
theories/P59_JobQueueMc.v
theories/P60_LinkAdapt.v
theories/P61_Beamforming.v
theories/P62_MimoEst.v
theories/P63_Combining.v
theories/P64_Chscan.v
theories/P65_Wireless.v
theories/P66_WorkerJobs.v
theories/P67_ChannelLut.v
theories/P68_Loopback.v
theories/P69_JsonExport.v
theories/P70_MeasureFw.v
theories/P71_UdpApp.v
theories/P72_Stream.v
theories/P73_Part2.v
theories/P74_SnrEst.v
theories/P75_UpperCfg.v
theories/P76_Wiring.v
theories/PacketSizes.v
theories/PacketSizesFacts.v
theories/PacketSizesMaxFacts.v
theories/PacketSizesSpec.v
theories/PacketUse.v
theories/PacketUseFacts.v
theories/PacketUseSpec.v
theories/Part2.v
theories/Part2Facts.v
theories/Part2Spec.v
theories/PccCodec.v
theories/PccCodecFacts.v
theories/PccCodecSpec.v
theories/PccSearchFacts.v
theories/Plcf.v
theories/PlcfDecoderFacts.v
theories/PlcfFacts.v
theories/PlcfSpec.v
theories/Pll.v
theories/PllFacts.v
theories/PllSpec.v
theories/Ppx.v
theories/RandomAccessFacts.v
theories/ReconfFacts.v
theories/Resampler.v
theories/ResamplerFacts.v
theories/ResamplerMeaning.v
theories/ResamplerSpec.v
theories/ResamplerStream.v
theories/ResamplerSum.v
theories/ResourceIes.v
theories/ResourceIesFacts.v
theories/ResourceIesSpec.v
theories/Ring.v
theories/Rtt.v
theories/RttFacts.v
theories/RttSpec.v
theories/RxDataFacts.v
theories/RxLoopFacts.v
theories/RxPacer.v
theories/RxPacerAll.v
theories/RxPacerCalls.v
theories/RxPacerFacts.v
theories/RxPacerSpec.v
theories/RxPacerStream.v
theories/RxReceiveFacts.v
theories/RxRing.v
theories/RxRingFacts.v
theories/RxRingSpec.v
theories/RxStageFacts.v
theories/RxSymbols.v
theories/RxSymbolsFacts.v
theories/RxSymbolsSpec.v
theories/SimTx.v
theories/SimTxFacts.v
theories/SimTxSpec.v
theories/SmallIes.v
theories/SmallIesFacts.v
theories/SmallIesSpec.v
theories/SnrEst.v
theories/SnrEstFacts.v
theories/SnrEstSpec.v
theories/Stream.v
theories/StreamFacts.v
theories/StreamSpec.v
theories/Sync.v
theories/SyncFacts.v
theories/SyncSpec.v
theories/TbCodec.v
theories/TbCodecSpec.v
theories/TbDecFacts.v
theories/TbDecRun.v
theories/TbEncFacts.v
theories/TbEncRun.v
theories/TbGeomFacts.v
theories/Token.v
theories/TokenFacts.v
theories/TokenSpec.v
theories/TxBuffers.v
theories/TxBuffersFacts.v
theories/TxBuffersSpec.v
theories/TxCells.v
theories/TxFacts.v
theories/TxUseFacts.v
theories/UdpApp.v
theories/UdpAppFacts.v
theories/UdpAppSpec.v
theories/UpperCfg.v
theories/UpperCfgFacts.v
theories/UpperCfgSpec.v
theories/UsrpTx.v
theories/UsrpTxFacts.v
theories/UsrpTxSpec.v
theories/Vspace.v
theories/VspaceFacts.v
theories/VspaceSpec.v
theories/WireSpec.v
theories/Wireless.v
theories/WirelessChannelFacts.v
theories/WirelessFacts.v
theories/WirelessSpec.v
theories/Wiring.v
theories/WiringFacts.v
theories/WiringSpec.v
theories/WorkerJobs.v
theories/WorkerJobsFacts.v
theories/WorkerJobsSpec.v
