-Q theories Verif

theories/Base.v
theories/IntPrintModel.v
theories/NumSpec.v
theories/NumFacts.v
theories/IntPrintProofs.v
theories/JeaiiiProofs.v
theories/IntPrintCorrect.v
theories/IntSizeProofs.v
theories/IntInjProofs.v
theories/PropsIntPrint.v
theories/IntScanModel.v
theories/ScanSpec.v
theories/IntScanProofs.v
theories/IntSseProofs.v
theories/IntCtxProofs.v
theories/IntRoundProofs.v
theories/IntSoundProofs.v
theories/PropsIntScan.v
theories/Leb128Model.v
theories/Leb128Spec.v
theories/Leb128Proofs.v
theories/PropsLeb128.v
theories/ByteSpec.v
theories/LebeModel.v
theories/ByteProofs.v
theories/PropsLebe.v
theories/UtfTables.v
theories/UtfSpec.v
theories/UtfModel.v
theories/UtfProofs.v
theories/UtfLoopProofs.v
theories/UtfSizeProofs.v
theories/PropsUtf.v
theories/HashTables.v
theories/HashSpec.v
theories/HashModel.v
theories/HashProofs.v
theories/HashSimdProofs.v
theories/HashCtxProofs.v
theories/HashRunProofs.v
theories/PropsHash.v
theories/Outcome.v
theories/TimeSpec.v
theories/TimeModel.v
theories/TimeCalProofs.v
theories/TimeArithProofs.v
theories/TimeTextModel.v
theories/TimeTextSpec.v
theories/TimeTextProofs.v
theories/TimeScanProofs.v
theories/PropsTime.v
theories/IpSpec.v
theories/IpModel.v
theories/IpProofs.v
theories/IpShortProofs.v
theories/IpScanProofs.v
theories/IpScan6Proofs.v
theories/IpAcceptProofs.v
theories/PropsIp.v
theories/BufModel.v
theories/PrintModel.v
theories/BufSpec.v
theories/BufOutProofs.v
theories/BufInProofs.v
theories/BufRunProofs.v
theories/WriteAllModel.v
theories/WriteAllSpec.v
theories/WriteAllProofs.v
theories/PropsBuf.v
theories/VectorModel.v
theories/VectorSpec.v
theories/VectorProofs.v
theories/VectorStepProofs.v
theories/VectorMoreProofs.v
theories/PropsVector.v
theories/CharModel.v
theories/CharSpec.v
theories/PropsChar.v
theories/FindModel.v
theories/FindSpec.v
theories/FindProofs.v
theories/FindMuslProofs.v
theories/PropsFind.v
theories/LineModel.v
theories/LineSpec.v
theories/LineProofs.v
theories/StrProofs.v
theories/PropsLine.v
theories/WidthModel.v
theories/WidthSpec.v
theories/PropsWidth.v
theories/IntrinModel.v
theories/IntrinProofs.v
theories/IntrinDivProofs.v
theories/IntrinDiv2Proofs.v
theories/IntrinDiv3Proofs.v
theories/PropsIntrin.v
theories/FloatTables.v
theories/FloatModel.v
theories/FloatSpec.v
theories/FloatRoundProofs.v
theories/FloatCertTable.v
theories/FloatCertProofs.v
theories/FloatDragonProofs.v
theories/FloatCodeProofs.v
theories/FloatMainProofs.v
theories/FloatMain32Proofs.v
theories/FloatBestProofs.v
theories/FloatImplProofs.v
theories/FloatImpl32Proofs.v
theories/FloatPowProofs.v
theories/PropsFloat.v
theories/FloatTextSpec.v
theories/FloatTextModel.v
theories/FloatTextProofs.v
theories/FloatTextCases.v
theories/FloatTextForms.v
theories/FloatTextMeaning.v
theories/FloatReachProofs.v
theories/FloatPrintProofs.v
theories/FloatHexProofs.v
theories/PropsFloatText.v
theories/TransmitModel.v
theories/TransmitSpec.v
theories/TransmitProofs.v
theories/PropsTransmit.v
theories/LockModel.v
theories/LockSpec.v
theories/LockProofs.v
theories/LockRun.v
theories/SharedModel.v
theories/SharedSpec.v
theories/SharedProofs.v
theories/PropsShared.v
theories/HandleModel.v
theories/HandleSpec.v
theories/HandleProofs.v
theories/PropsHandle.v
theories/ProcModel.v
theories/ProcSpec.v
theories/ProcProofs.v
theories/PropsProc.v
theories/ConcatModel.v
theories/ConcatSpec.v
theories/ConcatProofs.v
theories/PropsConcat.v
theories/IpCtxModel.v
theories/IpCtxProofs.v
theories/IpCtxSound.v
theories/PropsIpCtx.v
theories/ScanDrvModel.v
theories/ScanDrvProofs.v
theories/ScanDrvInt.v
theories/ScanDrvPieces.v
theories/ScanDrvIp.v
theories/ScanDrvSpec.v
theories/ScanDrvMain.v
theories/PropsScanDrv.v
theories/OpenModel.v
theories/OpenSpec.v
theories/PropsOpen.v
theories/LoadModel.v
theories/LoadSpec.v
theories/LoadProofs.v
theories/PropsLoad.v
theories/HttpModel.v
theories/HttpSpec.v
theories/HttpProofs.v
theories/HttpLines.v
theories/PropsHttp.v
theories/ToModel.v
theories/ToSpec.v
theories/ToProofs.v
theories/ToCtxProofs.v
theories/ToIntProofs.v
theories/PropsTo.v
theories/HexSpec.v
theories/HexModel.v
theories/PropsHex.v
theories/RangeSpec.v
theories/RangeModel.v
theories/PropsRange.v
theories/CipherSpec.v
theories/CipherModel.v
theories/CipherProofs.v
theories/AesProofs.v
theories/PropsCipher.v
theories/LcSpec.v
theories/LcModel.v
theories/LcProofs.v
theories/PropsLc.v
theories/TimeCtxModel.v
theories/TimeCtxProofs.v
theories/TimeCtxOne.v
theories/TimeCtxSpec.v
theories/TimeCtxGrammar.v
theories/TimeCtxWhole.v
theories/PropsTimeCtx.v
theories/AlgoModel.v
theories/AlgoSpec.v
theories/AlgoProofs.v
theories/PropsAlgo.v
theories/HashNiModel.v
theories/HashNiProofs.v
theories/PropsHashNi.v
theories/ViewModel.v
theories/ViewSpec.v
theories/ViewProofs.v
theories/PropsView.v
theories/IndentModel.v
theories/IndentSpec.v
theories/IndentProofs.v
theories/PropsIndent.v
theories/ClockSpec.v
theories/ClockModel.v
theories/PropsClock.v
theories/GbSpec.v
theories/GbTables.v
theories/GbModel.v
theories/GbTrie.v
theories/GbCheck.v
theories/GbProofs.v
theories/GbTextProofs.v
theories/GbBackProofs.v
theories/PropsGb.v
theories/EbSpec.v
theories/EbModel.v
theories/EbProofs.v
theories/EbTextProofs.v
theories/PropsEb.v
theories/LtSpec.v
theories/LtModel.v
theories/LtSizeProofs.v
theories/LtProofs.v
theories/LtCalProofs.v
theories/PropsLt.v
theories/StSpec.v
theories/StModel.v
theories/PropsSt.v
theories/ErrTables.v
theories/ErrSpec.v
theories/ErrModel.v
theories/ErrProofs.v
theories/PropsErr.v
theories/OsNameSpec.v
theories/OsNameModel.v
theories/PropsOsName.v
theories/UnixCtxSpec.v
theories/UnixCtxModel.v
theories/UnixCtxProofs.v
theories/PropsUnixCtx.v
theories/LcFloatSpec.v
theories/LcFloatModel.v
theories/LcFloatProofs.v
theories/LcFloatMeaning.v
theories/LcFloatReach.v
theories/LcFloatHex.v
theories/PropsLcFloat.v
theories/FlockSpec.v
theories/FlockModel.v
theories/FlockProofs.v
theories/PropsFlock.v
theories/MaskModel.v
theories/MaskProofs.v
theories/PropsMask.v
theories/DecoModel.v
theories/DecoSpec.v
theories/DecoProofs.v
theories/PropsDeco.v
theories/OmapModel.v
theories/PropsOmap.v
theories/GeneratorModel.v
theories/PropsGenerator.v
theories/ComplexModel.v
theories/PropsComplex.v
theories/LiteralModel.v
theories/PropsLiteral.v
theories/BitsetModel.v
theories/PropsBitset.v
theories/IgenModel.v
theories/PropsIgen.v
theories/SinglecModel.v
theories/PropsSinglec.v
