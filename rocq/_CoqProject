-Q theories Verif
theories/AcDec.v
theories/AcDecProofs.v
theories/AcEnc.v
theories/AcEncProofs.v
theories/AcFinishProofs.v
theories/AcSpec.v
theories/AcSpecProofs.v
theories/AcStream.v
theories/AcStreamProofs.v
theories/ArithDec.v
theories/Base.v
theories/BufLemmas.v
theories/Buffers.v
theories/BuffersProofs.v
theories/Chain.v
theories/ChainError.v
theories/Config.v
theories/Dct4Inv.v
theories/DctErr.v
theories/DctSpec.v
theories/DecEquiv.v
theories/DecHistory.v
theories/DecLtpf.v
theories/DecMdct.v
theories/DecPayload.v
theories/DecRelease.v
theories/DecRun.v
theories/DecSide.v
theories/DecSignal.v
theories/DecSize.v
theories/DecState.v
theories/DecTotal.v
theories/Decoder.v
theories/DetectSpec.v
theories/Dft.v
theories/EncAny.v
theories/EncCheck.v
theories/EncDetect.v
theories/EncF32.v
theories/EncFrame.v
theories/EncKeep.v
theories/EncLtpf.v
theories/EncLtpfOk.v
theories/EncMdct.v
theories/EncOk.v
theories/EncPayload.v
theories/EncQuant.v
theories/EncReal.v
theories/EncRun.v
theories/EncScalar.v
theories/EncShape.v
theories/EncSize.v
theories/EncSns.v
theories/EncSnsOk.v
theories/EncSnsSize.v
theories/EncTns.v
theories/EncTnsSize.v
theories/EncTrip.v
theories/Encoder.v
theories/EstimateSpec.v
theories/Events.v
theories/F32.v
theories/F32Err.v
theories/F32Lines.v
theories/F32Round.v
theories/F32Size.v
theories/FactorProofs.v
theories/Fft.v
theories/FftErr.v
theories/FftErrRun.v
theories/FftFactor.v
theories/FftSpec.v
theories/Files.v
theories/Fixed.v
theories/FrameDec.v
theories/FrameEnc.v
theories/FrameProofs.v
theories/FrameSpec.v
theories/LineError.v
theories/LineSize.v
theories/LineSpec.v
theories/Loops.v
theories/Lpc.v
theories/LpcDamp.v
theories/LtpfExact.v
theories/LtpfSize.v
theories/LtpfSpec.v
theories/MdctErr.v
theories/MdctErrRun.v
theories/MdctErrStream.v
theories/MdctFormula.v
theories/MdctSpec.v
theories/MdctStream.v
theories/ModelTests.v
theories/Mpvq.v
theories/MpvqProofs.v
theories/Norm2.v
theories/ParseBase.v
theories/ParseTotal.v
theories/PayloadBound.v
theories/PayloadSpec.v
theories/PcmError.v
theories/PitchFacts.v
theories/PitchRun.v
theories/PitchSpec.v
theories/ProjF32.v
theories/PropertiesAny.v
theories/PropertiesAnyRun.v
theories/PropertiesBuffers.v
theories/PropertiesChain.v
theories/PropertiesCoder.v
theories/PropertiesDecoder.v
theories/PropertiesDetect.v
theories/PropertiesEncF32.v
theories/PropertiesEncoder.v
theories/PropertiesEnergy.v
theories/PropertiesFiles.v
theories/PropertiesFilesEnc.v
theories/PropertiesFinite.v
theories/PropertiesFrame.v
theories/PropertiesLive.v
theories/PropertiesLpc.v
theories/PropertiesMdct.v
theories/PropertiesOvershoot.v
theories/PropertiesParse.v
theories/PropertiesPcm.v
theories/PropertiesPitch.v
theories/PropertiesQuant.v
theories/PropertiesQuiet.v
theories/PropertiesRate.v
theories/PropertiesReal.v
theories/PropertiesRounding.v
theories/PropertiesScf.v
theories/PropertiesShape.v
theories/PropertiesShaping.v
theories/PropertiesSignal.v
theories/PropertiesSns.v
theories/PropertiesSnsFail.v
theories/PropertiesSnsWrap.v
theories/PropertiesStable.v
theories/PropertiesTns.v
theories/PropertiesWav.v
theories/QuantReal.v
theories/QuantSpec.v
theories/QuietF32.v
theories/RateSpec.v
theories/Reader.v
theories/RealOps.v
theories/RoundTrip.v
theories/Scalar.v
theories/ScfBound.v
theories/ScfRun.v
theories/ScfSpec.v
theories/SeedBound.v
theories/SideInfo.v
theories/SnsGrid.v
theories/SnsIndex.v
theories/SnsProofs.v
theories/SnsShape.v
theories/SnsSize.v
theories/SoftLibm.v
theories/TablesBand.v
theories/TablesLtpf.v
theories/TablesProofs.v
theories/TablesSns.v
theories/TablesSnsF.v
theories/TablesSpec.v
theories/TablesTns.v
theories/TablesWindow.v
theories/TailProofs.v
theories/TailSpec.v
theories/Tdac.v
theories/TdacSpec.v
theories/TnsBits.v
theories/TnsCorr.v
theories/TnsFir.v
theories/TnsIndex.v
theories/TnsInverse.v
theories/TnsLinear.v
theories/TnsLpc.v
theories/TnsOk.v
theories/TnsSize.v
theories/TnsStable.v
theories/TnsUnstable.v
theories/UpstreamTests.v
theories/Wav.v
theories/Writer.v
theories/WriterTotal.v
