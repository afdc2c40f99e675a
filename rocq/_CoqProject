-Q theories Verif
theories/PyBase.v
theories/Types.v
theories/Decoder.v
theories/Encoder.v
theories/Tools.v
theories/CPython311.v
theories/Specs.v
theories/Wire.v
theories/Samples.v
theories/BaseFacts.v
theories/Numerals.v
theories/NumeralFacts.v
theories/Texts.v
theories/TextFacts.v
theories/CodecFacts.v
theories/Shown.v
theories/DecoderFacts.v
theories/DecodeRun.v
theories/DecodeComplete.v
theories/DecodeTheorems.v
theories/WireEncode.v
theories/EncoderFacts.v
theories/EncodeRun.v
theories/EncodeWhole.v
theories/SampleFacts.v
theories/PropsDecode.v
theories/Claims.v
theories/EncodeTheorems.v
theories/EncodeTheorems2.v
theories/EncodeTheorems3.v
theories/Roundtrip.v
theories/Roundtrip2.v
theories/Roundtrip3.v
theories/EncodeSamples.v
theories/ShownSamples.v
theories/PropsEncode.v
theories/Shipped.v
theories/RoundtripSamples.v
theories/PropsRoundtrip.v
theories/Claims2.v
theories/DontCare.v
theories/Pretty.v
theories/PrettyFacts.v
theories/PrettyFacts2.v
theories/PrettyExact.v
theories/PrettyUnique.v
theories/PrettyMessages.v
theories/PrettyUniqueSamples.v
theories/PropsPretty.v
theories/Lookup.v
theories/SpecKeys.v
theories/PrettySamples.v
theories/PropsTools.v
theories/DecodeFault.v
theories/Claims3.v
theories/DecodeFaultFacts.v
theories/DecodeCut.v
theories/FaultSamples.v
theories/PropsFaults.v
theories/EncodeFault.v
theories/EncodeFaultFacts.v
theories/EncodeFaultWhole.v
theories/EncodeFaultSamples.v
theories/PropsEncodeFaults.v
theories/EncodeOrder.v
theories/LookupSamples.v
theories/PropsLookup.v
theories/Claims4.v
theories/Extend.v
theories/ExtendSamples.v
theories/PropsExtend.v
theories/Replace.v
theories/Replace2.v
theories/ReplaceSamples.v
theories/PropsReplace.v
theories/DecodeGap.v
theories/DecodeGapFacts.v
theories/GapSamples.v
theories/PropsGap.v
theories/EncodeEscape.v
theories/EncodeEscapeFacts.v
theories/EncodeEscapeWhole.v
theories/EncodeOrder2.v
theories/EscapeSamples.v
theories/PropsEscape.v
theories/Claims5.v
theories/ShippedLang.v
theories/Size.v
theories/SizeSamples.v
theories/PropsShipped.v
theories/Claims6.v
theories/Corrupt.v
theories/Causal.v
theories/CorruptSamples.v
theories/PropsCorrupt.v
theories/RepoTests.v
theories/Claims7.v
theories/Forward.v
theories/ForwardSamples.v
theories/PropsForward.v
theories/Claims8.v
theories/Remove.v
theories/Repair.v
theories/RepairSamples.v
theories/Salvage.v
theories/SalvageSamples.v
theories/PropsRepair.v
theories/RemoveSamples.v
theories/PropsRemove.v
theories/Claims9.v
theories/Claims10.v
theories/CodecTexts.v
theories/LiteralFacts.v
theories/TextSamples.v
theories/PropsTexts.v
theories/PyAst.v
theories/Source.v
theories/PyFormat.v
theories/FormatFacts.v
theories/PySem.v
theories/SemClaims.v
theories/SemFacts.v
theories/SemHeap.v
theories/SemStep.v
theories/SemDecode.v
theories/SemDecodeTop.v
theories/SemEncode.v
theories/SemEncodeTop.v
theories/SemEncodeBody.v
theories/SourceDecode.v
theories/SourceEncode.v
theories/SemTools.v
theories/SourceTools.v
theories/SourceSamples.v
theories/SessionClaims.v
theories/EncodeMemory.v
theories/SourceSessions.v
theories/SourceSpecs.v
theories/SourceShipped.v
theories/SourceErrors.v
theories/SessionSamples.v
theories/HistoryClaims.v
theories/SourceHistory.v
theories/PrettySpec.v
theories/HistorySamples.v
theories/PropsSession.v
theories/PropsHistory.v
theories/PropsSource.v
theories/Threads.v
theories/ThreadClaims.v
theories/ThreadFacts.v
theories/ThreadSim.v
theories/ThreadRun.v
theories/ThreadMachine.v
theories/ThreadTasks.v
theories/ThreadLib.v
theories/ThreadSamples.v
theories/PropsThreads.v
theories/SafeClaims.v
theories/SafeCheck.v
theories/SafeSigs.v
theories/SafeFacts.v
theories/SafeLib.v
theories/SafeSamples.v
theories/SafeStreams.v
theories/StreamOrder.v
theories/StreamSamples.v
theories/Retry.v
theories/RetrySamples.v
theories/PropsSafe.v
