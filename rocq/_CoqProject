-Q theories Verif
theories/Prelude.v
theories/Heatshrink.v
theories/CReader.v
theories/CSeq.v
theories/Spec.v
theories/Lib.v
theories/HsProofs.v
theories/ReaderProofs.v
theories/SizeProofs.v
theories/Refuted.v
theories/SeqTrunc.v
theories/PropSeq.v
theories/SeqSim.v
theories/SeqRun.v
theories/SeqTerm.v
theories/HsSpec.v
theories/SeqMeaning.v
theories/SeqApply.v
theories/SeqExt.v
theories/SeqPending.v
theories/SeqMain.v
theories/SeqExamples.v
theories/SeqSpec.v
theories/SeqInv.v
theories/SeqCount.v
theories/ReaderSpec.v
theories/ReaderDrive.v
theories/PySize.v
theories/SizeCodec.v
theories/PyCrle.v
theories/CrleProofs.v
theories/CodecExamples.v
theories/PropCodec.v
theories/Bsdiff.v
theories/BsdiffSpec.v
theories/BsdiffProofs.v
theories/BsdiffRefuted.v
theories/PyCreate.v
theories/CallbackSpec.v
theories/CallbackProofs.v
theories/CreateProofs.v
theories/CreateExamples.v
theories/PropCreate.v
theories/CInPlace.v
theories/Feeder.v
theories/InPlaceSpec.v
theories/InPlaceMem.v
theories/InPlaceWorld.v
theories/InPlaceShift.v
theories/InPlacePatch.v
theories/InPlaceRun.v
theories/InPlaceMain.v
theories/IpCallbackSpec.v
theories/IpCallback.v
theories/InPlaceFinal.v
theories/PyInPlace.v
theories/InPlaceCreate.v
theories/InPlaceThms.v
theories/InPlaceExamples.v
theories/PropInPlace.v
theories/SeqSafe.v
theories/SeqBound.v
theories/DumpSpec.v
theories/DumpProofs.v
theories/DumpExamples.v
theories/PropDump.v
theories/PyApply.v
theories/PyReader.v
theories/PyApplyProofs.v
theories/PySpec.v
theories/PyDecomp.v
theories/PySeq.v
theories/PyThms.v
theories/PyExamples.v
theories/PropPython.v
theories/PyApplyInPlace.v
theories/PyMemProofs.v
theories/PyMemThms.v
theories/PyMemCreate.v
theories/PyMemAgree.v
theories/PyMemExamples.v
theories/PropPyInPlace.v
theories/PyInfo.v
theories/PyInfoSpec.v
theories/PyInfoProofs.v
theories/PyInfoThms.v
theories/PyMemCut.v
theories/PyInfoCreate.v
theories/PyInfoExamples.v
theories/PropInfo.v
theories/PyBsdiff40.v
theories/PyBsdiff40Spec.v
theories/PyBsdiff40Proofs.v
theories/PyBsdiff40Thms.v
theories/PyBsdiff40Examples.v
theories/PropBsdiff40.v
theories/PyFormat.v
theories/PyFormatSpec.v
theories/PyFormatFields.v
theories/PyFormatFiles.v
theories/PyFormatBlocks.v
theories/PyFormatDis.v
theories/PyFormatCodec.v
theories/PyFormatThms.v
theories/PyFormatLossless.v
theories/PyFormatCreate.v
theories/PyFormatRound.v
theories/PyFormatExamples.v
theories/PyFormatTotal.v
theories/PropFormat.v
theories/CFile.v
theories/CFileSpec.v
theories/FileSim.v
theories/FileProofs.v
theories/IpSim.v
theories/FileTrack.v
theories/FileInPlace.v
theories/FileThms.v
theories/FileExamples.v
theories/PropFile.v
theories/IpTerm.v
theories/CodesSpec.v
theories/CodesSeq.v
theories/CodesIp.v
theories/CodesThms.v
theories/CodesExamples.v
theories/CodesLzma.v
theories/CodesIpLzma.v
theories/CodesLzmaDoc.v
theories/CodesIpLzmaDoc.v
theories/PropCodes.v
theories/IpBoundSpec.v
theories/IpBound.v
theories/IpBoundExamples.v
theories/PropIpBound.v
theories/IpTrunc.v
theories/IpSticky.v
theories/IpOutcomeSpec.v
theories/IpSuccess.v
theories/IpOutcomeExamples.v
theories/PropIpOutcome.v
theories/CLzma.v
theories/CSeqLzma.v
theories/LzmaSpec.v
theories/LzmaProofs.v
theories/LzmaSim.v
theories/LzmaSafe.v
theories/LzmaTerm.v
theories/LzmaPlain.v
theories/LzmaCallback.v
theories/LzmaApply.v
theories/LzmaTrunc.v
theories/LzmaHostile.v
theories/LzmaExamples.v
theories/LzmaFinds.v
theories/LzmaReads.v
theories/PropLzma.v
theories/CIpLzma.v
theories/IpLzmaReader.v
theories/IpLzmaSim.v
theories/IpLzmaCallback.v
theories/IpLzmaSpec.v
theories/IpLzmaApply.v
theories/IpLzmaAny.v
theories/IpLzmaPlain.v
theories/IpLzmaExamples.v
theories/IpLzmaTerm.v
theories/IpLzmaHostile.v
theories/PropIpLzma.v
theories/PyAnySpec.v
theories/PyMemAny.v
theories/PyFinite.v
theories/PyAnyExamples.v
theories/PropPyAny.v
theories/PyOther.v
theories/PyOtherSpec.v
theories/PyOtherProofs.v
theories/PyOtherFinite.v
theories/PyOtherExamples.v
theories/PropPyOther.v
theories/RefuseSpec.v
theories/RefuseRun.v
theories/RefuseApply.v
theories/RefuseThms.v
theories/PropRefuse.v
theories/CMain.v
theories/MainSpec.v
theories/MainProofs.v
theories/PropMain.v
theories/PyHdiff.v
theories/HdiffSpec.v
theories/HdiffProofs.v
theories/HdiffThms.v
theories/HdiffExamples.v
theories/PropHdiff.v
theories/SuffixUnique.v
theories/SuffixThms.v
theories/PropSuffix.v
theories/BodySpec.v
theories/BodyProofs.v
theories/BodyC.v
theories/BodyPy.v
theories/BodyThms.v
theories/PropBody.v
theories/FitSpec.v
theories/FitProofs.v
theories/FitThms.v
theories/FitExamples.v
theories/PropFit.v
theories/FitFile.v
theories/FitFileThms.v
theories/FitFileExamples.v
theories/PropFitFile.v
theories/PyFiles.v
theories/PyFilesProofs.v
theories/PyFilesExamples.v
theories/PropPyFiles.v
theories/LooseSpec.v
theories/LooseProofs.v
theories/LooseThms.v
theories/PropLoose.v
theories/IpLooseSpec.v
theories/IpLooseProofs.v
theories/IpLooseThms.v
theories/PropIpLoose.v
theories/Bs40Spec.v
theories/Bs40Proofs.v
theories/PropBs40.v
theories/CDumpLzma.v
theories/DumpLzmaSpec.v
theories/DumpLzmaProofs.v
theories/DumpLzmaPlain.v
theories/DumpLzmaExamples.v
theories/PropDumpLzma.v
theories/PyFilesMore.v
theories/PyFilesMoreExamples.v
theories/PropPyFilesMore.v
theories/PyElf.v
theories/ElfSpec.v
theories/ElfProofs.v
theories/ElfThms.v
theories/ElfExamples.v
theories/PropElf.v
theories/PyArgs.v
theories/ArgsSpec.v
theories/ArgsProofs.v
theories/ArgsExamples.v
theories/PropArgs.v
theories/PyInfoOther.v
theories/RefusePySpec.v
theories/PyInfoHdiff.v
theories/RefusePyProofs.v
theories/RefuseBsdiff.v
theories/PropRefusePy.v
theories/PyReport.v
theories/ReportSpec.v
theories/ReportProofs.v
theories/ReportAny.v
theories/ReportExamples.v
theories/PropReport.v
