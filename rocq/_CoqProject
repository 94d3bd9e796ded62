-Q theories Verif
theories/Base.v
theories/Common.v
theories/Lzw.v
theories/Encoder.v
theories/Stream.v
theories/Converter.v
theories/Reader.v
theories/Programs.v
theories/LzwRef.v
theories/LzwRefSpec.v
theories/Validate.v
theories/RepoTests.v
theories/StreamInv.v
theories/Steps.v
theories/StepsRev.v
theories/ReaderInv.v
theories/SpecPixels.v
theories/Interlace.v
theories/Ranges.v
theories/ConvInv.v
theories/DecoderSafe.v
theories/Canon.v
theories/CanonReader.v
theories/SpecGif.v
theories/DocTrace.v
theories/DocBlocks.v
theories/Pixels.v
theories/PixelRead.v
theories/DocRead.v
theories/SpecEnc.v
theories/EncLin.v
theories/EncSpec.v
theories/EncSession.v
theories/SpecRound.v
theories/DocAll.v
theories/RoundTrip.v
theories/EncProps.v
theories/Refuted.v
theories/EncFaults.v
theories/RoundProps.v
theories/EncReject.v
theories/SpecOutput.v
theories/StreamOut.v
theories/SpecVerdict.v
theories/Verdict.v
theories/SpecBuild.v
theories/OptBuild.v
theories/SpecRecolor.v
theories/Recolor.v
theories/SpecAccept.v
theories/Accept.v
theories/AcceptDec.v
theories/AcceptFwd.v
theories/AcceptStream.v
theories/Quantise.v
theories/ProgResult.v
theories/AcceptUnique.v
theories/SpecMut.v
theories/FrameMut.v
theories/EncoderExt.v
theories/SpecUser.v
theories/EncUser.v
theories/SpecExt.v
theories/ExtView.v
theories/OomModel.v
theories/SpecOom.v
theories/OomSim.v
theories/OomSafe.v
theories/OomNeed.v
theories/SpecEncOom.v
theories/EncOom.v
theories/SpecMem.v
theories/MemHeld.v
theories/SpecErrors.v
theories/Errors.v
theories/ErrorText.v
theories/WriteLe.v
theories/SpecSize.v
theories/EncSize.v
theories/Several.v
theories/Resume.v
theories/Narrow.v
theories/LzwErrs.v
theories/Corrupt.v
theories/SpecCorrupt.v
theories/CorruptDoc.v
theories/SpecUnpack.v
theories/Unpack.v
theories/UnpackBad.v
theories/UnpackDoc.v
theories/SpecSound.v
theories/Sound.v
theories/SoundAcc.v
theories/Transcode.v
theories/Checked.v
theories/LzwEnds.v
theories/Ending.v
theories/EncEnds.v
theories/SpecPaint.v
theories/Paint.v
theories/SpecBlame.v
theories/Blame.v
theories/BlameDec.v
theories/BlameFrame.v
theories/PropEnc.v
theories/SpecStream.v
theories/StreamProps.v
theories/StreamCount.v
theories/SpecWatch.v
theories/StreamTrace.v
theories/RawExt.v
theories/DecInv.v
theories/DecProps.v
theories/FrameDec.v
theories/FrameProps.v
theories/Collect.v
theories/Mixed.v
theories/FrameInv.v
theories/Rewrite.v
theories/ExtSrc.v
theories/Truecolor.v
theories/ShortData.v
theories/ZeroSize.v
theories/Unknown.v
theories/SpecOptions.v
theories/Relax.v
theories/SpecDamage.v
theories/SpecIter.v
theories/Iterate.v
theories/IterSound.v
theories/Damage.v
theories/SpecSizes.v
theories/Sizes.v
theories/Copies.v
theories/SpecCount.v
theories/FrameCount.v
theories/PropDec.v
theories/PropFrame.v
theories/PropStream.v
theories/PropMore.v
theories/PropDamage.v
theories/PropOptions.v
theories/PropSizes.v
theories/PropPrograms.v
theories/PropCount.v
theories/PropOutput.v
theories/PropVerdict.v
theories/PropBuild.v
theories/PropRecolor.v
theories/PropAccept.v
theories/PropColors.v
theories/PropExact.v
theories/PropMut.v
theories/PropUser.v
theories/PropExt.v
theories/PropOom.v
theories/PropEncOom.v
theories/PropMem.v
theories/PropErrors.v
theories/PropValues.v
theories/PropWitness.v
theories/PropLength.v
theories/PropSeveral.v
theories/PropResume.v
theories/PropNarrow.v
theories/PropCorrupt.v
theories/PropUnpack.v
theories/PropSound.v
theories/PropTranscode.v
theories/PropChecked.v
theories/PropEnds.v
theories/PropIter.v
theories/PropPaint.v
theories/PropCodes.v
theories/PropBlame.v
