-Q theories Verif
theories/Base.v
theories/BaseProofs.v
theories/Utf8.v
theories/Utf8Proofs.v
theories/GsfPrim.v
theories/GsfPrimProofs.v
theories/GsfBlock.v
theories/GsfBlockProofs.v
theories/GsfDecode.v
theories/CogEnums.v
theories/GsfEncode.v
theories/GsfSpec.v
theories/GsfCodecProofs.v
theories/GsfEncodeProofs.v
theories/GsfPrimFacts.v
theories/PropsPrim.v
theories/GsfTermProofs.v
theories/GsfFileSpec.v
theories/GsfFileProofs.v
theories/GsfFileFacts.v
theories/GsfTruncProofs.v
theories/GsfErrProofs.v
theories/GsfFileMore.v
theories/GsfExamples.v
theories/PropsFile.v
theories/GsfEncState.v
theories/GsfEncSpec.v
theories/GsfEncStateProofs.v
theories/GsfEncSession.v
theories/GsfEncInv.v
theories/GsfEncFile.v
theories/GsfEncDecodeSpec.v
theories/GsfEncDecode.v
theories/GsfEncFacts.v
theories/GsfEncIds.v
theories/GsfEncReject.v
theories/GsfGroup.v
theories/GsfGroupProofs.v
theories/GsfDumps.v
theories/GsfSplitSpec.v
theories/GsfSplitProofs.v
theories/GsfEncExamples.v
theories/PropsEncode.v
theories/PySlice.v
theories/AsyncBytes.v
theories/AsyncBytesSpec.v
theories/AsyncBytesProofs.v
theories/AsyncStream.v
theories/AsyncStreamSpec.v
theories/AsyncStreamProofs.v
theories/IoBytes.v
theories/IoBytesSpec.v
theories/IoBytesProofs.v
theories/LazyGrains.v
theories/LazySpec.v
theories/LazyProofs.v
theories/LazyFile.v
theories/PropsIO.v
theories/VideoLayout.v
theories/LayoutSpec.v
theories/LayoutProofs.v
theories/PropsLayout.v
theories/NpView.v
theories/NpConvert.v
theories/NpViewProofs.v
theories/NpSpec.v
theories/NpGrainProofs.v
theories/NpConvSpec.v
theories/NpConvProofs.v
theories/V210Proofs.v
theories/NpTable.v
theories/NpTheorems.v
theories/NpDepth.v
theories/NpPacked.v
theories/ColourSpec.v
theories/PropsConvert.v
theories/PatternTime.v
theories/Tone.v
theories/VideoPattern.v
theories/PatternSpec.v
theories/PatternTimeProofs.v
theories/ToneProofs.v
theories/VideoPatternProofs.v
theories/VideoPatternFacts.v
theories/VideoPatternMore.v
theories/PropsPattern.v
theories/Wrap.v
theories/WrapSpec.v
theories/WrapProofs.v
theories/AdtsProofs.v
theories/PropsWrap.v
theories/H264.v
theories/H264Spec.v
theories/H264StreamSpec.v
theories/H264BitsProofs.v
theories/H264SetsProofs.v
theories/H264RbspProofs.v
theories/H264TruncProofs.v
theories/H264FramesProofs.v
theories/H264UnitProofs.v
theories/H264StreamProofs.v
theories/H264MainProofs.v
theories/H264GrainsProofs.v
theories/H264Example.v
theories/PropsH264.v
theories/Difflib.v
theories/DifflibProofs.v
theories/Opcodes.v
theories/OpcodesSpec.v
theories/OpcodesProofs.v
theories/OpcodesMain.v
theories/PyValue.v
theories/PyValueProofs.v
theories/Json.v
theories/JsonProofs.v
theories/GrainObj.v
theories/StrFormat.v
theories/Compare.v
theories/CompareSpec.v
theories/StrFormatProofs.v
theories/CompareProofs.v
theories/CompareTree.v
theories/CompareMain.v
theories/CompareTotal.v
theories/CompareSym.v
theories/CompareLaws.v
theories/CompareExample.v
theories/PropsCompare.v
theories/NoteMain.v
theories/PropsNote.v
theories/BuildSpec.v
theories/BuildProofs.v
theories/BuildMain.v
theories/BuildKw.v
theories/BuildExample.v
theories/PropsBuild.v
theories/PyList.v
theories/ListSpec.v
theories/PyListProofs.v
theories/Event.v
theories/EventSpec.v
theories/EventProofs.v
theories/JsonFuel.v
theories/EventMain.v
theories/EventExample.v
theories/PropsEvent.v
theories/Lists.v
theories/ListsSpec.v
theories/ListsProofs.v
theories/ListsMain.v
theories/ListsAttr.v
theories/ListsExample.v
theories/PropsLists.v
theories/GrainGsf.v
theories/GrainGsfSpec.v
theories/GrainGsfMade.v
theories/GrainGsfRead.v
theories/GrainGsfMain.v
theories/GrainGsfEvent.v
theories/GrainGsfSettle.v
theories/GrainGsfFileSpec.v
theories/GrainGsfFile.v
theories/GrainGsfStream.v
theories/GrainGsfExample.v
theories/PropsGrainGsf.v
theories/GrainSet.v
theories/GrainSetSpec.v
theories/GrainSetProofs.v
theories/GrainSetMain.v
theories/GrainSetShape.v
theories/GrainSetExample.v
theories/PropsSet.v
theories/GrainCopy.v
theories/GrainCopySpec.v
theories/GrainCopyProofs.v
theories/GrainCopyMade.v
theories/GrainCopyMain.v
theories/GrainCopyApart.v
theories/GrainCopyExample.v
theories/PropsCopy.v
theories/GrainTime.v
theories/GrainTimeSpec.v
theories/GrainTimeProofs.v
theories/GrainTimeMain.v
theories/GrainTimeNormal.v
theories/GrainTimeExample.v
theories/PropsTime.v
theories/Tools.v
theories/ToolsSpec.v
theories/ToolsProofs.v
theories/ToolsMain.v
theories/ToolsProbe.v
theories/ToolsMore.v
theories/ToolsExample.v
theories/PropsTools.v
theories/NpAudio.v
theories/NpAudioSpec.v
theories/NpAudioProofs.v
theories/NpAudioMain.v
theories/NpAudioExample.v
theories/PropsNpAudio.v
theories/Options.v
theories/OptionsSpec.v
theories/OptionsProofs.v
theories/PropsOptions.v
theories/SavedSpec.v
theories/SavedProofs.v
theories/SavedEvent.v
theories/SavedMain.v
theories/SavedExample.v
theories/PropsSaved.v
theories/Psnr.v
theories/PsnrSpec.v
theories/PsnrProofs.v
theories/PsnrMain.v
theories/PsnrAudio.v
theories/PsnrSpecial.v
theories/PsnrMade.v
theories/PsnrExample.v
theories/PsnrLimits.v
theories/PropsPsnr.v
theories/ReportSpec.v
theories/ReportMain.v
theories/PropsReport.v
theories/Strategies.v
theories/StrategySpec.v
theories/StrategyProofs.v
theories/StrategyArgs.v
theories/StrategyDraw.v
theories/StrategyData.v
theories/StrategySaved.v
theories/StrategyCompared.v
theories/StrategyMain.v
theories/StrategyTexts.v
theories/StrategyExample.v
theories/PropsStrategy.v
theories/NpObject.v
theories/NpObjectSpec.v
theories/NpObjectProofs.v
theories/NpObjectMain.v
theories/NpObjectMore.v
theories/NpObjectExample.v
theories/PropsNpVideo.v
theories/ColourProofs.v
theories/ColourObject.v
theories/PropsColour.v
theories/GrainPair.v
theories/GrainPairSpec.v
theories/GrainPairProofs.v
theories/GrainPairMain.v
theories/GrainPairCompare.v
theories/GrainPairExample.v
theories/PropsPair.v
theories/LifeSpec.v
theories/LifeProofs.v
theories/LifeRead.v
theories/LifeMain.v
theories/LifeLaws.v
theories/LifeExample.v
theories/PropsLife.v
theories/ChangeSpec.v
theories/ChangeMain.v
theories/ChangeExample.v
theories/PropsChange.v
theories/Render.v
theories/RenderSpec.v
theories/RenderProofs.v
theories/RenderMain.v
theories/RenderExample.v
theories/PropsRender.v
theories/RoundSpec.v
theories/RoundProofs.v
theories/RoundMain.v
theories/RoundBack.v
theories/RoundExample.v
theories/PropsRound.v
theories/GrammarSpec.v
theories/GrammarProofs.v
theories/GrammarMain.v
theories/GrammarEvent.v
theories/GrammarExample.v
theories/PropsGrammar.v
theories/WrapBytes.v
theories/WrapBytesSpec.v
theories/WrapBytesProofs.v
theories/PropsWrapFile.v
theories/Decoder.v
theories/DecoderSpec.v
theories/DecoderProofs.v
theories/DecoderExample.v
theories/PropsDecoder.v
theories/DeferOps.v
theories/DeferSpec.v
theories/DeferProofs.v
theories/DeferDecode.v
theories/DeferDecodeProofs.v
theories/DeferExample.v
theories/PropsDefer.v
theories/FormatSpec.v
theories/FormatProofs.v
theories/PropsFormat.v
theories/Utc.v
theories/UtcSpec.v
theories/UtcProofs.v
theories/UtcFile.v
theories/PropsUtc.v
theories/GrainSeq.v
theories/GrainSeqSpec.v
theories/GrainSeqProofs.v
theories/PropsSeq.v
theories/ToolArgs.v
theories/ToolArgsSpec.v
theories/ToolArgsProofs.v
theories/ToolArgsMain.v
theories/ToolArgsFile.v
theories/ToolArgsExample.v
theories/PropsToolArgs.v
theories/ToneKinds.v
theories/ToneKindsSpec.v
theories/ToneKindsProofs.v
theories/PropsToneKinds.v
theories/PatternSteps.v
theories/PropsSteps.v
theories/SliceWhole.v
