-Q theories Verif
theories/Base.v
theories/Deku.v
theories/Utils.v
theories/ReadArray.v
theories/Types.v
theories/Physical.v
theories/Link.v
theories/Network.v
theories/Session.v
theories/Data.v
theories/Query.v
theories/Interface.v
theories/File.v
theories/Operation.v
theories/Action.v
theories/Command.v
theories/Frames.v
theories/Display.v
theories/Cli.v
theories/LBits.v
theories/LReader.v
theories/WellFormed.v
theories/SpecLayout.v
theories/LTypes.v
theories/LUtf8.v
theories/LLayout.v
theories/LRound.v
theories/LRoundOps.v
theories/LAction.v
theories/SpecApi.v
theories/LApi.v
theories/LNumbers.v
theories/PNumbers.v
theories/LNice.v
theories/LNiceFile.v
theories/SpecAction.v
theories/LNiceOps.v
theories/LCount.v
theories/LActionApi.v
theories/LReencode.v
theories/LCommandApi.v
theories/SpecOffset.v
theories/LCommandMore.v
theories/SpecFail.v
theories/LFail.v
theories/LWrite.v
theories/Samples.v
theories/LWitness.v
theories/LSize.v
theories/PActions.v
theories/LConcat.v
theories/PCommands.v
theories/SpecAccess.v
theories/LAccess.v
theories/PAccess.v
theories/SpecReturn.v
theories/LReturn.v
theories/LStandalone.v
theories/PStandalone.v
theories/SpecFiles.v
theories/LFiles.v
theories/PFiles.v
theories/SpecCodes.v
theories/LCodes.v
theories/PCodes.v
theories/SpecFrames.v
theories/LFrames.v
theories/LFramesW.v
theories/PFrames.v
theories/SpecCli.v
theories/LCli.v
theories/PCli.v
theories/SpecHost.v
theories/LHost.v
theories/PHost.v
theories/Defaults.v
theories/SpecDefaults.v
theories/LDefaults.v
theories/PDefaults.v
theories/TestVectors.v
theories/SpecDecode.v
theories/LDecode.v
theories/LDecodeTypes.v
theories/LDecodeOps.v
theories/LDecodeAct.v
theories/LDecodeCmd.v
theories/LDecodeTx.v
theories/LDecodeLoop.v
theories/PDecode.v
theories/SpecFrameDecode.v
theories/LDecodeFrame.v
theories/PFrameDecode.v
theories/SpecVariants.v
theories/LVariants.v
theories/PVariants.v
theories/SpecStream.v
theories/LStream.v
theories/PStream.v
theories/SpecJoin.v
theories/LJoin.v
theories/SpecLive.v
theories/LLive.v
theories/LLiveOps.v
theories/LLiveAct.v
theories/LLiveCmd.v
theories/LLiveTx.v
theories/LLiveTop.v
theories/LLiveLoop.v
theories/PLive.v
theories/SpecErr.v
theories/LErr.v
theories/LErrTop.v
theories/PErr.v
theories/PJoin.v
theories/SpecExact.v
theories/LExact.v
theories/SpecUnknown.v
theories/LUnknown.v
theories/LLag.v
theories/LLagUse.v
theories/PExact.v
theories/Construct.v
theories/SpecPartial.v
theories/LPartial.v
theories/LConstruct.v
theories/PConstruct.v
theories/DefaultCtx.v
theories/SpecDefaultCtx.v
theories/LDefaultCtx.v
theories/LDefaultCtxRt.v
theories/PDefaultCtx.v
theories/SpecCanonical.v
theories/LCanon.v
theories/LCanonTypes.v
theories/LCanonOps.v
theories/LCanonAct.v
theories/LCanonTop.v
theories/PCanonical.v
theories/SpecBitOffset.v
theories/LBitOffset.v
theories/PBitOffset.v
theories/Debug.v
theories/SpecDebug.v
theories/LText.v
theories/LDebug.v
theories/LDebugTop.v
theories/PDebug.v
theories/Output.v
theories/SpecOutput.v
theories/LOutput.v
theories/POutput.v
theories/SpecRounding.v
theories/LRounding.v
theories/PRounding.v
theories/Position.v
theories/SpecPosition.v
theories/LPosition.v
theories/PPosition.v
theories/SpecFrameAgain.v
theories/LFrameAgain.v
theories/PFrameAgain.v
theories/SpecGrow.v
theories/LGrow.v
theories/PGrow.v
theories/SpecFrameStream.v
theories/LFrameStream.v
theories/PFrameStream.v
theories/SpecFrameLive.v
theories/LFrameLive.v
theories/LFrameLiveLoop.v
theories/LFrameLiveTop.v
theories/LFrameNames.v
theories/PFrameNames.v
theories/SpecFrameCanonical.v
theories/LFrameCanon.v
theories/LFrameCanonTop.v
theories/LLagFrame.v
theories/LFrameCanonW.v
theories/PFrameCanonical.v
theories/SpecFrameUnique.v
theories/LFrameUnique.v
theories/PFrameUnique.v
theories/SpecTypeCanonical.v
theories/LTypeCanon.v
theories/PTypeCanonical.v
theories/LFrameSize.v
theories/PFrameSize.v
theories/SpecFrameVariants.v
theories/LFrameVariants.v
theories/PFrameVariants.v
theories/SpecSurvive.v
theories/LSurvive.v
theories/PSurvive.v
theories/LFrameAll.v
theories/LFrameAllW.v
theories/SpecWritten.v
theories/LWritten.v
theories/PWritten.v
theories/FileId.v
theories/SpecFileId.v
theories/LFileId.v
theories/PFileId.v
theories/Reserve.v
theories/SpecReserve.v
theories/LReserve.v
theories/PReserve.v
theories/SpecCrc.v
theories/LCrc.v
theories/PCrc.v
theories/SpecUpdate.v
theories/LUpdate.v
theories/SpecBounds.v
theories/LBounds.v
theories/PBounds.v
theories/SpecRounds.v
theories/LRounds.v
theories/PRounds.v
theories/Message.v
theories/SpecMessage.v
theories/LMessage.v
theories/PMessage.v
theories/SpecPutBack.v
theories/LPutBack.v
theories/PPutBack.v
theories/SpecDisplay.v
theories/LDisplay.v
theories/PDisplay.v
theories/LUnchecked.v
theories/PUnchecked.v
theories/LDigits.v
theories/LWidth.v
theories/LWidthTop.v
theories/PWidth.v
theories/SpecTables.v
theories/LTables.v
theories/PTables.v
theories/SpecBuilt.v
theories/LBuilt.v
theories/PBuilt.v
theories/SpecOrder.v
theories/LOrder.v
theories/POrder.v
theories/SpecFlags.v
theories/LFlags.v
theories/LFlagsErr.v
theories/PFlags.v
theories/SpecGuess.v
theories/LGuess.v
theories/PGuess.v
theories/SpecTwins.v
theories/LTwins.v
theories/LTwinBits.v
theories/LTwinFrames.v
theories/LTwinFramesW.v
theories/PTwins.v
theories/SpecSpell.v
theories/LSpell.v
theories/LSpellFile.v
theories/PSpell.v
