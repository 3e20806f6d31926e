-Q theories Verif
theories/GoBase.v
theories/GoFmt.v
theories/ClcModel.v
theories/LlcModel.v
theories/RoceModel.v
theories/Samples.v
theories/Golden.v
theories/Slices.v
theories/Setters.v
theories/WriteModel.v
theories/LlcWriteModel.v
theories/WriteFacts.v
theories/LlcWriteFacts.v
theories/Wire.v
theories/WireLemmas.v
theories/ClcView.v
theories/Steps.v
theories/ClcParse.v
theories/ClcFixed.v
theories/ClcSmcdv2.v
theories/ClcNew.v
theories/ClcProposal.v
theories/ClcProposalV2.v
theories/ClcProposalV2Inv.v
theories/ClcProposalV2Any.v
theories/Offsets.v
theories/ClcOffsets.v
theories/ClcMessage.v
theories/ClcHeader.v
theories/ClcRefute.v
theories/PropsClc.v
theories/LlcView.v
theories/Keep.v
theories/Recover.v
theories/RecoverSteps.v
theories/RecoverClc.v
theories/RecoverLlc.v
theories/RecoverRaw.v
theories/RecoverFacts.v
theories/PropsRecover.v
theories/RecoverProposal.v
theories/PropsTorn.v
theories/Areas.v
theories/AreasFacts.v
theories/PropsAreas.v
theories/LlcParse.v
theories/LlcDecode.v
theories/LlcMessage.v
theories/RoceParse.v
theories/Dumps.v
theories/Opcodes.v
theories/RoceText.v
theories/LlcExamples.v
theories/PropsLlc.v
theories/Names.v
theories/Show.v
theories/Witness.v
theories/TextLemmas.v
theories/LlcText.v
theories/ClcText.v
theories/TextFacts.v
theories/TextWhole.v
theories/TextRest.v
theories/PropsText.v
theories/QueryModel.v
theories/HttpModel.v
theories/HttpSpec.v
theories/HttpLin.v
theories/HttpFacts.v
theories/QueryFacts.v
theories/HttpMain.v
theories/PropsHttp.v
theories/RaceSpec.v
theories/RaceFacts.v
theories/PropsRace.v
theories/SocketModel.v
theories/SocketSpec.v
theories/SocketFacts.v
theories/SocketDesc.v
theories/SocketEx.v
theories/PropsSocket.v
theories/Canon.v
theories/CanonNum.v
theories/CanonIp.v
theories/CanonDump.v
theories/PropsCanon.v
theories/Lossless.v
theories/Readable.v
theories/TextInj.v
theories/TextLossless.v
theories/PropsLossless.v
theories/Sound.v
theories/SoundFacts.v
theories/PropsSound.v
theories/Stream.v
theories/StreamFacts.v
theories/Encode.v
theories/EncodeFacts.v
theories/EncodeRest.v
theories/PropsWire.v
theories/TextPadded.v
theories/PropsPadded.v
theories/Partial.v
theories/PartialFacts.v
theories/PropsPartial.v
theories/NilModel.v
theories/Nil.v
theories/NilFacts.v
theories/PropsNil.v
theories/Ranges.v
theories/RangesFacts.v
theories/PropsRange.v
theories/Sizes.v
theories/SizesFacts.v
theories/SizesGrow.v
theories/SizesMain.v
theories/PropsSize.v
theories/Accepted.v
theories/ClcAccepted.v
theories/PropsAccepted.v
theories/AliasModel.v
theories/Alias.v
theories/AliasFacts.v
theories/PropsAlias.v
theories/GlobalModel.v
theories/Global.v
theories/GlobalFacts.v
theories/PropsGlobal.v
theories/Spare.v
theories/SpareSteps.v
theories/SpareLlc.v
theories/SpareClc.v
theories/SpareAreas.v
theories/SpareFacts.v
theories/PropsSpare.v
theories/Crash.v
theories/CrashHeader.v
theories/CrashLogs.v
theories/CrashFacts.v
theories/PropsCrash.v
theories/Visible.v
theories/VisibleFacts.v
theories/PropsVisible.v
theories/Contents.v
theories/ContentsFacts.v
theories/PropsContents.v
theories/Elsewhere.v
theories/ElsewhereFacts.v
theories/ElsewhereWrite.v
theories/Pieces.v
theories/PiecesFacts.v
theories/PiecesExamples.v
theories/PropsElsewhere.v
theories/PropsPieces.v
theories/HeapModel.v
theories/Owned.v
theories/OwnedFacts.v
theories/OwnedWorld.v
theories/OwnedExamples.v
theories/PropsOwned.v
theories/IntModel.v
theories/IntFacts.v
theories/IntExamples.v
theories/PropsInt.v
theories/PacketModel.v
theories/PacketSpec.v
theories/PacketFacts.v
theories/PacketExamples.v
theories/PropsPacket.v
theories/Plain.v
theories/PlainFacts.v
theories/PlainExamples.v
theories/PropsPlain.v
theories/MuxModel.v
theories/MuxSpec.v
theories/MuxFacts.v
theories/MuxExamples.v
theories/PropsMux.v
