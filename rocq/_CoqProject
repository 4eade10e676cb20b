-Q theories Verif
theories/Base.v
theories/ModelError.v
theories/ModelIo.v
theories/ModelTag.v
theories/ModelContents.v
theories/ModelBuf.v
theories/ModelTlv.v
theories/ModelSerde.v
theories/ModelAttr.v
theories/ModelDerive.v
theories/ModelHeap.v
theories/ModelBufLE.v
theories/ModelBufUE.v
theories/ModelTlvRaw.v
theories/Spec.v
theories/SpecIo.v
theories/SpecBuf.v
theories/SpecTlv.v
theories/SpecSerde.v
theories/SpecAttr.v
theories/SpecDerive.v
theories/TagProofs.v
theories/IdProofs.v
theories/TagMain.v
theories/ContentsProofs.v
theories/TlvProofs.v
theories/BufProofs.v
theories/TlvMain.v
theories/SpecLeft.v
theories/LeftProofs.v
theories/StreamProofs.v
theories/StreamMain.v
theories/RawProofs.v
theories/RawMain.v
theories/RawTlv.v
theories/RawStream.v
theories/RawEdges.v
theories/SerdeOctets.v
theories/SerdeSer.v
theories/SerdeDe.v
theories/SerdeMain.v
theories/SerdeEntry.v
theories/AttrProofs.v
theories/AttrParse.v
theories/DeriveProofs.v
theories/DeriveMain.v
theories/PropsTag.v
theories/PropsContents.v
theories/PropsTlv.v
theories/PropsStream.v
theories/PropsBuf.v
theories/PropsRaw.v
theories/ModelCmp.v
theories/SpecCmp.v
theories/CmpProofs.v
theories/PropsCmp.v
theories/PropsError.v
theories/PropsSerde.v
theories/PropsAttr.v
theories/PropsDerive.v
theories/SpecX690.v
theories/X690Proofs.v
theories/PropsX690.v
theories/SpecRec.v
theories/RecProofs.v
theories/PropsRec.v
theories/SpecColl.v
theories/CollProofs.v
theories/DecodedProofs.v
theories/PropsColl.v
theories/SpecFail.v
theories/FailProofs.v
theories/PropsFail.v
theories/PropsEntries.v
theories/SpecStop.v
theories/StopProofs.v
theories/PropsStop.v
theories/PropsStopSerde.v
theories/SpecOrder.v
theories/OrderProofs.v
theories/PropsOrder.v
theories/SpecMem.v
theories/MemProofs.v
theories/PropsMem.v
theories/ModelPartsRaw.v
theories/SpecParts.v
theories/PartsProofs.v
theories/PropsParts.v
theories/SpecRefuse.v
theories/RefuseProofs.v
theories/PropsRefuse.v
theories/ModelRust.v
theories/ModelEmit.v
theories/SpecEmit.v
theories/EmitProofs.v
theories/EmitDe.v
theories/EmitScope.v
theories/PropsEmit.v
theories/ModelUnwind.v
theories/SpecUnwind.v
theories/UnwindProofs.v
theories/PropsUnwind.v
theories/ModelRelease.v
theories/SpecRelease.v
theories/RelProofs.v
theories/PropsRelease.v
theories/ModelWord.v
theories/SpecWord.v
theories/WordProofs.v
theories/PropsWord.v
theories/SpecLimits.v
theories/RawLimits.v
theories/PropsLimits.v
theories/SpecDepth.v
theories/DepthProofs.v
theories/PropsDepth.v
theories/ModelText.v
theories/SpecText.v
theories/TextProofs.v
theories/PropsText.v
theories/ModelThreads.v
theories/SpecThreads.v
theories/ThreadProofs.v
theories/ThreadMain.v
theories/PropsThreads.v
theories/ModelWordTlv.v
theories/WordTlvProofs.v
theories/PropsWordTlv.v
theories/ModelBorrow.v
theories/SpecBorrow.v
theories/BorrowProofs.v
theories/BorrowMain.v
theories/BorrowUe.v
theories/BorrowLe.v
theories/BorrowBad.v
theories/BorrowGuard.v
theories/BorrowHist.v
theories/BorrowMore.v
theories/BorrowUse.v
theories/BorrowRules.v
theories/SpecGuard.v
theories/BorrowGuardRules.v
theories/BorrowNest.v
theories/BorrowArgs.v
theories/BorrowPlace.v
theories/PropsBorrow.v
theories/PropsGuard.v
theories/SpecLink.v
theories/BorrowLink.v
theories/PropsLink.v
theories/ModelConv.v
theories/SpecConv.v
theories/ConvProofs.v
theories/PropsConv.v
theories/ModelSerWord.v
theories/SpecSerWord.v
theories/SerWordProofs.v
theories/SerWordMain.v
theories/PropsSerWord.v
theories/ModelDeWord.v
theories/SpecDeWord.v
theories/DeWordProofs.v
theories/PropsDeWord.v
theories/SpecCreate.v
theories/CreateProofs.v
theories/PropsCreate.v
theories/PropsSame.v
theories/SpecInit.v
theories/PropsInit.v
theories/SpecUse.v
theories/ModelUse.v
theories/UseProofs.v
theories/UseRelease.v
theories/PropsUse.v
theories/SpecCalls.v
theories/CallProofs.v
theories/PropsCalls.v
theories/SpecWrites.v
theories/WriteProofs.v
theories/PropsWrites.v
theories/SpecLoose.v
theories/ModelLoose.v
theories/LooseProofs.v
theories/LooseOver.v
theories/PropsLoose.v
theories/SpecSerRaw.v
theories/ModelSerRaw.v
theories/SerRawProofs.v
theories/PropsSerRaw.v
theories/SpecReadRaw.v
theories/ModelReadRaw.v
theories/LieProofs.v
theories/PropsLie.v
theories/SpecFill.v
theories/FillProofs.v
theories/PropsFill.v
theories/RepoTests.v
theories/RepoTestsSer.v
theories/RepoTestsDe.v
theories/RepoTestsUnit.v
theories/RepoTestsSrc.v
theories/ModelEndian.v
theories/EndianProofs.v
theories/PropsEndian.v
