-Q theories Verif
theories/CBase.v
theories/CString.v
theories/CTypes.v
theories/Messages.v
theories/Frames.v
theories/Loco.v
theories/Buffer.v
theories/Crc.v
theories/TextParser.v
theories/World.v
theories/RepoTests.v
theories/ZLib.v
theories/SpecCodec.v
theories/ProofsCodec.v
theories/PropsCodec.v
theories/SpecBuffer.v
theories/ProofsBuffer.v
theories/PropsBuffer.v
theories/SpecLoco.v
theories/ProofsLoco.v
theories/PropsLoco.v
theories/SpecCrc.v
theories/ProofsCrc.v
theories/PropsCrc.v
theories/SpecText.v
theories/ProofsText.v
theories/PropsText.v
theories/SpecStation.v
theories/ProofsWorld.v
theories/ProofsStation.v
theories/SpecPrint.v
theories/ProofsPrint.v
theories/ProofsRequest.v
theories/Demo.v
theories/PropsStation.v
theories/SpecReach.v
theories/ProofsReach.v
theories/PropsReach.v
theories/SpecStream.v
theories/ProofsStream.v
theories/PropsStream.v
theories/SpecConsumer.v
theories/ProofsConsumer.v
theories/DemoStream.v
theories/PropsConsumer.v
theories/SpecSafe.v
theories/ProofsSafe.v
theories/PropsSafe.v
theories/Reentry.v
theories/SpecReentry.v
theories/ProofsReentry.v
theories/ProofsPassive.v
theories/ProofsAgree.v
theories/ProofsCallback.v
theories/PropsReentry.v
theories/SpecFrames.v
theories/ProofsFrames.v
theories/PropsFrames.v
theories/SpecRsafe.v
theories/ProofsRsafe.v
theories/PropsRsafe.v
theories/Logged.v
theories/SpecLogged.v
theories/ProofsLogged.v
theories/PropsLogged.v
theories/SpecNet.v
theories/ProofsNet.v
theories/PropsNet.v
theories/SpecEnds.v
theories/ProofsEnds.v
theories/PropsEnds.v
theories/SpecChannel.v
theories/ProofsChannel.v
theories/PropsChannel.v
theories/ProofsConsole.v
theories/PropsConsole.v
theories/SpecValues.v
theories/ProofsValues.v
theories/PropsValues.v
theories/SpecNumber.v
theories/ProofsNumber.v
theories/PropsNumber.v
theories/SpecLogText.v
theories/ProofsLogText.v
theories/PropsLogText.v
theories/SpecLife.v
theories/ProofsLife.v
theories/PropsLife.v
theories/SpecRecover.v
theories/ProofsRecover.v
theories/PropsRecover.v
theories/Query.v
theories/SpecQuery.v
theories/ProofsQuery.v
theories/PropsQuery.v
theories/SpecWork.v
theories/ProofsWork.v
theories/PropsWork.v
theories/SpecCatalog.v
theories/ProofsCatalog.v
theories/DemoCatalog.v
theories/PropsCatalog.v
theories/SpecBus.v
theories/ProofsBus.v
theories/PropsBus.v
theories/SpecProtocol.v
theories/ProofsProtocol.v
theories/PropsProtocol.v
theories/Meddle.v
theories/SpecMeddle.v
theories/ProofsMeddle.v
theories/PropsMeddle.v
theories/SpecRetry.v
theories/ProofsRetry.v
theories/DemoRetry.v
theories/PropsRetry.v
theories/Shared.v
theories/SpecShared.v
theories/ProofsShared.v
theories/ProofsSharedText.v
theories/PropsShared.v
theories/SpecExact.v
theories/ProofsExact.v
theories/PropsExact.v
theories/SpecAgain.v
theories/ProofsAgain.v
theories/PropsAgain.v
theories/Own.v
theories/SpecOwn.v
theories/ProofsOwn.v
theories/PropsOwn.v
theories/SpecInside.v
theories/ProofsInside.v
theories/PropsInside.v
theories/SpecArith.v
theories/Arith.v
theories/ProofsArith.v
theories/PropsArith.v
theories/SpecUuid.v
theories/ProofsUuid.v
theories/PropsUuid.v
theories/SpecResume.v
theories/ProofsResume.v
theories/PropsResume.v
theories/SpecLength.v
theories/ProofsLength.v
theories/PropsLength.v
theories/SpecApart.v
theories/ProofsApart.v
theories/PropsApart.v
theories/SpecFatal.v
theories/ProofsFatal.v
theories/PropsFatal.v
theories/LoggedReentry.v
theories/SpecTalk.v
theories/ProofsTalk.v
theories/ProofsTalkSafe.v
theories/ProofsPassiveLogged.v
theories/ProofsAgreeLogged.v
theories/ProofsTalkExact.v
theories/PropsTalk.v
theories/SpecLate.v
theories/ProofsLate.v
theories/PropsLate.v
theories/SpecChain.v
theories/ProofsChain.v
theories/PropsChain.v
theories/Touch.v
theories/SpecTouch.v
theories/ProofsTouch.v
theories/ProofsTouchDoc.v
theories/PropsTouch.v
theories/LoggedTouch.v
theories/SpecTouchLog.v
theories/ProofsTouchLog.v
theories/PropsTouchLog.v
theories/SpecPages.v
theories/ProofsPages.v
theories/PropsPages.v
theories/Moved.v
theories/SpecMoved.v
theories/ProofsMoved.v
theories/PropsMoved.v
theories/MovedParser.v
theories/SpecCopy.v
theories/ProofsCopy.v
theories/PropsCopy.v
theories/SpecMovedParser.v
theories/ProofsMovedParser.v
theories/PropsMovedParser.v
