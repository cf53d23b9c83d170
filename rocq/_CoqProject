-Q theories Verif
theories/Bits.v
theories/LAction.v
theories/LAlias.v
theories/LAlp.v
theories/LAlpCases.v
theories/LAsDict.v
theories/LAsDict2.v
theories/LBits.v
theories/LBoth.v
theories/LBoth2.v
theories/LBridge.v
theories/LBuild.v
theories/LBytes.v
theories/LCallback.v
theories/LCause.v
theories/LCause2.v
theories/LChange.v
theories/LChannel.v
theories/LChunk.v
theories/LCommand.v
theories/LConnect.v
theories/LConnect2.v
theories/LConstruct.v
theories/LContent.v
theories/LConverse.v
theories/LCounted.v
theories/LCrc.v
theories/LCrcPoly.v
theories/LCrowd.v
theories/LCrowd2.v
theories/LCrowd3.v
theories/LCt.v
theories/LDamage.v
theories/LDeliver.v
theories/LDeliver2.v
theories/LDeliver3.v
theories/LDeliver4.v
theories/LDemand.v
theories/LDescribe.v
theories/LDll.v
theories/LDuplex.v
theories/LEnum.v
theories/LEnum2.v
theories/LEq.v
theories/LExact.v
theories/LExit.v
theories/LExport.v
theories/LFails.v
theories/LFiles.v
theories/LFirmware.v
theories/LForge.v
theories/LGenerate.v
theories/LGood.v
theories/LHash.v
theories/LHash2.v
theories/LHeap.v
theories/LHexTool.v
theories/LImage.v
theories/LInside.v
theories/LInside2.v
theories/LInside3.v
theories/LInside4.v
theories/LInside5.v
theories/LInside6.v
theories/LKept.v
theories/LLate.v
theories/LLife.v
theories/LLink.v
theories/LLogger.v
theories/LMailbox.v
theories/LModem.v
theories/LOperation.v
theories/LOta.v
theories/LParse.v
theories/LParsed.v
theories/LPrint.v
theories/LPrint2.v
theories/LPrint3.v
theories/LPrograms.v
theories/LPrompt.v
theories/LPush.v
theories/LReaders.v
theories/LReaders2.v
theories/LReaders3.v
theories/LReaders4.v
theories/LReaders5.v
theories/LReaders6.v
theories/LReaders7.v
theories/LRecheck.v
theories/LRecover.v
theories/LRecover2.v
theories/LRecover3.v
theories/LReenter.v
theories/LReenter2.v
theories/LRefuse.v
theories/LReject.v
theories/LRelay.v
theories/LRelay2.v
theories/LRelaySize.v
theories/LReport.v
theories/LReport2.v
theories/LReport3.v
theories/LResend.v
theories/LReser.v
theories/LRetry.v
theories/LRound.v
theories/LRun.v
theories/LSched.v
theories/LSchema.v
theories/LSend.v
theories/LSerial.v
theories/LSerialCases.v
theories/LSerialProps.v
theories/LShare.v
theories/LShare2.v
theories/LShare3.v
theories/LShare4.v
theories/LShare5.v
theories/LShare6.v
theories/LShare7.v
theories/LShort.v
theories/LSp.v
theories/LStation.v
theories/LStation2.v
theories/LStation3.v
theories/LStation4.v
theories/LStation5.v
theories/LStation6.v
theories/LStation7.v
theories/LStation8.v
theories/LStatus.v
theories/LSync.v
theories/LTable.v
theories/LTags.v
theories/LTally.v
theories/LTally2.v
theories/LTally3.v
theories/LTexts.v
theories/LThreads.v
theories/LThreads2.v
theories/LThroughput.v
theories/LTight.v
theories/LTime.v
theories/LTotal.v
theories/LTraffic.v
theories/LTransport.v
theories/LTypes.v
theories/LUndetected.v
theories/LUndetected2.v
theories/LUndetected3.v
theories/LUnique.v
theories/LWhere.v
theories/LWhere2.v
theories/LWhere3.v
theories/LWhere4.v
theories/LWhere5.v
theories/LWhere6.v
theories/LWhere7.v
theories/LWrite.v
theories/MAlp.v
theories/MAsDict.v
theories/MBase.v
theories/MBoth.v
theories/MBridge.v
theories/MBuild.v
theories/MCallback.v
theories/MCause.v
theories/MConnect.v
theories/MCrc.v
theories/MCrcTable.v
theories/MCrowd.v
theories/MCt.v
theories/MDeliver.v
theories/MDescribe.v
theories/MDll.v
theories/MDuplex.v
theories/MEnum.v
theories/MEq.v
theories/MExit.v
theories/MFs.v
theories/MGenerate.v
theories/MHash.v
theories/MHexTool.v
theories/MInside.v
theories/MLife.v
theories/MLogger.v
theories/MMailbox.v
theories/MModem.v
theories/MOperands.v
theories/MOperation.v
theories/MOta.v
theories/MPhy.v
theories/MPhyStatusHeap.v
theories/MPrint.v
theories/MProfile.v
theories/MPrograms.v
theories/MPush.v
theories/MReaders.v
theories/MReenter.v
theories/MReport.v
theories/MSchema.v
theories/MSerial.v
theories/MShare.v
theories/MSp.v
theories/MStation.v
theories/MSync.v
theories/MSysFiles.v
theories/MTally.v
theories/MThreads.v
theories/MThroughput.v
theories/MTime.v
theories/MWhere.v
theories/MWrite.v
theories/PAlp.v
theories/PAsDict.v
theories/PBoth.v
theories/PBridge.v
theories/PBuild.v
theories/PCallback.v
theories/PCause.v
theories/PChange.v
theories/PChannel.v
theories/PConstruct.v
theories/PConverse.v
theories/PCounted.v
theories/PCrc.v
theories/PCrowd.v
theories/PDamage.v
theories/PDeliver.v
theories/PDescribe.v
theories/PDll.v
theories/PDuplex.v
theories/PEnum.v
theories/PEq.v
theories/PExit.v
theories/PFiles.v
theories/PForge.v
theories/PGenerate.v
theories/PHash.v
theories/PHexTool.v
theories/PImage.v
theories/PInside.v
theories/PLate.v
theories/PLife.v
theories/PLogger.v
theories/PMailbox.v
theories/PModem.v
theories/POperation.v
theories/POta.v
theories/PPrint.v
theories/PPrograms.v
theories/PPrompt.v
theories/PPush.v
theories/PReaders.v
theories/PRecover.v
theories/PReenter.v
theories/PRelay.v
theories/PReport.v
theories/PResend.v
theories/PRetry.v
theories/PRound.v
theories/PSchema.v
theories/PSerial.v
theories/PSession.v
theories/PShare.v
theories/PStation.v
theories/PSync.v
theories/PTally.v
theories/PThreads.v
theories/PThroughput.v
theories/PTime.v
theories/PTypes.v
theories/PUndetected.v
theories/PUnique.v
theories/PWhere.v
theories/PWrite.v
theories/SAlp.v
theories/SAsDict.v
theories/SBoth.v
theories/SBridge.v
theories/SBuild.v
theories/SCallback.v
theories/SCause.v
theories/SChange.v
theories/SChannel.v
theories/SCodec.v
theories/SCommand.v
theories/SConnect.v
theories/SConnect2.v
theories/SConstruct.v
theories/SContent.v
theories/SConverse.v
theories/SCounted.v
theories/SCrc.v
theories/SCrowd.v
theories/SDeliver.v
theories/SDemand.v
theories/SDescribe.v
theories/SDll.v
theories/SDuplex.v
theories/SEnum.v
theories/SEnumNames.v
theories/SEq.v
theories/SExit.v
theories/SExport.v
theories/SFiles.v
theories/SForge.v
theories/SGenerate.v
theories/SHash.v
theories/SHexTool.v
theories/SImage.v
theories/SInside.v
theories/SLate.v
theories/SLife.v
theories/SLogger.v
theories/SMailbox.v
theories/SModem.v
theories/SOperation.v
theories/SOta.v
theories/SPrint.v
theories/SPrograms.v
theories/SPrompt.v
theories/SPush.v
theories/SReaders.v
theories/SRecheck.v
theories/SRecover.v
theories/SReenter.v
theories/SRelay.v
theories/SReport.v
theories/SResend.v
theories/SRetry.v
theories/SRound.v
theories/SSchema.v
theories/SSerial.v
theories/SShare.v
theories/SStation.v
theories/SSync.v
theories/STable.v
theories/STally.v
theories/STally2.v
theories/STexts.v
theories/SThreads.v
theories/SThroughput.v
theories/STime.v
theories/STransport.v
theories/STypes.v
theories/SUndetected.v
theories/SUnique.v
theories/SWhere.v
theories/SWrite.v
theories/VTests1.v
theories/VTests2.v
theories/VTests3.v
