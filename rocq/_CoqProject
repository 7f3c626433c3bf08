-Q theories Verif
theories/Py.v
theories/Gsm.v
theories/Utils.v
theories/Udh.v
theories/Submit.v
theories/Deliver.v
theories/SpecGsm.v
theories/SpecPack.v
theories/SpecTime.v
theories/SpecAddress.v
theories/SpecSubmit.v
theories/SpecDeliver.v
theories/SubmitClaims.v
theories/PyFacts.v
theories/GsmFacts.v
theories/PackFacts.v
theories/ValidityFacts.v
theories/NumberFacts.v
theories/SplitFacts.v
theories/SubmitFacts.v
theories/ToPduFacts.v
theories/UdhFacts.v
theories/DeliverClaims.v
theories/DeliverFacts.v
theories/PropGsm.v
theories/PropTime.v
theories/PropNumber.v
theories/PropSubmit.v
theories/PropTell.v
theories/PropBroken.v
theories/SpecUdh.v
theories/PropUdh.v
theories/SpecDigits.v
theories/PropDigits.v
theories/PropDeliver.v
theories/Iter.v
theories/Tables.v
theories/WspDec.v
theories/WspEnc.v
theories/Message.v
theories/MmsEnc.v
theories/MmsDec.v
theories/Wap.v
theories/SpecWsp.v
theories/WspClaims.v
theories/IterFacts.v
theories/WspFacts.v
theories/MmsTotal.v
theories/PropWsp.v
theories/ContentFacts.v
theories/PropContent.v
theories/MmsClaims.v
theories/HeaderFacts.v
theories/MsgHeaderFacts.v
theories/PropHeaders.v
theories/BodyFacts.v
theories/FileFacts.v
theories/PropBody.v
theories/PropFiles.v
theories/PropOwnFile.v
theories/SpecSmil.v
theories/MessageClaims.v
theories/MessageFacts.v
theories/PropMessage.v
theories/PropWap.v
theories/Conformance.v
theories/SpecMms.v
theories/GrammarClaims.v
theories/GrammarFacts.v
theories/PropGrammar.v
theories/EncodeClaims.v
theories/EncodeFacts.v
theories/PropEncode.v
theories/SpecPush.v
theories/PropPush.v
theories/SpecParts.v
theories/PropParts.v
theories/CutFacts.v
theories/SpecPieces.v
theories/PropCut.v
theories/PropCutExact.v
theories/SpecCut.v
theories/DeliverCutFacts.v
theories/PropDeliverCut.v
theories/PropForward.v
theories/SpecAssembly.v
theories/AssemblyClaims.v
theories/AssemblyFacts.v
theories/PropAssembly.v
theories/SpecFrame.v
theories/PropFrame.v
theories/SpecVersion.v
theories/PropVersion.v
theories/PropCoding.v
theories/SpecSurrogate.v
theories/PropSurrogate.v
theories/PropType.v
theories/PropHeaderExact.v
theories/PropPartHeaderExact.v
theories/PropExact.v
theories/SpecAttach.v
theories/PropAttach.v
theories/PropRepeat.v
theories/PropSmil.v
theories/PropFieldExact.v
theories/SpecCuts.v
theories/PropCuts.v
theories/PropSending.v
theories/PropHex.v
theories/Data.v
theories/PropData.v
theories/Xml.v
theories/SpecXml.v
theories/XmlFacts.v
theories/PropXml.v
theories/SpecTiming.v
theories/PropTiming.v
theories/PropRefs.v
theories/PropPartRead.v
theories/PropArrives.v
theories/PropAssign.v
theories/PropWhen.v
theories/PropWide.v
theories/Dump.v
theories/SpecDump.v
theories/PropDump.v
theories/PropAlike.v
theories/PropTyped.v
theories/Setters.v
theories/PropSetters.v
theories/SpecRefuse.v
theories/RefuseFacts.v
theories/PropRefuse.v
theories/SpecUnsent.v
theories/UnsentFacts.v
theories/PropUnsent.v
theories/SpecUnread.v
theories/UnreadFacts.v
theories/PropUnread.v
theories/SpecReader.v
theories/ReaderFacts.v
theories/PropReader.v
theories/SpecHistory.v
theories/HistoryFacts.v
theories/PropHistory.v
theories/SpecParam.v
theories/PropParam.v
theories/Share.v
theories/SpecShare.v
theories/ShareFacts.v
theories/PropShare.v
theories/PropStale.v
theories/TailFacts.v
theories/PropTail.v
theories/PropMoves.v
theories/PropCutHeader.v
theories/SpecShown.v
theories/ShownClaims.v
theories/ShownFacts.v
theories/PropShown.v
theories/PropEight.v
theories/SpecWritten.v
theories/WrittenFacts.v
theories/PropWritten.v
theories/AlignedFacts.v
theories/PropAligned.v
theories/SpecPdus.v
theories/PdusFacts.v
theories/PropPdus.v
theories/Printed.v
theories/SpecPrinted.v
theories/PropPrinted.v
theories/SpecCalls.v
theories/PropCalls.v
theories/SpecDeeds.v
theories/PropDeeds.v
theories/SpecFills.v
theories/PropFills.v
theories/SpecSeries.v
theories/SeriesFacts.v
theories/PropSeries.v
theories/SpecHolds.v
theories/PropHolds.v
theories/MixedFacts.v
theories/PropMixed.v
theories/PropLost.v
theories/SpecPretty.v
theories/PropPretty.v
