-Q theories Verif
theories/Base.v
theories/BaseFacts.v
theories/Octets.v
theories/OctetsFacts.v
theories/V1Errors.v
theories/V1U.v
theories/V1USpec.v
theories/V1UFacts.v
theories/V1UMsgFacts.v
theories/V1USafety.v
theories/V1USafety2.v
theories/V1USafety3.v
theories/PropsV1U.v
theories/V1UWireSpec.v
theories/V1UWireFacts.v
theories/V1UReadFacts.v
theories/PropsV1UWire.v
theories/Labels.v
theories/LabelsFacts.v
theories/LabelsLen.v
theories/Digits.v
theories/DigitsFacts.v
theories/V1CHdr.v
theories/V1CIe.v
theories/V1CKind.v
theories/V1CMsg.v
theories/V1CTables.v
theories/V1CSpec.v
theories/V1CHdrFacts.v
theories/V1CIeFacts.v
theories/V1CWireSpec.v
theories/V1CWireFacts.v
theories/V1CMsgSpec.v
theories/V1CMsgFacts.v
theories/V1CMsgRead.v
theories/V1CHdrSafety.v
theories/V1CSafeSpec.v
theories/V1CIeSafety.v
theories/V1CMsgSafety.v
theories/V1CFourFacts.v
theories/V1CExact.v
theories/V2Base.v
theories/V2BaseFacts.v
theories/PropsV2Base.v
theories/V2Enums.v
theories/V2IeA.v
theories/V2IeSpec.v
theories/V2IeFacts.v
theories/V2OkA.v
theories/V2IeAFacts.v
theories/V2Common.v
theories/V2OkCommon.v
theories/V2CommonFacts.v
theories/V2IeB.v
theories/V2OkB.v
theories/V2IeBFacts.v
theories/V2IeC.v
theories/V2OkC.v
theories/V2IeCFacts.v
theories/V2Cursor.v
theories/V2IeD.v
theories/V2OkD.v
theories/V2IeDFacts.v
theories/V2IeE.v
theories/V2OkE.v
theories/V2IeEFacts.v
theories/V2IeF.v
theories/V2OkF.v
theories/V2IeFFacts.v
theories/V2Grouped.v
theories/V2Decoder.v
theories/V2DecSpec.v
theories/V2WireSpec.v
theories/V2DecFacts.v
theories/V2DeclFacts.v
theories/V2HaltFacts.v
theories/V2DecMore.v
theories/V2DecLoop.v
theories/V2DecTame.v
theories/V2OwnSpec.v
theories/V2OwnFacts.v
theories/PropsV2Ie.v
theories/V2Kind.v
theories/V2Msg.v
theories/V2MsgSpec.v
theories/V2MsgTables.v
theories/V2MsgLayouts.v
theories/V2MsgFacts.v
theories/V2MsgCode.v
theories/V2MsgThms.v
theories/V2MsgWire.v
theories/PropsV2Msg.v
theories/V2ValSpec.v
theories/V2ValFacts.v
theories/V2ValMore.v
theories/PropsV2Wire.v
theories/PropsV1C.v
theories/ModeFacts.v
theories/V1ModeFacts.v
theories/V1CReadSpec.v
theories/V1CReadFacts.v
theories/V1CMsgReadSpec.v
theories/V1CMsgReadFacts.v
theories/V1CForwardSpec.v
theories/V1CForward.v
theories/V1CErrSpec.v
theories/V1CErr.v
theories/PropsV1CRead.v
theories/PropsV1CExact.v
theories/V2ModeFacts.v
theories/PropsV2Mode.v
theories/V2ReadSpec.v
theories/V2ReadFacts.v
theories/V2ReadFactsB.v
theories/V2ReadFactsC.v
theories/V2ReadFactsD.v
theories/V2ReadFactsE.v
theories/V2ReadFactsF.v
theories/V2ListSpec.v
theories/V2ListFacts.v
theories/V2MsgReadSpec.v
theories/V2MsgReadFacts.v
theories/PropsV2Read.v
theories/V2ForwardSpec.v
theories/V2Forward.v
theories/V2ForwardA.v
theories/V2ForwardB.v
theories/V2ForwardC.v
theories/PropsV2Forward.v
theories/PropsV2Exact.v
theories/PropsV2ExactGroups.v
theories/PropsV2ExactMm.v
theories/V2ErrSpec.v
theories/V2ErrFacts.v
theories/V2ErrLoop.v
theories/PropsV2Err.v
theories/PropsV2Multi.v
theories/PropsVersions.v
theories/V2Defaults.v
theories/PropsV2Default.v
theories/V1Defaults.v
theories/PropsV1Default.v
theories/V2GroupedIe.v
theories/PropsV2Container.v
theories/RepoVectorsV1U.v
theories/RepoVectorsV1C.v
theories/RepoVectorsV2.v
theories/V2CrashSpec.v
theories/V2Crash.v
theories/V2CrashMm.v
theories/V2CrashDec.v
theories/PropsV2Crash.v
theories/V1CrashSpec.v
theories/V1Crash.v
theories/V1CrashIe.v
theories/V1CrashMsg.v
theories/V1CrashPkt.v
theories/V1CrashEi.v
theories/PropsV1Crash.v
theories/V1HangSpec.v
theories/V1Hang.v
theories/V1HangIe.v
theories/V1HangPkt.v
theories/PropsV1Hang.v
theories/V2HangSpec.v
theories/V2LongSpec.v
theories/V2Hang.v
theories/V2Long.v
theories/V2CrashAll.v
theories/PropsV2Hang.v
theories/PropsV2Order.v
theories/V2ReachSpec.v
theories/PropsV2Reach.v
theories/Encode.v
theories/V2Encode.v
theories/PropsV2Encode.v
theories/V1Encode.v
theories/PropsV1Encode.v
theories/V2Merge.v
theories/PropsV2Merge.v
theories/V2Report.v
theories/PropsV2Report.v
theories/V2Within.v
theories/PropsV2Within.v
theories/V2Amplify.v
theories/V2Volume.v
theories/PropsV2Amplify.v
theories/PropsV1Within.v
theories/ErrText.v
theories/PropsErrText.v
theories/PropsV2Unique.v
theories/PropsV1Unique.v
theories/V1Report.v
theories/PropsV1Report.v
theories/PropsV1Shared.v
theories/PropsV2Enum.v
theories/PropsV1Spare.v
theories/PropsV2Spare.v
theories/V2Parts.v
theories/PropsV2Parts.v
theories/V1Amplify.v
theories/PropsV1Amplify.v
theories/PropsV2Hops.v
theories/PropsV1Oversize.v
theories/PropsV2Oversize.v
theories/PropsV1Smuggle.v
theories/PropsV2Smuggle.v
theories/Utils.v
theories/PropsUtils.v
theories/V1UForward.v
theories/PropsV1UForward.v
theories/PropsV2Text.v
theories/V1UErrSpec.v
theories/V1UErrFacts.v
theories/PropsV1UErr.v
theories/V1CHdrErrSpec.v
theories/V1CHdrErrFacts.v
theories/V1CTabErrFacts.v
theories/PropsV1CHdrErr.v
theories/PropsV2ErrExact.v
theories/PropsV1COutcome.v
theories/PropsV1UOutcome.v
theories/PropsV2Outcome.v
theories/PropsV2Uli.v
theories/PropsV2Fill.v
theories/PropsV1Fill.v
theories/PropsV1UFill.v
