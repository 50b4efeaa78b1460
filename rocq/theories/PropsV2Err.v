(* PropsV2Err.v - C66: what the errors of the GTPv2-C decoders say. The specification is V2ErrSpec.v. *)
From Coq Require Import String.
From Verif Require Import BaseFacts V2Base V2Decoder V2Msg V2MsgTables V2MsgLayouts V2ReadSpec V2ReadFacts V2ListSpec V2ListFacts V2MsgSpec V2MsgReadSpec V2MsgReadFacts V2ErrSpec V2ErrFacts V2ErrLoop.
From Verif Require ModeFacts V2ModeFacts.
Import ListNotations.
Local Open Scope N_scope.

(* the element decoders with the type code of their elements: all but the user location and the unknown element *)
Definition element_errors : list (N * (mode -> list N -> res ie)) := [
  (1, fun m s => lift IE_Imsi (Imsi_unmarshal m s));
  (2, fun m s => lift IE_Cause (Cause_unmarshal m s));
  (3, fun m s => lift IE_Recovery (Recovery_unmarshal m s));
  (51, fun m s => lift IE_StnSr (StnSr_unmarshal m s));
  (56, fun m s => lift IE_SrvccCause (SrvccCause_unmarshal m s));
  (71, fun m s => lift IE_Apn (Apn_unmarshal m s));
  (72, fun m s => lift IE_ApnAmbr (Ambr_unmarshal m s));
  (73, fun m s => lift IE_Ebi (Ebi_unmarshal m s));
  (74, fun m s => lift IE_IpAddress (IpAddress_unmarshal m s));
  (75, fun m s => lift IE_Mei (Mei_unmarshal m s));
  (76, fun m s => lift IE_Msisdn (Msisdn_unmarshal m s));
  (77, fun m s => lift IE_Indication (Indication_unmarshal m s));
  (78, fun m s => lift IE_Pco (Pco_unmarshal m s));
  (79, fun m s => lift IE_PdnAddressAllocation (PdnAddressAllocation_unmarshal m s));
  (80, fun m s => lift IE_BearerQos (BearerQos_unmarshal m s));
  (81, fun m s => lift IE_FlowQos (FlowQos_unmarshal m s));
  (82, fun m s => lift IE_RatType (RatType_unmarshal m s));
  (83, fun m s => lift IE_ServingNetwork (ServingNetwork_unmarshal m s));
  (84, fun m s => lift IE_BearerTft (BearerTft_unmarshal m s));
  (85, fun m s => lift IE_TrafficAggregateDescription (TrafficAggregateDescription_unmarshal m s));
  (87, fun m s => lift IE_Fteid (Fteid_unmarshal m s));
  (88, fun m s => lift IE_Tmsi (Tmsi_unmarshal m s));
  (89, fun m s => lift IE_GlobalCnId (GlobalCnId_unmarshal m s));
  (90, fun m s => lift IE_S103pdf (S103pdf_unmarshal m s));
  (91, fun m s => lift IE_S1udf (S1udf_unmarshal m s));
  (92, fun m s => lift IE_DelayValue (DelayValue_unmarshal m s));
  (94, fun m s => lift IE_ChargingId (ChargingId_unmarshal m s));
  (95, fun m s => lift IE_ChargingCharacteristics (ChargingCharacteristics_unmarshal m s));
  (96, fun m s => lift IE_TraceInformation (TraceInformation_unmarshal m s));
  (97, fun m s => lift IE_BearerFlags (BearerFlags_unmarshal m s));
  (99, fun m s => lift IE_PdnType (PdnType_unmarshal m s));
  (100, fun m s => lift IE_Pti (Pti_unmarshal m s));
  (110, fun m s => lift IE_PduNumbers (PduNumbers_unmarshal m s));
  (111, fun m s => lift IE_Ptmsi (Ptmsi_unmarshal m s));
  (112, fun m s => lift IE_PtmsiSignature (PtmsiSignature_unmarshal m s));
  (113, fun m s => lift IE_HopCounter (HopCounter_unmarshal m s));
  (114, fun m s => lift IE_UeTimeZone (UeTimeZone_unmarshal m s));
  (83, fun m s => lift IE_TraceReference (TraceReference_unmarshal m s));
  (116, fun m s => lift IE_CompleteRequestMessage (CompleteRequestMessage_unmarshal m s));
  (117, fun m s => lift IE_Guti (Guti_unmarshal m s));
  (118, fun m s => lift IE_Fcontainer (Fcontainer_unmarshal m s));
  (119, fun m s => lift IE_Fcause (Fcause_unmarshal m s));
  (120, fun m s => lift IE_PlmnId (PlmnId_unmarshal m s));
  (121, fun m s => lift IE_TargetIdentification (TargetIdentification_unmarshal m s));
  (123, fun m s => lift IE_PacketFlowId (PacketFlowId_unmarshal m s));
  (124, fun m s => lift IE_RabContext (RabContext_unmarshal m s));
  (125, fun m s => lift IE_SrcRncPdcpCtxInfo (SourceRncPdcpContextInfo_unmarshal m s));
  (126, fun m s => lift IE_PortNumber (PortNumber_unmarshal m s));
  (127, fun m s => lift IE_ApnRestriction (ApnRestriction_unmarshal m s));
  (128, fun m s => lift IE_SelectionMode (SelectionMode_unmarshal m s));
  (129, fun m s => lift IE_SourceIdentification (SourceIdentification_unmarshal m s));
  (131, fun m s => lift IE_ChangeReportingAction (ChangeReportingAction_unmarshal m s));
  (132, fun m s => lift IE_Fqcsid (Fqcsid_unmarshal m s));
  (133, fun m s => lift IE_ChannelNeeded (ChannelNeeded_unmarshal m s));
  (134, fun m s => lift IE_EmlppPriority (EmlppPriority_unmarshal m s));
  (135, fun m s => lift IE_NodeType (NodeType_unmarshal m s));
  (136, fun m s => lift IE_Fqdn (Fqdn_unmarshal m s));
  (137, fun m s => lift IE_TransactionIdentifier (TransactionIdentifier_unmarshal m s));
  (138, fun m s => lift IE_MbmsSd (MbmsSessionDuration_unmarshal m s));
  (139, fun m s => lift IE_MbmsSa (MbmsServiceArea_unmarshal m s));
  (140, fun m s => lift IE_MbmsSessionId (MbmsSessionId_unmarshal m s));
  (141, fun m s => lift IE_MbmsFlowId (MbmsFlowId_unmarshal m s));
  (142, fun m s => lift IE_MbmsIpMulticastDistribution (MbmsIpMulticastDistribution_unmarshal m s));
  (143, fun m s => lift IE_MbmsDistributionAck (MbmsDistributionAck_unmarshal m s));
  (144, fun m s => lift IE_RfspIndex (RfspIndex_unmarshal m s));
  (145, fun m s => lift IE_Uci (Uci_unmarshal m s));
  (146, fun m s => lift IE_CSGInformationReportingAction (CSGInformationReportingAction_unmarshal m s));
  (147, fun m s => lift IE_CsgId (CsgId_unmarshal m s));
  (148, fun m s => lift IE_CsgMembershipIndication (CsgMembershipIndication_unmarshal m s));
  (149, fun m s => lift IE_ServiceIndicator (ServiceIndicator_unmarshal m s));
  (150, fun m s => lift IE_DetachType (DetachType_unmarshal m s));
  (151, fun m s => lift IE_Ldn (Ldn_unmarshal m s));
  (152, fun m s => lift IE_NodeFeatures (NodeFeatures_unmarshal m s));
  (153, fun m s => lift IE_MbmsTimeToDataTransfer (MbmsTimeToDataTransfer_unmarshal m s));
  (154, fun m s => lift IE_Throttling (Throttling_unmarshal m s));
  (155, fun m s => lift IE_Arp (Arp_unmarshal m s));
  (156, fun m s => lift IE_EpcTimer (EpcTimer_unmarshal m s));
  (157, fun m s => lift IE_Spi (Spi_unmarshal m s));
  (158, fun m s => lift IE_Tmgi (Tmgi_unmarshal m s));
  (159, fun m s => lift IE_AdditionalMmContextForSrvcc (AdditionalMmContextForSrvcc_unmarshal m s));
  (160, fun m s => lift IE_AdditionalFlagsSrvcc (AdditionalFlagsSrvcc_unmarshal m s));
  (162, fun m s => lift IE_MdtConfiguration (MdtConfiguration_unmarshal m s));
  (163, fun m s => lift IE_Apco (Apco_unmarshal m s));
  (164, fun m s => lift IE_AbsoluteTimeMbmsDataTransfer (AbsoluteTimeMbmsDataTransfer_unmarshal m s));
  (165, fun m s => lift IE_HenbInfoReporting (HenbInfoReporting_unmarshal m s));
  (166, fun m s => lift IE_Ip4Cp (Ip4Cp_unmarshal m s));
  (167, fun m s => lift IE_ChangeToReportFlags (ChangeToReportFlags_unmarshal m s));
  (168, fun m s => lift IE_ActionIndication (ActionIndication_unmarshal m s));
  (170, fun m s => lift IE_UliTimestamp (UliTimestamp_unmarshal m s));
  (171, fun m s => lift IE_MbmsFlags (MbmsFlags_unmarshal m s));
  (172, fun m s => lift IE_RanNasCause (RanNasCause_unmarshal m s));
  (173, fun m s => lift IE_CnOperatorSelectionEntity (CnOperatorSelectionEntity_unmarshal m s));
  (174, fun m s => lift IE_Twmi (Twmi_unmarshal m s));
  (175, fun m s => lift IE_NodeNumber (NodeNumber_unmarshal m s));
  (176, fun m s => lift IE_NodeIdentifier (NodeIdentifier_unmarshal m s));
  (177, fun m s => lift IE_PresenceReportingAreaAction (PresenceReportingAreaAction_unmarshal m s));
  (178, fun m s => lift IE_PresenceReportingAreaInformation (PresenceReportingAreaInformation_unmarshal m s));
  (179, fun m s => lift IE_TwanIdTimeStamp (TwanIdTimeStamp_unmarshal m s));
  (182, fun m s => lift IE_Metric (Metric_unmarshal m s));
  (183, fun m s => lift IE_Sqn (Sqn_unmarshal m s));
  (184, fun m s => lift IE_ApnRelativeCapacity (ApnRelativeCapacity_unmarshal m s));
  (185, fun m s => lift IE_WlanOffloadIndication (WlanOffloadIndication_unmarshal m s));
  (186, fun m s => lift IE_PagingServiceInfo (PagingServiceInfo_unmarshal m s));
  (187, fun m s => lift IE_IntegerNumber (IntegerNumber_unmarshal m s));
  (188, fun m s => lift IE_MilliSecondTimeStamp (MilliSecondTimeStamp_unmarshal m s));
  (189, fun m s => lift IE_MonitoringEventInformation (MonitoringEventInformation_unmarshal m s));
  (190, fun m s => lift IE_EcgiList (EcgiList_unmarshal m s));
  (192, fun m s => lift IE_RemoteUserId (RemoteUserId_unmarshal m s));
  (193, fun m s => lift IE_RemoteUeIpInformation (RemoteUeIpInformation_unmarshal m s));
  (194, fun m s => lift IE_CIoTOptimizationSupportIndication (CIoTOptimizationSupportIndication_unmarshal m s));
  (196, fun m s => lift IE_HeaderCompressionConfiguration (HeaderCompressionConfiguration_unmarshal m s));
  (197, fun m s => lift IE_Epco (Epco_unmarshal m s));
  (198, fun m s => lift IE_ServingPlmnRateControl (ServingPlmnRateControl_unmarshal m s));
  (199, fun m s => lift IE_Counter (Counter_unmarshal m s));
  (200, fun m s => lift IE_MappedUeUsageType (MappedUeUsageType_unmarshal m s));
  (201, fun m s => lift IE_SecondaryRatUsageDataReport (SecondaryRatUsageDataReport_unmarshal m s));
  (202, fun m s => lift IE_UpFunctionSelectionIndicationFlags (UpFunctionSelectionIndicationFlags_unmarshal m s));
  (203, fun m s => lift IE_MaxPacketLossRate (MaxPacketLossRate_unmarshal m s));
  (204, fun m s => lift IE_ApnRateControlStatus (ApnRateControlStatus_unmarshal m s));
  (205, fun m s => lift IE_ExtendedTraceInformation (ExtendedTraceInformation_unmarshal m s));
  (206, fun m s => lift IE_MonitoringEventExtensionInfo (MonitoringEventExtensionInfo_unmarshal m s));
  (207, fun m s => lift IE_AdditionalRrmPolicyIndex (AdditionalRrmPolicyIndex_unmarshal m s));
  (210, fun m s => lift IE_ServicesAuthorized (ServicesAuthorized_unmarshal m s));
  (211, fun m s => lift IE_BitRate (BitRate_unmarshal m s));
  (212, fun m s => lift IE_PC5QosFlow (PC5QosFlow_unmarshal m s));
  (213, fun m s => lift IE_SgiPtpTunnelAddress (SgiPtpTunnelAddress_unmarshal m s));
  (215, fun m s => lift IE_PgwFqdn (PgwFqdn_unmarshal m s));
  (216, fun m s => lift IE_GroupId (GroupId_unmarshal m s));
  (217, fun m s => lift IE_PSCellId (PSCellId_unmarshal m s));
  (218, fun m s => lift IE_UpSecurityPolicy (UpSecurityPolicy_unmarshal m s));
  (219, fun m s => lift IE_AlternativeImsi (AlternativeImsi_unmarshal m s));
  (254, fun m s => lift IE_SpecialIEWithTypeExt (SpecialIEWithTypeExt_unmarshal m s));
  (255, fun m s => lift IE_PrivateExtension (PrivateExtension_unmarshal m s));
  (107, fun m s => lift (fun i => IE_MmContext (MmEps i)) (MmContextEpsSecurityContextQuadruplets_unmarshal m s));
  (106, fun m s => lift (fun i => IE_MmContext (MmUmtsQ i)) (MmContextUmtsKeyQuintuplets_unmarshal m s));
  (108, fun m s => lift (fun i => IE_MmContext (MmUmtsQq i)) (MmContextUmtsKeyQuadrupletsQuintuplets_unmarshal m s));
  (104, fun m s => lift (fun i => IE_MmContext (MmUmtsCq i)) (MmContextUmtsKeyCipherQuintuplets_unmarshal m s));
  (103, fun m s => lift (fun i => IE_MmContext (MmGsmT i)) (MmContextGsmKeyTriplets_unmarshal m s));
  (105, fun m s => lift (fun i => IE_MmContext (MmGsmCq i)) (MmContextGsmKeyCipherQuintuplets_unmarshal m s));
  (169, fun m s => lift IE_TwanId (TwanId_unmarshal m s))].
Lemma TwanId_errs m b : errs [IEInvalidLength 169; IEIncorrect 169] (TwanId_unmarshal m b).
Proof. unfold TwanId_unmarshal. errs_. Qed.
(* An element decoder that fails names the type of its element. *)
Theorem C66_element_error_partial : forall T u m s e, In (T, u) element_errors -> u m s = Err e -> names T e.
Proof.
  intros T u m s e H E. unfold element_errors in H.
  destruct H as [H|H]; [injection H as <- <-; exact (two 1 _ e (lift_errs _ _ _ (Imsi_errs m s)) E)|].
  destruct H as [H|H]; [injection H as <- <-; exact (two 2 _ e (lift_errs _ _ _ (Cause_errs m s)) E)|].
  destruct H as [H|H]; [injection H as <- <-; exact (two 3 _ e (lift_errs _ _ _ (Recovery_errs m s)) E)|].
  destruct H as [H|H]; [injection H as <- <-; exact (two 51 _ e (lift_errs _ _ _ (StnSr_errs m s)) E)|].
  destruct H as [H|H]; [injection H as <- <-; exact (two 56 _ e (lift_errs _ _ _ (SrvccCause_errs m s)) E)|].
  destruct H as [H|H]; [injection H as <- <-; exact (two 71 _ e (lift_errs _ _ _ (Apn_errs m s)) E)|].
  destruct H as [H|H]; [injection H as <- <-; exact (two 72 _ e (lift_errs _ _ _ (Ambr_errs m s)) E)|].
  destruct H as [H|H]; [injection H as <- <-; exact (two 73 _ e (lift_errs _ _ _ (Ebi_errs m s)) E)|].
  destruct H as [H|H]; [injection H as <- <-; exact (two 74 _ e (lift_errs _ _ _ (IpAddress_errs m s)) E)|].
  destruct H as [H|H]; [injection H as <- <-; exact (two 75 _ e (lift_errs _ _ _ (Mei_errs m s)) E)|].
  destruct H as [H|H]; [injection H as <- <-; exact (two 76 _ e (lift_errs _ _ _ (Msisdn_errs m s)) E)|].
  destruct H as [H|H]; [injection H as <- <-; exact (two 77 _ e (lift_errs _ _ _ (Indication_errs m s)) E)|].
  destruct H as [H|H]; [injection H as <- <-; exact (two 78 _ e (lift_errs _ _ _ (Pco_errs m s)) E)|].
  destruct H as [H|H]; [injection H as <- <-; exact (two 79 _ e (lift_errs _ _ _ (PdnAddressAllocation_errs m s)) E)|].
  destruct H as [H|H]; [injection H as <- <-; exact (two 80 _ e (lift_errs _ _ _ (BearerQos_errs m s)) E)|].
  destruct H as [H|H]; [injection H as <- <-; exact (two 81 _ e (lift_errs _ _ _ (FlowQos_errs m s)) E)|].
  destruct H as [H|H]; [injection H as <- <-; exact (two 82 _ e (lift_errs _ _ _ (RatType_errs m s)) E)|].
  destruct H as [H|H]; [injection H as <- <-; exact (two 83 _ e (lift_errs _ _ _ (ServingNetwork_errs m s)) E)|].
  destruct H as [H|H]; [injection H as <- <-; exact (two 84 _ e (lift_errs _ _ _ (BearerTft_errs m s)) E)|].
  destruct H as [H|H]; [injection H as <- <-; exact (two 85 _ e (lift_errs _ _ _ (TrafficAggregateDescription_errs m s)) E)|].
  destruct H as [H|H]; [injection H as <- <-; exact (two 87 _ e (lift_errs _ _ _ (Fteid_errs m s)) E)|].
  destruct H as [H|H]; [injection H as <- <-; exact (two 88 _ e (lift_errs _ _ _ (Tmsi_errs m s)) E)|].
  destruct H as [H|H]; [injection H as <- <-; exact (two 89 _ e (lift_errs _ _ _ (GlobalCnId_errs m s)) E)|].
  destruct H as [H|H]; [injection H as <- <-; exact (two 90 _ e (lift_errs _ _ _ (S103pdf_errs m s)) E)|].
  destruct H as [H|H]; [injection H as <- <-; exact (two 91 _ e (lift_errs _ _ _ (S1udf_errs m s)) E)|].
  destruct H as [H|H]; [injection H as <- <-; exact (two 92 _ e (lift_errs _ _ _ (DelayValue_errs m s)) E)|].
  destruct H as [H|H]; [injection H as <- <-; exact (two 94 _ e (lift_errs _ _ _ (ChargingId_errs m s)) E)|].
  destruct H as [H|H]; [injection H as <- <-; exact (two 95 _ e (lift_errs _ _ _ (ChargingCharacteristics_errs m s)) E)|].
  destruct H as [H|H]; [injection H as <- <-; exact (two 96 _ e (lift_errs _ _ _ (TraceInformation_errs m s)) E)|].
  destruct H as [H|H]; [injection H as <- <-; exact (two 97 _ e (lift_errs _ _ _ (BearerFlags_errs m s)) E)|].
  destruct H as [H|H]; [injection H as <- <-; exact (two 99 _ e (lift_errs _ _ _ (PdnType_errs m s)) E)|].
  destruct H as [H|H]; [injection H as <- <-; exact (two 100 _ e (lift_errs _ _ _ (Pti_errs m s)) E)|].
  destruct H as [H|H]; [injection H as <- <-; exact (two 110 _ e (lift_errs _ _ _ (PduNumbers_errs m s)) E)|].
  destruct H as [H|H]; [injection H as <- <-; exact (two 111 _ e (lift_errs _ _ _ (Ptmsi_errs m s)) E)|].
  destruct H as [H|H]; [injection H as <- <-; exact (two 112 _ e (lift_errs _ _ _ (PtmsiSignature_errs m s)) E)|].
  destruct H as [H|H]; [injection H as <- <-; exact (two 113 _ e (lift_errs _ _ _ (HopCounter_errs m s)) E)|].
  destruct H as [H|H]; [injection H as <- <-; exact (two 114 _ e (lift_errs _ _ _ (UeTimeZone_errs m s)) E)|].
  destruct H as [H|H]; [injection H as <- <-; apply (lift_errs _ _ _ (TraceReference_errs m s)) in E; destruct E as [<-|[]]; left; reflexivity|].
  destruct H as [H|H]; [injection H as <- <-; exact (two 116 _ e (lift_errs _ _ _ (CompleteRequestMessage_errs m s)) E)|].
  destruct H as [H|H]; [injection H as <- <-; exact (two 117 _ e (lift_errs _ _ _ (Guti_errs m s)) E)|].
  destruct H as [H|H]; [injection H as <- <-; exact (two 118 _ e (lift_errs _ _ _ (Fcontainer_errs m s)) E)|].
  destruct H as [H|H]; [injection H as <- <-; exact (two 119 _ e (lift_errs _ _ _ (Fcause_errs m s)) E)|].
  destruct H as [H|H]; [injection H as <- <-; exact (two 120 _ e (lift_errs _ _ _ (PlmnId_errs m s)) E)|].
  destruct H as [H|H]; [injection H as <- <-; exact (two 121 _ e (lift_errs _ _ _ (TargetIdentification_errs m s)) E)|].
  destruct H as [H|H]; [injection H as <- <-; exact (two 123 _ e (lift_errs _ _ _ (PacketFlowId_errs m s)) E)|].
  destruct H as [H|H]; [injection H as <- <-; exact (two 124 _ e (lift_errs _ _ _ (RabContext_errs m s)) E)|].
  destruct H as [H|H]; [injection H as <- <-; exact (two 125 _ e (lift_errs _ _ _ (SourceRncPdcpContextInfo_errs m s)) E)|].
  destruct H as [H|H]; [injection H as <- <-; exact (two 126 _ e (lift_errs _ _ _ (PortNumber_errs m s)) E)|].
  destruct H as [H|H]; [injection H as <- <-; exact (two 127 _ e (lift_errs _ _ _ (ApnRestriction_errs m s)) E)|].
  destruct H as [H|H]; [injection H as <- <-; exact (two 128 _ e (lift_errs _ _ _ (SelectionMode_errs m s)) E)|].
  destruct H as [H|H]; [injection H as <- <-; exact (two 129 _ e (lift_errs _ _ _ (SourceIdentification_errs m s)) E)|].
  destruct H as [H|H]; [injection H as <- <-; exact (two 131 _ e (lift_errs _ _ _ (ChangeReportingAction_errs m s)) E)|].
  destruct H as [H|H]; [injection H as <- <-; exact (two 132 _ e (lift_errs _ _ _ (Fqcsid_errs m s)) E)|].
  destruct H as [H|H]; [injection H as <- <-; exact (two 133 _ e (lift_errs _ _ _ (ChannelNeeded_errs m s)) E)|].
  destruct H as [H|H]; [injection H as <- <-; exact (two 134 _ e (lift_errs _ _ _ (EmlppPriority_errs m s)) E)|].
  destruct H as [H|H]; [injection H as <- <-; exact (two 135 _ e (lift_errs _ _ _ (NodeType_errs m s)) E)|].
  destruct H as [H|H]; [injection H as <- <-; exact (two 136 _ e (lift_errs _ _ _ (Fqdn_errs m s)) E)|].
  destruct H as [H|H]; [injection H as <- <-; exact (two 137 _ e (lift_errs _ _ _ (TransactionIdentifier_errs m s)) E)|].
  destruct H as [H|H]; [injection H as <- <-; exact (two 138 _ e (lift_errs _ _ _ (MbmsSessionDuration_errs m s)) E)|].
  destruct H as [H|H]; [injection H as <- <-; exact (two 139 _ e (lift_errs _ _ _ (MbmsServiceArea_errs m s)) E)|].
  destruct H as [H|H]; [injection H as <- <-; exact (two 140 _ e (lift_errs _ _ _ (MbmsSessionId_errs m s)) E)|].
  destruct H as [H|H]; [injection H as <- <-; exact (two 141 _ e (lift_errs _ _ _ (MbmsFlowId_errs m s)) E)|].
  destruct H as [H|H]; [injection H as <- <-; exact (two 142 _ e (lift_errs _ _ _ (MbmsIpMulticastDistribution_errs m s)) E)|].
  destruct H as [H|H]; [injection H as <- <-; exact (two 143 _ e (lift_errs _ _ _ (MbmsDistributionAck_errs m s)) E)|].
  destruct H as [H|H]; [injection H as <- <-; exact (two 144 _ e (lift_errs _ _ _ (RfspIndex_errs m s)) E)|].
  destruct H as [H|H]; [injection H as <- <-; exact (two 145 _ e (lift_errs _ _ _ (Uci_errs m s)) E)|].
  destruct H as [H|H]; [injection H as <- <-; exact (two 146 _ e (lift_errs _ _ _ (CSGInformationReportingAction_errs m s)) E)|].
  destruct H as [H|H]; [injection H as <- <-; exact (two 147 _ e (lift_errs _ _ _ (CsgId_errs m s)) E)|].
  destruct H as [H|H]; [injection H as <- <-; exact (two 148 _ e (lift_errs _ _ _ (CsgMembershipIndication_errs m s)) E)|].
  destruct H as [H|H]; [injection H as <- <-; exact (two 149 _ e (lift_errs _ _ _ (ServiceIndicator_errs m s)) E)|].
  destruct H as [H|H]; [injection H as <- <-; exact (two 150 _ e (lift_errs _ _ _ (DetachType_errs m s)) E)|].
  destruct H as [H|H]; [injection H as <- <-; exact (two 151 _ e (lift_errs _ _ _ (Ldn_errs m s)) E)|].
  destruct H as [H|H]; [injection H as <- <-; exact (two 152 _ e (lift_errs _ _ _ (NodeFeatures_errs m s)) E)|].
  destruct H as [H|H]; [injection H as <- <-; exact (two 153 _ e (lift_errs _ _ _ (MbmsTimeToDataTransfer_errs m s)) E)|].
  destruct H as [H|H]; [injection H as <- <-; exact (two 154 _ e (lift_errs _ _ _ (Throttling_errs m s)) E)|].
  destruct H as [H|H]; [injection H as <- <-; exact (two 155 _ e (lift_errs _ _ _ (Arp_errs m s)) E)|].
  destruct H as [H|H]; [injection H as <- <-; exact (two 156 _ e (lift_errs _ _ _ (EpcTimer_errs m s)) E)|].
  destruct H as [H|H]; [injection H as <- <-; exact (two 157 _ e (lift_errs _ _ _ (Spi_errs m s)) E)|].
  destruct H as [H|H]; [injection H as <- <-; exact (two 158 _ e (lift_errs _ _ _ (Tmgi_errs m s)) E)|].
  destruct H as [H|H]; [injection H as <- <-; exact (two 159 _ e (lift_errs _ _ _ (AdditionalMmContextForSrvcc_errs m s)) E)|].
  destruct H as [H|H]; [injection H as <- <-; exact (two 160 _ e (lift_errs _ _ _ (AdditionalFlagsSrvcc_errs m s)) E)|].
  destruct H as [H|H]; [injection H as <- <-; exact (two 162 _ e (lift_errs _ _ _ (MdtConfiguration_errs m s)) E)|].
  destruct H as [H|H]; [injection H as <- <-; exact (two 163 _ e (lift_errs _ _ _ (Apco_errs m s)) E)|].
  destruct H as [H|H]; [injection H as <- <-; exact (two 164 _ e (lift_errs _ _ _ (AbsoluteTimeMbmsDataTransfer_errs m s)) E)|].
  destruct H as [H|H]; [injection H as <- <-; exact (two 165 _ e (lift_errs _ _ _ (HenbInfoReporting_errs m s)) E)|].
  destruct H as [H|H]; [injection H as <- <-; exact (two 166 _ e (lift_errs _ _ _ (Ip4Cp_errs m s)) E)|].
  destruct H as [H|H]; [injection H as <- <-; exact (two 167 _ e (lift_errs _ _ _ (ChangeToReportFlags_errs m s)) E)|].
  destruct H as [H|H]; [injection H as <- <-; exact (two 168 _ e (lift_errs _ _ _ (ActionIndication_errs m s)) E)|].
  destruct H as [H|H]; [injection H as <- <-; exact (two 170 _ e (lift_errs _ _ _ (UliTimestamp_errs m s)) E)|].
  destruct H as [H|H]; [injection H as <- <-; exact (two 171 _ e (lift_errs _ _ _ (MbmsFlags_errs m s)) E)|].
  destruct H as [H|H]; [injection H as <- <-; exact (two 172 _ e (lift_errs _ _ _ (RanNasCause_errs m s)) E)|].
  destruct H as [H|H]; [injection H as <- <-; exact (two 173 _ e (lift_errs _ _ _ (CnOperatorSelectionEntity_errs m s)) E)|].
  destruct H as [H|H]; [injection H as <- <-; exact (two 174 _ e (lift_errs _ _ _ (Twmi_errs m s)) E)|].
  destruct H as [H|H]; [injection H as <- <-; exact (two 175 _ e (lift_errs _ _ _ (NodeNumber_errs m s)) E)|].
  destruct H as [H|H]; [injection H as <- <-; exact (two 176 _ e (lift_errs _ _ _ (NodeIdentifier_errs m s)) E)|].
  destruct H as [H|H]; [injection H as <- <-; exact (two 177 _ e (lift_errs _ _ _ (PresenceReportingAreaAction_errs m s)) E)|].
  destruct H as [H|H]; [injection H as <- <-; exact (two 178 _ e (lift_errs _ _ _ (PresenceReportingAreaInformation_errs m s)) E)|].
  destruct H as [H|H]; [injection H as <- <-; exact (two 179 _ e (lift_errs _ _ _ (TwanIdTimeStamp_errs m s)) E)|].
  destruct H as [H|H]; [injection H as <- <-; exact (two 182 _ e (lift_errs _ _ _ (Metric_errs m s)) E)|].
  destruct H as [H|H]; [injection H as <- <-; exact (two 183 _ e (lift_errs _ _ _ (Sqn_errs m s)) E)|].
  destruct H as [H|H]; [injection H as <- <-; exact (two 184 _ e (lift_errs _ _ _ (ApnRelativeCapacity_errs m s)) E)|].
  destruct H as [H|H]; [injection H as <- <-; exact (two 185 _ e (lift_errs _ _ _ (WlanOffloadIndication_errs m s)) E)|].
  destruct H as [H|H]; [injection H as <- <-; exact (two 186 _ e (lift_errs _ _ _ (PagingServiceInfo_errs m s)) E)|].
  destruct H as [H|H]; [injection H as <- <-; exact (two 187 _ e (lift_errs _ _ _ (IntegerNumber_errs m s)) E)|].
  destruct H as [H|H]; [injection H as <- <-; exact (two 188 _ e (lift_errs _ _ _ (MilliSecondTimeStamp_errs m s)) E)|].
  destruct H as [H|H]; [injection H as <- <-; exact (two 189 _ e (lift_errs _ _ _ (MonitoringEventInformation_errs m s)) E)|].
  destruct H as [H|H]; [injection H as <- <-; exact (two 190 _ e (lift_errs _ _ _ (EcgiList_errs m s)) E)|].
  destruct H as [H|H]; [injection H as <- <-; exact (two 192 _ e (lift_errs _ _ _ (RemoteUserId_errs m s)) E)|].
  destruct H as [H|H]; [injection H as <- <-; exact (two 193 _ e (lift_errs _ _ _ (RemoteUeIpInformation_errs m s)) E)|].
  destruct H as [H|H]; [injection H as <- <-; exact (two 194 _ e (lift_errs _ _ _ (CIoTOptimizationSupportIndication_errs m s)) E)|].
  destruct H as [H|H]; [injection H as <- <-; exact (two 196 _ e (lift_errs _ _ _ (HeaderCompressionConfiguration_errs m s)) E)|].
  destruct H as [H|H]; [injection H as <- <-; exact (two 197 _ e (lift_errs _ _ _ (Epco_errs m s)) E)|].
  destruct H as [H|H]; [injection H as <- <-; exact (two 198 _ e (lift_errs _ _ _ (ServingPlmnRateControl_errs m s)) E)|].
  destruct H as [H|H]; [injection H as <- <-; exact (two 199 _ e (lift_errs _ _ _ (Counter_errs m s)) E)|].
  destruct H as [H|H]; [injection H as <- <-; exact (two 200 _ e (lift_errs _ _ _ (MappedUeUsageType_errs m s)) E)|].
  destruct H as [H|H]; [injection H as <- <-; exact (two 201 _ e (lift_errs _ _ _ (SecondaryRatUsageDataReport_errs m s)) E)|].
  destruct H as [H|H]; [injection H as <- <-; exact (two 202 _ e (lift_errs _ _ _ (UpFunctionSelectionIndicationFlags_errs m s)) E)|].
  destruct H as [H|H]; [injection H as <- <-; exact (two 203 _ e (lift_errs _ _ _ (MaxPacketLossRate_errs m s)) E)|].
  destruct H as [H|H]; [injection H as <- <-; exact (two 204 _ e (lift_errs _ _ _ (ApnRateControlStatus_errs m s)) E)|].
  destruct H as [H|H]; [injection H as <- <-; exact (two 205 _ e (lift_errs _ _ _ (ExtendedTraceInformation_errs m s)) E)|].
  destruct H as [H|H]; [injection H as <- <-; exact (two 206 _ e (lift_errs _ _ _ (MonitoringEventExtensionInfo_errs m s)) E)|].
  destruct H as [H|H]; [injection H as <- <-; exact (two 207 _ e (lift_errs _ _ _ (AdditionalRrmPolicyIndex_errs m s)) E)|].
  destruct H as [H|H]; [injection H as <- <-; exact (two 210 _ e (lift_errs _ _ _ (ServicesAuthorized_errs m s)) E)|].
  destruct H as [H|H]; [injection H as <- <-; exact (two 211 _ e (lift_errs _ _ _ (BitRate_errs m s)) E)|].
  destruct H as [H|H]; [injection H as <- <-; exact (two 212 _ e (lift_errs _ _ _ (PC5QosFlow_errs m s)) E)|].
  destruct H as [H|H]; [injection H as <- <-; exact (two 213 _ e (lift_errs _ _ _ (SgiPtpTunnelAddress_errs m s)) E)|].
  destruct H as [H|H]; [injection H as <- <-; exact (two 215 _ e (lift_errs _ _ _ (PgwFqdn_errs m s)) E)|].
  destruct H as [H|H]; [injection H as <- <-; exact (two 216 _ e (lift_errs _ _ _ (GroupId_errs m s)) E)|].
  destruct H as [H|H]; [injection H as <- <-; exact (two 217 _ e (lift_errs _ _ _ (PSCellId_errs m s)) E)|].
  destruct H as [H|H]; [injection H as <- <-; exact (two 218 _ e (lift_errs _ _ _ (UpSecurityPolicy_errs m s)) E)|].
  destruct H as [H|H]; [injection H as <- <-; exact (two 219 _ e (lift_errs _ _ _ (AlternativeImsi_errs m s)) E)|].
  destruct H as [H|H]; [injection H as <- <-; exact (two 254 _ e (lift_errs _ _ _ (SpecialIEWithTypeExt_errs m s)) E)|].
  destruct H as [H|H]; [injection H as <- <-; exact (two 255 _ e (lift_errs _ _ _ (PrivateExtension_errs m s)) E)|].
  destruct H as [H|H]; [injection H as <- <-; exact (two 107 _ e (lift_errs _ _ _ (MmContextEpsSecurityContextQuadruplets_errs m s)) E)|].
  destruct H as [H|H]; [injection H as <- <-; exact (two 106 _ e (lift_errs _ _ _ (MmContextUmtsKeyQuintuplets_errs m s)) E)|].
  destruct H as [H|H]; [injection H as <- <-; exact (two 108 _ e (lift_errs _ _ _ (MmContextUmtsKeyQuadrupletsQuintuplets_errs m s)) E)|].
  destruct H as [H|H]; [injection H as <- <-; exact (two 104 _ e (lift_errs _ _ _ (MmContextUmtsKeyCipherQuintuplets_errs m s)) E)|].
  destruct H as [H|H]; [injection H as <- <-; exact (two 103 _ e (lift_errs _ _ _ (MmContextGsmKeyTriplets_errs m s)) E)|].
  destruct H as [H|H]; [injection H as <- <-; exact (two 105 _ e (lift_errs _ _ _ (MmContextGsmKeyCipherQuintuplets_errs m s)) E)|].
  destruct H as [H|H]; [injection H as <- <-; exact (two 169 _ e (lift_errs _ _ _ (TwanId_errs m s)) E)|].
  destruct H.
Qed.
Print Assumptions C66_element_error_partial.
Example C66_element_case : In (71, fun m s => lift IE_Apn (Apn_unmarshal m s)) element_errors /\
  lift IE_Apn (Apn_unmarshal Debug [71; 0; 3; 0; 1; 97]) = Err (IEInvalidLength 71).
Proof. split; [unfold element_errors; repeat (first [left; reflexivity|right])|vm_compute; reflexivity]. Qed.
(* The two others may report type 0, which is no element. *)
Theorem C66_user_location_refuted : forall m, Uli_unmarshal m [86; 0; 7; 0; 2; 1; 0; 241; 0; 1] = Err (IEInvalidLength 86) /\
  Uli_unmarshal m [86; 0; 6; 0; 2; 1; 0; 241; 0; 1] = Err (IEIncorrect 0).
Proof. intros []; split; vm_compute; reflexivity. Qed.
Print Assumptions C66_user_location_refuted.
Theorem C66_unknown_refuted : forall m, decoder m [250; 0; 9; 0; 1] = Err (IEInvalidLength 0) /\ decoder m [250; 0; 9] = Err (IEInvalidLength 250) /\ unknown_type 250.
Proof.
  intros m. split; [destruct m; vm_compute; reflexivity|]. split; [destruct m; vm_compute; reflexivity|].
  unfold unknown_type, catalogue. cbn [map fst In]. intros I. repeat (destruct I as [I|I]; [discriminate I|]). exact I.
Qed.
Print Assumptions C66_unknown_refuted.

(* Sequences: the elements before the first one that cannot be read are read, and the error reports that one. *)
Theorem C66_sequence_error : forall b e, bytes b -> decoder Debug b = Err e -> stops_with b e.
Proof. exact decoder_stops. Qed.
Print Assumptions C66_sequence_error.
Theorem C66_sequence_error_any_build : forall m b e, bytes b -> decoder Debug b <> Panic -> decoder m b = Err e -> stops_with b e.
Proof. intros m b e Hb HP H. destruct (V2ModeFacts.decoder_same m b) as [C|C]; [contradiction|]. apply decoder_stops; [exact Hb|congruence]. Qed.
Print Assumptions C66_sequence_error_any_build.
(* and no error comes from octets that are elements *)
Theorem C66_sequence_error_justified : forall b e l, bytes b -> stops_with b e -> decoder Debug b <> Ok l.
Proof. intros b e l Hb H C. apply decoder_iff in C; [|exact Hb]. exact (stops_no_elements b e H Hb l C). Qed.
Print Assumptions C66_sequence_error_justified.
(* an EBI, then a bearer context whose second member is too long *)
Definition broken : list N := [73; 0; 1; 0; 5; 93; 0; 11; 0; 73; 0; 1; 0; 6; 71; 0; 3; 0; 1; 97].
Example C66_sequence_case : bytes broken /\ decoder Debug broken = Err (IEInvalidLength 71) /\ stops_with broken (IEInvalidLength 71).
Proof.
  assert (B : bytes broken) by (repeat constructor). assert (E : decoder Debug broken = Err (IEInvalidLength 71)) by (vm_compute; reflexivity).
  split; [exact B|]. split; [exact E|]. exact (decoder_stops _ _ B E).
Qed.
(* Three types are reported under another one, and the member of a group is reported without its group. *)
Theorem C66_sequence_type_refuted : forall m, decoder m [115; 0; 6; 0; 2] = Err (IEInvalidLength 83) /\
  decoder m [169; 0; 1; 0] = Err (IEInvalidLength 168) /\ decoder m [86; 0; 6; 0; 2; 1; 0; 241; 0; 1] = Err (IEIncorrect 0) /\
  decoder m [93; 0; 6; 0; 71; 0; 3; 0; 1; 97] = decoder m [71; 0; 3; 0; 1; 97].
Proof. intros m. split; [|split; [|split]]; destruct m; vm_compute; reflexivity. Qed.
Print Assumptions C66_sequence_type_refuted.

(* Octets too few for an element header are reported as a wrong length of the type they begin with (IMSI, alternative
   IMSI and node number: as wrong contents), whatever the type and the build. *)
Ltac short Hq := match type of Hq with (length ?q <= 2)%nat => destruct q as [|? [|? [|? ?]]]; [reflexivity|reflexivity|reflexivity|cbn [length] in Hq; lia] end.
Definition cut_short (t : N) : GTPV2Error :=
  if (t =? 1) || (t =? 175) || (t =? 219) then IEIncorrect t
  else IEInvalidLength (if t =? 115 then 83 else if t =? 169 then 168 else t).
Theorem C66_cut_short : forall m t q, (length q <= 2)%nat -> decoder m (t :: q) = Err (cut_short t).
Proof.
  intros m t q Hq. unfold decoder. cbn [decode_ies length ie_loop]. assert (E : forall dec, decode_one dec m (t :: q) = Err (cut_short t)); [|rewrite E; reflexivity].
  intros dec. unfold decode_one. change (@at_ GTPV2Error (t :: q) 0) with (@Ok GTPV2Error _ t). cbn [bind].
  destruct (N.eqb_spec t 1) as [E1|E1]; [subst t; short Hq|].
  destruct (N.eqb_spec t 2) as [E2|E2]; [subst t; short Hq|].
  destruct (N.eqb_spec t 3) as [E3|E3]; [subst t; short Hq|].
  destruct (N.eqb_spec t 51) as [E51|E51]; [subst t; short Hq|].
  destruct (N.eqb_spec t 56) as [E56|E56]; [subst t; short Hq|].
  destruct (N.eqb_spec t 71) as [E71|E71]; [subst t; short Hq|].
  destruct (N.eqb_spec t 72) as [E72|E72]; [subst t; short Hq|].
  destruct (N.eqb_spec t 73) as [E73|E73]; [subst t; short Hq|].
  destruct (N.eqb_spec t 74) as [E74|E74]; [subst t; short Hq|].
  destruct (N.eqb_spec t 75) as [E75|E75]; [subst t; short Hq|].
  destruct (N.eqb_spec t 76) as [E76|E76]; [subst t; short Hq|].
  destruct (N.eqb_spec t 77) as [E77|E77]; [subst t; short Hq|].
  destruct (N.eqb_spec t 78) as [E78|E78]; [subst t; short Hq|].
  destruct (N.eqb_spec t 79) as [E79|E79]; [subst t; short Hq|].
  destruct (N.eqb_spec t 80) as [E80|E80]; [subst t; short Hq|].
  destruct (N.eqb_spec t 81) as [E81|E81]; [subst t; short Hq|].
  destruct (N.eqb_spec t 82) as [E82|E82]; [subst t; short Hq|].
  destruct (N.eqb_spec t 83) as [E83|E83]; [subst t; short Hq|].
  destruct (N.eqb_spec t 84) as [E84|E84]; [subst t; short Hq|].
  destruct (N.eqb_spec t 85) as [E85|E85]; [subst t; short Hq|].
  destruct (N.eqb_spec t 86) as [E86|E86]; [subst t; short Hq|].
  destruct (N.eqb_spec t 87) as [E87|E87]; [subst t; short Hq|].
  destruct (N.eqb_spec t 88) as [E88|E88]; [subst t; short Hq|].
  destruct (N.eqb_spec t 89) as [E89|E89]; [subst t; short Hq|].
  destruct (N.eqb_spec t 90) as [E90|E90]; [subst t; short Hq|].
  destruct (N.eqb_spec t 91) as [E91|E91]; [subst t; short Hq|].
  destruct (N.eqb_spec t 92) as [E92|E92]; [subst t; short Hq|].
  destruct (N.eqb_spec t 93) as [E93|E93]; [subst t; short Hq|].
  destruct (N.eqb_spec t 94) as [E94|E94]; [subst t; short Hq|].
  destruct (N.eqb_spec t 95) as [E95|E95]; [subst t; short Hq|].
  destruct (N.eqb_spec t 96) as [E96|E96]; [subst t; short Hq|].
  destruct (N.eqb_spec t 97) as [E97|E97]; [subst t; short Hq|].
  destruct (N.eqb_spec t 99) as [E99|E99]; [subst t; short Hq|].
  destruct (N.eqb_spec t 100) as [E100|E100]; [subst t; short Hq|].
  destruct ((103 <=? t) && (t <=? 108)) eqn:E6.
  { apply andb_prop in E6 as [E6 E7]. apply N.leb_le in E6, E7. unfold MmContext_unmarshal. change (@at_ GTPV2Error (t :: q) 0) with (@Ok GTPV2Error _ t). cbn [bind].
    destruct (N.eqb_spec t 107) as [E|]; [subst t; short Hq|]. destruct (N.eqb_spec t 106) as [E|]; [subst t; short Hq|]. destruct (N.eqb_spec t 108) as [E|]; [subst t; short Hq|].
    destruct (N.eqb_spec t 104) as [E|]; [subst t; short Hq|]. destruct (N.eqb_spec t 103) as [E|]; [subst t; short Hq|]. destruct (N.eqb_spec t 105) as [E|]; [subst t; short Hq|]. lia. }
  destruct (N.eqb_spec t 109) as [E109|E109]; [subst t; short Hq|].
  destruct (N.eqb_spec t 110) as [E110|E110]; [subst t; short Hq|].
  destruct (N.eqb_spec t 111) as [E111|E111]; [subst t; short Hq|].
  destruct (N.eqb_spec t 112) as [E112|E112]; [subst t; short Hq|].
  destruct (N.eqb_spec t 113) as [E113|E113]; [subst t; short Hq|].
  destruct (N.eqb_spec t 114) as [E114|E114]; [subst t; short Hq|].
  destruct (N.eqb_spec t 115) as [E115|E115]; [subst t; short Hq|].
  destruct (N.eqb_spec t 116) as [E116|E116]; [subst t; short Hq|].
  destruct (N.eqb_spec t 117) as [E117|E117]; [subst t; short Hq|].
  destruct (N.eqb_spec t 118) as [E118|E118]; [subst t; short Hq|].
  destruct (N.eqb_spec t 119) as [E119|E119]; [subst t; short Hq|].
  destruct (N.eqb_spec t 120) as [E120|E120]; [subst t; short Hq|].
  destruct (N.eqb_spec t 121) as [E121|E121]; [subst t; short Hq|].
  destruct (N.eqb_spec t 123) as [E123|E123]; [subst t; short Hq|].
  destruct (N.eqb_spec t 124) as [E124|E124]; [subst t; short Hq|].
  destruct (N.eqb_spec t 125) as [E125|E125]; [subst t; short Hq|].
  destruct (N.eqb_spec t 126) as [E126|E126]; [subst t; short Hq|].
  destruct (N.eqb_spec t 127) as [E127|E127]; [subst t; short Hq|].
  destruct (N.eqb_spec t 128) as [E128|E128]; [subst t; short Hq|].
  destruct (N.eqb_spec t 129) as [E129|E129]; [subst t; short Hq|].
  destruct (N.eqb_spec t 131) as [E131|E131]; [subst t; short Hq|].
  destruct (N.eqb_spec t 132) as [E132|E132]; [subst t; short Hq|].
  destruct (N.eqb_spec t 133) as [E133|E133]; [subst t; short Hq|].
  destruct (N.eqb_spec t 134) as [E134|E134]; [subst t; short Hq|].
  destruct (N.eqb_spec t 135) as [E135|E135]; [subst t; short Hq|].
  destruct (N.eqb_spec t 136) as [E136|E136]; [subst t; short Hq|].
  destruct (N.eqb_spec t 137) as [E137|E137]; [subst t; short Hq|].
  destruct (N.eqb_spec t 138) as [E138|E138]; [subst t; short Hq|].
  destruct (N.eqb_spec t 139) as [E139|E139]; [subst t; short Hq|].
  destruct (N.eqb_spec t 140) as [E140|E140]; [subst t; short Hq|].
  destruct (N.eqb_spec t 141) as [E141|E141]; [subst t; short Hq|].
  destruct (N.eqb_spec t 142) as [E142|E142]; [subst t; short Hq|].
  destruct (N.eqb_spec t 143) as [E143|E143]; [subst t; short Hq|].
  destruct (N.eqb_spec t 144) as [E144|E144]; [subst t; short Hq|].
  destruct (N.eqb_spec t 145) as [E145|E145]; [subst t; short Hq|].
  destruct (N.eqb_spec t 146) as [E146|E146]; [subst t; short Hq|].
  destruct (N.eqb_spec t 147) as [E147|E147]; [subst t; short Hq|].
  destruct (N.eqb_spec t 148) as [E148|E148]; [subst t; short Hq|].
  destruct (N.eqb_spec t 149) as [E149|E149]; [subst t; short Hq|].
  destruct (N.eqb_spec t 150) as [E150|E150]; [subst t; short Hq|].
  destruct (N.eqb_spec t 151) as [E151|E151]; [subst t; short Hq|].
  destruct (N.eqb_spec t 152) as [E152|E152]; [subst t; short Hq|].
  destruct (N.eqb_spec t 153) as [E153|E153]; [subst t; short Hq|].
  destruct (N.eqb_spec t 154) as [E154|E154]; [subst t; short Hq|].
  destruct (N.eqb_spec t 155) as [E155|E155]; [subst t; short Hq|].
  destruct (N.eqb_spec t 156) as [E156|E156]; [subst t; short Hq|].
  destruct (N.eqb_spec t 157) as [E157|E157]; [subst t; short Hq|].
  destruct (N.eqb_spec t 158) as [E158|E158]; [subst t; short Hq|].
  destruct (N.eqb_spec t 159) as [E159|E159]; [subst t; short Hq|].
  destruct (N.eqb_spec t 160) as [E160|E160]; [subst t; short Hq|].
  destruct (N.eqb_spec t 162) as [E162|E162]; [subst t; short Hq|].
  destruct (N.eqb_spec t 163) as [E163|E163]; [subst t; short Hq|].
  destruct (N.eqb_spec t 164) as [E164|E164]; [subst t; short Hq|].
  destruct (N.eqb_spec t 165) as [E165|E165]; [subst t; short Hq|].
  destruct (N.eqb_spec t 166) as [E166|E166]; [subst t; short Hq|].
  destruct (N.eqb_spec t 167) as [E167|E167]; [subst t; short Hq|].
  destruct (N.eqb_spec t 168) as [E168|E168]; [subst t; short Hq|].
  destruct (N.eqb_spec t 169) as [E169|E169]; [subst t; short Hq|].
  destruct (N.eqb_spec t 170) as [E170|E170]; [subst t; short Hq|].
  destruct (N.eqb_spec t 171) as [E171|E171]; [subst t; short Hq|].
  destruct (N.eqb_spec t 172) as [E172|E172]; [subst t; short Hq|].
  destruct (N.eqb_spec t 173) as [E173|E173]; [subst t; short Hq|].
  destruct (N.eqb_spec t 174) as [E174|E174]; [subst t; short Hq|].
  destruct (N.eqb_spec t 175) as [E175|E175]; [subst t; short Hq|].
  destruct (N.eqb_spec t 176) as [E176|E176]; [subst t; short Hq|].
  destruct (N.eqb_spec t 177) as [E177|E177]; [subst t; short Hq|].
  destruct (N.eqb_spec t 178) as [E178|E178]; [subst t; short Hq|].
  destruct (N.eqb_spec t 179) as [E179|E179]; [subst t; short Hq|].
  destruct (N.eqb_spec t 180) as [E180|E180]; [subst t; short Hq|].
  destruct (N.eqb_spec t 181) as [E181|E181]; [subst t; short Hq|].
  destruct (N.eqb_spec t 182) as [E182|E182]; [subst t; short Hq|].
  destruct (N.eqb_spec t 183) as [E183|E183]; [subst t; short Hq|].
  destruct (N.eqb_spec t 184) as [E184|E184]; [subst t; short Hq|].
  destruct (N.eqb_spec t 185) as [E185|E185]; [subst t; short Hq|].
  destruct (N.eqb_spec t 186) as [E186|E186]; [subst t; short Hq|].
  destruct (N.eqb_spec t 187) as [E187|E187]; [subst t; short Hq|].
  destruct (N.eqb_spec t 188) as [E188|E188]; [subst t; short Hq|].
  destruct (N.eqb_spec t 189) as [E189|E189]; [subst t; short Hq|].
  destruct (N.eqb_spec t 190) as [E190|E190]; [subst t; short Hq|].
  destruct (N.eqb_spec t 191) as [E191|E191]; [subst t; short Hq|].
  destruct (N.eqb_spec t 192) as [E192|E192]; [subst t; short Hq|].
  destruct (N.eqb_spec t 193) as [E193|E193]; [subst t; short Hq|].
  destruct (N.eqb_spec t 194) as [E194|E194]; [subst t; short Hq|].
  destruct (N.eqb_spec t 195) as [E195|E195]; [subst t; short Hq|].
  destruct (N.eqb_spec t 196) as [E196|E196]; [subst t; short Hq|].
  destruct (N.eqb_spec t 197) as [E197|E197]; [subst t; short Hq|].
  destruct (N.eqb_spec t 198) as [E198|E198]; [subst t; short Hq|].
  destruct (N.eqb_spec t 199) as [E199|E199]; [subst t; short Hq|].
  destruct (N.eqb_spec t 200) as [E200|E200]; [subst t; short Hq|].
  destruct (N.eqb_spec t 201) as [E201|E201]; [subst t; short Hq|].
  destruct (N.eqb_spec t 202) as [E202|E202]; [subst t; short Hq|].
  destruct (N.eqb_spec t 203) as [E203|E203]; [subst t; short Hq|].
  destruct (N.eqb_spec t 204) as [E204|E204]; [subst t; short Hq|].
  destruct (N.eqb_spec t 205) as [E205|E205]; [subst t; short Hq|].
  destruct (N.eqb_spec t 206) as [E206|E206]; [subst t; short Hq|].
  destruct (N.eqb_spec t 207) as [E207|E207]; [subst t; short Hq|].
  destruct (N.eqb_spec t 208) as [E208|E208]; [subst t; short Hq|].
  destruct (N.eqb_spec t 209) as [E209|E209]; [subst t; short Hq|].
  destruct (N.eqb_spec t 210) as [E210|E210]; [subst t; short Hq|].
  destruct (N.eqb_spec t 211) as [E211|E211]; [subst t; short Hq|].
  destruct (N.eqb_spec t 212) as [E212|E212]; [subst t; short Hq|].
  destruct (N.eqb_spec t 213) as [E213|E213]; [subst t; short Hq|].
  destruct (N.eqb_spec t 214) as [E214|E214]; [subst t; short Hq|].
  destruct (N.eqb_spec t 215) as [E215|E215]; [subst t; short Hq|].
  destruct (N.eqb_spec t 216) as [E216|E216]; [subst t; short Hq|].
  destruct (N.eqb_spec t 217) as [E217|E217]; [subst t; short Hq|].
  destruct (N.eqb_spec t 218) as [E218|E218]; [subst t; short Hq|].
  destruct (N.eqb_spec t 219) as [E219|E219]; [subst t; short Hq|].
  destruct (N.eqb_spec t 254) as [E254|E254]; [subst t; short Hq|].
  destruct (N.eqb_spec t 255) as [E255|E255]; [subst t; short Hq|].
  unfold cut_short. rewrite !(proj2 (N.eqb_neq t _)) by assumption. short Hq.
Qed.
Print Assumptions C66_cut_short.
Example C66_cut_short_case : decoder Debug [2; 0; 2] = Err (IEInvalidLength 2).
Proof. exact (C66_cut_short Debug 2 [0; 2] (le_n 2)). Qed.

(* Headers: exactly when which error. *)
Theorem C66_header_error : forall b e, h2_unmarshal b = Err e <-> header_reports b e.
Proof. exact header_reports_iff. Qed.
Print Assumptions C66_header_error.
Example C66_header_case : header_reports [104; 32; 0; 8; 0; 0; 0; 1] HeaderVersionNotSupported.
Proof. apply hr_version; vm_compute; discriminate. Qed.

(* Messages: an error always has one of these reasons ... *)
Theorem C66_message_error : forall d L b e, In (d, L) gtpv2_messages -> bytes b -> msg_unmarshal d Debug b = Err e ->
  refused (md_name d) (md_type d) L b e.
Proof. exact message_refused. Qed.
Print Assumptions C66_message_error.
Theorem C66_message_error_any_build : forall d L m b e, In (d, L) gtpv2_messages -> bytes b -> msg_unmarshal d Debug b <> Panic ->
  msg_unmarshal d m b = Err e -> refused (md_name d) (md_type d) L b e.
Proof.
  intros d L m b e HI Hb HP H. destruct (V2ModeFacts.msg_same d m b) as [C|C]; [contradiction|]. apply message_refused; [exact HI|exact Hb|congruence].
Qed.
Print Assumptions C66_message_error_any_build.
(* ... and a message with such a reason is never accepted. *)
Theorem C66_message_error_justified : forall d L b e x, In (d, L) gtpv2_messages -> bytes b -> refused (md_name d) (md_type d) L b e ->
  msg_unmarshal d Debug b <> Ok x.
Proof. intros d L b e x HI Hb R C. apply (message_says_iff d L b x HI Hb) in C. exact (refused_not_said d L b e x HI Hb R C). Qed.
Print Assumptions C66_message_error_justified.
(* a Delete Session Request with the element sequence above *)
Definition broken_message : list N := [72; 36; 0; 28; 0; 0; 0; 7; 0; 1; 2; 0] ++ broken.
Example C66_message_case : In (md_deletesessionreq, ly_deletesessionreq) gtpv2_messages /\ bytes broken_message /\
  msg_unmarshal md_deletesessionreq Debug broken_message = Err (IEInvalidLength 71) /\
  refused "DeleteSessionRequest" 36 ly_deletesessionreq broken_message (IEInvalidLength 71).
Proof.
  assert (HI : In (md_deletesessionreq, ly_deletesessionreq) gtpv2_messages) by (unfold gtpv2_messages; repeat (first [left; reflexivity|right])).
  assert (B : bytes broken_message) by (repeat constructor).
  assert (E : msg_unmarshal md_deletesessionreq Debug broken_message = Err (IEInvalidLength 71)) by (vm_compute; reflexivity).
  split; [exact HI|]. split; [exact B|]. split; [exact E|]. exact (message_refused _ _ _ _ HI B E).
Qed.
