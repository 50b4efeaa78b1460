(* PropsV2Read.v - what received GTPv2-C octets mean: C64. The meaning is stated in V2ReadSpec.v (elements),
   V2ListSpec.v (sequences and groups) and V2MsgReadSpec.v (header and messages), with arithmetic and
   readers only. [m] ranges over the two overflow-check modes. *)
From Coq Require Import String.
From Verif Require Import Base BaseFacts V2MsgReadSpec V2MsgLayouts V2ReadFacts V2ReadFactsB V2ReadFactsC V2ReadFactsD V2ReadFactsE V2ReadFactsF V2ListFacts.
From Verif Require V2MsgReadFacts V2ModeFacts ModeFacts.
Local Open Scope N_scope.
Notation length := List.length.

(* ----- the elements ---------------------------------------------------------------------------- *)
(* each element decoder of the API and what the specification reads *)
Definition paired {A} (c : A -> ie) (u : mode -> list N -> res A) (r : list N -> option A) :=
  (fun b => lift c (u Debug b), fun b => option_map c (r b)).
Definition element_decoders : list ((list N -> res ie) * (list N -> option ie)) := [
  paired IE_AbsoluteTimeMbmsDataTransfer AbsoluteTimeMbmsDataTransfer_unmarshal AbsoluteTimeMbmsDataTransfer_reads;
  paired IE_ActionIndication ActionIndication_unmarshal ActionIndication_reads;
  paired IE_AdditionalFlagsSrvcc AdditionalFlagsSrvcc_unmarshal AdditionalFlagsSrvcc_reads;
  paired IE_AdditionalMmContextForSrvcc AdditionalMmContextForSrvcc_unmarshal AdditionalMmContextForSrvcc_reads;
  paired IE_AlternativeImsi AlternativeImsi_unmarshal AlternativeImsi_reads;
  paired IE_ApnAmbr Ambr_unmarshal Ambr_reads;
  paired IE_Apco Apco_unmarshal Apco_reads;
  paired IE_Apn Apn_unmarshal Apn_reads;
  paired IE_ApnRateControlStatus ApnRateControlStatus_unmarshal ApnRateControlStatus_reads;
  paired IE_ApnRelativeCapacity ApnRelativeCapacity_unmarshal ApnRelativeCapacity_reads;
  paired IE_ApnRestriction ApnRestriction_unmarshal ApnRestriction_reads;
  paired IE_Arp Arp_unmarshal Arp_reads;
  paired IE_AdditionalRrmPolicyIndex AdditionalRrmPolicyIndex_unmarshal AdditionalRrmPolicyIndex_reads;
  paired IE_BearerFlags BearerFlags_unmarshal BearerFlags_reads;
  paired IE_BearerQos BearerQos_unmarshal BearerQos_reads;
  paired IE_BearerTft BearerTft_unmarshal BearerTft_reads;
  paired IE_BitRate BitRate_unmarshal BitRate_reads;
  paired IE_Cause Cause_unmarshal Cause_reads;
  paired IE_ChangeReportingAction ChangeReportingAction_unmarshal ChangeReportingAction_reads;
  paired IE_ChangeToReportFlags ChangeToReportFlags_unmarshal ChangeToReportFlags_reads;
  paired IE_ChannelNeeded ChannelNeeded_unmarshal ChannelNeeded_reads;
  paired IE_ChargingCharacteristics ChargingCharacteristics_unmarshal ChargingCharacteristics_reads;
  paired IE_ChargingId ChargingId_unmarshal ChargingId_reads;
  paired IE_CIoTOptimizationSupportIndication CIoTOptimizationSupportIndication_unmarshal CIoTOptimizationSupportIndication_reads;
  paired IE_CsgMembershipIndication CsgMembershipIndication_unmarshal CsgMembershipIndication_reads;
  paired IE_CnOperatorSelectionEntity CnOperatorSelectionEntity_unmarshal CnOperatorSelectionEntity_reads;
  paired IE_CompleteRequestMessage CompleteRequestMessage_unmarshal CompleteRequestMessage_reads;
  paired IE_Counter Counter_unmarshal Counter_reads;
  paired IE_CsgId CsgId_unmarshal CsgId_reads;
  paired IE_CSGInformationReportingAction CSGInformationReportingAction_unmarshal CSGInformationReportingAction_reads;
  paired IE_DelayValue DelayValue_unmarshal DelayValue_reads;
  paired IE_DetachType DetachType_unmarshal DetachType_reads;
  paired IE_Ebi Ebi_unmarshal Ebi_reads;
  paired IE_EcgiList EcgiList_unmarshal EcgiList_reads;
  paired IE_EmlppPriority EmlppPriority_unmarshal EmlppPriority_reads;
  paired IE_Epco Epco_unmarshal Epco_reads;
  paired IE_EpcTimer EpcTimer_unmarshal EpcTimer_reads;
  paired IE_Fcause Fcause_unmarshal Fcause_reads;
  paired IE_Fcontainer Fcontainer_unmarshal Fcontainer_reads;
  paired IE_FlowQos FlowQos_unmarshal FlowQos_reads;
  paired IE_ExtendedTraceInformation ExtendedTraceInformation_unmarshal ExtendedTraceInformation_reads;
  paired IE_Fqcsid Fqcsid_unmarshal Fqcsid_reads;
  paired IE_Fqdn Fqdn_unmarshal Fqdn_reads;
  paired IE_Fteid Fteid_unmarshal Fteid_reads;
  paired IE_GlobalCnId GlobalCnId_unmarshal GlobalCnId_reads;
  paired IE_GroupId GroupId_unmarshal GroupId_reads;
  paired IE_Guti Guti_unmarshal Guti_reads;
  paired IE_HeaderCompressionConfiguration HeaderCompressionConfiguration_unmarshal HeaderCompressionConfiguration_reads;
  paired IE_HenbInfoReporting HenbInfoReporting_unmarshal HenbInfoReporting_reads;
  paired IE_HopCounter HopCounter_unmarshal HopCounter_reads;
  paired IE_Imsi Imsi_unmarshal Imsi_reads;
  paired IE_Indication Indication_unmarshal Indication_reads;
  paired IE_IntegerNumber IntegerNumber_unmarshal IntegerNumber_reads;
  paired IE_Ip4Cp Ip4Cp_unmarshal Ip4Cp_reads;
  paired IE_IpAddress IpAddress_unmarshal IpAddress_reads;
  paired IE_Ldn Ldn_unmarshal Ldn_reads;
  paired IE_MaxPacketLossRate MaxPacketLossRate_unmarshal MaxPacketLossRate_reads;
  paired IE_MbmsDistributionAck MbmsDistributionAck_unmarshal MbmsDistributionAck_reads;
  paired IE_MbmsFlags MbmsFlags_unmarshal MbmsFlags_reads;
  paired IE_MbmsFlowId MbmsFlowId_unmarshal MbmsFlowId_reads;
  paired IE_MbmsIpMulticastDistribution MbmsIpMulticastDistribution_unmarshal MbmsIpMulticastDistribution_reads;
  paired IE_MbmsSa MbmsServiceArea_unmarshal MbmsServiceArea_reads;
  paired IE_MbmsSd MbmsSessionDuration_unmarshal MbmsSessionDuration_reads;
  paired IE_MbmsSessionId MbmsSessionId_unmarshal MbmsSessionId_reads;
  paired IE_MbmsTimeToDataTransfer MbmsTimeToDataTransfer_unmarshal MbmsTimeToDataTransfer_reads;
  paired IE_MdtConfiguration MdtConfiguration_unmarshal MdtConfiguration_reads;
  paired IE_Mei Mei_unmarshal Mei_reads;
  paired IE_Metric Metric_unmarshal Metric_reads;
  paired IE_MilliSecondTimeStamp MilliSecondTimeStamp_unmarshal MilliSecondTimeStamp_reads;
  paired (fun x => IE_MmContext (MmEps x)) MmContextEpsSecurityContextQuadruplets_unmarshal MmEps_reads;
  paired (fun x => IE_MmContext (MmGsmCq x)) MmContextGsmKeyCipherQuintuplets_unmarshal MmGsmCq_reads;
  paired (fun x => IE_MmContext (MmGsmT x)) MmContextGsmKeyTriplets_unmarshal MmGsmT_reads;
  paired (fun x => IE_MmContext (MmUmtsCq x)) MmContextUmtsKeyCipherQuintuplets_unmarshal MmUmtsCq_reads;
  paired (fun x => IE_MmContext (MmUmtsQ x)) MmContextUmtsKeyQuintuplets_unmarshal MmUmtsQ_reads;
  paired (fun x => IE_MmContext (MmUmtsQq x)) MmContextUmtsKeyQuadrupletsQuintuplets_unmarshal MmUmtsQq_reads;
  paired IE_MonitoringEventExtensionInfo MonitoringEventExtensionInfo_unmarshal MonitoringEventExtensionInfo_reads;
  paired IE_MonitoringEventInformation MonitoringEventInformation_unmarshal MonitoringEventInformation_reads;
  paired IE_Msisdn Msisdn_unmarshal Msisdn_reads;
  paired IE_MappedUeUsageType MappedUeUsageType_unmarshal MappedUeUsageType_reads;
  paired IE_NodeFeatures NodeFeatures_unmarshal NodeFeatures_reads;
  paired IE_NodeIdentifier NodeIdentifier_unmarshal NodeIdentifier_reads;
  paired IE_NodeNumber NodeNumber_unmarshal NodeNumber_reads;
  paired IE_NodeType NodeType_unmarshal NodeType_reads;
  paired IE_PdnAddressAllocation PdnAddressAllocation_unmarshal PdnAddressAllocation_reads;
  paired IE_PacketFlowId PacketFlowId_unmarshal PacketFlowId_reads;
  paired IE_PagingServiceInfo PagingServiceInfo_unmarshal PagingServiceInfo_reads;
  paired IE_PC5QosFlow PC5QosFlow_unmarshal PC5QosFlow_reads;
  paired IE_Pco Pco_unmarshal Pco_reads;
  paired IE_PdnType PdnType_unmarshal PdnType_reads;
  paired IE_PduNumbers PduNumbers_unmarshal PduNumbers_reads;
  paired IE_PgwFqdn PgwFqdn_unmarshal PgwFqdn_reads;
  paired IE_PlmnId PlmnId_unmarshal PlmnId_reads;
  paired IE_PortNumber PortNumber_unmarshal PortNumber_reads;
  paired IE_PresenceReportingAreaAction PresenceReportingAreaAction_unmarshal PresenceReportingAreaAction_reads;
  paired IE_PresenceReportingAreaInformation PresenceReportingAreaInformation_unmarshal PresenceReportingAreaInformation_reads;
  paired IE_PrivateExtension PrivateExtension_unmarshal PrivateExtension_reads;
  paired IE_PSCellId PSCellId_unmarshal PSCellId_reads;
  paired IE_Pti Pti_unmarshal Pti_reads;
  paired IE_Ptmsi Ptmsi_unmarshal Ptmsi_reads;
  paired IE_PtmsiSignature PtmsiSignature_unmarshal PtmsiSignature_reads;
  paired IE_RabContext RabContext_unmarshal RabContext_reads;
  paired IE_RanNasCause RanNasCause_unmarshal RanNasCause_reads;
  paired IE_RatType RatType_unmarshal RatType_reads;
  paired IE_Recovery Recovery_unmarshal Recovery_reads;
  paired IE_RemoteUeIpInformation RemoteUeIpInformation_unmarshal RemoteUeIpInformation_reads;
  paired IE_RemoteUserId RemoteUserId_unmarshal RemoteUserId_reads;
  paired IE_RfspIndex RfspIndex_unmarshal RfspIndex_reads;
  paired IE_S103pdf S103pdf_unmarshal S103pdf_reads;
  paired IE_S1udf S1udf_unmarshal S1udf_reads;
  paired IE_SecondaryRatUsageDataReport SecondaryRatUsageDataReport_unmarshal SecondaryRatUsageDataReport_reads;
  paired IE_SelectionMode SelectionMode_unmarshal SelectionMode_reads;
  paired IE_ServiceIndicator ServiceIndicator_unmarshal ServiceIndicator_reads;
  paired IE_ServicesAuthorized ServicesAuthorized_unmarshal ServicesAuthorized_reads;
  paired IE_ServingNetwork ServingNetwork_unmarshal ServingNetwork_reads;
  paired IE_ServingPlmnRateControl ServingPlmnRateControl_unmarshal ServingPlmnRateControl_reads;
  paired IE_SgiPtpTunnelAddress SgiPtpTunnelAddress_unmarshal SgiPtpTunnelAddress_reads;
  paired IE_SourceIdentification SourceIdentification_unmarshal SourceIdentification_reads;
  paired IE_SpecialIEWithTypeExt SpecialIEWithTypeExt_unmarshal SpecialIEWithTypeExt_reads;
  paired IE_Spi Spi_unmarshal Spi_reads;
  paired IE_Sqn Sqn_unmarshal Sqn_reads;
  paired IE_SrcRncPdcpCtxInfo SourceRncPdcpContextInfo_unmarshal SourceRncPdcpContextInfo_reads;
  paired IE_SrvccCause SrvccCause_unmarshal SrvccCause_reads;
  paired IE_StnSr StnSr_unmarshal StnSr_reads;
  paired IE_TrafficAggregateDescription TrafficAggregateDescription_unmarshal TrafficAggregateDescription_reads;
  paired IE_TargetIdentification TargetIdentification_unmarshal TargetIdentification_reads;
  paired IE_Throttling Throttling_unmarshal Throttling_reads;
  paired IE_Tmgi Tmgi_unmarshal Tmgi_reads;
  paired IE_Tmsi Tmsi_unmarshal Tmsi_reads;
  paired IE_TraceInformation TraceInformation_unmarshal TraceInformation_reads;
  paired IE_TraceReference TraceReference_unmarshal TraceReference_reads;
  paired IE_TransactionIdentifier TransactionIdentifier_unmarshal TransactionIdentifier_reads;
  paired IE_TwanId TwanId_unmarshal TwanId_reads;
  paired IE_TwanIdTimeStamp TwanIdTimeStamp_unmarshal TwanIdTimeStamp_reads;
  paired IE_Twmi Twmi_unmarshal Twmi_reads;
  paired IE_Uci Uci_unmarshal Uci_reads;
  paired IE_UeTimeZone UeTimeZone_unmarshal UeTimeZone_reads;
  paired IE_Uli Uli_unmarshal Uli_reads;
  paired IE_UliTimestamp UliTimestamp_unmarshal UliTimestamp_reads;
  paired IE_Unknown Unknown_unmarshal Unknown_reads;
  paired IE_UpFunctionSelectionIndicationFlags UpFunctionSelectionIndicationFlags_unmarshal UpFunctionSelectionIndicationFlags_reads;
  paired IE_UpSecurityPolicy UpSecurityPolicy_unmarshal UpSecurityPolicy_reads;
  paired IE_WlanOffloadIndication WlanOffloadIndication_unmarshal WlanOffloadIndication_reads].
Lemma paired_ok {A} (c : A -> ie) u r s : got (u Debug s) = r s -> forall e,
  fst (paired c u r) s = Ok e <-> snd (paired c u r) s = Some e.
Proof.
  intros H e. unfold paired, lift. cbn [fst snd]. rewrite <- H. destruct (u Debug s); cbn [bind got option_map];
    split; intros E; try discriminate; [apply Ok_inj in E; subst; reflexivity|injection E as <-; reflexivity].
Qed.
(* A decoder returns an element exactly when the octets say so. *)
Theorem C64_element_reading : forall s e u r, bytes s -> In (u, r) element_decoders -> (u s = Ok e <-> r s = Some e).
Proof.
  intros s e u r Hb H. unfold element_decoders in H.
  destruct H as [H|H]; [injection H as <- <-; apply (paired_ok _ _ _ s (AbsoluteTimeMbmsDataTransfer_eq s Hb))|].
  destruct H as [H|H]; [injection H as <- <-; apply (paired_ok _ _ _ s (ActionIndication_eq s Hb))|].
  destruct H as [H|H]; [injection H as <- <-; apply (paired_ok _ _ _ s (AdditionalFlagsSrvcc_eq s Hb))|].
  destruct H as [H|H]; [injection H as <- <-; apply (paired_ok _ _ _ s (AdditionalMmContextForSrvcc_eq s Hb))|].
  destruct H as [H|H]; [injection H as <- <-; apply (paired_ok _ _ _ s (AlternativeImsi_eq s Hb))|].
  destruct H as [H|H]; [injection H as <- <-; apply (paired_ok _ _ _ s (Ambr_eq s Hb))|].
  destruct H as [H|H]; [injection H as <- <-; apply (paired_ok _ _ _ s (Apco_eq s Hb))|].
  destruct H as [H|H]; [injection H as <- <-; apply (paired_ok _ _ _ s (Apn_eq s Hb))|].
  destruct H as [H|H]; [injection H as <- <-; apply (paired_ok _ _ _ s (ApnRateControlStatus_eq s Hb))|].
  destruct H as [H|H]; [injection H as <- <-; apply (paired_ok _ _ _ s (ApnRelativeCapacity_eq s Hb))|].
  destruct H as [H|H]; [injection H as <- <-; apply (paired_ok _ _ _ s (ApnRestriction_eq s Hb))|].
  destruct H as [H|H]; [injection H as <- <-; apply (paired_ok _ _ _ s (Arp_eq s Hb))|].
  destruct H as [H|H]; [injection H as <- <-; apply (paired_ok _ _ _ s (AdditionalRrmPolicyIndex_eq s Hb))|].
  destruct H as [H|H]; [injection H as <- <-; apply (paired_ok _ _ _ s (BearerFlags_eq s Hb))|].
  destruct H as [H|H]; [injection H as <- <-; apply (paired_ok _ _ _ s (BearerQos_eq s Hb))|].
  destruct H as [H|H]; [injection H as <- <-; apply (paired_ok _ _ _ s (BearerTft_eq s Hb))|].
  destruct H as [H|H]; [injection H as <- <-; apply (paired_ok _ _ _ s (BitRate_eq s Hb))|].
  destruct H as [H|H]; [injection H as <- <-; apply (paired_ok _ _ _ s (Cause_eq s Hb))|].
  destruct H as [H|H]; [injection H as <- <-; apply (paired_ok _ _ _ s (ChangeReportingAction_eq s Hb))|].
  destruct H as [H|H]; [injection H as <- <-; apply (paired_ok _ _ _ s (ChangeToReportFlags_eq s Hb))|].
  destruct H as [H|H]; [injection H as <- <-; apply (paired_ok _ _ _ s (ChannelNeeded_eq s Hb))|].
  destruct H as [H|H]; [injection H as <- <-; apply (paired_ok _ _ _ s (ChargingCharacteristics_eq s Hb))|].
  destruct H as [H|H]; [injection H as <- <-; apply (paired_ok _ _ _ s (ChargingId_eq s Hb))|].
  destruct H as [H|H]; [injection H as <- <-; apply (paired_ok _ _ _ s (CIoTOptimizationSupportIndication_eq s Hb))|].
  destruct H as [H|H]; [injection H as <- <-; apply (paired_ok _ _ _ s (CsgMembershipIndication_eq s Hb))|].
  destruct H as [H|H]; [injection H as <- <-; apply (paired_ok _ _ _ s (CnOperatorSelectionEntity_eq s Hb))|].
  destruct H as [H|H]; [injection H as <- <-; apply (paired_ok _ _ _ s (CompleteRequestMessage_eq s Hb))|].
  destruct H as [H|H]; [injection H as <- <-; apply (paired_ok _ _ _ s (Counter_eq s Hb))|].
  destruct H as [H|H]; [injection H as <- <-; apply (paired_ok _ _ _ s (CsgId_eq s Hb))|].
  destruct H as [H|H]; [injection H as <- <-; apply (paired_ok _ _ _ s (CSGInformationReportingAction_eq s Hb))|].
  destruct H as [H|H]; [injection H as <- <-; apply (paired_ok _ _ _ s (DelayValue_eq s Hb))|].
  destruct H as [H|H]; [injection H as <- <-; apply (paired_ok _ _ _ s (DetachType_eq s Hb))|].
  destruct H as [H|H]; [injection H as <- <-; apply (paired_ok _ _ _ s (Ebi_eq s Hb))|].
  destruct H as [H|H]; [injection H as <- <-; apply (paired_ok _ _ _ s (EcgiList_eq s Hb))|].
  destruct H as [H|H]; [injection H as <- <-; apply (paired_ok _ _ _ s (EmlppPriority_eq s Hb))|].
  destruct H as [H|H]; [injection H as <- <-; apply (paired_ok _ _ _ s (Epco_eq s Hb))|].
  destruct H as [H|H]; [injection H as <- <-; apply (paired_ok _ _ _ s (EpcTimer_eq s Hb))|].
  destruct H as [H|H]; [injection H as <- <-; apply (paired_ok _ _ _ s (Fcause_eq s Hb))|].
  destruct H as [H|H]; [injection H as <- <-; apply (paired_ok _ _ _ s (Fcontainer_eq s Hb))|].
  destruct H as [H|H]; [injection H as <- <-; apply (paired_ok _ _ _ s (FlowQos_eq s Hb))|].
  destruct H as [H|H]; [injection H as <- <-; apply (paired_ok _ _ _ s (ExtendedTraceInformation_eq s Hb))|].
  destruct H as [H|H]; [injection H as <- <-; apply (paired_ok _ _ _ s (Fqcsid_eq s Hb))|].
  destruct H as [H|H]; [injection H as <- <-; apply (paired_ok _ _ _ s (Fqdn_eq s Hb))|].
  destruct H as [H|H]; [injection H as <- <-; apply (paired_ok _ _ _ s (Fteid_eq s Hb))|].
  destruct H as [H|H]; [injection H as <- <-; apply (paired_ok _ _ _ s (GlobalCnId_eq s Hb))|].
  destruct H as [H|H]; [injection H as <- <-; apply (paired_ok _ _ _ s (GroupId_eq s Hb))|].
  destruct H as [H|H]; [injection H as <- <-; apply (paired_ok _ _ _ s (Guti_eq s Hb))|].
  destruct H as [H|H]; [injection H as <- <-; apply (paired_ok _ _ _ s (HeaderCompressionConfiguration_eq s Hb))|].
  destruct H as [H|H]; [injection H as <- <-; apply (paired_ok _ _ _ s (HenbInfoReporting_eq s Hb))|].
  destruct H as [H|H]; [injection H as <- <-; apply (paired_ok _ _ _ s (HopCounter_eq s Hb))|].
  destruct H as [H|H]; [injection H as <- <-; apply (paired_ok _ _ _ s (Imsi_eq s Hb))|].
  destruct H as [H|H]; [injection H as <- <-; apply (paired_ok _ _ _ s (Indication_eq s Hb))|].
  destruct H as [H|H]; [injection H as <- <-; apply (paired_ok _ _ _ s (IntegerNumber_eq s Hb))|].
  destruct H as [H|H]; [injection H as <- <-; apply (paired_ok _ _ _ s (Ip4Cp_eq s Hb))|].
  destruct H as [H|H]; [injection H as <- <-; apply (paired_ok _ _ _ s (IpAddress_eq s Hb))|].
  destruct H as [H|H]; [injection H as <- <-; apply (paired_ok _ _ _ s (Ldn_eq s Hb))|].
  destruct H as [H|H]; [injection H as <- <-; apply (paired_ok _ _ _ s (MaxPacketLossRate_eq s Hb))|].
  destruct H as [H|H]; [injection H as <- <-; apply (paired_ok _ _ _ s (MbmsDistributionAck_eq s Hb))|].
  destruct H as [H|H]; [injection H as <- <-; apply (paired_ok _ _ _ s (MbmsFlags_eq s Hb))|].
  destruct H as [H|H]; [injection H as <- <-; apply (paired_ok _ _ _ s (MbmsFlowId_eq s Hb))|].
  destruct H as [H|H]; [injection H as <- <-; apply (paired_ok _ _ _ s (MbmsIpMulticastDistribution_eq s Hb))|].
  destruct H as [H|H]; [injection H as <- <-; apply (paired_ok _ _ _ s (MbmsServiceArea_eq s Hb))|].
  destruct H as [H|H]; [injection H as <- <-; apply (paired_ok _ _ _ s (MbmsSessionDuration_eq s Hb))|].
  destruct H as [H|H]; [injection H as <- <-; apply (paired_ok _ _ _ s (MbmsSessionId_eq s Hb))|].
  destruct H as [H|H]; [injection H as <- <-; apply (paired_ok _ _ _ s (MbmsTimeToDataTransfer_eq s Hb))|].
  destruct H as [H|H]; [injection H as <- <-; apply (paired_ok _ _ _ s (MdtConfiguration_eq s Hb))|].
  destruct H as [H|H]; [injection H as <- <-; apply (paired_ok _ _ _ s (Mei_eq s Hb))|].
  destruct H as [H|H]; [injection H as <- <-; apply (paired_ok _ _ _ s (Metric_eq s Hb))|].
  destruct H as [H|H]; [injection H as <- <-; apply (paired_ok _ _ _ s (MilliSecondTimeStamp_eq s Hb))|].
  destruct H as [H|H]; [injection H as <- <-; apply (paired_ok _ _ _ s (MmEps_eq s Hb))|].
  destruct H as [H|H]; [injection H as <- <-; apply (paired_ok _ _ _ s (MmGsmCq_eq s Hb))|].
  destruct H as [H|H]; [injection H as <- <-; apply (paired_ok _ _ _ s (MmGsmT_eq s Hb))|].
  destruct H as [H|H]; [injection H as <- <-; apply (paired_ok _ _ _ s (MmUmtsCq_eq s Hb))|].
  destruct H as [H|H]; [injection H as <- <-; apply (paired_ok _ _ _ s (MmUmtsQ_eq s Hb))|].
  destruct H as [H|H]; [injection H as <- <-; apply (paired_ok _ _ _ s (MmUmtsQq_eq s Hb))|].
  destruct H as [H|H]; [injection H as <- <-; apply (paired_ok _ _ _ s (MonitoringEventExtensionInfo_eq s Hb))|].
  destruct H as [H|H]; [injection H as <- <-; apply (paired_ok _ _ _ s (MonitoringEventInformation_eq s Hb))|].
  destruct H as [H|H]; [injection H as <- <-; apply (paired_ok _ _ _ s (Msisdn_eq s Hb))|].
  destruct H as [H|H]; [injection H as <- <-; apply (paired_ok _ _ _ s (MappedUeUsageType_eq s Hb))|].
  destruct H as [H|H]; [injection H as <- <-; apply (paired_ok _ _ _ s (NodeFeatures_eq s Hb))|].
  destruct H as [H|H]; [injection H as <- <-; apply (paired_ok _ _ _ s (NodeIdentifier_eq s Hb))|].
  destruct H as [H|H]; [injection H as <- <-; apply (paired_ok _ _ _ s (NodeNumber_eq s Hb))|].
  destruct H as [H|H]; [injection H as <- <-; apply (paired_ok _ _ _ s (NodeType_eq s Hb))|].
  destruct H as [H|H]; [injection H as <- <-; apply (paired_ok _ _ _ s (PdnAddressAllocation_eq s Hb))|].
  destruct H as [H|H]; [injection H as <- <-; apply (paired_ok _ _ _ s (PacketFlowId_eq s Hb))|].
  destruct H as [H|H]; [injection H as <- <-; apply (paired_ok _ _ _ s (PagingServiceInfo_eq s Hb))|].
  destruct H as [H|H]; [injection H as <- <-; apply (paired_ok _ _ _ s (PC5QosFlow_eq s Hb))|].
  destruct H as [H|H]; [injection H as <- <-; apply (paired_ok _ _ _ s (Pco_eq s Hb))|].
  destruct H as [H|H]; [injection H as <- <-; apply (paired_ok _ _ _ s (PdnType_eq s Hb))|].
  destruct H as [H|H]; [injection H as <- <-; apply (paired_ok _ _ _ s (PduNumbers_eq s Hb))|].
  destruct H as [H|H]; [injection H as <- <-; apply (paired_ok _ _ _ s (PgwFqdn_eq s Hb))|].
  destruct H as [H|H]; [injection H as <- <-; apply (paired_ok _ _ _ s (PlmnId_eq s Hb))|].
  destruct H as [H|H]; [injection H as <- <-; apply (paired_ok _ _ _ s (PortNumber_eq s Hb))|].
  destruct H as [H|H]; [injection H as <- <-; apply (paired_ok _ _ _ s (PresenceReportingAreaAction_eq s Hb))|].
  destruct H as [H|H]; [injection H as <- <-; apply (paired_ok _ _ _ s (PresenceReportingAreaInformation_eq s Hb))|].
  destruct H as [H|H]; [injection H as <- <-; apply (paired_ok _ _ _ s (PrivateExtension_eq s Hb))|].
  destruct H as [H|H]; [injection H as <- <-; apply (paired_ok _ _ _ s (PSCellId_eq s Hb))|].
  destruct H as [H|H]; [injection H as <- <-; apply (paired_ok _ _ _ s (Pti_eq s Hb))|].
  destruct H as [H|H]; [injection H as <- <-; apply (paired_ok _ _ _ s (Ptmsi_eq s Hb))|].
  destruct H as [H|H]; [injection H as <- <-; apply (paired_ok _ _ _ s (PtmsiSignature_eq s Hb))|].
  destruct H as [H|H]; [injection H as <- <-; apply (paired_ok _ _ _ s (RabContext_eq s Hb))|].
  destruct H as [H|H]; [injection H as <- <-; apply (paired_ok _ _ _ s (RanNasCause_eq s Hb))|].
  destruct H as [H|H]; [injection H as <- <-; apply (paired_ok _ _ _ s (RatType_eq s Hb))|].
  destruct H as [H|H]; [injection H as <- <-; apply (paired_ok _ _ _ s (Recovery_eq s Hb))|].
  destruct H as [H|H]; [injection H as <- <-; apply (paired_ok _ _ _ s (RemoteUeIpInformation_eq s Hb))|].
  destruct H as [H|H]; [injection H as <- <-; apply (paired_ok _ _ _ s (RemoteUserId_eq s Hb))|].
  destruct H as [H|H]; [injection H as <- <-; apply (paired_ok _ _ _ s (RfspIndex_eq s Hb))|].
  destruct H as [H|H]; [injection H as <- <-; apply (paired_ok _ _ _ s (S103pdf_eq s Hb))|].
  destruct H as [H|H]; [injection H as <- <-; apply (paired_ok _ _ _ s (S1udf_eq s Hb))|].
  destruct H as [H|H]; [injection H as <- <-; apply (paired_ok _ _ _ s (SecondaryRatUsageDataReport_eq s Hb))|].
  destruct H as [H|H]; [injection H as <- <-; apply (paired_ok _ _ _ s (SelectionMode_eq s Hb))|].
  destruct H as [H|H]; [injection H as <- <-; apply (paired_ok _ _ _ s (ServiceIndicator_eq s Hb))|].
  destruct H as [H|H]; [injection H as <- <-; apply (paired_ok _ _ _ s (ServicesAuthorized_eq s Hb))|].
  destruct H as [H|H]; [injection H as <- <-; apply (paired_ok _ _ _ s (ServingNetwork_eq s Hb))|].
  destruct H as [H|H]; [injection H as <- <-; apply (paired_ok _ _ _ s (ServingPlmnRateControl_eq s Hb))|].
  destruct H as [H|H]; [injection H as <- <-; apply (paired_ok _ _ _ s (SgiPtpTunnelAddress_eq s Hb))|].
  destruct H as [H|H]; [injection H as <- <-; apply (paired_ok _ _ _ s (SourceIdentification_eq s Hb))|].
  destruct H as [H|H]; [injection H as <- <-; apply (paired_ok _ _ _ s (SpecialIEWithTypeExt_eq s Hb))|].
  destruct H as [H|H]; [injection H as <- <-; apply (paired_ok _ _ _ s (Spi_eq s Hb))|].
  destruct H as [H|H]; [injection H as <- <-; apply (paired_ok _ _ _ s (Sqn_eq s Hb))|].
  destruct H as [H|H]; [injection H as <- <-; apply (paired_ok _ _ _ s (SourceRncPdcpContextInfo_eq s Hb))|].
  destruct H as [H|H]; [injection H as <- <-; apply (paired_ok _ _ _ s (SrvccCause_eq s Hb))|].
  destruct H as [H|H]; [injection H as <- <-; apply (paired_ok _ _ _ s (StnSr_eq s Hb))|].
  destruct H as [H|H]; [injection H as <- <-; apply (paired_ok _ _ _ s (TrafficAggregateDescription_eq s Hb))|].
  destruct H as [H|H]; [injection H as <- <-; apply (paired_ok _ _ _ s (TargetIdentification_eq s Hb))|].
  destruct H as [H|H]; [injection H as <- <-; apply (paired_ok _ _ _ s (Throttling_eq s Hb))|].
  destruct H as [H|H]; [injection H as <- <-; apply (paired_ok _ _ _ s (Tmgi_eq s Hb))|].
  destruct H as [H|H]; [injection H as <- <-; apply (paired_ok _ _ _ s (Tmsi_eq s Hb))|].
  destruct H as [H|H]; [injection H as <- <-; apply (paired_ok _ _ _ s (TraceInformation_eq s Hb))|].
  destruct H as [H|H]; [injection H as <- <-; apply (paired_ok _ _ _ s (TraceReference_eq s Hb))|].
  destruct H as [H|H]; [injection H as <- <-; apply (paired_ok _ _ _ s (TransactionIdentifier_eq s Hb))|].
  destruct H as [H|H]; [injection H as <- <-; apply (paired_ok _ _ _ s (TwanId_eq s Hb))|].
  destruct H as [H|H]; [injection H as <- <-; apply (paired_ok _ _ _ s (TwanIdTimeStamp_eq s Hb))|].
  destruct H as [H|H]; [injection H as <- <-; apply (paired_ok _ _ _ s (Twmi_eq s Hb))|].
  destruct H as [H|H]; [injection H as <- <-; apply (paired_ok _ _ _ s (Uci_eq s Hb))|].
  destruct H as [H|H]; [injection H as <- <-; apply (paired_ok _ _ _ s (UeTimeZone_eq s Hb))|].
  destruct H as [H|H]; [injection H as <- <-; apply (paired_ok _ _ _ s (Uli_eq s Hb))|].
  destruct H as [H|H]; [injection H as <- <-; apply (paired_ok _ _ _ s (UliTimestamp_eq s Hb))|].
  destruct H as [H|H]; [injection H as <- <-; apply (paired_ok _ _ _ s (Unknown_eq s Hb))|].
  destruct H as [H|H]; [injection H as <- <-; apply (paired_ok _ _ _ s (UpFunctionSelectionIndicationFlags_eq s Hb))|].
  destruct H as [H|H]; [injection H as <- <-; apply (paired_ok _ _ _ s (UpSecurityPolicy_eq s Hb))|].
  destruct H as [H|H]; [injection H as <- <-; apply (paired_ok _ _ _ s (WlanOffloadIndication_eq s Hb))|].
  destruct H.
Qed.
Print Assumptions C64_element_reading.
(* a bearer QoS with an instance and spare bits set, and an octet after it; an F-TEID with both addresses cut short *)
Example C64_element_case :
  BearerQos_reads [80; 0; 22; 179; 133; 9; 0; 0; 0; 1; 0; 0; 0; 0; 2; 0; 0; 0; 0; 3; 0; 0; 0; 0; 4; 0; 7] =
    Some (mkIe 80 22 3 (mkBearerQos 1 1 0 9 256 512 768 1024)) /\
  Fteid_reads [87; 0; 9; 0; 138; 0; 0; 0; 7; 10; 0; 0; 1] = Some (mkIe 87 9 0 (mkFteid 10 7 (Some [10; 0; 0; 1]) None)) /\
  Fteid_reads [87; 0; 9; 0; 202; 0; 0; 0; 7; 10; 0; 0; 1] = None.
Proof. vm_compute. split; [|split]; reflexivity. Qed.

(* ----- sequences of elements ------------------------------------------------------------------- *)
Theorem C64_sequence_reading : forall b l, bytes b -> (decoder Debug b = Ok l <-> octets_say b l).
Proof. exact decoder_iff. Qed.
Print Assumptions C64_sequence_reading.
Theorem C64_sequence_reading_any_build : forall m b l, bytes b -> octets_say b l -> decoder m b = Ok l.
Proof. intros m b l Hb H. apply (ModeFacts.refines_ok _ _ _ (V2ModeFacts.decoder_same m b)). apply decoder_iff; assumption. Qed.
Print Assumptions C64_sequence_reading_any_build.
(* octets have at most one meaning *)
Theorem C64_one_meaning : forall b l l', bytes b -> octets_say b l -> octets_say b l' -> l = l'.
Proof.
  intros b l l' Hb H H'. apply decoder_iff in H; [|exact Hb]. apply decoder_iff in H'; [|exact Hb]. rewrite H in H'.
  apply Ok_inj in H'. exact H'.
Qed.
Print Assumptions C64_one_meaning.
(* an EBI, then a bearer context with two members, of which the second has another instance *)
Definition octets1 : list N := [73; 0; 1; 0; 5; 93; 0; 11; 1; 73; 0; 1; 0; 6; 2; 0; 2; 1; 16; 0; 3; 0; 1; 0; 9].
Example C64_sequence_case : bytes octets1 /\ exists c, octets_say octets1
  [IE_Ebi (mkIe 73 1 0 5); IE_BearerContext (mkIe 93 11 1 c); IE_Recovery (mkIe 3 1 0 9)] /\
  bc_ebi c = mkIe 73 1 0 6 /\ bc_cause c = None.
Proof.
  split; [repeat constructor|]. eexists. split; [apply decoder_iff; [repeat constructor|vm_compute; reflexivity]|]. split; reflexivity.
Qed.

(* ----- header and messages --------------------------------------------------------------------- *)
Theorem C64_header_reading : forall b h, h2_unmarshal b = Ok h <-> header_says b h.
Proof. exact V2MsgReadFacts.header_says_iff. Qed.
Print Assumptions C64_header_reading.
Theorem C64_message_reading : forall d L b x, In (d, L) gtpv2_messages -> bytes b ->
  (msg_unmarshal d Debug b = Ok x <-> message_says (md_name d) (md_type d) L b x).
Proof. exact V2MsgReadFacts.message_says_iff. Qed.
Print Assumptions C64_message_reading.
Theorem C64_message_reading_any_build : forall d L m b x, In (d, L) gtpv2_messages -> bytes b ->
  message_says (md_name d) (md_type d) L b x -> msg_unmarshal d m b = Ok x.
Proof.
  intros d L m b x HI Hb H. apply (ModeFacts.refines_ok _ _ _ (V2ModeFacts.msg_same d m b)).
  apply (V2MsgReadFacts.message_says_iff d L b x HI Hb). exact H.
Qed.
Print Assumptions C64_message_reading_any_build.
(* a Delete Session Request with a priority, a linked EBI received twice and an octet after the message *)
Definition octets2 : list N := [76; 36; 0; 18; 0; 0; 0; 7; 0; 1; 2; 80; 73; 0; 1; 0; 5; 73; 0; 1; 0; 6; 77].
Definition message2 : message := mkMsg (mkHdr2 36 false (Some 5) 18 (Some 7) 258)
  (map (fun f => if String.eqb (f_name f) "linked_ebi" then [IE_Ebi (mkIe 73 1 0 5)] else []) ly_deletesessionreq).
Example C64_message_case : message_says "DeleteSessionRequest" 36 ly_deletesessionreq octets2 message2 /\ bytes octets2 /\
  In (md_deletesessionreq, ly_deletesessionreq) gtpv2_messages /\ List.concat (msg_fields message2) = [IE_Ebi (mkIe 73 1 0 5)].
Proof.
  assert (HI : In (md_deletesessionreq, ly_deletesessionreq) gtpv2_messages) by (unfold gtpv2_messages; repeat (first [left; reflexivity|right])).
  assert (Hb : bytes octets2) by (repeat constructor).
  split; [|split; [exact Hb|split; [exact HI|vm_compute; reflexivity]]].
  apply (V2MsgReadFacts.message_says_iff md_deletesessionreq ly_deletesessionreq octets2 message2 HI Hb). vm_compute. reflexivity.
Qed.

(* ----- what the standard says otherwise ---------------------------------------------------------- *)
(* Full statement: the length says where the next element begins (TS 29.274 8.2). False for the elements
   of a fixed size: here one element of six octets is read as two. *)
Theorem C64_declared_length_refuted : forall m,
  decoder m [3; 0; 6; 0; 9; 3; 0; 1; 0; 8] = Ok [IE_Recovery (mkIe 3 6 0 9); IE_Recovery (mkIe 3 1 0 8)].
Proof. intros []; vm_compute; reflexivity. Qed.
Print Assumptions C64_declared_length_refuted.
(* and a longer one from a later version makes the message unreadable *)
Theorem C64_longer_element_refuted : forall m x, decoder m [3; 0; 1; 0; 9] = Ok [IE_Recovery (mkIe 3 1 0 9)] /\
  (x < 256 -> exists e, decoder m [3; 0; 2; 0; 9; x] = Err e).
Proof.
  intros m x. split; [destruct m; vm_compute; reflexivity|]. intros Hx.
  assert (HH : (fun x => match decoder m [3; 0; 2; 0; 9; x] with Err _ => true | _ => false end) x = true).
  { apply (proj1 (forallb_forall _ _) (ltac:(destruct m; vm_compute; reflexivity) : forallb (fun x => match decoder m [3; 0; 2; 0; 9; x] with Err _ => true | _ => false end) (map N.of_nat (seq 0 256)) = true)).
    apply in_map_iff. exists (N.to_nat x). split; [lia|]. apply in_seq. lia. }
  cbn beta in HH. destruct (decoder m _) as [|e| |] in *; try discriminate. exists e. reflexivity.
Qed.
Print Assumptions C64_longer_element_refuted.
(* Elements of type 169 are TWAN identifiers (TS 29.274 8.1); none is ever read. *)
Definition not_twan (e : ie) : Prop := forall x, e <> IE_TwanId x.
Lemma plain_not_twan {A} (c : A -> ie) (r : list N -> option A) : (forall a, not_twan (c a)) -> forall s e, option_map c (r s) = Some e -> not_twan e.
Proof. intros H s e E. destruct (r s); [injection E as <-; apply H|discriminate]. Qed.
Lemma catalogue_not_twan : Forall (fun k => match snd (snd k) with
  | Plain r => forall s e, r s = Some e -> not_twan e | Group f => forall g e, f g = Some e -> not_twan e end) catalogue.
Proof.
  unfold catalogue, plain, group, pc5_group. repeat (apply Forall_cons; [cbn [snd]|]); [..|apply Forall_nil].
  all: try (apply plain_not_twan; intros a x; discriminate).
  all: intros g e E; try (injection E as <-; intros x; discriminate).
  destruct (every as_PC5QosFlow (only 0) (ie_v g)); [discriminate|]. injection E as <-. intros x; discriminate.
Qed.
Lemma head_not_twan s e n : head_says s e n -> not_twan e.
Proof.
  intros H. assert (K : forall t x k, kind_of_code t = (x, k) ->
    match k with Plain r => forall s e, r s = Some e -> not_twan e | Group f => forall g e, f g = Some e -> not_twan e end).
  { intros t x k. unfold kind_of_code. destruct (find _ catalogue) as [c|] eqn:F; intros E.
    - apply find_some in F as [F _]. pose proof (proj1 (Forall_forall _ _) catalogue_not_twan c F) as Q. cbn beta in Q. rewrite E in Q. exact Q.
    - injection E as _ <-. unfold plain. apply plain_not_twan. intros a y; discriminate. }
  destruct H as [t q x r e n HK HR HN|t a b c q x f l e n HK HF HS HR HN]; specialize (K _ _ _ HK); eauto.
Qed.
Theorem C64_twan_identifier_refuted : forall b l, bytes b -> decoder Debug b = Ok l ->
  (forall e x, In e l -> e <> IE_TwanId x) /\ (nth 0 b 0 = 169 -> exists x, hd_error l = Some (IE_ActionIndication x)).
Proof.
  intros b l Hb H. apply decoder_iff in H; [|exact Hb]. split.
  - clear Hb. induction H as [|s e0 n l HH _ IH]; [contradiction|]. intros e x [<-|He]; [|exact (IH e x He)]. apply (head_not_twan _ _ _ HH).
  - destruct H as [|s e0 n l HH _]; [discriminate|]. intros E. cbn [hd_error].
    destruct HH as [t q x r e n HK HR HN|t a b c q x f l0 e n HK HF HS HR HN]; cbn [nth] in E; subst t;
      change (kind_of_code 169) with (Declared, plain IE_ActionIndication ActionIndication_reads) in HK; unfold plain in HK; [|discriminate HK]. injection HK as <- <-.
    destruct (ActionIndication_reads (169 :: q)) as [y|]; [|discriminate]. exists y. injection HR as <-. reflexivity.
Qed.
Print Assumptions C64_twan_identifier_refuted.
Example C64_twan_case : exists x, decoder Debug (encoder [IE_TwanId (mkIe 169 4 0 (mkTwanId [65; 66] None None None None None None))]) =
  Ok [IE_ActionIndication x].
Proof. eexists. vm_compute. reflexivity. Qed.
