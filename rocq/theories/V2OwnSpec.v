(* V2OwnSpec.v - the decoder that belongs to each kind of information element. *)
From Verif Require Import Base.
From Verif Require Export V2WireSpec.
Local Open Scope N_scope.

(* The unmarshal function of the kind of [e]. *)
Definition own_decode (e : ie) (m : mode) (b : list N) : res ie :=
  match e with
  | IE_Imsi _ => lift IE_Imsi (Imsi_unmarshal m b)
  | IE_Cause _ => lift IE_Cause (Cause_unmarshal m b)
  | IE_Recovery _ => lift IE_Recovery (Recovery_unmarshal m b)
  | IE_StnSr _ => lift IE_StnSr (StnSr_unmarshal m b)
  | IE_SrvccCause _ => lift IE_SrvccCause (SrvccCause_unmarshal m b)
  | IE_Apn _ => lift IE_Apn (Apn_unmarshal m b)
  | IE_ApnAmbr _ => lift IE_ApnAmbr (Ambr_unmarshal m b)
  | IE_Ebi _ => lift IE_Ebi (Ebi_unmarshal m b)
  | IE_IpAddress _ => lift IE_IpAddress (IpAddress_unmarshal m b)
  | IE_Mei _ => lift IE_Mei (Mei_unmarshal m b)
  | IE_Msisdn _ => lift IE_Msisdn (Msisdn_unmarshal m b)
  | IE_Indication _ => lift IE_Indication (Indication_unmarshal m b)
  | IE_Pco _ => lift IE_Pco (Pco_unmarshal m b)
  | IE_PdnAddressAllocation _ => lift IE_PdnAddressAllocation (PdnAddressAllocation_unmarshal m b)
  | IE_BearerQos _ => lift IE_BearerQos (BearerQos_unmarshal m b)
  | IE_FlowQos _ => lift IE_FlowQos (FlowQos_unmarshal m b)
  | IE_RatType _ => lift IE_RatType (RatType_unmarshal m b)
  | IE_ServingNetwork _ => lift IE_ServingNetwork (ServingNetwork_unmarshal m b)
  | IE_BearerTft _ => lift IE_BearerTft (BearerTft_unmarshal m b)
  | IE_TrafficAggregateDescription _ => lift IE_TrafficAggregateDescription (TrafficAggregateDescription_unmarshal m b)
  | IE_Uli _ => lift IE_Uli (Uli_unmarshal m b)
  | IE_Fteid _ => lift IE_Fteid (Fteid_unmarshal m b)
  | IE_Tmsi _ => lift IE_Tmsi (Tmsi_unmarshal m b)
  | IE_GlobalCnId _ => lift IE_GlobalCnId (GlobalCnId_unmarshal m b)
  | IE_S103pdf _ => lift IE_S103pdf (S103pdf_unmarshal m b)
  | IE_S1udf _ => lift IE_S1udf (S1udf_unmarshal m b)
  | IE_DelayValue _ => lift IE_DelayValue (DelayValue_unmarshal m b)
  | IE_BearerContext _ => lift IE_BearerContext (BearerContext_unmarshal (decoder m) m b)
  | IE_ChargingId _ => lift IE_ChargingId (ChargingId_unmarshal m b)
  | IE_ChargingCharacteristics _ => lift IE_ChargingCharacteristics (ChargingCharacteristics_unmarshal m b)
  | IE_TraceInformation _ => lift IE_TraceInformation (TraceInformation_unmarshal m b)
  | IE_BearerFlags _ => lift IE_BearerFlags (BearerFlags_unmarshal m b)
  | IE_PdnType _ => lift IE_PdnType (PdnType_unmarshal m b)
  | IE_Pti _ => lift IE_Pti (Pti_unmarshal m b)
  | IE_MmContext _ => lift IE_MmContext (MmContext_unmarshal m b)
  | IE_PdnConnections _ => lift IE_PdnConnections (PdnConnections_unmarshal (decoder m) m b)
  | IE_PduNumbers _ => lift IE_PduNumbers (PduNumbers_unmarshal m b)
  | IE_Ptmsi _ => lift IE_Ptmsi (Ptmsi_unmarshal m b)
  | IE_PtmsiSignature _ => lift IE_PtmsiSignature (PtmsiSignature_unmarshal m b)
  | IE_HopCounter _ => lift IE_HopCounter (HopCounter_unmarshal m b)
  | IE_UeTimeZone _ => lift IE_UeTimeZone (UeTimeZone_unmarshal m b)
  | IE_TraceReference _ => lift IE_TraceReference (TraceReference_unmarshal m b)
  | IE_CompleteRequestMessage _ => lift IE_CompleteRequestMessage (CompleteRequestMessage_unmarshal m b)
  | IE_Guti _ => lift IE_Guti (Guti_unmarshal m b)
  | IE_Fcontainer _ => lift IE_Fcontainer (Fcontainer_unmarshal m b)
  | IE_Fcause _ => lift IE_Fcause (Fcause_unmarshal m b)
  | IE_PlmnId _ => lift IE_PlmnId (PlmnId_unmarshal m b)
  | IE_TargetIdentification _ => lift IE_TargetIdentification (TargetIdentification_unmarshal m b)
  | IE_PacketFlowId _ => lift IE_PacketFlowId (PacketFlowId_unmarshal m b)
  | IE_RabContext _ => lift IE_RabContext (RabContext_unmarshal m b)
  | IE_SrcRncPdcpCtxInfo _ => lift IE_SrcRncPdcpCtxInfo (SourceRncPdcpContextInfo_unmarshal m b)
  | IE_PortNumber _ => lift IE_PortNumber (PortNumber_unmarshal m b)
  | IE_ApnRestriction _ => lift IE_ApnRestriction (ApnRestriction_unmarshal m b)
  | IE_SelectionMode _ => lift IE_SelectionMode (SelectionMode_unmarshal m b)
  | IE_SourceIdentification _ => lift IE_SourceIdentification (SourceIdentification_unmarshal m b)
  | IE_ChangeReportingAction _ => lift IE_ChangeReportingAction (ChangeReportingAction_unmarshal m b)
  | IE_Fqcsid _ => lift IE_Fqcsid (Fqcsid_unmarshal m b)
  | IE_ChannelNeeded _ => lift IE_ChannelNeeded (ChannelNeeded_unmarshal m b)
  | IE_EmlppPriority _ => lift IE_EmlppPriority (EmlppPriority_unmarshal m b)
  | IE_NodeType _ => lift IE_NodeType (NodeType_unmarshal m b)
  | IE_Fqdn _ => lift IE_Fqdn (Fqdn_unmarshal m b)
  | IE_TransactionIdentifier _ => lift IE_TransactionIdentifier (TransactionIdentifier_unmarshal m b)
  | IE_MbmsSa _ => lift IE_MbmsSa (MbmsServiceArea_unmarshal m b)
  | IE_MbmsSd _ => lift IE_MbmsSd (MbmsSessionDuration_unmarshal m b)
  | IE_MbmsSessionId _ => lift IE_MbmsSessionId (MbmsSessionId_unmarshal m b)
  | IE_MbmsFlowId _ => lift IE_MbmsFlowId (MbmsFlowId_unmarshal m b)
  | IE_MbmsIpMulticastDistribution _ => lift IE_MbmsIpMulticastDistribution (MbmsIpMulticastDistribution_unmarshal m b)
  | IE_MbmsDistributionAck _ => lift IE_MbmsDistributionAck (MbmsDistributionAck_unmarshal m b)
  | IE_RfspIndex _ => lift IE_RfspIndex (RfspIndex_unmarshal m b)
  | IE_Uci _ => lift IE_Uci (Uci_unmarshal m b)
  | IE_CSGInformationReportingAction _ => lift IE_CSGInformationReportingAction (CSGInformationReportingAction_unmarshal m b)
  | IE_CsgId _ => lift IE_CsgId (CsgId_unmarshal m b)
  | IE_CsgMembershipIndication _ => lift IE_CsgMembershipIndication (CsgMembershipIndication_unmarshal m b)
  | IE_ServiceIndicator _ => lift IE_ServiceIndicator (ServiceIndicator_unmarshal m b)
  | IE_DetachType _ => lift IE_DetachType (DetachType_unmarshal m b)
  | IE_Ldn _ => lift IE_Ldn (Ldn_unmarshal m b)
  | IE_NodeFeatures _ => lift IE_NodeFeatures (NodeFeatures_unmarshal m b)
  | IE_MbmsTimeToDataTransfer _ => lift IE_MbmsTimeToDataTransfer (MbmsTimeToDataTransfer_unmarshal m b)
  | IE_Throttling _ => lift IE_Throttling (Throttling_unmarshal m b)
  | IE_Arp _ => lift IE_Arp (Arp_unmarshal m b)
  | IE_EpcTimer _ => lift IE_EpcTimer (EpcTimer_unmarshal m b)
  | IE_Spi _ => lift IE_Spi (Spi_unmarshal m b)
  | IE_Tmgi _ => lift IE_Tmgi (Tmgi_unmarshal m b)
  | IE_AdditionalMmContextForSrvcc _ => lift IE_AdditionalMmContextForSrvcc (AdditionalMmContextForSrvcc_unmarshal m b)
  | IE_AdditionalFlagsSrvcc _ => lift IE_AdditionalFlagsSrvcc (AdditionalFlagsSrvcc_unmarshal m b)
  | IE_MdtConfiguration _ => lift IE_MdtConfiguration (MdtConfiguration_unmarshal m b)
  | IE_Apco _ => lift IE_Apco (Apco_unmarshal m b)
  | IE_AbsoluteTimeMbmsDataTransfer _ => lift IE_AbsoluteTimeMbmsDataTransfer (AbsoluteTimeMbmsDataTransfer_unmarshal m b)
  | IE_HenbInfoReporting _ => lift IE_HenbInfoReporting (HenbInfoReporting_unmarshal m b)
  | IE_Ip4Cp _ => lift IE_Ip4Cp (Ip4Cp_unmarshal m b)
  | IE_ChangeToReportFlags _ => lift IE_ChangeToReportFlags (ChangeToReportFlags_unmarshal m b)
  | IE_ActionIndication _ => lift IE_ActionIndication (ActionIndication_unmarshal m b)
  | IE_TwanId _ => lift IE_TwanId (TwanId_unmarshal m b)
  | IE_UliTimestamp _ => lift IE_UliTimestamp (UliTimestamp_unmarshal m b)
  | IE_MbmsFlags _ => lift IE_MbmsFlags (MbmsFlags_unmarshal m b)
  | IE_RanNasCause _ => lift IE_RanNasCause (RanNasCause_unmarshal m b)
  | IE_CnOperatorSelectionEntity _ => lift IE_CnOperatorSelectionEntity (CnOperatorSelectionEntity_unmarshal m b)
  | IE_Twmi _ => lift IE_Twmi (Twmi_unmarshal m b)
  | IE_NodeNumber _ => lift IE_NodeNumber (NodeNumber_unmarshal m b)
  | IE_NodeIdentifier _ => lift IE_NodeIdentifier (NodeIdentifier_unmarshal m b)
  | IE_PresenceReportingAreaAction _ => lift IE_PresenceReportingAreaAction (PresenceReportingAreaAction_unmarshal m b)
  | IE_PresenceReportingAreaInformation _ => lift IE_PresenceReportingAreaInformation (PresenceReportingAreaInformation_unmarshal m b)
  | IE_TwanIdTimeStamp _ => lift IE_TwanIdTimeStamp (TwanIdTimeStamp_unmarshal m b)
  | IE_OverloadControlInfo _ => lift IE_OverloadControlInfo (OverloadControlInfo_unmarshal (decoder m) m b)
  | IE_LoadControlInfo _ => lift IE_LoadControlInfo (LoadControl_unmarshal (decoder m) m b)
  | IE_Metric _ => lift IE_Metric (Metric_unmarshal m b)
  | IE_Sqn _ => lift IE_Sqn (Sqn_unmarshal m b)
  | IE_ApnRelativeCapacity _ => lift IE_ApnRelativeCapacity (ApnRelativeCapacity_unmarshal m b)
  | IE_WlanOffloadIndication _ => lift IE_WlanOffloadIndication (WlanOffloadIndication_unmarshal m b)
  | IE_PagingServiceInfo _ => lift IE_PagingServiceInfo (PagingServiceInfo_unmarshal m b)
  | IE_IntegerNumber _ => lift IE_IntegerNumber (IntegerNumber_unmarshal m b)
  | IE_MilliSecondTimeStamp _ => lift IE_MilliSecondTimeStamp (MilliSecondTimeStamp_unmarshal m b)
  | IE_MonitoringEventInformation _ => lift IE_MonitoringEventInformation (MonitoringEventInformation_unmarshal m b)
  | IE_EcgiList _ => lift IE_EcgiList (EcgiList_unmarshal m b)
  | IE_RemoteUeContext _ => lift IE_RemoteUeContext (RemoteUeContext_unmarshal (decoder m) m b)
  | IE_RemoteUserId _ => lift IE_RemoteUserId (RemoteUserId_unmarshal m b)
  | IE_RemoteUeIpInformation _ => lift IE_RemoteUeIpInformation (RemoteUeIpInformation_unmarshal m b)
  | IE_CIoTOptimizationSupportIndication _ => lift IE_CIoTOptimizationSupportIndication (CIoTOptimizationSupportIndication_unmarshal m b)
  | IE_ScefPdnConnections _ => lift IE_ScefPdnConnections (ScefPdnConnections_unmarshal (decoder m) m b)
  | IE_HeaderCompressionConfiguration _ => lift IE_HeaderCompressionConfiguration (HeaderCompressionConfiguration_unmarshal m b)
  | IE_Epco _ => lift IE_Epco (Epco_unmarshal m b)
  | IE_ServingPlmnRateControl _ => lift IE_ServingPlmnRateControl (ServingPlmnRateControl_unmarshal m b)
  | IE_Counter _ => lift IE_Counter (Counter_unmarshal m b)
  | IE_MappedUeUsageType _ => lift IE_MappedUeUsageType (MappedUeUsageType_unmarshal m b)
  | IE_SecondaryRatUsageDataReport _ => lift IE_SecondaryRatUsageDataReport (SecondaryRatUsageDataReport_unmarshal m b)
  | IE_UpFunctionSelectionIndicationFlags _ => lift IE_UpFunctionSelectionIndicationFlags (UpFunctionSelectionIndicationFlags_unmarshal m b)
  | IE_MaxPacketLossRate _ => lift IE_MaxPacketLossRate (MaxPacketLossRate_unmarshal m b)
  | IE_ApnRateControlStatus _ => lift IE_ApnRateControlStatus (ApnRateControlStatus_unmarshal m b)
  | IE_ExtendedTraceInformation _ => lift IE_ExtendedTraceInformation (ExtendedTraceInformation_unmarshal m b)
  | IE_MonitoringEventExtensionInfo _ => lift IE_MonitoringEventExtensionInfo (MonitoringEventExtensionInfo_unmarshal m b)
  | IE_AdditionalRrmPolicyIndex _ => lift IE_AdditionalRrmPolicyIndex (AdditionalRrmPolicyIndex_unmarshal m b)
  | IE_V2xInformation _ => lift IE_V2xInformation (V2xInformation_unmarshal (decoder m) m b)
  | IE_PC5QosParameters _ => lift IE_PC5QosParameters (PC5QosParameters_unmarshal (decoder m) m b)
  | IE_ServicesAuthorized _ => lift IE_ServicesAuthorized (ServicesAuthorized_unmarshal m b)
  | IE_BitRate _ => lift IE_BitRate (BitRate_unmarshal m b)
  | IE_PC5QosFlow _ => lift IE_PC5QosFlow (PC5QosFlow_unmarshal m b)
  | IE_SgiPtpTunnelAddress _ => lift IE_SgiPtpTunnelAddress (SgiPtpTunnelAddress_unmarshal m b)
  | IE_PgwChangeInfo _ => lift IE_PgwChangeInfo (PgwChangeInfo_unmarshal (decoder m) m b)
  | IE_PgwFqdn _ => lift IE_PgwFqdn (PgwFqdn_unmarshal m b)
  | IE_GroupId _ => lift IE_GroupId (GroupId_unmarshal m b)
  | IE_PSCellId _ => lift IE_PSCellId (PSCellId_unmarshal m b)
  | IE_UpSecurityPolicy _ => lift IE_UpSecurityPolicy (UpSecurityPolicy_unmarshal m b)
  | IE_AlternativeImsi _ => lift IE_AlternativeImsi (AlternativeImsi_unmarshal m b)
  | IE_SpecialIEWithTypeExt _ => lift IE_SpecialIEWithTypeExt (SpecialIEWithTypeExt_unmarshal m b)
  | IE_PrivateExtension _ => lift IE_PrivateExtension (PrivateExtension_unmarshal m b)
  | IE_Unknown _ => lift IE_Unknown (Unknown_unmarshal m b)
  end.
