(* V2Decoder.v - the InformationElement enumeration, its encoder and the IE list decoder
   (src/gtpv2/messages/ies/ie.rs), with GroupedIe (groupedie.rs) and the decoders of the grouped IEs. *)
From Verif Require Import Base.
From Verif Require Export V2Grouped.
Local Open Scope N_scope.

(* ie.rs 176-323 *)
Inductive ie :=
| IE_Imsi (i : Tliv (list N))
| IE_Cause (i : Tliv cause)
| IE_Recovery (i : Tliv N)
| IE_StnSr (i : Tliv stn_sr)
| IE_SrvccCause (i : Tliv SrvccCauseValues)
| IE_Apn (i : Tliv (list N))
| IE_ApnAmbr (i : Tliv ambr)
| IE_Ebi (i : Tliv N)
| IE_IpAddress (i : Tliv ipaddr)
| IE_Mei (i : Tliv (list N))
| IE_Msisdn (i : Tliv (list N))
| IE_Indication (i : Tliv indication)
| IE_Pco (i : Tliv (list N))
| IE_PdnAddressAllocation (i : Tliv pdn_address)
| IE_BearerQos (i : Tliv bearer_qos)
| IE_FlowQos (i : Tliv flow_qos)
| IE_RatType (i : Tliv Rat)
| IE_ServingNetwork (i : Tliv plmn)
| IE_BearerTft (i : Tliv (list N))
| IE_TrafficAggregateDescription (i : Tliv (list N))
| IE_Uli (i : Tliv (list location))
| IE_Fteid (i : Tliv fteid)
| IE_Tmsi (i : Tliv N)
| IE_GlobalCnId (i : Tliv global_cn)
| IE_S103pdf (i : Tliv s103_pdf)
| IE_S1udf (i : Tliv s1_udf)
| IE_DelayValue (i : Tliv N)
| IE_BearerContext (i : Tliv bearer_context)
| IE_ChargingId (i : Tliv N)
| IE_ChargingCharacteristics (i : Tliv N)
| IE_TraceInformation (i : Tliv trace_info)
| IE_BearerFlags (i : Tliv bearer_flags)
| IE_PdnType (i : Tliv Pdn)
| IE_Pti (i : Tliv N)
| IE_MmContext (i : MmContext)
| IE_PdnConnections (i : Tliv pdn_connections)
| IE_PduNumbers (i : Tliv pdu_numbers)
| IE_Ptmsi (i : Tliv N)
| IE_PtmsiSignature (i : Tliv N)
| IE_HopCounter (i : Tliv N)
| IE_UeTimeZone (i : Tliv ue_time_zone)
| IE_TraceReference (i : Tliv trace_ref)
| IE_CompleteRequestMessage (i : Tliv request_message)
| IE_Guti (i : Tliv guti)
| IE_Fcontainer (i : Tliv container)
| IE_Fcause (i : Tliv fcause)
| IE_PlmnId (i : Tliv plmn)
| IE_TargetIdentification (i : Tliv target_type)
| IE_PacketFlowId (i : Tliv packet_flow)
| IE_RabContext (i : Tliv rab_ctx)
| IE_SrcRncPdcpCtxInfo (i : Tliv (list N))
| IE_PortNumber (i : Tliv N)
| IE_ApnRestriction (i : Tliv Restriction)
| IE_SelectionMode (i : Tliv N)
| IE_SourceIdentification (i : Tliv source_id)
| IE_ChangeReportingAction (i : Tliv N)
| IE_Fqcsid (i : Tliv fqcsid)
| IE_ChannelNeeded (i : Tliv N)
| IE_EmlppPriority (i : Tliv N)
| IE_NodeType (i : Tliv Node)
| IE_Fqdn (i : Tliv (list N))
| IE_TransactionIdentifier (i : Tliv transaction_id)
| IE_MbmsSa (i : Tliv (list N))
| IE_MbmsSd (i : Tliv mbms_sd)
| IE_MbmsSessionId (i : Tliv N)
| IE_MbmsFlowId (i : Tliv N)
| IE_MbmsIpMulticastDistribution (i : Tliv mbms_multicast)
| IE_MbmsDistributionAck (i : Tliv N)
| IE_RfspIndex (i : Tliv N)
| IE_Uci (i : Tliv uci)
| IE_CSGInformationReportingAction (i : Tliv N)
| IE_CsgId (i : Tliv N)
| IE_CsgMembershipIndication (i : Tliv CsgMembership)
| IE_ServiceIndicator (i : Tliv ServiceIndication)
| IE_DetachType (i : Tliv DetachTypeValue)
| IE_Ldn (i : Tliv (list N))
| IE_NodeFeatures (i : Tliv node_features)
| IE_MbmsTimeToDataTransfer (i : Tliv N)
| IE_Throttling (i : Tliv throttle)
| IE_Arp (i : Tliv arp)
| IE_EpcTimer (i : Tliv epc_timer)
| IE_Spi (i : Tliv bool)
| IE_Tmgi (i : Tliv (list N))
| IE_AdditionalMmContextForSrvcc (i : Tliv addmm_srvcc)
| IE_AdditionalFlagsSrvcc (i : Tliv addflags_srvcc)
| IE_MdtConfiguration (i : Tliv mdt_config)
| IE_Apco (i : Tliv (list N))
| IE_AbsoluteTimeMbmsDataTransfer (i : Tliv N)
| IE_HenbInfoReporting (i : Tliv bool)
| IE_Ip4Cp (i : Tliv ip4cp)
| IE_ChangeToReportFlags (i : Tliv ctr_flags)
| IE_ActionIndication (i : Tliv IndicationValues)
| IE_TwanId (i : Tliv twan_id)
| IE_UliTimestamp (i : Tliv N)
| IE_MbmsFlags (i : Tliv mbms_flags)
| IE_RanNasCause (i : Tliv ran_nas_cause)
| IE_CnOperatorSelectionEntity (i : Tliv SelectMode)
| IE_Twmi (i : Tliv twmi)
| IE_NodeNumber (i : Tliv (list N))
| IE_NodeIdentifier (i : Tliv node_identifier)
| IE_PresenceReportingAreaAction (i : Tliv praa)
| IE_PresenceReportingAreaInformation (i : Tliv prai)
| IE_TwanIdTimeStamp (i : Tliv N)
| IE_OverloadControlInfo (i : Tliv overload_control)
| IE_LoadControlInfo (i : Tliv load_control)
| IE_Metric (i : Tliv N)
| IE_Sqn (i : Tliv N)
| IE_ApnRelativeCapacity (i : Tliv apn_rel_cap)
| IE_WlanOffloadIndication (i : Tliv wlan_offload)
| IE_PagingServiceInfo (i : Tliv paging_info)
| IE_IntegerNumber (i : Tliv (list N))
| IE_MilliSecondTimeStamp (i : Tliv N)
| IE_MonitoringEventInformation (i : Tliv mon_info)
| IE_EcgiList (i : Tliv (option (list ecgi)))
| IE_RemoteUeContext (i : Tliv remote_ue_context)
| IE_RemoteUserId (i : Tliv remote_user)
| IE_RemoteUeIpInformation (i : Tliv remote_ip)
| IE_CIoTOptimizationSupportIndication (i : Tliv ciot)
| IE_ScefPdnConnections (i : Tliv scef_pdn_connections)
| IE_HeaderCompressionConfiguration (i : Tliv hdr_compr)
| IE_Epco (i : Tliv (list N))
| IE_ServingPlmnRateControl (i : Tliv plmn_rate)
| IE_Counter (i : Tliv counter)
| IE_MappedUeUsageType (i : Tliv N)
| IE_SecondaryRatUsageDataReport (i : Tliv rat_report)
| IE_UpFunctionSelectionIndicationFlags (i : Tliv bool)
| IE_MaxPacketLossRate (i : Tliv max_loss)
| IE_ApnRateControlStatus (i : Tliv apn_rate)
| IE_ExtendedTraceInformation (i : Tliv ext_trace)
| IE_MonitoringEventExtensionInfo (i : Tliv mon_ext)
| IE_AdditionalRrmPolicyIndex (i : Tliv N)
| IE_V2xInformation (i : Tliv v2x_information)
| IE_PC5QosParameters (i : Tliv pc5_qos_parameters)
| IE_ServicesAuthorized (i : Tliv services_auth)
| IE_BitRate (i : Tliv N)
| IE_PC5QosFlow (i : Tliv pc5_flow)
| IE_SgiPtpTunnelAddress (i : Tliv sgi_tunnel)
| IE_PgwChangeInfo (i : Tliv pgw_change_info)
| IE_PgwFqdn (i : Tliv (list N))
| IE_GroupId (i : Tliv (list N))
| IE_PSCellId (i : Tliv pscell)
| IE_UpSecurityPolicy (i : Tliv UpIpPolicy)
| IE_AlternativeImsi (i : Tliv (list N))
| IE_SpecialIEWithTypeExt (i : Tliv special_ie)
| IE_PrivateExtension (i : Tliv private_ext)
| IE_Unknown (i : Tliv (list N)).

(* ie.rs 326-475: the octets appended *)
Definition ie_marshal (e : ie) : list N :=
  match e with
  | IE_Imsi i => Imsi_marshal i
  | IE_Cause i => Cause_marshal i
  | IE_Recovery i => Recovery_marshal i
  | IE_StnSr i => StnSr_marshal i
  | IE_SrvccCause i => SrvccCause_marshal i
  | IE_Apn i => Apn_marshal i
  | IE_ApnAmbr i => Ambr_marshal i
  | IE_Ebi i => Ebi_marshal i
  | IE_IpAddress i => IpAddress_marshal i
  | IE_Mei i => Mei_marshal i
  | IE_Msisdn i => Msisdn_marshal i
  | IE_Indication i => Indication_marshal i
  | IE_Pco i => Pco_marshal i
  | IE_PdnAddressAllocation i => PdnAddressAllocation_marshal i
  | IE_BearerQos i => BearerQos_marshal i
  | IE_FlowQos i => FlowQos_marshal i
  | IE_RatType i => RatType_marshal i
  | IE_ServingNetwork i => ServingNetwork_marshal i
  | IE_BearerTft i => BearerTft_marshal i
  | IE_TrafficAggregateDescription i => TrafficAggregateDescription_marshal i
  | IE_Uli i => Uli_marshal i
  | IE_Fteid i => Fteid_marshal i
  | IE_Tmsi i => Tmsi_marshal i
  | IE_GlobalCnId i => GlobalCnId_marshal i
  | IE_S103pdf i => S103pdf_marshal i
  | IE_S1udf i => S1udf_marshal i
  | IE_DelayValue i => DelayValue_marshal i
  | IE_BearerContext i => BearerContext_marshal i
  | IE_ChargingId i => ChargingId_marshal i
  | IE_ChargingCharacteristics i => ChargingCharacteristics_marshal i
  | IE_TraceInformation i => TraceInformation_marshal i
  | IE_BearerFlags i => BearerFlags_marshal i
  | IE_PdnType i => PdnType_marshal i
  | IE_Pti i => Pti_marshal i
  | IE_MmContext i => MmContext_marshal i
  | IE_PdnConnections i => PdnConnections_marshal i
  | IE_PduNumbers i => PduNumbers_marshal i
  | IE_Ptmsi i => Ptmsi_marshal i
  | IE_PtmsiSignature i => PtmsiSignature_marshal i
  | IE_HopCounter i => HopCounter_marshal i
  | IE_UeTimeZone i => UeTimeZone_marshal i
  | IE_TraceReference i => TraceReference_marshal i
  | IE_CompleteRequestMessage i => CompleteRequestMessage_marshal i
  | IE_Guti i => Guti_marshal i
  | IE_Fcontainer i => Fcontainer_marshal i
  | IE_Fcause i => Fcause_marshal i
  | IE_PlmnId i => PlmnId_marshal i
  | IE_TargetIdentification i => TargetIdentification_marshal i
  | IE_PacketFlowId i => PacketFlowId_marshal i
  | IE_RabContext i => RabContext_marshal i
  | IE_SrcRncPdcpCtxInfo i => SourceRncPdcpContextInfo_marshal i
  | IE_PortNumber i => PortNumber_marshal i
  | IE_ApnRestriction i => ApnRestriction_marshal i
  | IE_SelectionMode i => SelectionMode_marshal i
  | IE_SourceIdentification i => SourceIdentification_marshal i
  | IE_ChangeReportingAction i => ChangeReportingAction_marshal i
  | IE_Fqcsid i => Fqcsid_marshal i
  | IE_ChannelNeeded i => ChannelNeeded_marshal i
  | IE_EmlppPriority i => EmlppPriority_marshal i
  | IE_NodeType i => NodeType_marshal i
  | IE_Fqdn i => Fqdn_marshal i
  | IE_TransactionIdentifier i => TransactionIdentifier_marshal i
  | IE_MbmsSa i => MbmsServiceArea_marshal i
  | IE_MbmsSd i => MbmsSessionDuration_marshal i
  | IE_MbmsSessionId i => MbmsSessionId_marshal i
  | IE_MbmsFlowId i => MbmsFlowId_marshal i
  | IE_MbmsIpMulticastDistribution i => MbmsIpMulticastDistribution_marshal i
  | IE_MbmsDistributionAck i => MbmsDistributionAck_marshal i
  | IE_RfspIndex i => RfspIndex_marshal i
  | IE_Uci i => Uci_marshal i
  | IE_CSGInformationReportingAction i => CSGInformationReportingAction_marshal i
  | IE_CsgId i => CsgId_marshal i
  | IE_CsgMembershipIndication i => CsgMembershipIndication_marshal i
  | IE_ServiceIndicator i => ServiceIndicator_marshal i
  | IE_DetachType i => DetachType_marshal i
  | IE_Ldn i => Ldn_marshal i
  | IE_NodeFeatures i => NodeFeatures_marshal i
  | IE_MbmsTimeToDataTransfer i => MbmsTimeToDataTransfer_marshal i
  | IE_Throttling i => Throttling_marshal i
  | IE_Arp i => Arp_marshal i
  | IE_EpcTimer i => EpcTimer_marshal i
  | IE_Spi i => Spi_marshal i
  | IE_Tmgi i => Tmgi_marshal i
  | IE_AdditionalMmContextForSrvcc i => AdditionalMmContextForSrvcc_marshal i
  | IE_AdditionalFlagsSrvcc i => AdditionalFlagsSrvcc_marshal i
  | IE_MdtConfiguration i => MdtConfiguration_marshal i
  | IE_Apco i => Apco_marshal i
  | IE_AbsoluteTimeMbmsDataTransfer i => AbsoluteTimeMbmsDataTransfer_marshal i
  | IE_HenbInfoReporting i => HenbInfoReporting_marshal i
  | IE_Ip4Cp i => Ip4Cp_marshal i
  | IE_ChangeToReportFlags i => ChangeToReportFlags_marshal i
  | IE_ActionIndication i => ActionIndication_marshal i
  | IE_TwanId i => TwanId_marshal i
  | IE_UliTimestamp i => UliTimestamp_marshal i
  | IE_MbmsFlags i => MbmsFlags_marshal i
  | IE_RanNasCause i => RanNasCause_marshal i
  | IE_CnOperatorSelectionEntity i => CnOperatorSelectionEntity_marshal i
  | IE_Twmi i => Twmi_marshal i
  | IE_NodeNumber i => NodeNumber_marshal i
  | IE_NodeIdentifier i => NodeIdentifier_marshal i
  | IE_PresenceReportingAreaAction i => PresenceReportingAreaAction_marshal i
  | IE_PresenceReportingAreaInformation i => PresenceReportingAreaInformation_marshal i
  | IE_TwanIdTimeStamp i => TwanIdTimeStamp_marshal i
  | IE_OverloadControlInfo i => OverloadControlInfo_marshal i
  | IE_LoadControlInfo i => LoadControl_marshal i
  | IE_Metric i => Metric_marshal i
  | IE_Sqn i => Sqn_marshal i
  | IE_ApnRelativeCapacity i => ApnRelativeCapacity_marshal i
  | IE_WlanOffloadIndication i => WlanOffloadIndication_marshal i
  | IE_PagingServiceInfo i => PagingServiceInfo_marshal i
  | IE_IntegerNumber i => IntegerNumber_marshal i
  | IE_MilliSecondTimeStamp i => MilliSecondTimeStamp_marshal i
  | IE_MonitoringEventInformation i => MonitoringEventInformation_marshal i
  | IE_EcgiList i => EcgiList_marshal i
  | IE_RemoteUeContext i => RemoteUeContext_marshal i
  | IE_RemoteUserId i => RemoteUserId_marshal i
  | IE_RemoteUeIpInformation i => RemoteUeIpInformation_marshal i
  | IE_CIoTOptimizationSupportIndication i => CIoTOptimizationSupportIndication_marshal i
  | IE_ScefPdnConnections i => ScefPdnConnections_marshal i
  | IE_HeaderCompressionConfiguration i => HeaderCompressionConfiguration_marshal i
  | IE_Epco i => Epco_marshal i
  | IE_ServingPlmnRateControl i => ServingPlmnRateControl_marshal i
  | IE_Counter i => Counter_marshal i
  | IE_MappedUeUsageType i => MappedUeUsageType_marshal i
  | IE_SecondaryRatUsageDataReport i => SecondaryRatUsageDataReport_marshal i
  | IE_UpFunctionSelectionIndicationFlags i => UpFunctionSelectionIndicationFlags_marshal i
  | IE_MaxPacketLossRate i => MaxPacketLossRate_marshal i
  | IE_ApnRateControlStatus i => ApnRateControlStatus_marshal i
  | IE_ExtendedTraceInformation i => ExtendedTraceInformation_marshal i
  | IE_MonitoringEventExtensionInfo i => MonitoringEventExtensionInfo_marshal i
  | IE_AdditionalRrmPolicyIndex i => AdditionalRrmPolicyIndex_marshal i
  | IE_V2xInformation i => V2xInformation_marshal i
  | IE_PC5QosParameters i => PC5QosParameters_marshal i
  | IE_ServicesAuthorized i => ServicesAuthorized_marshal i
  | IE_BitRate i => BitRate_marshal i
  | IE_PC5QosFlow i => PC5QosFlow_marshal i
  | IE_SgiPtpTunnelAddress i => SgiPtpTunnelAddress_marshal i
  | IE_PgwChangeInfo i => PgwChangeInfo_marshal i
  | IE_PgwFqdn i => PgwFqdn_marshal i
  | IE_GroupId i => GroupId_marshal i
  | IE_PSCellId i => PSCellId_marshal i
  | IE_UpSecurityPolicy i => UpSecurityPolicy_marshal i
  | IE_AlternativeImsi i => AlternativeImsi_marshal i
  | IE_SpecialIEWithTypeExt i => SpecialIEWithTypeExt_marshal i
  | IE_PrivateExtension i => PrivateExtension_marshal i
  | IE_Unknown i => Unknown_marshal i
  end.

(* ie.rs 477-481 *)
Definition encoder (l : list ie) : list N := concat (map ie_marshal l).

(* the [len()] of the element held *)
Definition ie_len (m : mode) (e : ie) : res nat :=
  match e with
  | IE_Imsi i => Imsi_len m i
  | IE_Cause i => Cause_len m i
  | IE_Recovery i => Recovery_len m i
  | IE_StnSr i => StnSr_len m i
  | IE_SrvccCause i => SrvccCause_len m i
  | IE_Apn i => Apn_len m i
  | IE_ApnAmbr i => Ambr_len m i
  | IE_Ebi i => Ebi_len m i
  | IE_IpAddress i => IpAddress_len m i
  | IE_Mei i => Mei_len m i
  | IE_Msisdn i => Msisdn_len m i
  | IE_Indication i => Indication_len m i
  | IE_Pco i => Pco_len m i
  | IE_PdnAddressAllocation i => PdnAddressAllocation_len m i
  | IE_BearerQos i => BearerQos_len m i
  | IE_FlowQos i => FlowQos_len m i
  | IE_RatType i => RatType_len m i
  | IE_ServingNetwork i => ServingNetwork_len m i
  | IE_BearerTft i => BearerTft_len m i
  | IE_TrafficAggregateDescription i => TrafficAggregateDescription_len m i
  | IE_Uli i => Uli_len m i
  | IE_Fteid i => Fteid_len m i
  | IE_Tmsi i => Tmsi_len m i
  | IE_GlobalCnId i => GlobalCnId_len m i
  | IE_S103pdf i => S103pdf_len m i
  | IE_S1udf i => S1udf_len m i
  | IE_DelayValue i => DelayValue_len m i
  | IE_BearerContext i => BearerContext_len m i
  | IE_ChargingId i => ChargingId_len m i
  | IE_ChargingCharacteristics i => ChargingCharacteristics_len m i
  | IE_TraceInformation i => TraceInformation_len m i
  | IE_BearerFlags i => BearerFlags_len m i
  | IE_PdnType i => PdnType_len m i
  | IE_Pti i => Pti_len m i
  | IE_MmContext i => MmContext_len m i
  | IE_PdnConnections i => PdnConnections_len m i
  | IE_PduNumbers i => PduNumbers_len m i
  | IE_Ptmsi i => Ptmsi_len m i
  | IE_PtmsiSignature i => PtmsiSignature_len m i
  | IE_HopCounter i => HopCounter_len m i
  | IE_UeTimeZone i => UeTimeZone_len m i
  | IE_TraceReference i => TraceReference_len m i
  | IE_CompleteRequestMessage i => CompleteRequestMessage_len m i
  | IE_Guti i => Guti_len m i
  | IE_Fcontainer i => Fcontainer_len m i
  | IE_Fcause i => Fcause_len m i
  | IE_PlmnId i => PlmnId_len m i
  | IE_TargetIdentification i => TargetIdentification_len m i
  | IE_PacketFlowId i => PacketFlowId_len m i
  | IE_RabContext i => RabContext_len m i
  | IE_SrcRncPdcpCtxInfo i => SourceRncPdcpContextInfo_len m i
  | IE_PortNumber i => PortNumber_len m i
  | IE_ApnRestriction i => ApnRestriction_len m i
  | IE_SelectionMode i => SelectionMode_len m i
  | IE_SourceIdentification i => SourceIdentification_len m i
  | IE_ChangeReportingAction i => ChangeReportingAction_len m i
  | IE_Fqcsid i => Fqcsid_len m i
  | IE_ChannelNeeded i => ChannelNeeded_len m i
  | IE_EmlppPriority i => EmlppPriority_len m i
  | IE_NodeType i => NodeType_len m i
  | IE_Fqdn i => Fqdn_len m i
  | IE_TransactionIdentifier i => TransactionIdentifier_len m i
  | IE_MbmsSa i => MbmsServiceArea_len m i
  | IE_MbmsSd i => MbmsSessionDuration_len m i
  | IE_MbmsSessionId i => MbmsSessionId_len m i
  | IE_MbmsFlowId i => MbmsFlowId_len m i
  | IE_MbmsIpMulticastDistribution i => MbmsIpMulticastDistribution_len m i
  | IE_MbmsDistributionAck i => MbmsDistributionAck_len m i
  | IE_RfspIndex i => RfspIndex_len m i
  | IE_Uci i => Uci_len m i
  | IE_CSGInformationReportingAction i => CSGInformationReportingAction_len m i
  | IE_CsgId i => CsgId_len m i
  | IE_CsgMembershipIndication i => CsgMembershipIndication_len m i
  | IE_ServiceIndicator i => ServiceIndicator_len m i
  | IE_DetachType i => DetachType_len m i
  | IE_Ldn i => Ldn_len m i
  | IE_NodeFeatures i => NodeFeatures_len m i
  | IE_MbmsTimeToDataTransfer i => MbmsTimeToDataTransfer_len m i
  | IE_Throttling i => Throttling_len m i
  | IE_Arp i => Arp_len m i
  | IE_EpcTimer i => EpcTimer_len m i
  | IE_Spi i => Spi_len m i
  | IE_Tmgi i => Tmgi_len m i
  | IE_AdditionalMmContextForSrvcc i => AdditionalMmContextForSrvcc_len m i
  | IE_AdditionalFlagsSrvcc i => AdditionalFlagsSrvcc_len m i
  | IE_MdtConfiguration i => MdtConfiguration_len m i
  | IE_Apco i => Apco_len m i
  | IE_AbsoluteTimeMbmsDataTransfer i => AbsoluteTimeMbmsDataTransfer_len m i
  | IE_HenbInfoReporting i => HenbInfoReporting_len m i
  | IE_Ip4Cp i => Ip4Cp_len m i
  | IE_ChangeToReportFlags i => ChangeToReportFlags_len m i
  | IE_ActionIndication i => ActionIndication_len m i
  | IE_TwanId i => TwanId_len m i
  | IE_UliTimestamp i => UliTimestamp_len m i
  | IE_MbmsFlags i => MbmsFlags_len m i
  | IE_RanNasCause i => RanNasCause_len m i
  | IE_CnOperatorSelectionEntity i => CnOperatorSelectionEntity_len m i
  | IE_Twmi i => Twmi_len m i
  | IE_NodeNumber i => NodeNumber_len m i
  | IE_NodeIdentifier i => NodeIdentifier_len m i
  | IE_PresenceReportingAreaAction i => PresenceReportingAreaAction_len m i
  | IE_PresenceReportingAreaInformation i => PresenceReportingAreaInformation_len m i
  | IE_TwanIdTimeStamp i => TwanIdTimeStamp_len m i
  | IE_OverloadControlInfo i => OverloadControlInfo_len m i
  | IE_LoadControlInfo i => LoadControl_len m i
  | IE_Metric i => Metric_len m i
  | IE_Sqn i => Sqn_len m i
  | IE_ApnRelativeCapacity i => ApnRelativeCapacity_len m i
  | IE_WlanOffloadIndication i => WlanOffloadIndication_len m i
  | IE_PagingServiceInfo i => PagingServiceInfo_len m i
  | IE_IntegerNumber i => IntegerNumber_len m i
  | IE_MilliSecondTimeStamp i => MilliSecondTimeStamp_len m i
  | IE_MonitoringEventInformation i => MonitoringEventInformation_len m i
  | IE_EcgiList i => EcgiList_len m i
  | IE_RemoteUeContext i => RemoteUeContext_len m i
  | IE_RemoteUserId i => RemoteUserId_len m i
  | IE_RemoteUeIpInformation i => RemoteUeIpInformation_len m i
  | IE_CIoTOptimizationSupportIndication i => CIoTOptimizationSupportIndication_len m i
  | IE_ScefPdnConnections i => ScefPdnConnections_len m i
  | IE_HeaderCompressionConfiguration i => HeaderCompressionConfiguration_len m i
  | IE_Epco i => Epco_len m i
  | IE_ServingPlmnRateControl i => ServingPlmnRateControl_len m i
  | IE_Counter i => Counter_len m i
  | IE_MappedUeUsageType i => MappedUeUsageType_len m i
  | IE_SecondaryRatUsageDataReport i => SecondaryRatUsageDataReport_len m i
  | IE_UpFunctionSelectionIndicationFlags i => UpFunctionSelectionIndicationFlags_len m i
  | IE_MaxPacketLossRate i => MaxPacketLossRate_len m i
  | IE_ApnRateControlStatus i => ApnRateControlStatus_len m i
  | IE_ExtendedTraceInformation i => ExtendedTraceInformation_len m i
  | IE_MonitoringEventExtensionInfo i => MonitoringEventExtensionInfo_len m i
  | IE_AdditionalRrmPolicyIndex i => AdditionalRrmPolicyIndex_len m i
  | IE_V2xInformation i => V2xInformation_len m i
  | IE_PC5QosParameters i => PC5QosParameters_len m i
  | IE_ServicesAuthorized i => ServicesAuthorized_len m i
  | IE_BitRate i => BitRate_len m i
  | IE_PC5QosFlow i => PC5QosFlow_len m i
  | IE_SgiPtpTunnelAddress i => SgiPtpTunnelAddress_len m i
  | IE_PgwChangeInfo i => PgwChangeInfo_len m i
  | IE_PgwFqdn i => PgwFqdn_len m i
  | IE_GroupId i => GroupId_len m i
  | IE_PSCellId i => PSCellId_len m i
  | IE_UpSecurityPolicy i => UpSecurityPolicy_len m i
  | IE_AlternativeImsi i => AlternativeImsi_len m i
  | IE_SpecialIEWithTypeExt i => SpecialIEWithTypeExt_len m i
  | IE_PrivateExtension i => PrivateExtension_len m i
  | IE_Unknown i => Unknown_len m i
  end.

(* the instance ([ins] field) of the element held *)
Definition ie_instance (e : ie) : N :=
  match e with
  | IE_Imsi i => ie_ins i
  | IE_Cause i => ie_ins i
  | IE_Recovery i => ie_ins i
  | IE_StnSr i => ie_ins i
  | IE_SrvccCause i => ie_ins i
  | IE_Apn i => ie_ins i
  | IE_ApnAmbr i => ie_ins i
  | IE_Ebi i => ie_ins i
  | IE_IpAddress i => ie_ins i
  | IE_Mei i => ie_ins i
  | IE_Msisdn i => ie_ins i
  | IE_Indication i => ie_ins i
  | IE_Pco i => ie_ins i
  | IE_PdnAddressAllocation i => ie_ins i
  | IE_BearerQos i => ie_ins i
  | IE_FlowQos i => ie_ins i
  | IE_RatType i => ie_ins i
  | IE_ServingNetwork i => ie_ins i
  | IE_BearerTft i => ie_ins i
  | IE_TrafficAggregateDescription i => ie_ins i
  | IE_Uli i => ie_ins i
  | IE_Fteid i => ie_ins i
  | IE_Tmsi i => ie_ins i
  | IE_GlobalCnId i => ie_ins i
  | IE_S103pdf i => ie_ins i
  | IE_S1udf i => ie_ins i
  | IE_DelayValue i => ie_ins i
  | IE_BearerContext i => ie_ins i
  | IE_ChargingId i => ie_ins i
  | IE_ChargingCharacteristics i => ie_ins i
  | IE_TraceInformation i => ie_ins i
  | IE_BearerFlags i => ie_ins i
  | IE_PdnType i => ie_ins i
  | IE_Pti i => ie_ins i
  | IE_MmContext i => MmContext_ins i
  | IE_PdnConnections i => ie_ins i
  | IE_PduNumbers i => ie_ins i
  | IE_Ptmsi i => ie_ins i
  | IE_PtmsiSignature i => ie_ins i
  | IE_HopCounter i => ie_ins i
  | IE_UeTimeZone i => ie_ins i
  | IE_TraceReference i => ie_ins i
  | IE_CompleteRequestMessage i => ie_ins i
  | IE_Guti i => ie_ins i
  | IE_Fcontainer i => ie_ins i
  | IE_Fcause i => ie_ins i
  | IE_PlmnId i => ie_ins i
  | IE_TargetIdentification i => ie_ins i
  | IE_PacketFlowId i => ie_ins i
  | IE_RabContext i => ie_ins i
  | IE_SrcRncPdcpCtxInfo i => ie_ins i
  | IE_PortNumber i => ie_ins i
  | IE_ApnRestriction i => ie_ins i
  | IE_SelectionMode i => ie_ins i
  | IE_SourceIdentification i => ie_ins i
  | IE_ChangeReportingAction i => ie_ins i
  | IE_Fqcsid i => ie_ins i
  | IE_ChannelNeeded i => ie_ins i
  | IE_EmlppPriority i => ie_ins i
  | IE_NodeType i => ie_ins i
  | IE_Fqdn i => ie_ins i
  | IE_TransactionIdentifier i => ie_ins i
  | IE_MbmsSa i => ie_ins i
  | IE_MbmsSd i => ie_ins i
  | IE_MbmsSessionId i => ie_ins i
  | IE_MbmsFlowId i => ie_ins i
  | IE_MbmsIpMulticastDistribution i => ie_ins i
  | IE_MbmsDistributionAck i => ie_ins i
  | IE_RfspIndex i => ie_ins i
  | IE_Uci i => ie_ins i
  | IE_CSGInformationReportingAction i => ie_ins i
  | IE_CsgId i => ie_ins i
  | IE_CsgMembershipIndication i => ie_ins i
  | IE_ServiceIndicator i => ie_ins i
  | IE_DetachType i => ie_ins i
  | IE_Ldn i => ie_ins i
  | IE_NodeFeatures i => ie_ins i
  | IE_MbmsTimeToDataTransfer i => ie_ins i
  | IE_Throttling i => ie_ins i
  | IE_Arp i => ie_ins i
  | IE_EpcTimer i => ie_ins i
  | IE_Spi i => ie_ins i
  | IE_Tmgi i => ie_ins i
  | IE_AdditionalMmContextForSrvcc i => ie_ins i
  | IE_AdditionalFlagsSrvcc i => ie_ins i
  | IE_MdtConfiguration i => ie_ins i
  | IE_Apco i => ie_ins i
  | IE_AbsoluteTimeMbmsDataTransfer i => ie_ins i
  | IE_HenbInfoReporting i => ie_ins i
  | IE_Ip4Cp i => ie_ins i
  | IE_ChangeToReportFlags i => ie_ins i
  | IE_ActionIndication i => ie_ins i
  | IE_TwanId i => ie_ins i
  | IE_UliTimestamp i => ie_ins i
  | IE_MbmsFlags i => ie_ins i
  | IE_RanNasCause i => ie_ins i
  | IE_CnOperatorSelectionEntity i => ie_ins i
  | IE_Twmi i => ie_ins i
  | IE_NodeNumber i => ie_ins i
  | IE_NodeIdentifier i => ie_ins i
  | IE_PresenceReportingAreaAction i => ie_ins i
  | IE_PresenceReportingAreaInformation i => ie_ins i
  | IE_TwanIdTimeStamp i => ie_ins i
  | IE_OverloadControlInfo i => ie_ins i
  | IE_LoadControlInfo i => ie_ins i
  | IE_Metric i => ie_ins i
  | IE_Sqn i => ie_ins i
  | IE_ApnRelativeCapacity i => ie_ins i
  | IE_WlanOffloadIndication i => ie_ins i
  | IE_PagingServiceInfo i => ie_ins i
  | IE_IntegerNumber i => ie_ins i
  | IE_MilliSecondTimeStamp i => ie_ins i
  | IE_MonitoringEventInformation i => ie_ins i
  | IE_EcgiList i => ie_ins i
  | IE_RemoteUeContext i => ie_ins i
  | IE_RemoteUserId i => ie_ins i
  | IE_RemoteUeIpInformation i => ie_ins i
  | IE_CIoTOptimizationSupportIndication i => ie_ins i
  | IE_ScefPdnConnections i => ie_ins i
  | IE_HeaderCompressionConfiguration i => ie_ins i
  | IE_Epco i => ie_ins i
  | IE_ServingPlmnRateControl i => ie_ins i
  | IE_Counter i => ie_ins i
  | IE_MappedUeUsageType i => ie_ins i
  | IE_SecondaryRatUsageDataReport i => ie_ins i
  | IE_UpFunctionSelectionIndicationFlags i => ie_ins i
  | IE_MaxPacketLossRate i => ie_ins i
  | IE_ApnRateControlStatus i => ie_ins i
  | IE_ExtendedTraceInformation i => ie_ins i
  | IE_MonitoringEventExtensionInfo i => ie_ins i
  | IE_AdditionalRrmPolicyIndex i => ie_ins i
  | IE_V2xInformation i => ie_ins i
  | IE_PC5QosParameters i => ie_ins i
  | IE_ServicesAuthorized i => ie_ins i
  | IE_BitRate i => ie_ins i
  | IE_PC5QosFlow i => ie_ins i
  | IE_SgiPtpTunnelAddress i => ie_ins i
  | IE_PgwChangeInfo i => ie_ins i
  | IE_PgwFqdn i => ie_ins i
  | IE_GroupId i => ie_ins i
  | IE_PSCellId i => ie_ins i
  | IE_UpSecurityPolicy i => ie_ins i
  | IE_AlternativeImsi i => ie_ins i
  | IE_SpecialIEWithTypeExt i => ie_ins i
  | IE_PrivateExtension i => ie_ins i
  | IE_Unknown i => ie_ins i
  end.

(* The arms [InformationElement::X(k) => ..] of the match statements *)
Definition as_Imsi (e : ie) : option (Tliv (list N)) := match e with IE_Imsi k => Some k | _ => None end.
Definition as_Cause (e : ie) : option (Tliv cause) := match e with IE_Cause k => Some k | _ => None end.
Definition as_Recovery (e : ie) : option (Tliv N) := match e with IE_Recovery k => Some k | _ => None end.
Definition as_StnSr (e : ie) : option (Tliv stn_sr) := match e with IE_StnSr k => Some k | _ => None end.
Definition as_SrvccCause (e : ie) : option (Tliv SrvccCauseValues) := match e with IE_SrvccCause k => Some k | _ => None end.
Definition as_Apn (e : ie) : option (Tliv (list N)) := match e with IE_Apn k => Some k | _ => None end.
Definition as_ApnAmbr (e : ie) : option (Tliv ambr) := match e with IE_ApnAmbr k => Some k | _ => None end.
Definition as_Ebi (e : ie) : option (Tliv N) := match e with IE_Ebi k => Some k | _ => None end.
Definition as_IpAddress (e : ie) : option (Tliv ipaddr) := match e with IE_IpAddress k => Some k | _ => None end.
Definition as_Mei (e : ie) : option (Tliv (list N)) := match e with IE_Mei k => Some k | _ => None end.
Definition as_Msisdn (e : ie) : option (Tliv (list N)) := match e with IE_Msisdn k => Some k | _ => None end.
Definition as_Indication (e : ie) : option (Tliv indication) := match e with IE_Indication k => Some k | _ => None end.
Definition as_Pco (e : ie) : option (Tliv (list N)) := match e with IE_Pco k => Some k | _ => None end.
Definition as_PdnAddressAllocation (e : ie) : option (Tliv pdn_address) := match e with IE_PdnAddressAllocation k => Some k | _ => None end.
Definition as_BearerQos (e : ie) : option (Tliv bearer_qos) := match e with IE_BearerQos k => Some k | _ => None end.
Definition as_FlowQos (e : ie) : option (Tliv flow_qos) := match e with IE_FlowQos k => Some k | _ => None end.
Definition as_RatType (e : ie) : option (Tliv Rat) := match e with IE_RatType k => Some k | _ => None end.
Definition as_ServingNetwork (e : ie) : option (Tliv plmn) := match e with IE_ServingNetwork k => Some k | _ => None end.
Definition as_BearerTft (e : ie) : option (Tliv (list N)) := match e with IE_BearerTft k => Some k | _ => None end.
Definition as_TrafficAggregateDescription (e : ie) : option (Tliv (list N)) := match e with IE_TrafficAggregateDescription k => Some k | _ => None end.
Definition as_Uli (e : ie) : option (Tliv (list location)) := match e with IE_Uli k => Some k | _ => None end.
Definition as_Fteid (e : ie) : option (Tliv fteid) := match e with IE_Fteid k => Some k | _ => None end.
Definition as_Tmsi (e : ie) : option (Tliv N) := match e with IE_Tmsi k => Some k | _ => None end.
Definition as_GlobalCnId (e : ie) : option (Tliv global_cn) := match e with IE_GlobalCnId k => Some k | _ => None end.
Definition as_S103pdf (e : ie) : option (Tliv s103_pdf) := match e with IE_S103pdf k => Some k | _ => None end.
Definition as_S1udf (e : ie) : option (Tliv s1_udf) := match e with IE_S1udf k => Some k | _ => None end.
Definition as_DelayValue (e : ie) : option (Tliv N) := match e with IE_DelayValue k => Some k | _ => None end.
Definition as_BearerContext (e : ie) : option (Tliv bearer_context) := match e with IE_BearerContext k => Some k | _ => None end.
Definition as_ChargingId (e : ie) : option (Tliv N) := match e with IE_ChargingId k => Some k | _ => None end.
Definition as_ChargingCharacteristics (e : ie) : option (Tliv N) := match e with IE_ChargingCharacteristics k => Some k | _ => None end.
Definition as_TraceInformation (e : ie) : option (Tliv trace_info) := match e with IE_TraceInformation k => Some k | _ => None end.
Definition as_BearerFlags (e : ie) : option (Tliv bearer_flags) := match e with IE_BearerFlags k => Some k | _ => None end.
Definition as_PdnType (e : ie) : option (Tliv Pdn) := match e with IE_PdnType k => Some k | _ => None end.
Definition as_Pti (e : ie) : option (Tliv N) := match e with IE_Pti k => Some k | _ => None end.
Definition as_MmContext (e : ie) : option (MmContext) := match e with IE_MmContext k => Some k | _ => None end.
Definition as_PdnConnections (e : ie) : option (Tliv pdn_connections) := match e with IE_PdnConnections k => Some k | _ => None end.
Definition as_PduNumbers (e : ie) : option (Tliv pdu_numbers) := match e with IE_PduNumbers k => Some k | _ => None end.
Definition as_Ptmsi (e : ie) : option (Tliv N) := match e with IE_Ptmsi k => Some k | _ => None end.
Definition as_PtmsiSignature (e : ie) : option (Tliv N) := match e with IE_PtmsiSignature k => Some k | _ => None end.
Definition as_HopCounter (e : ie) : option (Tliv N) := match e with IE_HopCounter k => Some k | _ => None end.
Definition as_UeTimeZone (e : ie) : option (Tliv ue_time_zone) := match e with IE_UeTimeZone k => Some k | _ => None end.
Definition as_TraceReference (e : ie) : option (Tliv trace_ref) := match e with IE_TraceReference k => Some k | _ => None end.
Definition as_CompleteRequestMessage (e : ie) : option (Tliv request_message) := match e with IE_CompleteRequestMessage k => Some k | _ => None end.
Definition as_Guti (e : ie) : option (Tliv guti) := match e with IE_Guti k => Some k | _ => None end.
Definition as_Fcontainer (e : ie) : option (Tliv container) := match e with IE_Fcontainer k => Some k | _ => None end.
Definition as_Fcause (e : ie) : option (Tliv fcause) := match e with IE_Fcause k => Some k | _ => None end.
Definition as_PlmnId (e : ie) : option (Tliv plmn) := match e with IE_PlmnId k => Some k | _ => None end.
Definition as_TargetIdentification (e : ie) : option (Tliv target_type) := match e with IE_TargetIdentification k => Some k | _ => None end.
Definition as_PacketFlowId (e : ie) : option (Tliv packet_flow) := match e with IE_PacketFlowId k => Some k | _ => None end.
Definition as_RabContext (e : ie) : option (Tliv rab_ctx) := match e with IE_RabContext k => Some k | _ => None end.
Definition as_SrcRncPdcpCtxInfo (e : ie) : option (Tliv (list N)) := match e with IE_SrcRncPdcpCtxInfo k => Some k | _ => None end.
Definition as_PortNumber (e : ie) : option (Tliv N) := match e with IE_PortNumber k => Some k | _ => None end.
Definition as_ApnRestriction (e : ie) : option (Tliv Restriction) := match e with IE_ApnRestriction k => Some k | _ => None end.
Definition as_SelectionMode (e : ie) : option (Tliv N) := match e with IE_SelectionMode k => Some k | _ => None end.
Definition as_SourceIdentification (e : ie) : option (Tliv source_id) := match e with IE_SourceIdentification k => Some k | _ => None end.
Definition as_ChangeReportingAction (e : ie) : option (Tliv N) := match e with IE_ChangeReportingAction k => Some k | _ => None end.
Definition as_Fqcsid (e : ie) : option (Tliv fqcsid) := match e with IE_Fqcsid k => Some k | _ => None end.
Definition as_ChannelNeeded (e : ie) : option (Tliv N) := match e with IE_ChannelNeeded k => Some k | _ => None end.
Definition as_EmlppPriority (e : ie) : option (Tliv N) := match e with IE_EmlppPriority k => Some k | _ => None end.
Definition as_NodeType (e : ie) : option (Tliv Node) := match e with IE_NodeType k => Some k | _ => None end.
Definition as_Fqdn (e : ie) : option (Tliv (list N)) := match e with IE_Fqdn k => Some k | _ => None end.
Definition as_TransactionIdentifier (e : ie) : option (Tliv transaction_id) := match e with IE_TransactionIdentifier k => Some k | _ => None end.
Definition as_MbmsSa (e : ie) : option (Tliv (list N)) := match e with IE_MbmsSa k => Some k | _ => None end.
Definition as_MbmsSd (e : ie) : option (Tliv mbms_sd) := match e with IE_MbmsSd k => Some k | _ => None end.
Definition as_MbmsSessionId (e : ie) : option (Tliv N) := match e with IE_MbmsSessionId k => Some k | _ => None end.
Definition as_MbmsFlowId (e : ie) : option (Tliv N) := match e with IE_MbmsFlowId k => Some k | _ => None end.
Definition as_MbmsIpMulticastDistribution (e : ie) : option (Tliv mbms_multicast) := match e with IE_MbmsIpMulticastDistribution k => Some k | _ => None end.
Definition as_MbmsDistributionAck (e : ie) : option (Tliv N) := match e with IE_MbmsDistributionAck k => Some k | _ => None end.
Definition as_RfspIndex (e : ie) : option (Tliv N) := match e with IE_RfspIndex k => Some k | _ => None end.
Definition as_Uci (e : ie) : option (Tliv uci) := match e with IE_Uci k => Some k | _ => None end.
Definition as_CSGInformationReportingAction (e : ie) : option (Tliv N) := match e with IE_CSGInformationReportingAction k => Some k | _ => None end.
Definition as_CsgId (e : ie) : option (Tliv N) := match e with IE_CsgId k => Some k | _ => None end.
Definition as_CsgMembershipIndication (e : ie) : option (Tliv CsgMembership) := match e with IE_CsgMembershipIndication k => Some k | _ => None end.
Definition as_ServiceIndicator (e : ie) : option (Tliv ServiceIndication) := match e with IE_ServiceIndicator k => Some k | _ => None end.
Definition as_DetachType (e : ie) : option (Tliv DetachTypeValue) := match e with IE_DetachType k => Some k | _ => None end.
Definition as_Ldn (e : ie) : option (Tliv (list N)) := match e with IE_Ldn k => Some k | _ => None end.
Definition as_NodeFeatures (e : ie) : option (Tliv node_features) := match e with IE_NodeFeatures k => Some k | _ => None end.
Definition as_MbmsTimeToDataTransfer (e : ie) : option (Tliv N) := match e with IE_MbmsTimeToDataTransfer k => Some k | _ => None end.
Definition as_Throttling (e : ie) : option (Tliv throttle) := match e with IE_Throttling k => Some k | _ => None end.
Definition as_Arp (e : ie) : option (Tliv arp) := match e with IE_Arp k => Some k | _ => None end.
Definition as_EpcTimer (e : ie) : option (Tliv epc_timer) := match e with IE_EpcTimer k => Some k | _ => None end.
Definition as_Spi (e : ie) : option (Tliv bool) := match e with IE_Spi k => Some k | _ => None end.
Definition as_Tmgi (e : ie) : option (Tliv (list N)) := match e with IE_Tmgi k => Some k | _ => None end.
Definition as_AdditionalMmContextForSrvcc (e : ie) : option (Tliv addmm_srvcc) := match e with IE_AdditionalMmContextForSrvcc k => Some k | _ => None end.
Definition as_AdditionalFlagsSrvcc (e : ie) : option (Tliv addflags_srvcc) := match e with IE_AdditionalFlagsSrvcc k => Some k | _ => None end.
Definition as_MdtConfiguration (e : ie) : option (Tliv mdt_config) := match e with IE_MdtConfiguration k => Some k | _ => None end.
Definition as_Apco (e : ie) : option (Tliv (list N)) := match e with IE_Apco k => Some k | _ => None end.
Definition as_AbsoluteTimeMbmsDataTransfer (e : ie) : option (Tliv N) := match e with IE_AbsoluteTimeMbmsDataTransfer k => Some k | _ => None end.
Definition as_HenbInfoReporting (e : ie) : option (Tliv bool) := match e with IE_HenbInfoReporting k => Some k | _ => None end.
Definition as_Ip4Cp (e : ie) : option (Tliv ip4cp) := match e with IE_Ip4Cp k => Some k | _ => None end.
Definition as_ChangeToReportFlags (e : ie) : option (Tliv ctr_flags) := match e with IE_ChangeToReportFlags k => Some k | _ => None end.
Definition as_ActionIndication (e : ie) : option (Tliv IndicationValues) := match e with IE_ActionIndication k => Some k | _ => None end.
Definition as_TwanId (e : ie) : option (Tliv twan_id) := match e with IE_TwanId k => Some k | _ => None end.
Definition as_UliTimestamp (e : ie) : option (Tliv N) := match e with IE_UliTimestamp k => Some k | _ => None end.
Definition as_MbmsFlags (e : ie) : option (Tliv mbms_flags) := match e with IE_MbmsFlags k => Some k | _ => None end.
Definition as_RanNasCause (e : ie) : option (Tliv ran_nas_cause) := match e with IE_RanNasCause k => Some k | _ => None end.
Definition as_CnOperatorSelectionEntity (e : ie) : option (Tliv SelectMode) := match e with IE_CnOperatorSelectionEntity k => Some k | _ => None end.
Definition as_Twmi (e : ie) : option (Tliv twmi) := match e with IE_Twmi k => Some k | _ => None end.
Definition as_NodeNumber (e : ie) : option (Tliv (list N)) := match e with IE_NodeNumber k => Some k | _ => None end.
Definition as_NodeIdentifier (e : ie) : option (Tliv node_identifier) := match e with IE_NodeIdentifier k => Some k | _ => None end.
Definition as_PresenceReportingAreaAction (e : ie) : option (Tliv praa) := match e with IE_PresenceReportingAreaAction k => Some k | _ => None end.
Definition as_PresenceReportingAreaInformation (e : ie) : option (Tliv prai) := match e with IE_PresenceReportingAreaInformation k => Some k | _ => None end.
Definition as_TwanIdTimeStamp (e : ie) : option (Tliv N) := match e with IE_TwanIdTimeStamp k => Some k | _ => None end.
Definition as_OverloadControlInfo (e : ie) : option (Tliv overload_control) := match e with IE_OverloadControlInfo k => Some k | _ => None end.
Definition as_LoadControlInfo (e : ie) : option (Tliv load_control) := match e with IE_LoadControlInfo k => Some k | _ => None end.
Definition as_Metric (e : ie) : option (Tliv N) := match e with IE_Metric k => Some k | _ => None end.
Definition as_Sqn (e : ie) : option (Tliv N) := match e with IE_Sqn k => Some k | _ => None end.
Definition as_ApnRelativeCapacity (e : ie) : option (Tliv apn_rel_cap) := match e with IE_ApnRelativeCapacity k => Some k | _ => None end.
Definition as_WlanOffloadIndication (e : ie) : option (Tliv wlan_offload) := match e with IE_WlanOffloadIndication k => Some k | _ => None end.
Definition as_PagingServiceInfo (e : ie) : option (Tliv paging_info) := match e with IE_PagingServiceInfo k => Some k | _ => None end.
Definition as_IntegerNumber (e : ie) : option (Tliv (list N)) := match e with IE_IntegerNumber k => Some k | _ => None end.
Definition as_MilliSecondTimeStamp (e : ie) : option (Tliv N) := match e with IE_MilliSecondTimeStamp k => Some k | _ => None end.
Definition as_MonitoringEventInformation (e : ie) : option (Tliv mon_info) := match e with IE_MonitoringEventInformation k => Some k | _ => None end.
Definition as_EcgiList (e : ie) : option (Tliv (option (list ecgi))) := match e with IE_EcgiList k => Some k | _ => None end.
Definition as_RemoteUeContext (e : ie) : option (Tliv remote_ue_context) := match e with IE_RemoteUeContext k => Some k | _ => None end.
Definition as_RemoteUserId (e : ie) : option (Tliv remote_user) := match e with IE_RemoteUserId k => Some k | _ => None end.
Definition as_RemoteUeIpInformation (e : ie) : option (Tliv remote_ip) := match e with IE_RemoteUeIpInformation k => Some k | _ => None end.
Definition as_CIoTOptimizationSupportIndication (e : ie) : option (Tliv ciot) := match e with IE_CIoTOptimizationSupportIndication k => Some k | _ => None end.
Definition as_ScefPdnConnections (e : ie) : option (Tliv scef_pdn_connections) := match e with IE_ScefPdnConnections k => Some k | _ => None end.
Definition as_HeaderCompressionConfiguration (e : ie) : option (Tliv hdr_compr) := match e with IE_HeaderCompressionConfiguration k => Some k | _ => None end.
Definition as_Epco (e : ie) : option (Tliv (list N)) := match e with IE_Epco k => Some k | _ => None end.
Definition as_ServingPlmnRateControl (e : ie) : option (Tliv plmn_rate) := match e with IE_ServingPlmnRateControl k => Some k | _ => None end.
Definition as_Counter (e : ie) : option (Tliv counter) := match e with IE_Counter k => Some k | _ => None end.
Definition as_MappedUeUsageType (e : ie) : option (Tliv N) := match e with IE_MappedUeUsageType k => Some k | _ => None end.
Definition as_SecondaryRatUsageDataReport (e : ie) : option (Tliv rat_report) := match e with IE_SecondaryRatUsageDataReport k => Some k | _ => None end.
Definition as_UpFunctionSelectionIndicationFlags (e : ie) : option (Tliv bool) := match e with IE_UpFunctionSelectionIndicationFlags k => Some k | _ => None end.
Definition as_MaxPacketLossRate (e : ie) : option (Tliv max_loss) := match e with IE_MaxPacketLossRate k => Some k | _ => None end.
Definition as_ApnRateControlStatus (e : ie) : option (Tliv apn_rate) := match e with IE_ApnRateControlStatus k => Some k | _ => None end.
Definition as_ExtendedTraceInformation (e : ie) : option (Tliv ext_trace) := match e with IE_ExtendedTraceInformation k => Some k | _ => None end.
Definition as_MonitoringEventExtensionInfo (e : ie) : option (Tliv mon_ext) := match e with IE_MonitoringEventExtensionInfo k => Some k | _ => None end.
Definition as_AdditionalRrmPolicyIndex (e : ie) : option (Tliv N) := match e with IE_AdditionalRrmPolicyIndex k => Some k | _ => None end.
Definition as_V2xInformation (e : ie) : option (Tliv v2x_information) := match e with IE_V2xInformation k => Some k | _ => None end.
Definition as_PC5QosParameters (e : ie) : option (Tliv pc5_qos_parameters) := match e with IE_PC5QosParameters k => Some k | _ => None end.
Definition as_ServicesAuthorized (e : ie) : option (Tliv services_auth) := match e with IE_ServicesAuthorized k => Some k | _ => None end.
Definition as_BitRate (e : ie) : option (Tliv N) := match e with IE_BitRate k => Some k | _ => None end.
Definition as_PC5QosFlow (e : ie) : option (Tliv pc5_flow) := match e with IE_PC5QosFlow k => Some k | _ => None end.
Definition as_SgiPtpTunnelAddress (e : ie) : option (Tliv sgi_tunnel) := match e with IE_SgiPtpTunnelAddress k => Some k | _ => None end.
Definition as_PgwChangeInfo (e : ie) : option (Tliv pgw_change_info) := match e with IE_PgwChangeInfo k => Some k | _ => None end.
Definition as_PgwFqdn (e : ie) : option (Tliv (list N)) := match e with IE_PgwFqdn k => Some k | _ => None end.
Definition as_GroupId (e : ie) : option (Tliv (list N)) := match e with IE_GroupId k => Some k | _ => None end.
Definition as_PSCellId (e : ie) : option (Tliv pscell) := match e with IE_PSCellId k => Some k | _ => None end.
Definition as_UpSecurityPolicy (e : ie) : option (Tliv UpIpPolicy) := match e with IE_UpSecurityPolicy k => Some k | _ => None end.
Definition as_AlternativeImsi (e : ie) : option (Tliv (list N)) := match e with IE_AlternativeImsi k => Some k | _ => None end.
Definition as_SpecialIEWithTypeExt (e : ie) : option (Tliv special_ie) := match e with IE_SpecialIEWithTypeExt k => Some k | _ => None end.
Definition as_PrivateExtension (e : ie) : option (Tliv private_ext) := match e with IE_PrivateExtension k => Some k | _ => None end.
Definition as_Unknown (e : ie) : option (Tliv (list N)) := match e with IE_Unknown k => Some k | _ => None end.

(* The loops [for j in i.elements { match j { X(k) => if cond { field = .. } } }] of the From<GroupedIe>
   implementations touch, in each arm, only the field of that arm. The model computes each field from
   the list on its own: [pick as_X ok] selects the elements that reach the assignment, and the field
   keeps the first of them (guard is_none), the last of them (plain assignment) or all of them (push). *)
Definition pick {A} (sel : ie -> option (Tliv A)) (ok : N -> bool) (e : ie) : option (Tliv A) :=
  match sel e with Some k => if ok (ie_ins k) then Some k else None | None => None end.
Fixpoint all_of {A} (p : ie -> option A) (l : list ie) : list A :=
  match l with [] => [] | e :: r => match p e with Some k => k :: all_of p r | None => all_of p r end end.
Fixpoint first_of {A} (p : ie -> option A) (l : list ie) : option A :=
  match l with [] => None | e :: r => match p e with Some k => Some k | None => first_of p r end end.
Fixpoint last_of {A} (p : ie -> option A) (l : list ie) : option A :=
  match l with [] => None | e :: r => match last_of p r with Some k => Some k | None => p e end end.
Definition default {A} (d : A) (o : option A) : A := match o with Some k => k | None => d end.
Definition ins_is (n i : N) : bool := i =? n.
Definition ins_below (n i : N) : bool := i <? n.
Definition ins_any (i : N) : bool := true.

(* X::default() of the members that are not optional *)
(* ebi.rs 23-32 *)
Definition Ebi_default : Tliv N := mkIe 73 1 0 0.
(* apn.rs 23-32 *)
Definition Apn_default : Tliv (list N) := mkIe 71 0 0 [].
(* fteid.rs 70-82 *)
Definition Fteid_default : Tliv fteid := mkIe 87 9 0 (mkFteid 0 0 (Some [0; 0; 0; 0]) None).
(* ambr.rs 25-35 *)
Definition Ambr_default : Tliv ambr := mkIe 72 8 0 (mkAmbr 0 0).
(* sqn.rs 24-33 *)
Definition Sqn_default : Tliv N := mkIe 183 4 0 0.
(* metric.rs 24-33 *)
Definition Metric_default : Tliv N := mkIe 182 1 0 0.
(* epctimer.rs 25-35 *)
Definition EpcTimer_default : Tliv epc_timer := mkIe 156 1 0 (mkEpcTimer 0 0).
(* remoteuserid.rs 25-36 *)
Definition RemoteUserId_default : Tliv remote_user := mkIe 192 0 0 (mkRemoteUser [] None None).
(* nodeidentifier.rs 24-34 *)
Definition NodeIdentifier_default : Tliv node_identifier := mkIe 176 0 0 (mkNodeIdentifier [] []).

(* groupedie.rs 38-61; [dec] is InformationElement::decoder. The instance octet is not masked. *)
Definition GroupedIe_unmarshal (dec : list N -> res (list ie)) (m : mode) (b : list N) : res (Tliv (list ie)) :=
  if (MIN_IE_SIZE <=? length b)%nat then
    let? t := at_ b 0 in
    hdr4 b (fun len ins =>
    checked m len b (IEInvalidLength t) (
    let? e := end16 m len 4 in let? s := slice b 4 e in let? l := dec s in Ok (mkIe t len ins l)))
  else let? t := at_ b 0 in Err (IEInvalidLength t).
Definition regroup {A} (f : list ie -> A) (g : Tliv (list ie)) : Tliv A :=
  mkIe (ie_t g) (ie_length g) (ie_ins g) (f (ie_v g)).

(* ---- loadcontrolinfo.rs *)
(* to_vec 98-108 *)
Definition opt_ies {A} (c : A -> ie) (o : option A) : list ie := match o with Some i => [c i] | None => [] end.
Definition LoadControl_members (v : load_control) : list ie :=
  [IE_Sqn (lc_sqn v)] ++ [IE_Metric (lc_metric v)] ++ map IE_ApnRelativeCapacity (opt_list (lc_list v)).
(* 43-61 *)
Definition LoadControl_from (l : list ie) : load_control :=
  mkLoadControl
    (default Sqn_default (last_of (pick as_Sqn ins_any) l))
    (default Metric_default (last_of (pick as_Metric ins_any) l))
    (match last_of as_ApnRelativeCapacity l with Some k => Some [k] | None => None end).
(* 69-80 *)
Definition LoadControl_unmarshal (dec : list N -> res (list ie)) (m : mode) (b : list N) : res (Tliv load_control) :=
  let? g := GroupedIe_unmarshal dec m b in
  let x := regroup LoadControl_from g in
  if (10 <? length (opt_list (lc_list (ie_v x))))%nat then Err (IEIncorrect 181) else Ok x.

(* ---- overloadcontrolinfo.rs *)
(* to_vec 101-112 *)
Definition OverloadControlInfo_members (v : overload_control) : list ie :=
  [IE_Sqn (oc_sqn v)] ++ [IE_Metric (oc_metric v)] ++ [IE_EpcTimer (oc_validity v)] ++ map IE_Apn (opt_list (oc_list v)).
(* 45-64 *)
Definition OverloadControlInfo_from (l : list ie) : overload_control :=
  mkOverloadControlInfo
    (default Sqn_default (last_of (pick as_Sqn ins_any) l))
    (default Metric_default (last_of (pick as_Metric ins_any) l))
    (default EpcTimer_default (last_of (pick as_EpcTimer ins_any) l))
    (match last_of as_Apn l with Some k => Some [k] | None => None end).
(* 72-83 *)
Definition OverloadControlInfo_unmarshal (dec : list N -> res (list ie)) (m : mode) (b : list N) : res (Tliv overload_control) :=
  let? g := GroupedIe_unmarshal dec m b in
  let x := regroup OverloadControlInfo_from g in
  if (10 <? length (opt_list (oc_list (ie_v x))))%nat then Err (IEIncorrect 180) else Ok x.

(* ---- remoteuecontext.rs *)
(* to_vec 86-93 *)
Definition RemoteUeContext_members (v : remote_ue_context) : list ie :=
  [IE_RemoteUserId (re_user_id v)] ++ opt_ies IE_RemoteUeIpInformation (re_ue_ip v).
(* 41-54 *)
Definition RemoteUeContext_from (l : list ie) : remote_ue_context :=
  mkRemoteUeContext
    (default RemoteUserId_default (last_of (pick as_RemoteUserId ins_any) l))
    (last_of (pick as_RemoteUeIpInformation ins_any) l).
(* 62-68 *)
Definition RemoteUeContext_unmarshal (dec : list N -> res (list ie)) (m : mode) (b : list N) : res (Tliv remote_ue_context) :=
  let? g := GroupedIe_unmarshal dec m b in Ok (regroup RemoteUeContext_from g).

(* ---- pc5qosparameters.rs *)
(* to_vec 98-107 *)
Definition PC5QosParameters_members (v : pc5_qos_parameters) : list ie :=
  map IE_PC5QosFlow (p5_flows v) ++ opt_ies IE_BitRate (p5_abrs v).
(* 41-62 *)
Definition PC5QosParameters_from (l : list ie) : pc5_qos_parameters :=
  mkPC5QosParameters
    (all_of (pick as_PC5QosFlow (ins_is 0)) l)
    (first_of (pick as_BitRate (ins_is 0)) l).
(* 70-80 *)
Definition PC5QosParameters_unmarshal (dec : list N -> res (list ie)) (m : mode) (b : list N) : res (Tliv pc5_qos_parameters) :=
  let? g := GroupedIe_unmarshal dec m b in
  let x := regroup PC5QosParameters_from g in
  match p5_flows (ie_v x) with [] => Err (IEIncorrect 209) | _ => Ok x end.

(* ---- pgwchangeinfo.rs *)
(* to_vec 108-119 *)
Definition PgwChangeInfo_members (v : pgw_change_info) : list ie :=
  map IE_IpAddress (pw_ips v) ++ map IE_PgwFqdn (pw_fqdns v) ++ map IE_Fqcsid (pw_fqcsid v) ++ map IE_GroupId (pw_groupids v).
(* 45-76 *)
Definition PgwChangeInfo_from (l : list ie) : pgw_change_info :=
  mkPgwChangeInfo
    (all_of (pick as_PgwFqdn (ins_below 2)) l)
    (all_of (pick as_IpAddress (ins_below 4)) l)
    (all_of (pick as_Fqcsid (ins_is 0)) l)
    (all_of (pick as_GroupId (ins_below 2)) l).
(* 84-90 *)
Definition PgwChangeInfo_unmarshal (dec : list N -> res (list ie)) (m : mode) (b : list N) : res (Tliv pgw_change_info) :=
  let? g := GroupedIe_unmarshal dec m b in Ok (regroup PgwChangeInfo_from g).

(* ---- scefpdnconnections.rs *)
(* to_vec 101-107 *)
Definition ScefPdnConnections_members (v : scef_pdn_connections) : list ie :=
  [IE_Apn (sf_apn v)] ++ [IE_Ebi (sf_ebi v)] ++ [IE_NodeIdentifier (sf_scef v)].
(* 43-69 *)
Definition ScefPdnConnections_from (l : list ie) : scef_pdn_connections :=
  mkScefPdnConnections
    (default Apn_default (last_of (pick as_Apn (ins_is 0)) l))
    (default Ebi_default (last_of (pick as_Ebi (ins_is 0)) l))
    (default NodeIdentifier_default (last_of (pick as_NodeIdentifier (ins_is 0)) l)).
(* 77-83 *)
Definition ScefPdnConnections_unmarshal (dec : list N -> res (list ie)) (m : mode) (b : list N) : res (Tliv scef_pdn_connections) :=
  let? g := GroupedIe_unmarshal dec m b in Ok (regroup ScefPdnConnections_from g).

(* ---- bearercontext.rs *)
(* to_vec 175-225 *)
Definition BearerContext_members (v : bearer_context) : list ie :=
  opt_ies IE_Cause (bc_cause v) ++ [IE_Ebi (bc_ebi v)] ++ opt_ies IE_BearerTft (bc_tft v) ++ map IE_Fteid (bc_fteids v) ++ opt_ies IE_BearerQos (bc_qos v) ++ opt_ies IE_ChargingId (bc_charging v) ++ opt_ies IE_BearerFlags (bc_flags v) ++ opt_ies IE_Pco (bc_pco v) ++ opt_ies IE_Apco (bc_apco v) ++ opt_ies IE_Epco (bc_epco v) ++ opt_ies IE_MaxPacketLossRate (bc_loss v) ++ opt_ies IE_RanNasCause (bc_ran v).
(* 65-143 *)
Definition BearerContext_from (l : list ie) : bearer_context :=
  mkBearerContext
    (default Ebi_default (first_of (pick as_Ebi (ins_is 0)) l))
    (first_of (pick as_Cause (ins_is 0)) l)
    (first_of (pick as_BearerTft (ins_is 0)) l)
    (all_of (pick as_Fteid ins_any) l)
    (first_of (pick as_BearerQos (ins_is 0)) l)
    (first_of (pick as_ChargingId (ins_is 0)) l)
    (first_of (pick as_BearerFlags (ins_is 0)) l)
    (first_of (pick as_Pco (ins_is 0)) l)
    (first_of (pick as_Apco (ins_is 0)) l)
    (first_of (pick as_Epco (ins_is 0)) l)
    (first_of (pick as_MaxPacketLossRate (ins_is 0)) l)
    (first_of (pick as_RanNasCause (ins_is 0)) l)
    (first_of (pick as_Fcontainer (ins_is 0)) l)
    (first_of (pick as_TransactionIdentifier (ins_is 0)) l).
(* 151-157 *)
Definition BearerContext_unmarshal (dec : list N -> res (list ie)) (m : mode) (b : list N) : res (Tliv bearer_context) :=
  let? g := GroupedIe_unmarshal dec m b in Ok (regroup BearerContext_from g).

(* ---- v2xinformation.rs *)
(* to_vec 101-113 *)
Definition V2xInformation_members (v : v2x_information) : list ie :=
  map IE_ServicesAuthorized (vx_auth v) ++ map IE_BitRate (vx_brs v) ++ opt_ies IE_PC5QosParameters (vx_qos v).
(* 43-69 *)
Definition V2xInformation_from (l : list ie) : v2x_information :=
  mkV2xInformation
    (all_of (pick as_ServicesAuthorized (ins_below 2)) l)
    (all_of (pick as_BitRate (ins_below 2)) l)
    (first_of (pick as_PC5QosParameters (ins_is 0)) l).
(* 77-83 *)
Definition V2xInformation_unmarshal (dec : list N -> res (list ie)) (m : mode) (b : list N) : res (Tliv v2x_information) :=
  let? g := GroupedIe_unmarshal dec m b in Ok (regroup V2xInformation_from g).

(* ---- pdnconnections.rs *)
(* to_vec 243-331 *)
Definition PdnConnections_members (v : pdn_connections) : list ie :=
  [IE_Apn (pn_apn v)] ++ opt_ies IE_ApnRestriction (pn_restriction v) ++ opt_ies IE_SelectionMode (pn_selection v) ++ opt_ies IE_IpAddress (pn_ipv4 v) ++ opt_ies IE_IpAddress (pn_ipv6 v) ++ [IE_Ebi (pn_ebi v)] ++ [IE_Fteid (pn_pgw v)] ++ opt_ies IE_Fqdn (pn_node_name v) ++ map IE_BearerContext (pn_bearers v) ++ [IE_ApnAmbr (pn_ambr v)] ++ opt_ies IE_ChargingCharacteristics (pn_charging v) ++ opt_ies IE_ChangeReportingAction (pn_reporting v) ++ opt_ies IE_CSGInformationReportingAction (pn_csg v) ++ opt_ies IE_HenbInfoReporting (pn_henb v) ++ opt_ies IE_Indication (pn_indication v) ++ opt_ies IE_Spi (pn_spi v) ++ opt_ies IE_ChangeToReportFlags (pn_report_flags v) ++ opt_ies IE_Fqdn (pn_home v) ++ opt_ies IE_PresenceReportingAreaAction (pn_praa v) ++ opt_ies IE_WlanOffloadIndication (pn_wlan v) ++ map IE_RemoteUeContext (pn_remotes v) ++ opt_ies IE_PdnType (pn_pdn_type v) ++ opt_ies IE_HeaderCompressionConfiguration (pn_compr v).
(* 87-211 *)
Definition PdnConnections_from (l : list ie) : pdn_connections :=
  mkPdnConnections
    (default Apn_default (last_of (pick as_Apn (ins_is 0)) l))
    (first_of (pick as_ApnRestriction (ins_is 0)) l)
    (first_of (pick as_SelectionMode (ins_is 0)) l)
    (first_of (pick as_IpAddress (ins_is 0)) l)
    (first_of (pick as_IpAddress (ins_is 1)) l)
    (default Ebi_default (last_of (pick as_Ebi (ins_is 0)) l))
    (default Fteid_default (last_of (pick as_Fteid (ins_is 0)) l))
    (first_of (pick as_Fqdn (ins_is 0)) l)
    (all_of (pick as_BearerContext (ins_is 0)) l)
    (default Ambr_default (last_of (pick as_ApnAmbr (ins_is 0)) l))
    (first_of (pick as_ChargingCharacteristics (ins_is 0)) l)
    (first_of (pick as_ChangeReportingAction (ins_is 0)) l)
    (first_of (pick as_CSGInformationReportingAction (ins_is 0)) l)
    (first_of (pick as_HenbInfoReporting (ins_is 0)) l)
    (first_of (pick as_Indication (ins_is 0)) l)
    (first_of (pick as_Spi (ins_is 0)) l)
    (first_of (pick as_ChangeToReportFlags (ins_is 0)) l)
    (first_of (pick as_Fqdn (ins_is 1)) l)
    (first_of (pick as_PresenceReportingAreaAction (ins_is 0)) l)
    (first_of (pick as_WlanOffloadIndication (ins_is 0)) l)
    (all_of (pick as_RemoteUeContext (ins_is 0)) l)
    (first_of (pick as_PdnType (ins_is 0)) l)
    (first_of (pick as_HeaderCompressionConfiguration (ins_is 0)) l)
    (None)
    (None).
(* 219-225 *)
Definition PdnConnections_unmarshal (dec : list N -> res (list ie)) (m : mode) (b : list N) : res (Tliv pdn_connections) :=
  let? g := GroupedIe_unmarshal dec m b in Ok (regroup PdnConnections_from g).

(* ie.rs 490-1522: one round of the decoder loop, on the rest of the buffer. [lift C r] is
   [match r { Ok(i) => ies.push(C(i)), Err(j) => return Err(j) }]. *)
Definition lift {A} (c : A -> ie) (r : res A) : res ie := let? i := r in Ok (c i).
Definition decode_one (dec : list N -> res (list ie)) (m : mode) (b : list N) : res ie :=
  let? t := at_ b 0 in
  if t =? 1 then lift IE_Imsi (Imsi_unmarshal m b) (* 491 *) else
  if t =? 2 then lift IE_Cause (Cause_unmarshal m b) (* 498 *) else
  if t =? 3 then lift IE_Recovery (Recovery_unmarshal m b) (* 505 *) else
  if t =? 51 then lift IE_StnSr (StnSr_unmarshal m b) (* 512 *) else
  if t =? 56 then lift IE_SrvccCause (SrvccCause_unmarshal m b) (* 519 *) else
  if t =? 71 then lift IE_Apn (Apn_unmarshal m b) (* 526 *) else
  if t =? 72 then lift IE_ApnAmbr (Ambr_unmarshal m b) (* 533 *) else
  if t =? 73 then lift IE_Ebi (Ebi_unmarshal m b) (* 540 *) else
  if t =? 74 then lift IE_IpAddress (IpAddress_unmarshal m b) (* 547 *) else
  if t =? 75 then lift IE_Mei (Mei_unmarshal m b) (* 554 *) else
  if t =? 76 then lift IE_Msisdn (Msisdn_unmarshal m b) (* 561 *) else
  if t =? 77 then lift IE_Indication (Indication_unmarshal m b) (* 568 *) else
  if t =? 78 then lift IE_Pco (Pco_unmarshal m b) (* 575 *) else
  if t =? 79 then lift IE_PdnAddressAllocation (PdnAddressAllocation_unmarshal m b) (* 582 *) else
  if t =? 80 then lift IE_BearerQos (BearerQos_unmarshal m b) (* 589 *) else
  if t =? 81 then lift IE_FlowQos (FlowQos_unmarshal m b) (* 596 *) else
  if t =? 82 then lift IE_RatType (RatType_unmarshal m b) (* 603 *) else
  if t =? 83 then lift IE_ServingNetwork (ServingNetwork_unmarshal m b) (* 610 *) else
  if t =? 84 then lift IE_BearerTft (BearerTft_unmarshal m b) (* 617 *) else
  if t =? 85 then lift IE_TrafficAggregateDescription (TrafficAggregateDescription_unmarshal m b) (* 624 *) else
  if t =? 86 then lift IE_Uli (Uli_unmarshal m b) (* 631 *) else
  if t =? 87 then lift IE_Fteid (Fteid_unmarshal m b) (* 638 *) else
  if t =? 88 then lift IE_Tmsi (Tmsi_unmarshal m b) (* 645 *) else
  if t =? 89 then lift IE_GlobalCnId (GlobalCnId_unmarshal m b) (* 652 *) else
  if t =? 90 then lift IE_S103pdf (S103pdf_unmarshal m b) (* 659 *) else
  if t =? 91 then lift IE_S1udf (S1udf_unmarshal m b) (* 666 *) else
  if t =? 92 then lift IE_DelayValue (DelayValue_unmarshal m b) (* 673 *) else
  if t =? 93 then lift IE_BearerContext (BearerContext_unmarshal dec m b) (* 680 *) else
  if t =? 94 then lift IE_ChargingId (ChargingId_unmarshal m b) (* 687 *) else
  if t =? 95 then lift IE_ChargingCharacteristics (ChargingCharacteristics_unmarshal m b) (* 694 *) else
  if t =? 96 then lift IE_TraceInformation (TraceInformation_unmarshal m b) (* 701 *) else
  if t =? 97 then lift IE_BearerFlags (BearerFlags_unmarshal m b) (* 708 *) else
  if t =? 99 then lift IE_PdnType (PdnType_unmarshal m b) (* 715 *) else
  if t =? 100 then lift IE_Pti (Pti_unmarshal m b) (* 722 *) else
  if (103 <=? t) && (t <=? 108) then lift IE_MmContext (MmContext_unmarshal m b) (* 729 *) else
  if t =? 109 then lift IE_PdnConnections (PdnConnections_unmarshal dec m b) (* 736 *) else
  if t =? 110 then lift IE_PduNumbers (PduNumbers_unmarshal m b) (* 743 *) else
  if t =? 111 then lift IE_Ptmsi (Ptmsi_unmarshal m b) (* 750 *) else
  if t =? 112 then lift IE_PtmsiSignature (PtmsiSignature_unmarshal m b) (* 757 *) else
  if t =? 113 then lift IE_HopCounter (HopCounter_unmarshal m b) (* 764 *) else
  if t =? 114 then lift IE_UeTimeZone (UeTimeZone_unmarshal m b) (* 771 *) else
  if t =? 115 then lift IE_TraceReference (TraceReference_unmarshal m b) (* 778 *) else
  if t =? 116 then lift IE_CompleteRequestMessage (CompleteRequestMessage_unmarshal m b) (* 785 *) else
  if t =? 117 then lift IE_Guti (Guti_unmarshal m b) (* 792 *) else
  if t =? 118 then lift IE_Fcontainer (Fcontainer_unmarshal m b) (* 799 *) else
  if t =? 119 then lift IE_Fcause (Fcause_unmarshal m b) (* 806 *) else
  if t =? 120 then lift IE_PlmnId (PlmnId_unmarshal m b) (* 813 *) else
  if t =? 121 then lift IE_TargetIdentification (TargetIdentification_unmarshal m b) (* 820 *) else
  if t =? 123 then lift IE_PacketFlowId (PacketFlowId_unmarshal m b) (* 827 *) else
  if t =? 124 then lift IE_RabContext (RabContext_unmarshal m b) (* 834 *) else
  if t =? 125 then lift IE_SrcRncPdcpCtxInfo (SourceRncPdcpContextInfo_unmarshal m b) (* 841 *) else
  if t =? 126 then lift IE_PortNumber (PortNumber_unmarshal m b) (* 848 *) else
  if t =? 127 then lift IE_ApnRestriction (ApnRestriction_unmarshal m b) (* 855 *) else
  if t =? 128 then lift IE_SelectionMode (SelectionMode_unmarshal m b) (* 862 *) else
  if t =? 129 then lift IE_SourceIdentification (SourceIdentification_unmarshal m b) (* 869 *) else
  if t =? 131 then lift IE_ChangeReportingAction (ChangeReportingAction_unmarshal m b) (* 876 *) else
  if t =? 132 then lift IE_Fqcsid (Fqcsid_unmarshal m b) (* 883 *) else
  if t =? 133 then lift IE_ChannelNeeded (ChannelNeeded_unmarshal m b) (* 890 *) else
  if t =? 134 then lift IE_EmlppPriority (EmlppPriority_unmarshal m b) (* 897 *) else
  if t =? 135 then lift IE_NodeType (NodeType_unmarshal m b) (* 904 *) else
  if t =? 136 then lift IE_Fqdn (Fqdn_unmarshal m b) (* 911 *) else
  if t =? 137 then lift IE_TransactionIdentifier (TransactionIdentifier_unmarshal m b) (* 918 *) else
  if t =? 138 then lift IE_MbmsSd (MbmsSessionDuration_unmarshal m b) (* 925 *) else
  if t =? 139 then lift IE_MbmsSa (MbmsServiceArea_unmarshal m b) (* 932 *) else
  if t =? 140 then lift IE_MbmsSessionId (MbmsSessionId_unmarshal m b) (* 939 *) else
  if t =? 141 then lift IE_MbmsFlowId (MbmsFlowId_unmarshal m b) (* 946 *) else
  if t =? 142 then lift IE_MbmsIpMulticastDistribution (MbmsIpMulticastDistribution_unmarshal m b) (* 953 *) else
  if t =? 143 then lift IE_MbmsDistributionAck (MbmsDistributionAck_unmarshal m b) (* 960 *) else
  if t =? 144 then lift IE_RfspIndex (RfspIndex_unmarshal m b) (* 967 *) else
  if t =? 145 then lift IE_Uci (Uci_unmarshal m b) (* 974 *) else
  if t =? 146 then lift IE_CSGInformationReportingAction (CSGInformationReportingAction_unmarshal m b) (* 981 *) else
  if t =? 147 then lift IE_CsgId (CsgId_unmarshal m b) (* 988 *) else
  if t =? 148 then lift IE_CsgMembershipIndication (CsgMembershipIndication_unmarshal m b) (* 995 *) else
  if t =? 149 then lift IE_ServiceIndicator (ServiceIndicator_unmarshal m b) (* 1002 *) else
  if t =? 150 then lift IE_DetachType (DetachType_unmarshal m b) (* 1009 *) else
  if t =? 151 then lift IE_Ldn (Ldn_unmarshal m b) (* 1016 *) else
  if t =? 152 then lift IE_NodeFeatures (NodeFeatures_unmarshal m b) (* 1023 *) else
  if t =? 153 then lift IE_MbmsTimeToDataTransfer (MbmsTimeToDataTransfer_unmarshal m b) (* 1030 *) else
  if t =? 154 then lift IE_Throttling (Throttling_unmarshal m b) (* 1037 *) else
  if t =? 155 then lift IE_Arp (Arp_unmarshal m b) (* 1044 *) else
  if t =? 156 then lift IE_EpcTimer (EpcTimer_unmarshal m b) (* 1051 *) else
  if t =? 157 then lift IE_Spi (Spi_unmarshal m b) (* 1058 *) else
  if t =? 158 then lift IE_Tmgi (Tmgi_unmarshal m b) (* 1065 *) else
  if t =? 159 then lift IE_AdditionalMmContextForSrvcc (AdditionalMmContextForSrvcc_unmarshal m b) (* 1072 *) else
  if t =? 160 then lift IE_AdditionalFlagsSrvcc (AdditionalFlagsSrvcc_unmarshal m b) (* 1079 *) else
  if t =? 162 then lift IE_MdtConfiguration (MdtConfiguration_unmarshal m b) (* 1086 *) else
  if t =? 163 then lift IE_Apco (Apco_unmarshal m b) (* 1093 *) else
  if t =? 164 then lift IE_AbsoluteTimeMbmsDataTransfer (AbsoluteTimeMbmsDataTransfer_unmarshal m b) (* 1100 *) else
  if t =? 165 then lift IE_HenbInfoReporting (HenbInfoReporting_unmarshal m b) (* 1107 *) else
  if t =? 166 then lift IE_Ip4Cp (Ip4Cp_unmarshal m b) (* 1114 *) else
  if t =? 167 then lift IE_ChangeToReportFlags (ChangeToReportFlags_unmarshal m b) (* 1121 *) else
  if t =? 168 then lift IE_ActionIndication (ActionIndication_unmarshal m b) (* 1128 *) else
  if t =? 169 then lift IE_ActionIndication (ActionIndication_unmarshal m b) (* 1135 *) else
  if t =? 170 then lift IE_UliTimestamp (UliTimestamp_unmarshal m b) (* 1142 *) else
  if t =? 171 then lift IE_MbmsFlags (MbmsFlags_unmarshal m b) (* 1149 *) else
  if t =? 172 then lift IE_RanNasCause (RanNasCause_unmarshal m b) (* 1156 *) else
  if t =? 173 then lift IE_CnOperatorSelectionEntity (CnOperatorSelectionEntity_unmarshal m b) (* 1163 *) else
  if t =? 174 then lift IE_Twmi (Twmi_unmarshal m b) (* 1170 *) else
  if t =? 175 then lift IE_NodeNumber (NodeNumber_unmarshal m b) (* 1177 *) else
  if t =? 176 then lift IE_NodeIdentifier (NodeIdentifier_unmarshal m b) (* 1184 *) else
  if t =? 177 then lift IE_PresenceReportingAreaAction (PresenceReportingAreaAction_unmarshal m b) (* 1191 *) else
  if t =? 178 then lift IE_PresenceReportingAreaInformation (PresenceReportingAreaInformation_unmarshal m b) (* 1198 *) else
  if t =? 179 then lift IE_TwanIdTimeStamp (TwanIdTimeStamp_unmarshal m b) (* 1205 *) else
  if t =? 180 then lift IE_OverloadControlInfo (OverloadControlInfo_unmarshal dec m b) (* 1212 *) else
  if t =? 181 then lift IE_LoadControlInfo (LoadControl_unmarshal dec m b) (* 1222 *) else
  if t =? 182 then lift IE_Metric (Metric_unmarshal m b) (* 1232 *) else
  if t =? 183 then lift IE_Sqn (Sqn_unmarshal m b) (* 1239 *) else
  if t =? 184 then lift IE_ApnRelativeCapacity (ApnRelativeCapacity_unmarshal m b) (* 1246 *) else
  if t =? 185 then lift IE_WlanOffloadIndication (WlanOffloadIndication_unmarshal m b) (* 1253 *) else
  if t =? 186 then lift IE_PagingServiceInfo (PagingServiceInfo_unmarshal m b) (* 1260 *) else
  if t =? 187 then lift IE_IntegerNumber (IntegerNumber_unmarshal m b) (* 1267 *) else
  if t =? 188 then lift IE_MilliSecondTimeStamp (MilliSecondTimeStamp_unmarshal m b) (* 1274 *) else
  if t =? 189 then lift IE_MonitoringEventInformation (MonitoringEventInformation_unmarshal m b) (* 1281 *) else
  if t =? 190 then lift IE_EcgiList (EcgiList_unmarshal m b) (* 1288 *) else
  if t =? 191 then lift IE_RemoteUeContext (RemoteUeContext_unmarshal dec m b) (* 1295 *) else
  if t =? 192 then lift IE_RemoteUserId (RemoteUserId_unmarshal m b) (* 1305 *) else
  if t =? 193 then lift IE_RemoteUeIpInformation (RemoteUeIpInformation_unmarshal m b) (* 1312 *) else
  if t =? 194 then lift IE_CIoTOptimizationSupportIndication (CIoTOptimizationSupportIndication_unmarshal m b) (* 1319 *) else
  if t =? 195 then lift IE_ScefPdnConnections (ScefPdnConnections_unmarshal dec m b) (* 1326 *) else
  if t =? 196 then lift IE_HeaderCompressionConfiguration (HeaderCompressionConfiguration_unmarshal m b) (* 1333 *) else
  if t =? 197 then lift IE_Epco (Epco_unmarshal m b) (* 1340 *) else
  if t =? 198 then lift IE_ServingPlmnRateControl (ServingPlmnRateControl_unmarshal m b) (* 1347 *) else
  if t =? 199 then lift IE_Counter (Counter_unmarshal m b) (* 1354 *) else
  if t =? 200 then lift IE_MappedUeUsageType (MappedUeUsageType_unmarshal m b) (* 1361 *) else
  if t =? 201 then lift IE_SecondaryRatUsageDataReport (SecondaryRatUsageDataReport_unmarshal m b) (* 1368 *) else
  if t =? 202 then lift IE_UpFunctionSelectionIndicationFlags (UpFunctionSelectionIndicationFlags_unmarshal m b) (* 1375 *) else
  if t =? 203 then lift IE_MaxPacketLossRate (MaxPacketLossRate_unmarshal m b) (* 1382 *) else
  if t =? 204 then lift IE_ApnRateControlStatus (ApnRateControlStatus_unmarshal m b) (* 1389 *) else
  if t =? 205 then lift IE_ExtendedTraceInformation (ExtendedTraceInformation_unmarshal m b) (* 1396 *) else
  if t =? 206 then lift IE_MonitoringEventExtensionInfo (MonitoringEventExtensionInfo_unmarshal m b) (* 1403 *) else
  if t =? 207 then lift IE_AdditionalRrmPolicyIndex (AdditionalRrmPolicyIndex_unmarshal m b) (* 1410 *) else
  if t =? 208 then lift IE_V2xInformation (V2xInformation_unmarshal dec m b) (* 1417 *) else
  if t =? 209 then lift IE_PC5QosParameters (PC5QosParameters_unmarshal dec m b) (* 1424 *) else
  if t =? 210 then lift IE_ServicesAuthorized (ServicesAuthorized_unmarshal m b) (* 1431 *) else
  if t =? 211 then lift IE_BitRate (BitRate_unmarshal m b) (* 1438 *) else
  if t =? 212 then lift IE_PC5QosFlow (PC5QosFlow_unmarshal m b) (* 1445 *) else
  if t =? 213 then lift IE_SgiPtpTunnelAddress (SgiPtpTunnelAddress_unmarshal m b) (* 1452 *) else
  if t =? 214 then lift IE_PgwChangeInfo (PgwChangeInfo_unmarshal dec m b) (* 1459 *) else
  if t =? 215 then lift IE_PgwFqdn (PgwFqdn_unmarshal m b) (* 1466 *) else
  if t =? 216 then lift IE_GroupId (GroupId_unmarshal m b) (* 1473 *) else
  if t =? 217 then lift IE_PSCellId (PSCellId_unmarshal m b) (* 1480 *) else
  if t =? 218 then lift IE_UpSecurityPolicy (UpSecurityPolicy_unmarshal m b) (* 1487 *) else
  if t =? 219 then lift IE_AlternativeImsi (AlternativeImsi_unmarshal m b) (* 1494 *) else
  if t =? 254 then lift IE_SpecialIEWithTypeExt (SpecialIEWithTypeExt_unmarshal m b) (* 1501 *) else
  if t =? 255 then lift IE_PrivateExtension (PrivateExtension_unmarshal m b) (* 1508 *) else
  lift IE_Unknown (Unknown_unmarshal m b).

(* ie.rs 483-1525: the cursor loop. The rest of the buffer is passed instead of the cursor; a cursor
   past the end is the empty rest. [fuel] bounds the number of rounds: running out of it is [Diverge]. *)
Fixpoint ie_loop (one : list N -> res ie) (m : mode) (fuel : nat) (b : list N) : res (list ie) :=
  match b with
  | [] => Ok []
  | _ :: _ =>
      match fuel with
      | O => Diverge
      | S f =>
          let? e := one b in
          let? n := ie_len m e in
          let? r := ie_loop one m f (skipn n b) in
          Ok (e :: r)
      end
  end.
(* The decoder calls itself through GroupedIe::unmarshal: [depth] bounds the nesting. *)
Fixpoint decode_ies (depth : nat) (m : mode) (b : list N) : res (list ie) :=
  match depth with
  | O => match b with [] => Ok [] | _ :: _ => Diverge end
  | S d => ie_loop (decode_one (decode_ies d m) m) m (length b) b
  end.
(* InformationElement::decoder. The bounds are never what stops it, except in the endless loop of a
   release build described in PropsV2Ie.v. *)
Definition decoder (m : mode) (b : list N) : res (list ie) := decode_ies (S (length b)) m b.
