(* V2Kind.v - the kinds of information elements: the variants of the InformationElement enumeration
   (src/gtpv2/messages/ies/ie.rs 176-323) without their contents, which is what the [match e] of every
   message's fromvec tests. *)
From Verif Require Import Base.
From Verif Require Export V2Decoder.
Local Open Scope N_scope.

(* ie.rs 176-323 *)
Inductive kind :=
| K_Imsi
| K_Cause
| K_Recovery
| K_StnSr
| K_SrvccCause
| K_Apn
| K_ApnAmbr
| K_Ebi
| K_IpAddress
| K_Mei
| K_Msisdn
| K_Indication
| K_Pco
| K_PdnAddressAllocation
| K_BearerQos
| K_FlowQos
| K_RatType
| K_ServingNetwork
| K_BearerTft
| K_TrafficAggregateDescription
| K_Uli
| K_Fteid
| K_Tmsi
| K_GlobalCnId
| K_S103pdf
| K_S1udf
| K_DelayValue
| K_BearerContext
| K_ChargingId
| K_ChargingCharacteristics
| K_TraceInformation
| K_BearerFlags
| K_PdnType
| K_Pti
| K_MmContext
| K_PdnConnections
| K_PduNumbers
| K_Ptmsi
| K_PtmsiSignature
| K_HopCounter
| K_UeTimeZone
| K_TraceReference
| K_CompleteRequestMessage
| K_Guti
| K_Fcontainer
| K_Fcause
| K_PlmnId
| K_TargetIdentification
| K_PacketFlowId
| K_RabContext
| K_SrcRncPdcpCtxInfo
| K_PortNumber
| K_ApnRestriction
| K_SelectionMode
| K_SourceIdentification
| K_ChangeReportingAction
| K_Fqcsid
| K_ChannelNeeded
| K_EmlppPriority
| K_NodeType
| K_Fqdn
| K_TransactionIdentifier
| K_MbmsSa
| K_MbmsSd
| K_MbmsSessionId
| K_MbmsFlowId
| K_MbmsIpMulticastDistribution
| K_MbmsDistributionAck
| K_RfspIndex
| K_Uci
| K_CSGInformationReportingAction
| K_CsgId
| K_CsgMembershipIndication
| K_ServiceIndicator
| K_DetachType
| K_Ldn
| K_NodeFeatures
| K_MbmsTimeToDataTransfer
| K_Throttling
| K_Arp
| K_EpcTimer
| K_Spi
| K_Tmgi
| K_AdditionalMmContextForSrvcc
| K_AdditionalFlagsSrvcc
| K_MdtConfiguration
| K_Apco
| K_AbsoluteTimeMbmsDataTransfer
| K_HenbInfoReporting
| K_Ip4Cp
| K_ChangeToReportFlags
| K_ActionIndication
| K_TwanId
| K_UliTimestamp
| K_MbmsFlags
| K_RanNasCause
| K_CnOperatorSelectionEntity
| K_Twmi
| K_NodeNumber
| K_NodeIdentifier
| K_PresenceReportingAreaAction
| K_PresenceReportingAreaInformation
| K_TwanIdTimeStamp
| K_OverloadControlInfo
| K_LoadControlInfo
| K_Metric
| K_Sqn
| K_ApnRelativeCapacity
| K_WlanOffloadIndication
| K_PagingServiceInfo
| K_IntegerNumber
| K_MilliSecondTimeStamp
| K_MonitoringEventInformation
| K_EcgiList
| K_RemoteUeContext
| K_RemoteUserId
| K_RemoteUeIpInformation
| K_CIoTOptimizationSupportIndication
| K_ScefPdnConnections
| K_HeaderCompressionConfiguration
| K_Epco
| K_ServingPlmnRateControl
| K_Counter
| K_MappedUeUsageType
| K_SecondaryRatUsageDataReport
| K_UpFunctionSelectionIndicationFlags
| K_MaxPacketLossRate
| K_ApnRateControlStatus
| K_ExtendedTraceInformation
| K_MonitoringEventExtensionInfo
| K_AdditionalRrmPolicyIndex
| K_V2xInformation
| K_PC5QosParameters
| K_ServicesAuthorized
| K_BitRate
| K_PC5QosFlow
| K_SgiPtpTunnelAddress
| K_PgwChangeInfo
| K_PgwFqdn
| K_GroupId
| K_PSCellId
| K_UpSecurityPolicy
| K_AlternativeImsi
| K_SpecialIEWithTypeExt
| K_PrivateExtension
| K_Unknown.

(* the variant of an element *)
Definition kind_of (e : ie) : kind :=
  match e with
  | IE_Imsi _ => K_Imsi
  | IE_Cause _ => K_Cause
  | IE_Recovery _ => K_Recovery
  | IE_StnSr _ => K_StnSr
  | IE_SrvccCause _ => K_SrvccCause
  | IE_Apn _ => K_Apn
  | IE_ApnAmbr _ => K_ApnAmbr
  | IE_Ebi _ => K_Ebi
  | IE_IpAddress _ => K_IpAddress
  | IE_Mei _ => K_Mei
  | IE_Msisdn _ => K_Msisdn
  | IE_Indication _ => K_Indication
  | IE_Pco _ => K_Pco
  | IE_PdnAddressAllocation _ => K_PdnAddressAllocation
  | IE_BearerQos _ => K_BearerQos
  | IE_FlowQos _ => K_FlowQos
  | IE_RatType _ => K_RatType
  | IE_ServingNetwork _ => K_ServingNetwork
  | IE_BearerTft _ => K_BearerTft
  | IE_TrafficAggregateDescription _ => K_TrafficAggregateDescription
  | IE_Uli _ => K_Uli
  | IE_Fteid _ => K_Fteid
  | IE_Tmsi _ => K_Tmsi
  | IE_GlobalCnId _ => K_GlobalCnId
  | IE_S103pdf _ => K_S103pdf
  | IE_S1udf _ => K_S1udf
  | IE_DelayValue _ => K_DelayValue
  | IE_BearerContext _ => K_BearerContext
  | IE_ChargingId _ => K_ChargingId
  | IE_ChargingCharacteristics _ => K_ChargingCharacteristics
  | IE_TraceInformation _ => K_TraceInformation
  | IE_BearerFlags _ => K_BearerFlags
  | IE_PdnType _ => K_PdnType
  | IE_Pti _ => K_Pti
  | IE_MmContext _ => K_MmContext
  | IE_PdnConnections _ => K_PdnConnections
  | IE_PduNumbers _ => K_PduNumbers
  | IE_Ptmsi _ => K_Ptmsi
  | IE_PtmsiSignature _ => K_PtmsiSignature
  | IE_HopCounter _ => K_HopCounter
  | IE_UeTimeZone _ => K_UeTimeZone
  | IE_TraceReference _ => K_TraceReference
  | IE_CompleteRequestMessage _ => K_CompleteRequestMessage
  | IE_Guti _ => K_Guti
  | IE_Fcontainer _ => K_Fcontainer
  | IE_Fcause _ => K_Fcause
  | IE_PlmnId _ => K_PlmnId
  | IE_TargetIdentification _ => K_TargetIdentification
  | IE_PacketFlowId _ => K_PacketFlowId
  | IE_RabContext _ => K_RabContext
  | IE_SrcRncPdcpCtxInfo _ => K_SrcRncPdcpCtxInfo
  | IE_PortNumber _ => K_PortNumber
  | IE_ApnRestriction _ => K_ApnRestriction
  | IE_SelectionMode _ => K_SelectionMode
  | IE_SourceIdentification _ => K_SourceIdentification
  | IE_ChangeReportingAction _ => K_ChangeReportingAction
  | IE_Fqcsid _ => K_Fqcsid
  | IE_ChannelNeeded _ => K_ChannelNeeded
  | IE_EmlppPriority _ => K_EmlppPriority
  | IE_NodeType _ => K_NodeType
  | IE_Fqdn _ => K_Fqdn
  | IE_TransactionIdentifier _ => K_TransactionIdentifier
  | IE_MbmsSa _ => K_MbmsSa
  | IE_MbmsSd _ => K_MbmsSd
  | IE_MbmsSessionId _ => K_MbmsSessionId
  | IE_MbmsFlowId _ => K_MbmsFlowId
  | IE_MbmsIpMulticastDistribution _ => K_MbmsIpMulticastDistribution
  | IE_MbmsDistributionAck _ => K_MbmsDistributionAck
  | IE_RfspIndex _ => K_RfspIndex
  | IE_Uci _ => K_Uci
  | IE_CSGInformationReportingAction _ => K_CSGInformationReportingAction
  | IE_CsgId _ => K_CsgId
  | IE_CsgMembershipIndication _ => K_CsgMembershipIndication
  | IE_ServiceIndicator _ => K_ServiceIndicator
  | IE_DetachType _ => K_DetachType
  | IE_Ldn _ => K_Ldn
  | IE_NodeFeatures _ => K_NodeFeatures
  | IE_MbmsTimeToDataTransfer _ => K_MbmsTimeToDataTransfer
  | IE_Throttling _ => K_Throttling
  | IE_Arp _ => K_Arp
  | IE_EpcTimer _ => K_EpcTimer
  | IE_Spi _ => K_Spi
  | IE_Tmgi _ => K_Tmgi
  | IE_AdditionalMmContextForSrvcc _ => K_AdditionalMmContextForSrvcc
  | IE_AdditionalFlagsSrvcc _ => K_AdditionalFlagsSrvcc
  | IE_MdtConfiguration _ => K_MdtConfiguration
  | IE_Apco _ => K_Apco
  | IE_AbsoluteTimeMbmsDataTransfer _ => K_AbsoluteTimeMbmsDataTransfer
  | IE_HenbInfoReporting _ => K_HenbInfoReporting
  | IE_Ip4Cp _ => K_Ip4Cp
  | IE_ChangeToReportFlags _ => K_ChangeToReportFlags
  | IE_ActionIndication _ => K_ActionIndication
  | IE_TwanId _ => K_TwanId
  | IE_UliTimestamp _ => K_UliTimestamp
  | IE_MbmsFlags _ => K_MbmsFlags
  | IE_RanNasCause _ => K_RanNasCause
  | IE_CnOperatorSelectionEntity _ => K_CnOperatorSelectionEntity
  | IE_Twmi _ => K_Twmi
  | IE_NodeNumber _ => K_NodeNumber
  | IE_NodeIdentifier _ => K_NodeIdentifier
  | IE_PresenceReportingAreaAction _ => K_PresenceReportingAreaAction
  | IE_PresenceReportingAreaInformation _ => K_PresenceReportingAreaInformation
  | IE_TwanIdTimeStamp _ => K_TwanIdTimeStamp
  | IE_OverloadControlInfo _ => K_OverloadControlInfo
  | IE_LoadControlInfo _ => K_LoadControlInfo
  | IE_Metric _ => K_Metric
  | IE_Sqn _ => K_Sqn
  | IE_ApnRelativeCapacity _ => K_ApnRelativeCapacity
  | IE_WlanOffloadIndication _ => K_WlanOffloadIndication
  | IE_PagingServiceInfo _ => K_PagingServiceInfo
  | IE_IntegerNumber _ => K_IntegerNumber
  | IE_MilliSecondTimeStamp _ => K_MilliSecondTimeStamp
  | IE_MonitoringEventInformation _ => K_MonitoringEventInformation
  | IE_EcgiList _ => K_EcgiList
  | IE_RemoteUeContext _ => K_RemoteUeContext
  | IE_RemoteUserId _ => K_RemoteUserId
  | IE_RemoteUeIpInformation _ => K_RemoteUeIpInformation
  | IE_CIoTOptimizationSupportIndication _ => K_CIoTOptimizationSupportIndication
  | IE_ScefPdnConnections _ => K_ScefPdnConnections
  | IE_HeaderCompressionConfiguration _ => K_HeaderCompressionConfiguration
  | IE_Epco _ => K_Epco
  | IE_ServingPlmnRateControl _ => K_ServingPlmnRateControl
  | IE_Counter _ => K_Counter
  | IE_MappedUeUsageType _ => K_MappedUeUsageType
  | IE_SecondaryRatUsageDataReport _ => K_SecondaryRatUsageDataReport
  | IE_UpFunctionSelectionIndicationFlags _ => K_UpFunctionSelectionIndicationFlags
  | IE_MaxPacketLossRate _ => K_MaxPacketLossRate
  | IE_ApnRateControlStatus _ => K_ApnRateControlStatus
  | IE_ExtendedTraceInformation _ => K_ExtendedTraceInformation
  | IE_MonitoringEventExtensionInfo _ => K_MonitoringEventExtensionInfo
  | IE_AdditionalRrmPolicyIndex _ => K_AdditionalRrmPolicyIndex
  | IE_V2xInformation _ => K_V2xInformation
  | IE_PC5QosParameters _ => K_PC5QosParameters
  | IE_ServicesAuthorized _ => K_ServicesAuthorized
  | IE_BitRate _ => K_BitRate
  | IE_PC5QosFlow _ => K_PC5QosFlow
  | IE_SgiPtpTunnelAddress _ => K_SgiPtpTunnelAddress
  | IE_PgwChangeInfo _ => K_PgwChangeInfo
  | IE_PgwFqdn _ => K_PgwFqdn
  | IE_GroupId _ => K_GroupId
  | IE_PSCellId _ => K_PSCellId
  | IE_UpSecurityPolicy _ => K_UpSecurityPolicy
  | IE_AlternativeImsi _ => K_AlternativeImsi
  | IE_SpecialIEWithTypeExt _ => K_SpecialIEWithTypeExt
  | IE_PrivateExtension _ => K_PrivateExtension
  | IE_Unknown _ => K_Unknown
  end.

(* a number for each variant, to compare them *)
Definition kind_id (k : kind) : N :=
  match k with
  | K_Imsi => 0
  | K_Cause => 1
  | K_Recovery => 2
  | K_StnSr => 3
  | K_SrvccCause => 4
  | K_Apn => 5
  | K_ApnAmbr => 6
  | K_Ebi => 7
  | K_IpAddress => 8
  | K_Mei => 9
  | K_Msisdn => 10
  | K_Indication => 11
  | K_Pco => 12
  | K_PdnAddressAllocation => 13
  | K_BearerQos => 14
  | K_FlowQos => 15
  | K_RatType => 16
  | K_ServingNetwork => 17
  | K_BearerTft => 18
  | K_TrafficAggregateDescription => 19
  | K_Uli => 20
  | K_Fteid => 21
  | K_Tmsi => 22
  | K_GlobalCnId => 23
  | K_S103pdf => 24
  | K_S1udf => 25
  | K_DelayValue => 26
  | K_BearerContext => 27
  | K_ChargingId => 28
  | K_ChargingCharacteristics => 29
  | K_TraceInformation => 30
  | K_BearerFlags => 31
  | K_PdnType => 32
  | K_Pti => 33
  | K_MmContext => 34
  | K_PdnConnections => 35
  | K_PduNumbers => 36
  | K_Ptmsi => 37
  | K_PtmsiSignature => 38
  | K_HopCounter => 39
  | K_UeTimeZone => 40
  | K_TraceReference => 41
  | K_CompleteRequestMessage => 42
  | K_Guti => 43
  | K_Fcontainer => 44
  | K_Fcause => 45
  | K_PlmnId => 46
  | K_TargetIdentification => 47
  | K_PacketFlowId => 48
  | K_RabContext => 49
  | K_SrcRncPdcpCtxInfo => 50
  | K_PortNumber => 51
  | K_ApnRestriction => 52
  | K_SelectionMode => 53
  | K_SourceIdentification => 54
  | K_ChangeReportingAction => 55
  | K_Fqcsid => 56
  | K_ChannelNeeded => 57
  | K_EmlppPriority => 58
  | K_NodeType => 59
  | K_Fqdn => 60
  | K_TransactionIdentifier => 61
  | K_MbmsSa => 62
  | K_MbmsSd => 63
  | K_MbmsSessionId => 64
  | K_MbmsFlowId => 65
  | K_MbmsIpMulticastDistribution => 66
  | K_MbmsDistributionAck => 67
  | K_RfspIndex => 68
  | K_Uci => 69
  | K_CSGInformationReportingAction => 70
  | K_CsgId => 71
  | K_CsgMembershipIndication => 72
  | K_ServiceIndicator => 73
  | K_DetachType => 74
  | K_Ldn => 75
  | K_NodeFeatures => 76
  | K_MbmsTimeToDataTransfer => 77
  | K_Throttling => 78
  | K_Arp => 79
  | K_EpcTimer => 80
  | K_Spi => 81
  | K_Tmgi => 82
  | K_AdditionalMmContextForSrvcc => 83
  | K_AdditionalFlagsSrvcc => 84
  | K_MdtConfiguration => 85
  | K_Apco => 86
  | K_AbsoluteTimeMbmsDataTransfer => 87
  | K_HenbInfoReporting => 88
  | K_Ip4Cp => 89
  | K_ChangeToReportFlags => 90
  | K_ActionIndication => 91
  | K_TwanId => 92
  | K_UliTimestamp => 93
  | K_MbmsFlags => 94
  | K_RanNasCause => 95
  | K_CnOperatorSelectionEntity => 96
  | K_Twmi => 97
  | K_NodeNumber => 98
  | K_NodeIdentifier => 99
  | K_PresenceReportingAreaAction => 100
  | K_PresenceReportingAreaInformation => 101
  | K_TwanIdTimeStamp => 102
  | K_OverloadControlInfo => 103
  | K_LoadControlInfo => 104
  | K_Metric => 105
  | K_Sqn => 106
  | K_ApnRelativeCapacity => 107
  | K_WlanOffloadIndication => 108
  | K_PagingServiceInfo => 109
  | K_IntegerNumber => 110
  | K_MilliSecondTimeStamp => 111
  | K_MonitoringEventInformation => 112
  | K_EcgiList => 113
  | K_RemoteUeContext => 114
  | K_RemoteUserId => 115
  | K_RemoteUeIpInformation => 116
  | K_CIoTOptimizationSupportIndication => 117
  | K_ScefPdnConnections => 118
  | K_HeaderCompressionConfiguration => 119
  | K_Epco => 120
  | K_ServingPlmnRateControl => 121
  | K_Counter => 122
  | K_MappedUeUsageType => 123
  | K_SecondaryRatUsageDataReport => 124
  | K_UpFunctionSelectionIndicationFlags => 125
  | K_MaxPacketLossRate => 126
  | K_ApnRateControlStatus => 127
  | K_ExtendedTraceInformation => 128
  | K_MonitoringEventExtensionInfo => 129
  | K_AdditionalRrmPolicyIndex => 130
  | K_V2xInformation => 131
  | K_PC5QosParameters => 132
  | K_ServicesAuthorized => 133
  | K_BitRate => 134
  | K_PC5QosFlow => 135
  | K_SgiPtpTunnelAddress => 136
  | K_PgwChangeInfo => 137
  | K_PgwFqdn => 138
  | K_GroupId => 139
  | K_PSCellId => 140
  | K_UpSecurityPolicy => 141
  | K_AlternativeImsi => 142
  | K_SpecialIEWithTypeExt => 143
  | K_PrivateExtension => 144
  | K_Unknown => 145
  end.

Definition kind_eqb (a b : kind) : bool := kind_id a =? kind_id b.

Definition kind_at (n : N) : kind :=
  match n with
  | 0 => K_Imsi
  | 1 => K_Cause
  | 2 => K_Recovery
  | 3 => K_StnSr
  | 4 => K_SrvccCause
  | 5 => K_Apn
  | 6 => K_ApnAmbr
  | 7 => K_Ebi
  | 8 => K_IpAddress
  | 9 => K_Mei
  | 10 => K_Msisdn
  | 11 => K_Indication
  | 12 => K_Pco
  | 13 => K_PdnAddressAllocation
  | 14 => K_BearerQos
  | 15 => K_FlowQos
  | 16 => K_RatType
  | 17 => K_ServingNetwork
  | 18 => K_BearerTft
  | 19 => K_TrafficAggregateDescription
  | 20 => K_Uli
  | 21 => K_Fteid
  | 22 => K_Tmsi
  | 23 => K_GlobalCnId
  | 24 => K_S103pdf
  | 25 => K_S1udf
  | 26 => K_DelayValue
  | 27 => K_BearerContext
  | 28 => K_ChargingId
  | 29 => K_ChargingCharacteristics
  | 30 => K_TraceInformation
  | 31 => K_BearerFlags
  | 32 => K_PdnType
  | 33 => K_Pti
  | 34 => K_MmContext
  | 35 => K_PdnConnections
  | 36 => K_PduNumbers
  | 37 => K_Ptmsi
  | 38 => K_PtmsiSignature
  | 39 => K_HopCounter
  | 40 => K_UeTimeZone
  | 41 => K_TraceReference
  | 42 => K_CompleteRequestMessage
  | 43 => K_Guti
  | 44 => K_Fcontainer
  | 45 => K_Fcause
  | 46 => K_PlmnId
  | 47 => K_TargetIdentification
  | 48 => K_PacketFlowId
  | 49 => K_RabContext
  | 50 => K_SrcRncPdcpCtxInfo
  | 51 => K_PortNumber
  | 52 => K_ApnRestriction
  | 53 => K_SelectionMode
  | 54 => K_SourceIdentification
  | 55 => K_ChangeReportingAction
  | 56 => K_Fqcsid
  | 57 => K_ChannelNeeded
  | 58 => K_EmlppPriority
  | 59 => K_NodeType
  | 60 => K_Fqdn
  | 61 => K_TransactionIdentifier
  | 62 => K_MbmsSa
  | 63 => K_MbmsSd
  | 64 => K_MbmsSessionId
  | 65 => K_MbmsFlowId
  | 66 => K_MbmsIpMulticastDistribution
  | 67 => K_MbmsDistributionAck
  | 68 => K_RfspIndex
  | 69 => K_Uci
  | 70 => K_CSGInformationReportingAction
  | 71 => K_CsgId
  | 72 => K_CsgMembershipIndication
  | 73 => K_ServiceIndicator
  | 74 => K_DetachType
  | 75 => K_Ldn
  | 76 => K_NodeFeatures
  | 77 => K_MbmsTimeToDataTransfer
  | 78 => K_Throttling
  | 79 => K_Arp
  | 80 => K_EpcTimer
  | 81 => K_Spi
  | 82 => K_Tmgi
  | 83 => K_AdditionalMmContextForSrvcc
  | 84 => K_AdditionalFlagsSrvcc
  | 85 => K_MdtConfiguration
  | 86 => K_Apco
  | 87 => K_AbsoluteTimeMbmsDataTransfer
  | 88 => K_HenbInfoReporting
  | 89 => K_Ip4Cp
  | 90 => K_ChangeToReportFlags
  | 91 => K_ActionIndication
  | 92 => K_TwanId
  | 93 => K_UliTimestamp
  | 94 => K_MbmsFlags
  | 95 => K_RanNasCause
  | 96 => K_CnOperatorSelectionEntity
  | 97 => K_Twmi
  | 98 => K_NodeNumber
  | 99 => K_NodeIdentifier
  | 100 => K_PresenceReportingAreaAction
  | 101 => K_PresenceReportingAreaInformation
  | 102 => K_TwanIdTimeStamp
  | 103 => K_OverloadControlInfo
  | 104 => K_LoadControlInfo
  | 105 => K_Metric
  | 106 => K_Sqn
  | 107 => K_ApnRelativeCapacity
  | 108 => K_WlanOffloadIndication
  | 109 => K_PagingServiceInfo
  | 110 => K_IntegerNumber
  | 111 => K_MilliSecondTimeStamp
  | 112 => K_MonitoringEventInformation
  | 113 => K_EcgiList
  | 114 => K_RemoteUeContext
  | 115 => K_RemoteUserId
  | 116 => K_RemoteUeIpInformation
  | 117 => K_CIoTOptimizationSupportIndication
  | 118 => K_ScefPdnConnections
  | 119 => K_HeaderCompressionConfiguration
  | 120 => K_Epco
  | 121 => K_ServingPlmnRateControl
  | 122 => K_Counter
  | 123 => K_MappedUeUsageType
  | 124 => K_SecondaryRatUsageDataReport
  | 125 => K_UpFunctionSelectionIndicationFlags
  | 126 => K_MaxPacketLossRate
  | 127 => K_ApnRateControlStatus
  | 128 => K_ExtendedTraceInformation
  | 129 => K_MonitoringEventExtensionInfo
  | 130 => K_AdditionalRrmPolicyIndex
  | 131 => K_V2xInformation
  | 132 => K_PC5QosParameters
  | 133 => K_ServicesAuthorized
  | 134 => K_BitRate
  | 135 => K_PC5QosFlow
  | 136 => K_SgiPtpTunnelAddress
  | 137 => K_PgwChangeInfo
  | 138 => K_PgwFqdn
  | 139 => K_GroupId
  | 140 => K_PSCellId
  | 141 => K_UpSecurityPolicy
  | 142 => K_AlternativeImsi
  | 143 => K_SpecialIEWithTypeExt
  | 144 => K_PrivateExtension
  | _ => K_Unknown
  end.

Lemma kind_at_id k : kind_at (kind_id k) = k.
Proof. destruct k; reflexivity. Qed.

Lemma kind_eqb_eq a b : kind_eqb a b = true <-> a = b.
Proof.
  unfold kind_eqb. rewrite N.eqb_eq. split; [|intros ->; reflexivity].
  intros H. rewrite <- (kind_at_id a), <- (kind_at_id b), H. reflexivity.
Qed.
