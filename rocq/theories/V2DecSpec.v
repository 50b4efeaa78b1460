(* V2DecSpec.v - the well-formed information elements an API user may encode. *)
From Coq Require Import Sorted.
From Verif Require Import Base.
From Verif Require Export V2Decoder V2IeSpec V2OkA V2OkB V2OkC V2OkCommon V2OkD V2OkE V2OkF.
Local Open Scope N_scope.

(* Plain IEs: [wf_ie] (V2IeSpec.v) at the type code of the IE, with its field ranges (V2Ok*.v). *)
Definition Imsi_wf (x : Tliv (list N)) : Prop := wf_ie 1 Imsi_value digits1 x.
Definition Cause_wf (x : Tliv cause) : Prop := wf_ie 2 Cause_value any x.
Definition Recovery_wf (x : Tliv N) : Prop := wf_ie 3 Recovery_value byte x.
Definition StnSr_wf (x : Tliv stn_sr) : Prop := wf_ie 51 StnSr_value StnSr_ok x.
Definition SrvccCause_wf (x : Tliv SrvccCauseValues) : Prop := wf_ie 56 SrvccCause_value any x.
Definition Apn_wf (x : Tliv (list N)) : Prop := wf_ie 71 Apn_value name_ok x.
Definition Ambr_wf (x : Tliv ambr) : Prop := wf_ie 72 Ambr_value Ambr_ok x.
Definition Ebi_wf (x : Tliv N) : Prop := wf_ie 73 Ebi_value four_bits x.
Definition IpAddress_wf (x : Tliv ipaddr) : Prop := wf_ie 74 IpAddress_value ipaddr_ok x.
Definition Mei_wf (x : Tliv (list N)) : Prop := wf_ie 75 Mei_value Mei_ok x.
Definition Msisdn_wf (x : Tliv (list N)) : Prop := wf_ie 76 Msisdn_value digits1 x.
Definition Indication_wf (x : Tliv indication) : Prop := wf_ie 77 Indication_value any x.
Definition Pco_wf (x : Tliv (list N)) : Prop := wf_ie 78 Pco_value octets1 x.
Definition PdnAddressAllocation_wf (x : Tliv pdn_address) : Prop := wf_ie 79 PdnAddressAllocation_value PdnAddressAllocation_ok x.
Definition BearerQos_wf (x : Tliv bearer_qos) : Prop := wf_ie 80 BearerQos_value BearerQos_ok x.
Definition FlowQos_wf (x : Tliv flow_qos) : Prop := wf_ie 81 FlowQos_value FlowQos_ok x.
Definition RatType_wf (x : Tliv Rat) : Prop := wf_ie 82 RatType_value any x.
Definition ServingNetwork_wf (x : Tliv plmn) : Prop := wf_ie 83 ServingNetwork_value plmn_ok x.
Definition BearerTft_wf (x : Tliv (list N)) : Prop := wf_ie 84 BearerTft_value octets1 x.
Definition TrafficAggregateDescription_wf (x : Tliv (list N)) : Prop := wf_ie 85 TrafficAggregateDescription_value octets1 x.
Definition Uli_wf (x : Tliv (list location)) : Prop := wf_ie 86 Uli_value Uli_ok x.
Definition Fteid_wf (x : Tliv fteid) : Prop := wf_ie 87 Fteid_value Fteid_ok x.
Definition Tmsi_wf (x : Tliv N) : Prop := wf_ie 88 Tmsi_value u32 x.
Definition GlobalCnId_wf (x : Tliv global_cn) : Prop := wf_ie 89 GlobalCnId_value GlobalCnId_ok x.
Definition S103pdf_wf (x : Tliv s103_pdf) : Prop := wf_ie 90 S103pdf_value S103pdf_ok x.
Definition S1udf_wf (x : Tliv s1_udf) : Prop := wf_ie 91 S1udf_value S1udf_ok x.
Definition DelayValue_wf (x : Tliv N) : Prop := wf_ie 92 DelayValue_value byte x.
Definition ChargingId_wf (x : Tliv N) : Prop := wf_ie 94 ChargingId_value u32 x.
Definition ChargingCharacteristics_wf (x : Tliv N) : Prop := wf_ie 95 ChargingCharacteristics_value u16 x.
Definition TraceInformation_wf (x : Tliv trace_info) : Prop := wf_ie 96 TraceInformation_value TraceInformation_ok x.
Definition BearerFlags_wf (x : Tliv bearer_flags) : Prop := wf_ie 97 BearerFlags_value any x.
Definition PdnType_wf (x : Tliv Pdn) : Prop := wf_ie 99 PdnType_value any x.
Definition Pti_wf (x : Tliv N) : Prop := wf_ie 100 Pti_value byte x.
Definition PduNumbers_wf (x : Tliv pdu_numbers) : Prop := wf_ie 110 PduNumbers_value PduNumbers_ok x.
Definition Ptmsi_wf (x : Tliv N) : Prop := wf_ie 111 Ptmsi_value u32 x.
Definition PtmsiSignature_wf (x : Tliv N) : Prop := wf_ie 112 PtmsiSignature_value u32 x.
Definition HopCounter_wf (x : Tliv N) : Prop := wf_ie 113 HopCounter_value byte x.
Definition UeTimeZone_wf (x : Tliv ue_time_zone) : Prop := wf_ie 114 UeTimeZone_value UeTimeZone_ok x.
Definition TraceReference_wf (x : Tliv trace_ref) : Prop := wf_ie 83 TraceReference_value TraceReference_ok x.
Definition CompleteRequestMessage_wf (x : Tliv request_message) : Prop := wf_ie 116 CompleteRequestMessage_value any x.
Definition Guti_wf (x : Tliv guti) : Prop := wf_ie 117 Guti_value Guti_ok x.
Definition Fcontainer_wf (x : Tliv container) : Prop := wf_ie 118 Fcontainer_value Fcontainer_ok x.
Definition Fcause_wf (x : Tliv fcause) : Prop := wf_ie 119 Fcause_value any x.
Definition PlmnId_wf (x : Tliv plmn) : Prop := wf_ie 120 PlmnId_value plmn_ok x.
Definition TargetIdentification_wf (x : Tliv target_type) : Prop := wf_ie 121 TargetIdentification_value target_type_ok x.
Definition PacketFlowId_wf (x : Tliv packet_flow) : Prop := wf_ie 123 PacketFlowId_value PacketFlowId_ok x.
Definition RabContext_wf (x : Tliv rab_ctx) : Prop := wf_ie 124 RabContext_value RabContext_ok x.
Definition SourceRncPdcpContextInfo_wf (x : Tliv (list N)) : Prop := wf_ie 125 SourceRncPdcpContextInfo_value octets1 x.
Definition PortNumber_wf (x : Tliv N) : Prop := wf_ie 126 PortNumber_value u16 x.
Definition ApnRestriction_wf (x : Tliv Restriction) : Prop := wf_ie 127 ApnRestriction_value any x.
Definition SelectionMode_wf (x : Tliv N) : Prop := wf_ie 128 SelectionMode_value two_bit x.
Definition SourceIdentification_wf (x : Tliv source_id) : Prop := wf_ie 129 SourceIdentification_value SourceIdentification_ok x.
Definition ChangeReportingAction_wf (x : Tliv N) : Prop := wf_ie 131 ChangeReportingAction_value byte x.
Definition Fqcsid_wf (x : Tliv fqcsid) : Prop := wf_ie 132 Fqcsid_value Fqcsid_ok x.
Definition ChannelNeeded_wf (x : Tliv N) : Prop := wf_ie 133 ChannelNeeded_value byte x.
Definition EmlppPriority_wf (x : Tliv N) : Prop := wf_ie 134 EmlppPriority_value three_bits x.
Definition NodeType_wf (x : Tliv Node) : Prop := wf_ie 135 NodeType_value any x.
Definition Fqdn_wf (x : Tliv (list N)) : Prop := wf_ie 136 Fqdn_value name_ok x.
Definition TransactionIdentifier_wf (x : Tliv transaction_id) : Prop := wf_ie 137 TransactionIdentifier_value TransactionIdentifier_ok x.
Definition MbmsServiceArea_wf (x : Tliv (list N)) : Prop := wf_ie 139 MbmsServiceArea_value MbmsServiceArea_ok x.
Definition MbmsSessionDuration_wf (x : Tliv mbms_sd) : Prop := wf_ie 138 MbmsSessionDuration_value MbmsSessionDuration_ok x.
Definition MbmsSessionId_wf (x : Tliv N) : Prop := wf_ie 140 MbmsSessionId_value byte x.
Definition MbmsFlowId_wf (x : Tliv N) : Prop := wf_ie 141 MbmsFlowId_value u16 x.
Definition MbmsIpMulticastDistribution_wf (x : Tliv mbms_multicast) : Prop := wf_ie 142 MbmsIpMulticastDistribution_value MbmsIpMulticastDistribution_ok x.
Definition MbmsDistributionAck_wf (x : Tliv N) : Prop := wf_ie 143 MbmsDistributionAck_value two_bits x.
Definition RfspIndex_wf (x : Tliv N) : Prop := wf_ie 144 RfspIndex_value u16 x.
Definition Uci_wf (x : Tliv uci) : Prop := wf_ie 145 Uci_value Uci_ok x.
Definition CSGInformationReportingAction_wf (x : Tliv N) : Prop := wf_ie 146 CSGInformationReportingAction_value three_bits x.
Definition CsgId_wf (x : Tliv N) : Prop := wf_ie 147 CsgId_value u32 x.
Definition CsgMembershipIndication_wf (x : Tliv CsgMembership) : Prop := wf_ie 148 CsgMembershipIndication_value any x.
Definition ServiceIndicator_wf (x : Tliv ServiceIndication) : Prop := wf_ie 149 ServiceIndicator_value any x.
Definition DetachType_wf (x : Tliv DetachTypeValue) : Prop := wf_ie 150 DetachType_value any x.
Definition Ldn_wf (x : Tliv (list N)) : Prop := wf_ie 151 Ldn_value ascii1 x.
Definition NodeFeatures_wf (x : Tliv node_features) : Prop := wf_ie 152 NodeFeatures_value any x.
Definition MbmsTimeToDataTransfer_wf (x : Tliv N) : Prop := wf_ie 153 MbmsTimeToDataTransfer_value byte x.
Definition Throttling_wf (x : Tliv throttle) : Prop := wf_ie 154 Throttling_value Throttling_ok x.
Definition Arp_wf (x : Tliv arp) : Prop := wf_ie 155 Arp_value Arp_ok x.
Definition EpcTimer_wf (x : Tliv epc_timer) : Prop := wf_ie 156 EpcTimer_value EpcTimer_ok x.
Definition Spi_wf (x : Tliv bool) : Prop := wf_ie 157 Spi_value any x.
Definition Tmgi_wf (x : Tliv (list N)) : Prop := wf_ie 158 Tmgi_value len_six x.
Definition AdditionalMmContextForSrvcc_wf (x : Tliv addmm_srvcc) : Prop := wf_ie 159 AdditionalMmContextForSrvcc_value AdditionalMmContextForSrvcc_ok x.
Definition AdditionalFlagsSrvcc_wf (x : Tliv addflags_srvcc) : Prop := wf_ie 160 AdditionalFlagsSrvcc_value any x.
Definition MdtConfiguration_wf (x : Tliv mdt_config) : Prop := wf_ie 162 MdtConfiguration_value MdtConfiguration_ok x.
Definition Apco_wf (x : Tliv (list N)) : Prop := wf_ie 163 Apco_value octets1 x.
Definition AbsoluteTimeMbmsDataTransfer_wf (x : Tliv N) : Prop := wf_ie 164 AbsoluteTimeMbmsDataTransfer_value u64 x.
Definition HenbInfoReporting_wf (x : Tliv bool) : Prop := wf_ie 165 HenbInfoReporting_value any x.
Definition Ip4Cp_wf (x : Tliv ip4cp) : Prop := wf_ie 166 Ip4Cp_value Ip4Cp_ok x.
Definition ChangeToReportFlags_wf (x : Tliv ctr_flags) : Prop := wf_ie 167 ChangeToReportFlags_value any x.
Definition ActionIndication_wf (x : Tliv IndicationValues) : Prop := wf_ie 168 ActionIndication_value any x.
Definition TwanId_wf (x : Tliv twan_id) : Prop := wf_ie 169 TwanId_value TwanId_ok x.
Definition UliTimestamp_wf (x : Tliv N) : Prop := wf_ie 170 UliTimestamp_value u32 x.
Definition MbmsFlags_wf (x : Tliv mbms_flags) : Prop := wf_ie 171 MbmsFlags_value any x.
Definition RanNasCause_wf (x : Tliv ran_nas_cause) : Prop := wf_ie 172 RanNasCause_value RanNasCause_ok x.
Definition CnOperatorSelectionEntity_wf (x : Tliv SelectMode) : Prop := wf_ie 173 CnOperatorSelectionEntity_value any x.
Definition Twmi_wf (x : Tliv twmi) : Prop := wf_ie 174 Twmi_value any x.
Definition NodeNumber_wf (x : Tliv (list N)) : Prop := wf_ie 175 NodeNumber_value NodeNumber_ok x.
Definition NodeIdentifier_wf (x : Tliv node_identifier) : Prop := wf_ie 176 NodeIdentifier_value NodeIdentifier_ok x.
Definition PresenceReportingAreaAction_wf (x : Tliv praa) : Prop := wf_ie 177 PresenceReportingAreaAction_value PresenceReportingAreaAction_ok x.
Definition PresenceReportingAreaInformation_wf (x : Tliv prai) : Prop := wf_ie 178 PresenceReportingAreaInformation_value PresenceReportingAreaInformation_ok x.
Definition TwanIdTimeStamp_wf (x : Tliv N) : Prop := wf_ie 179 TwanIdTimeStamp_value u32 x.
Definition Metric_wf (x : Tliv N) : Prop := wf_ie 182 Metric_value percent x.
Definition Sqn_wf (x : Tliv N) : Prop := wf_ie 183 Sqn_value u32 x.
Definition ApnRelativeCapacity_wf (x : Tliv apn_rel_cap) : Prop := wf_ie 184 ApnRelativeCapacity_value ApnRelativeCapacity_ok x.
Definition WlanOffloadIndication_wf (x : Tliv wlan_offload) : Prop := wf_ie 185 WlanOffloadIndication_value any x.
Definition PagingServiceInfo_wf (x : Tliv paging_info) : Prop := wf_ie 186 PagingServiceInfo_value PagingServiceInfo_ok x.
Definition IntegerNumber_wf (x : Tliv (list N)) : Prop := wf_ie 187 IntegerNumber_value octets1 x.
Definition MilliSecondTimeStamp_wf (x : Tliv N) : Prop := wf_ie 188 MilliSecondTimeStamp_value six_octets x.
Definition MonitoringEventInformation_wf (x : Tliv mon_info) : Prop := wf_ie 189 MonitoringEventInformation_value MonitoringEventInformation_ok x.
Definition EcgiList_wf (x : Tliv (option (list ecgi))) : Prop := wf_ie 190 EcgiList_value EcgiList_ok x.
Definition RemoteUserId_wf (x : Tliv remote_user) : Prop := wf_ie 192 RemoteUserId_value RemoteUserId_ok x.
Definition RemoteUeIpInformation_wf (x : Tliv remote_ip) : Prop := wf_ie 193 RemoteUeIpInformation_value RemoteUeIpInformation_ok x.
Definition CIoTOptimizationSupportIndication_wf (x : Tliv ciot) : Prop := wf_ie 194 CIoTOptimizationSupportIndication_value any x.
Definition HeaderCompressionConfiguration_wf (x : Tliv hdr_compr) : Prop := wf_ie 196 HeaderCompressionConfiguration_value HeaderCompressionConfiguration_ok x.
Definition Epco_wf (x : Tliv (list N)) : Prop := wf_ie 197 Epco_value octets1 x.
Definition ServingPlmnRateControl_wf (x : Tliv plmn_rate) : Prop := wf_ie 198 ServingPlmnRateControl_value ServingPlmnRateControl_ok x.
Definition Counter_wf (x : Tliv counter) : Prop := wf_ie 199 Counter_value Counter_ok x.
Definition MappedUeUsageType_wf (x : Tliv N) : Prop := wf_ie 200 MappedUeUsageType_value u16 x.
Definition SecondaryRatUsageDataReport_wf (x : Tliv rat_report) : Prop := wf_ie 201 SecondaryRatUsageDataReport_value SecondaryRatUsageDataReport_ok x.
Definition UpFunctionSelectionIndicationFlags_wf (x : Tliv bool) : Prop := wf_ie 202 UpFunctionSelectionIndicationFlags_value any x.
Definition MaxPacketLossRate_wf (x : Tliv max_loss) : Prop := wf_ie 203 MaxPacketLossRate_value MaxPacketLossRate_ok x.
Definition ApnRateControlStatus_wf (x : Tliv apn_rate) : Prop := wf_ie 204 ApnRateControlStatus_value ApnRateControlStatus_ok x.
Definition ExtendedTraceInformation_wf (x : Tliv ext_trace) : Prop := wf_ie 205 ExtendedTraceInformation_value ExtendedTraceInformation_ok x.
Definition MonitoringEventExtensionInfo_wf (x : Tliv mon_ext) : Prop := wf_ie 206 MonitoringEventExtensionInfo_value MonitoringEventExtensionInfo_ok x.
Definition AdditionalRrmPolicyIndex_wf (x : Tliv N) : Prop := wf_ie 207 AdditionalRrmPolicyIndex_value u32 x.
Definition ServicesAuthorized_wf (x : Tliv services_auth) : Prop := wf_ie 210 ServicesAuthorized_value any x.
Definition BitRate_wf (x : Tliv N) : Prop := wf_ie 211 BitRate_value u32 x.
Definition PC5QosFlow_wf (x : Tliv pc5_flow) : Prop := wf_ie 212 PC5QosFlow_value PC5QosFlow_ok x.
Definition SgiPtpTunnelAddress_wf (x : Tliv sgi_tunnel) : Prop := wf_ie 213 SgiPtpTunnelAddress_value SgiPtpTunnelAddress_ok x.
Definition PgwFqdn_wf (x : Tliv (list N)) : Prop := wf_ie 215 PgwFqdn_value name_ok x.
Definition GroupId_wf (x : Tliv (list N)) : Prop := wf_ie 216 GroupId_value octets1 x.
Definition PSCellId_wf (x : Tliv pscell) : Prop := wf_ie 217 PSCellId_value PSCellId_ok x.
Definition UpSecurityPolicy_wf (x : Tliv UpIpPolicy) : Prop := wf_ie 218 UpSecurityPolicy_value any x.
Definition AlternativeImsi_wf (x : Tliv (list N)) : Prop := wf_ie 219 AlternativeImsi_value digits1 x.
Definition SpecialIEWithTypeExt_wf (x : Tliv special_ie) : Prop := wf_ie 254 SpecialIEWithTypeExt_value SpecialIEWithTypeExt_ok x.
Definition PrivateExtension_wf (x : Tliv private_ext) : Prop := wf_ie 255 PrivateExtension_value PrivateExtension_ok x.
Definition Unknown_wf (x : Tliv (list N)) : Prop := wf_ie (ie_t x) Unknown_value octets1 x.

(* Grouped IEs: every member is well formed and carries the instance under which the field is
   read back. *)
Definition mem {A} (wf : Tliv A -> Prop) (ok : N -> bool) (x : Tliv A) : Prop := wf x /\ ok (ie_ins x) = true.
(* at most one APN: the decoder keeps only the last *)
Definition LoadControl_ok (v : load_control) : Prop :=
  mem Sqn_wf ins_any (lc_sqn v) /\
  mem Metric_wf ins_any (lc_metric v) /\
  (lc_list v = None \/ exists k, lc_list v = Some [k] /\ mem ApnRelativeCapacity_wf ins_any k).
Definition LoadControl_wf (x : Tliv load_control) : Prop := wf_ie 181 LoadControl_value LoadControl_ok x.
(* at most one APN: the decoder keeps only the last *)
Definition OverloadControlInfo_ok (v : overload_control) : Prop :=
  mem Sqn_wf ins_any (oc_sqn v) /\
  mem Metric_wf ins_any (oc_metric v) /\
  mem EpcTimer_wf ins_any (oc_validity v) /\
  (oc_list v = None \/ exists k, oc_list v = Some [k] /\ mem Apn_wf ins_any k).
Definition OverloadControlInfo_wf (x : Tliv overload_control) : Prop := wf_ie 180 OverloadControlInfo_value OverloadControlInfo_ok x.
Definition RemoteUeContext_ok (v : remote_ue_context) : Prop :=
  mem RemoteUserId_wf ins_any (re_user_id v) /\
  opt_ok (mem RemoteUeIpInformation_wf ins_any) (re_ue_ip v).
Definition RemoteUeContext_wf (x : Tliv remote_ue_context) : Prop := wf_ie 191 RemoteUeContext_value RemoteUeContext_ok x.
Definition PC5QosParameters_ok (v : pc5_qos_parameters) : Prop :=
  Forall (mem PC5QosFlow_wf (ins_is 0)) (p5_flows v) /\
  opt_ok (mem BitRate_wf (ins_is 0)) (p5_abrs v) /\
  p5_flows v <> [].
Definition PC5QosParameters_wf (x : Tliv pc5_qos_parameters) : Prop := wf_ie 209 PC5QosParameters_value PC5QosParameters_ok x.
Definition PgwChangeInfo_ok (v : pgw_change_info) : Prop :=
  Forall (mem PgwFqdn_wf (ins_below 2)) (pw_fqdns v) /\
  Forall (mem IpAddress_wf (ins_below 4)) (pw_ips v) /\
  Forall (mem Fqcsid_wf (ins_is 0)) (pw_fqcsid v) /\
  Forall (mem GroupId_wf (ins_below 2)) (pw_groupids v) /\
  PgwChangeInfo_value v <> [].
Definition PgwChangeInfo_wf (x : Tliv pgw_change_info) : Prop := wf_ie 214 PgwChangeInfo_value PgwChangeInfo_ok x.
Definition ScefPdnConnections_ok (v : scef_pdn_connections) : Prop :=
  mem Apn_wf (ins_is 0) (sf_apn v) /\
  mem Ebi_wf (ins_is 0) (sf_ebi v) /\
  mem NodeIdentifier_wf (ins_is 0) (sf_scef v).
Definition ScefPdnConnections_wf (x : Tliv scef_pdn_connections) : Prop := wf_ie 195 ScefPdnConnections_value ScefPdnConnections_ok x.
(* the BSS container and the transaction identifier are never encoded *)
Definition BearerContext_ok (v : bearer_context) : Prop :=
  mem Ebi_wf (ins_is 0) (bc_ebi v) /\
  opt_ok (mem Cause_wf (ins_is 0)) (bc_cause v) /\
  opt_ok (mem BearerTft_wf (ins_is 0)) (bc_tft v) /\
  Forall (mem Fteid_wf ins_any) (bc_fteids v) /\
  opt_ok (mem BearerQos_wf (ins_is 0)) (bc_qos v) /\
  opt_ok (mem ChargingId_wf (ins_is 0)) (bc_charging v) /\
  opt_ok (mem BearerFlags_wf (ins_is 0)) (bc_flags v) /\
  opt_ok (mem Pco_wf (ins_is 0)) (bc_pco v) /\
  opt_ok (mem Apco_wf (ins_is 0)) (bc_apco v) /\
  opt_ok (mem Epco_wf (ins_is 0)) (bc_epco v) /\
  opt_ok (mem MaxPacketLossRate_wf (ins_is 0)) (bc_loss v) /\
  opt_ok (mem RanNasCause_wf (ins_is 0)) (bc_ran v) /\
  bc_bss v = None /\
  bc_ti v = None.
Definition BearerContext_wf (x : Tliv bearer_context) : Prop := wf_ie 93 BearerContext_value BearerContext_ok x.
Definition V2xInformation_ok (v : v2x_information) : Prop :=
  Forall (mem ServicesAuthorized_wf (ins_below 2)) (vx_auth v) /\
  Forall (mem BitRate_wf (ins_below 2)) (vx_brs v) /\
  opt_ok (mem PC5QosParameters_wf (ins_is 0)) (vx_qos v) /\
  V2xInformation_value v <> [].
Definition V2xInformation_wf (x : Tliv v2x_information) : Prop := wf_ie 208 V2xInformation_value V2xInformation_ok x.
(* the last two fields are never encoded *)
Definition PdnConnections_ok (v : pdn_connections) : Prop :=
  mem Apn_wf (ins_is 0) (pn_apn v) /\
  opt_ok (mem ApnRestriction_wf (ins_is 0)) (pn_restriction v) /\
  opt_ok (mem SelectionMode_wf (ins_is 0)) (pn_selection v) /\
  opt_ok (mem IpAddress_wf (ins_is 0)) (pn_ipv4 v) /\
  opt_ok (mem IpAddress_wf (ins_is 1)) (pn_ipv6 v) /\
  mem Ebi_wf (ins_is 0) (pn_ebi v) /\
  mem Fteid_wf (ins_is 0) (pn_pgw v) /\
  opt_ok (mem Fqdn_wf (ins_is 0)) (pn_node_name v) /\
  Forall (mem BearerContext_wf (ins_is 0)) (pn_bearers v) /\
  mem Ambr_wf (ins_is 0) (pn_ambr v) /\
  opt_ok (mem ChargingCharacteristics_wf (ins_is 0)) (pn_charging v) /\
  opt_ok (mem ChangeReportingAction_wf (ins_is 0)) (pn_reporting v) /\
  opt_ok (mem CSGInformationReportingAction_wf (ins_is 0)) (pn_csg v) /\
  opt_ok (mem HenbInfoReporting_wf (ins_is 0)) (pn_henb v) /\
  opt_ok (mem Indication_wf (ins_is 0)) (pn_indication v) /\
  opt_ok (mem Spi_wf (ins_is 0)) (pn_spi v) /\
  opt_ok (mem ChangeToReportFlags_wf (ins_is 0)) (pn_report_flags v) /\
  opt_ok (mem Fqdn_wf (ins_is 1)) (pn_home v) /\
  opt_ok (mem PresenceReportingAreaAction_wf (ins_is 0)) (pn_praa v) /\
  opt_ok (mem WlanOffloadIndication_wf (ins_is 0)) (pn_wlan v) /\
  Forall (mem RemoteUeContext_wf (ins_is 0)) (pn_remotes v) /\
  opt_ok (mem PdnType_wf (ins_is 0)) (pn_pdn_type v) /\
  opt_ok (mem HeaderCompressionConfiguration_wf (ins_is 0)) (pn_compr v) /\
  pn_change v = None /\
  pn_policy v = None.
Definition PdnConnections_wf (x : Tliv pdn_connections) : Prop := wf_ie 109 PdnConnections_value PdnConnections_ok x.

Definition ie_wf (e : ie) : Prop :=
  match e with
  | IE_Imsi i => Imsi_wf i
  | IE_Cause i => Cause_wf i
  | IE_Recovery i => Recovery_wf i
  | IE_StnSr i => StnSr_wf i
  | IE_SrvccCause i => SrvccCause_wf i
  | IE_Apn i => Apn_wf i
  | IE_ApnAmbr i => Ambr_wf i
  | IE_Ebi i => Ebi_wf i
  | IE_IpAddress i => IpAddress_wf i
  | IE_Mei i => Mei_wf i
  | IE_Msisdn i => Msisdn_wf i
  | IE_Indication i => Indication_wf i
  | IE_Pco i => Pco_wf i
  | IE_PdnAddressAllocation i => PdnAddressAllocation_wf i
  | IE_BearerQos i => BearerQos_wf i
  | IE_FlowQos i => FlowQos_wf i
  | IE_RatType i => RatType_wf i
  | IE_ServingNetwork i => ServingNetwork_wf i
  | IE_BearerTft i => BearerTft_wf i
  | IE_TrafficAggregateDescription i => TrafficAggregateDescription_wf i
  | IE_Uli i => Uli_wf i
  | IE_Fteid i => Fteid_wf i
  | IE_Tmsi i => Tmsi_wf i
  | IE_GlobalCnId i => GlobalCnId_wf i
  | IE_S103pdf i => S103pdf_wf i
  | IE_S1udf i => S1udf_wf i
  | IE_DelayValue i => DelayValue_wf i
  | IE_BearerContext i => BearerContext_wf i
  | IE_ChargingId i => ChargingId_wf i
  | IE_ChargingCharacteristics i => ChargingCharacteristics_wf i
  | IE_TraceInformation i => TraceInformation_wf i
  | IE_BearerFlags i => BearerFlags_wf i
  | IE_PdnType i => PdnType_wf i
  | IE_Pti i => Pti_wf i
  | IE_MmContext i => MmContext_wf i
  | IE_PdnConnections i => PdnConnections_wf i
  | IE_PduNumbers i => PduNumbers_wf i
  | IE_Ptmsi i => Ptmsi_wf i
  | IE_PtmsiSignature i => PtmsiSignature_wf i
  | IE_HopCounter i => HopCounter_wf i
  | IE_UeTimeZone i => UeTimeZone_wf i
  | IE_TraceReference i => TraceReference_wf i
  | IE_CompleteRequestMessage i => CompleteRequestMessage_wf i
  | IE_Guti i => Guti_wf i
  | IE_Fcontainer i => Fcontainer_wf i
  | IE_Fcause i => Fcause_wf i
  | IE_PlmnId i => PlmnId_wf i
  | IE_TargetIdentification i => TargetIdentification_wf i
  | IE_PacketFlowId i => PacketFlowId_wf i
  | IE_RabContext i => RabContext_wf i
  | IE_SrcRncPdcpCtxInfo i => SourceRncPdcpContextInfo_wf i
  | IE_PortNumber i => PortNumber_wf i
  | IE_ApnRestriction i => ApnRestriction_wf i
  | IE_SelectionMode i => SelectionMode_wf i
  | IE_SourceIdentification i => SourceIdentification_wf i
  | IE_ChangeReportingAction i => ChangeReportingAction_wf i
  | IE_Fqcsid i => Fqcsid_wf i
  | IE_ChannelNeeded i => ChannelNeeded_wf i
  | IE_EmlppPriority i => EmlppPriority_wf i
  | IE_NodeType i => NodeType_wf i
  | IE_Fqdn i => Fqdn_wf i
  | IE_TransactionIdentifier i => TransactionIdentifier_wf i
  | IE_MbmsSa i => MbmsServiceArea_wf i
  | IE_MbmsSd i => MbmsSessionDuration_wf i
  | IE_MbmsSessionId i => MbmsSessionId_wf i
  | IE_MbmsFlowId i => MbmsFlowId_wf i
  | IE_MbmsIpMulticastDistribution i => MbmsIpMulticastDistribution_wf i
  | IE_MbmsDistributionAck i => MbmsDistributionAck_wf i
  | IE_RfspIndex i => RfspIndex_wf i
  | IE_Uci i => Uci_wf i
  | IE_CSGInformationReportingAction i => CSGInformationReportingAction_wf i
  | IE_CsgId i => CsgId_wf i
  | IE_CsgMembershipIndication i => CsgMembershipIndication_wf i
  | IE_ServiceIndicator i => ServiceIndicator_wf i
  | IE_DetachType i => DetachType_wf i
  | IE_Ldn i => Ldn_wf i
  | IE_NodeFeatures i => NodeFeatures_wf i
  | IE_MbmsTimeToDataTransfer i => MbmsTimeToDataTransfer_wf i
  | IE_Throttling i => Throttling_wf i
  | IE_Arp i => Arp_wf i
  | IE_EpcTimer i => EpcTimer_wf i
  | IE_Spi i => Spi_wf i
  | IE_Tmgi i => Tmgi_wf i
  | IE_AdditionalMmContextForSrvcc i => AdditionalMmContextForSrvcc_wf i
  | IE_AdditionalFlagsSrvcc i => AdditionalFlagsSrvcc_wf i
  | IE_MdtConfiguration i => MdtConfiguration_wf i
  | IE_Apco i => Apco_wf i
  | IE_AbsoluteTimeMbmsDataTransfer i => AbsoluteTimeMbmsDataTransfer_wf i
  | IE_HenbInfoReporting i => HenbInfoReporting_wf i
  | IE_Ip4Cp i => Ip4Cp_wf i
  | IE_ChangeToReportFlags i => ChangeToReportFlags_wf i
  | IE_ActionIndication i => ActionIndication_wf i
  | IE_TwanId i => TwanId_wf i
  | IE_UliTimestamp i => UliTimestamp_wf i
  | IE_MbmsFlags i => MbmsFlags_wf i
  | IE_RanNasCause i => RanNasCause_wf i
  | IE_CnOperatorSelectionEntity i => CnOperatorSelectionEntity_wf i
  | IE_Twmi i => Twmi_wf i
  | IE_NodeNumber i => NodeNumber_wf i
  | IE_NodeIdentifier i => NodeIdentifier_wf i
  | IE_PresenceReportingAreaAction i => PresenceReportingAreaAction_wf i
  | IE_PresenceReportingAreaInformation i => PresenceReportingAreaInformation_wf i
  | IE_TwanIdTimeStamp i => TwanIdTimeStamp_wf i
  | IE_OverloadControlInfo i => OverloadControlInfo_wf i
  | IE_LoadControlInfo i => LoadControl_wf i
  | IE_Metric i => Metric_wf i
  | IE_Sqn i => Sqn_wf i
  | IE_ApnRelativeCapacity i => ApnRelativeCapacity_wf i
  | IE_WlanOffloadIndication i => WlanOffloadIndication_wf i
  | IE_PagingServiceInfo i => PagingServiceInfo_wf i
  | IE_IntegerNumber i => IntegerNumber_wf i
  | IE_MilliSecondTimeStamp i => MilliSecondTimeStamp_wf i
  | IE_MonitoringEventInformation i => MonitoringEventInformation_wf i
  | IE_EcgiList i => EcgiList_wf i
  | IE_RemoteUeContext i => RemoteUeContext_wf i
  | IE_RemoteUserId i => RemoteUserId_wf i
  | IE_RemoteUeIpInformation i => RemoteUeIpInformation_wf i
  | IE_CIoTOptimizationSupportIndication i => CIoTOptimizationSupportIndication_wf i
  | IE_ScefPdnConnections i => ScefPdnConnections_wf i
  | IE_HeaderCompressionConfiguration i => HeaderCompressionConfiguration_wf i
  | IE_Epco i => Epco_wf i
  | IE_ServingPlmnRateControl i => ServingPlmnRateControl_wf i
  | IE_Counter i => Counter_wf i
  | IE_MappedUeUsageType i => MappedUeUsageType_wf i
  | IE_SecondaryRatUsageDataReport i => SecondaryRatUsageDataReport_wf i
  | IE_UpFunctionSelectionIndicationFlags i => UpFunctionSelectionIndicationFlags_wf i
  | IE_MaxPacketLossRate i => MaxPacketLossRate_wf i
  | IE_ApnRateControlStatus i => ApnRateControlStatus_wf i
  | IE_ExtendedTraceInformation i => ExtendedTraceInformation_wf i
  | IE_MonitoringEventExtensionInfo i => MonitoringEventExtensionInfo_wf i
  | IE_AdditionalRrmPolicyIndex i => AdditionalRrmPolicyIndex_wf i
  | IE_V2xInformation i => V2xInformation_wf i
  | IE_PC5QosParameters i => PC5QosParameters_wf i
  | IE_ServicesAuthorized i => ServicesAuthorized_wf i
  | IE_BitRate i => BitRate_wf i
  | IE_PC5QosFlow i => PC5QosFlow_wf i
  | IE_SgiPtpTunnelAddress i => SgiPtpTunnelAddress_wf i
  | IE_PgwChangeInfo i => PgwChangeInfo_wf i
  | IE_PgwFqdn i => PgwFqdn_wf i
  | IE_GroupId i => GroupId_wf i
  | IE_PSCellId i => PSCellId_wf i
  | IE_UpSecurityPolicy i => UpSecurityPolicy_wf i
  | IE_AlternativeImsi i => AlternativeImsi_wf i
  | IE_SpecialIEWithTypeExt i => SpecialIEWithTypeExt_wf i
  | IE_PrivateExtension i => PrivateExtension_wf i
  | IE_Unknown i => Unknown_wf i
  end.

(* The three kinds the decoder does not bring back: TWAN Identifier (type 169 is decoded as an Action
   Indication), Trace Reference (written with the type code of Serving Network) and unknown IEs (the
   type code is not kept). *)
Definition routed (e : ie) : Prop :=
  match e with IE_TwanId _ | IE_TraceReference _ | IE_Unknown _ => False | _ => True end.
