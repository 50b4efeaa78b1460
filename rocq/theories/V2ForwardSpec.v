(* V2ForwardSpec.v - which received GTPv2-C elements can be sent on: what a sender must check before it
   encodes an element it has decoded, and what the next receiver then has. *)
From Verif Require Import Base.
From Verif Require Export V2ListSpec.
Local Open Scope N_scope.

(* ------------------------------------------------------------------------- *)
(* What the next receiver has: the same value, with lengths that are those of the octets now sent. *)

Definition true_length {A} (c : Tliv A -> ie) (x : Tliv A) : Tliv A :=
  mkIe (ie_t x) (nlen (ie_marshal (c x)) - 4) (ie_ins x) (ie_v x).
(* a group: the members first *)
Definition true_lengths {A} (c : Tliv A -> ie) (f : A -> A) (x : Tliv A) : Tliv A :=
  true_length c (mkIe (ie_t x) (ie_length x) (ie_ins x) (f (ie_v x))).

Definition LoadControl_again (v : load_control) : load_control := {|
  lc_sqn := true_length IE_Sqn (lc_sqn v);
  lc_metric := true_length IE_Metric (lc_metric v);
  lc_list := option_map (map (true_length IE_ApnRelativeCapacity)) (lc_list v) |}.
Definition OverloadControlInfo_again (v : overload_control) : overload_control := {|
  oc_sqn := true_length IE_Sqn (oc_sqn v);
  oc_metric := true_length IE_Metric (oc_metric v);
  oc_validity := true_length IE_EpcTimer (oc_validity v);
  oc_list := option_map (map (true_length IE_Apn)) (oc_list v) |}.
Definition RemoteUeContext_again (v : remote_ue_context) : remote_ue_context := {|
  re_user_id := true_length IE_RemoteUserId (re_user_id v);
  re_ue_ip := option_map (true_length IE_RemoteUeIpInformation) (re_ue_ip v) |}.
Definition PC5QosParameters_again (v : pc5_qos_parameters) : pc5_qos_parameters := {|
  p5_flows := map (true_length IE_PC5QosFlow) (p5_flows v);
  p5_abrs := option_map (true_length IE_BitRate) (p5_abrs v) |}.
Definition PgwChangeInfo_again (v : pgw_change_info) : pgw_change_info := {|
  pw_fqdns := map (true_length IE_PgwFqdn) (pw_fqdns v);
  pw_ips := map (true_length IE_IpAddress) (pw_ips v);
  pw_fqcsid := map (true_length IE_Fqcsid) (pw_fqcsid v);
  pw_groupids := map (true_length IE_GroupId) (pw_groupids v) |}.
Definition ScefPdnConnections_again (v : scef_pdn_connections) : scef_pdn_connections := {|
  sf_apn := true_length IE_Apn (sf_apn v);
  sf_ebi := true_length IE_Ebi (sf_ebi v);
  sf_scef := true_length IE_NodeIdentifier (sf_scef v) |}.
Definition BearerContext_again (v : bearer_context) : bearer_context := {|
  bc_ebi := true_length IE_Ebi (bc_ebi v);
  bc_cause := option_map (true_length IE_Cause) (bc_cause v);
  bc_tft := option_map (true_length IE_BearerTft) (bc_tft v);
  bc_fteids := map (true_length IE_Fteid) (bc_fteids v);
  bc_qos := option_map (true_length IE_BearerQos) (bc_qos v);
  bc_charging := option_map (true_length IE_ChargingId) (bc_charging v);
  bc_flags := option_map (true_length IE_BearerFlags) (bc_flags v);
  bc_pco := option_map (true_length IE_Pco) (bc_pco v);
  bc_apco := option_map (true_length IE_Apco) (bc_apco v);
  bc_epco := option_map (true_length IE_Epco) (bc_epco v);
  bc_loss := option_map (true_length IE_MaxPacketLossRate) (bc_loss v);
  bc_ran := option_map (true_length IE_RanNasCause) (bc_ran v);
  bc_bss := bc_bss v;
  bc_ti := bc_ti v |}.
Definition V2xInformation_again (v : v2x_information) : v2x_information := {|
  vx_auth := map (true_length IE_ServicesAuthorized) (vx_auth v);
  vx_brs := map (true_length IE_BitRate) (vx_brs v);
  vx_qos := option_map (true_lengths IE_PC5QosParameters PC5QosParameters_again) (vx_qos v) |}.
Definition PdnConnections_again (v : pdn_connections) : pdn_connections := {|
  pn_apn := true_length IE_Apn (pn_apn v);
  pn_restriction := option_map (true_length IE_ApnRestriction) (pn_restriction v);
  pn_selection := option_map (true_length IE_SelectionMode) (pn_selection v);
  pn_ipv4 := option_map (true_length IE_IpAddress) (pn_ipv4 v);
  pn_ipv6 := option_map (true_length IE_IpAddress) (pn_ipv6 v);
  pn_ebi := true_length IE_Ebi (pn_ebi v);
  pn_pgw := true_length IE_Fteid (pn_pgw v);
  pn_node_name := option_map (true_length IE_Fqdn) (pn_node_name v);
  pn_bearers := map (true_lengths IE_BearerContext BearerContext_again) (pn_bearers v);
  pn_ambr := true_length IE_ApnAmbr (pn_ambr v);
  pn_charging := option_map (true_length IE_ChargingCharacteristics) (pn_charging v);
  pn_reporting := option_map (true_length IE_ChangeReportingAction) (pn_reporting v);
  pn_csg := option_map (true_length IE_CSGInformationReportingAction) (pn_csg v);
  pn_henb := option_map (true_length IE_HenbInfoReporting) (pn_henb v);
  pn_indication := option_map (true_length IE_Indication) (pn_indication v);
  pn_spi := option_map (true_length IE_Spi) (pn_spi v);
  pn_report_flags := option_map (true_length IE_ChangeToReportFlags) (pn_report_flags v);
  pn_home := option_map (true_length IE_Fqdn) (pn_home v);
  pn_praa := option_map (true_length IE_PresenceReportingAreaAction) (pn_praa v);
  pn_wlan := option_map (true_length IE_WlanOffloadIndication) (pn_wlan v);
  pn_remotes := map (true_lengths IE_RemoteUeContext RemoteUeContext_again) (pn_remotes v);
  pn_pdn_type := option_map (true_length IE_PdnType) (pn_pdn_type v);
  pn_compr := option_map (true_length IE_HeaderCompressionConfiguration) (pn_compr v);
  pn_change := pn_change v;
  pn_policy := pn_policy v |}.
Definition Mm_again (x : MmContext) : MmContext :=
  match x with

  | MmEps y => MmEps (true_length (fun y => IE_MmContext (MmEps y)) y)
  | MmUmtsQ y => MmUmtsQ (true_length (fun y => IE_MmContext (MmUmtsQ y)) y)
  | MmUmtsQq y => MmUmtsQq (true_length (fun y => IE_MmContext (MmUmtsQq y)) y)
  | MmUmtsCq y => MmUmtsCq (true_length (fun y => IE_MmContext (MmUmtsCq y)) y)
  | MmGsmT y => MmGsmT (true_length (fun y => IE_MmContext (MmGsmT y)) y)
  | MmGsmCq y => MmGsmCq (true_length (fun y => IE_MmContext (MmGsmCq y)) y)
  end.
Definition again (e : ie) : ie :=
  match e with
  | IE_Imsi x => IE_Imsi (true_length IE_Imsi x)
  | IE_Cause x => IE_Cause (true_length IE_Cause x)
  | IE_Recovery x => IE_Recovery (true_length IE_Recovery x)
  | IE_StnSr x => IE_StnSr (true_length IE_StnSr x)
  | IE_SrvccCause x => IE_SrvccCause (true_length IE_SrvccCause x)
  | IE_Apn x => IE_Apn (true_length IE_Apn x)
  | IE_ApnAmbr x => IE_ApnAmbr (true_length IE_ApnAmbr x)
  | IE_Ebi x => IE_Ebi (true_length IE_Ebi x)
  | IE_IpAddress x => IE_IpAddress (true_length IE_IpAddress x)
  | IE_Mei x => IE_Mei (true_length IE_Mei x)
  | IE_Msisdn x => IE_Msisdn (true_length IE_Msisdn x)
  | IE_Indication x => IE_Indication (true_length IE_Indication x)
  | IE_Pco x => IE_Pco (true_length IE_Pco x)
  | IE_PdnAddressAllocation x => IE_PdnAddressAllocation (true_length IE_PdnAddressAllocation x)
  | IE_BearerQos x => IE_BearerQos (true_length IE_BearerQos x)
  | IE_FlowQos x => IE_FlowQos (true_length IE_FlowQos x)
  | IE_RatType x => IE_RatType (true_length IE_RatType x)
  | IE_ServingNetwork x => IE_ServingNetwork (true_length IE_ServingNetwork x)
  | IE_BearerTft x => IE_BearerTft (true_length IE_BearerTft x)
  | IE_TrafficAggregateDescription x => IE_TrafficAggregateDescription (true_length IE_TrafficAggregateDescription x)
  | IE_Uli x => IE_Uli (true_length IE_Uli x)
  | IE_Fteid x => IE_Fteid (true_length IE_Fteid x)
  | IE_Tmsi x => IE_Tmsi (true_length IE_Tmsi x)
  | IE_GlobalCnId x => IE_GlobalCnId (true_length IE_GlobalCnId x)
  | IE_S103pdf x => IE_S103pdf (true_length IE_S103pdf x)
  | IE_S1udf x => IE_S1udf (true_length IE_S1udf x)
  | IE_DelayValue x => IE_DelayValue (true_length IE_DelayValue x)
  | IE_BearerContext x => IE_BearerContext (true_lengths IE_BearerContext BearerContext_again x)
  | IE_ChargingId x => IE_ChargingId (true_length IE_ChargingId x)
  | IE_ChargingCharacteristics x => IE_ChargingCharacteristics (true_length IE_ChargingCharacteristics x)
  | IE_TraceInformation x => IE_TraceInformation (true_length IE_TraceInformation x)
  | IE_BearerFlags x => IE_BearerFlags (true_length IE_BearerFlags x)
  | IE_PdnType x => IE_PdnType (true_length IE_PdnType x)
  | IE_Pti x => IE_Pti (true_length IE_Pti x)
  | IE_MmContext x => IE_MmContext (Mm_again x)
  | IE_PdnConnections x => IE_PdnConnections (true_lengths IE_PdnConnections PdnConnections_again x)
  | IE_PduNumbers x => IE_PduNumbers (true_length IE_PduNumbers x)
  | IE_Ptmsi x => IE_Ptmsi (true_length IE_Ptmsi x)
  | IE_PtmsiSignature x => IE_PtmsiSignature (true_length IE_PtmsiSignature x)
  | IE_HopCounter x => IE_HopCounter (true_length IE_HopCounter x)
  | IE_UeTimeZone x => IE_UeTimeZone (true_length IE_UeTimeZone x)
  | IE_TraceReference x => IE_TraceReference (true_length IE_TraceReference x)
  | IE_CompleteRequestMessage x => IE_CompleteRequestMessage (true_length IE_CompleteRequestMessage x)
  | IE_Guti x => IE_Guti (true_length IE_Guti x)
  | IE_Fcontainer x => IE_Fcontainer (true_length IE_Fcontainer x)
  | IE_Fcause x => IE_Fcause (true_length IE_Fcause x)
  | IE_PlmnId x => IE_PlmnId (true_length IE_PlmnId x)
  | IE_TargetIdentification x => IE_TargetIdentification (true_length IE_TargetIdentification x)
  | IE_PacketFlowId x => IE_PacketFlowId (true_length IE_PacketFlowId x)
  | IE_RabContext x => IE_RabContext (true_length IE_RabContext x)
  | IE_SrcRncPdcpCtxInfo x => IE_SrcRncPdcpCtxInfo (true_length IE_SrcRncPdcpCtxInfo x)
  | IE_PortNumber x => IE_PortNumber (true_length IE_PortNumber x)
  | IE_ApnRestriction x => IE_ApnRestriction (true_length IE_ApnRestriction x)
  | IE_SelectionMode x => IE_SelectionMode (true_length IE_SelectionMode x)
  | IE_SourceIdentification x => IE_SourceIdentification (true_length IE_SourceIdentification x)
  | IE_ChangeReportingAction x => IE_ChangeReportingAction (true_length IE_ChangeReportingAction x)
  | IE_Fqcsid x => IE_Fqcsid (true_length IE_Fqcsid x)
  | IE_ChannelNeeded x => IE_ChannelNeeded (true_length IE_ChannelNeeded x)
  | IE_EmlppPriority x => IE_EmlppPriority (true_length IE_EmlppPriority x)
  | IE_NodeType x => IE_NodeType (true_length IE_NodeType x)
  | IE_Fqdn x => IE_Fqdn (true_length IE_Fqdn x)
  | IE_TransactionIdentifier x => IE_TransactionIdentifier (true_length IE_TransactionIdentifier x)
  | IE_MbmsSa x => IE_MbmsSa (true_length IE_MbmsSa x)
  | IE_MbmsSd x => IE_MbmsSd (true_length IE_MbmsSd x)
  | IE_MbmsSessionId x => IE_MbmsSessionId (true_length IE_MbmsSessionId x)
  | IE_MbmsFlowId x => IE_MbmsFlowId (true_length IE_MbmsFlowId x)
  | IE_MbmsIpMulticastDistribution x => IE_MbmsIpMulticastDistribution (true_length IE_MbmsIpMulticastDistribution x)
  | IE_MbmsDistributionAck x => IE_MbmsDistributionAck (true_length IE_MbmsDistributionAck x)
  | IE_RfspIndex x => IE_RfspIndex (true_length IE_RfspIndex x)
  | IE_Uci x => IE_Uci (true_length IE_Uci x)
  | IE_CSGInformationReportingAction x => IE_CSGInformationReportingAction (true_length IE_CSGInformationReportingAction x)
  | IE_CsgId x => IE_CsgId (true_length IE_CsgId x)
  | IE_CsgMembershipIndication x => IE_CsgMembershipIndication (true_length IE_CsgMembershipIndication x)
  | IE_ServiceIndicator x => IE_ServiceIndicator (true_length IE_ServiceIndicator x)
  | IE_DetachType x => IE_DetachType (true_length IE_DetachType x)
  | IE_Ldn x => IE_Ldn (true_length IE_Ldn x)
  | IE_NodeFeatures x => IE_NodeFeatures (true_length IE_NodeFeatures x)
  | IE_MbmsTimeToDataTransfer x => IE_MbmsTimeToDataTransfer (true_length IE_MbmsTimeToDataTransfer x)
  | IE_Throttling x => IE_Throttling (true_length IE_Throttling x)
  | IE_Arp x => IE_Arp (true_length IE_Arp x)
  | IE_EpcTimer x => IE_EpcTimer (true_length IE_EpcTimer x)
  | IE_Spi x => IE_Spi (true_length IE_Spi x)
  | IE_Tmgi x => IE_Tmgi (true_length IE_Tmgi x)
  | IE_AdditionalMmContextForSrvcc x => IE_AdditionalMmContextForSrvcc (true_length IE_AdditionalMmContextForSrvcc x)
  | IE_AdditionalFlagsSrvcc x => IE_AdditionalFlagsSrvcc (true_length IE_AdditionalFlagsSrvcc x)
  | IE_MdtConfiguration x => IE_MdtConfiguration (true_length IE_MdtConfiguration x)
  | IE_Apco x => IE_Apco (true_length IE_Apco x)
  | IE_AbsoluteTimeMbmsDataTransfer x => IE_AbsoluteTimeMbmsDataTransfer (true_length IE_AbsoluteTimeMbmsDataTransfer x)
  | IE_HenbInfoReporting x => IE_HenbInfoReporting (true_length IE_HenbInfoReporting x)
  | IE_Ip4Cp x => IE_Ip4Cp (true_length IE_Ip4Cp x)
  | IE_ChangeToReportFlags x => IE_ChangeToReportFlags (true_length IE_ChangeToReportFlags x)
  | IE_ActionIndication x => IE_ActionIndication (true_length IE_ActionIndication x)
  | IE_TwanId x => IE_TwanId (true_length IE_TwanId x)
  | IE_UliTimestamp x => IE_UliTimestamp (true_length IE_UliTimestamp x)
  | IE_MbmsFlags x => IE_MbmsFlags (true_length IE_MbmsFlags x)
  | IE_RanNasCause x => IE_RanNasCause (true_length IE_RanNasCause x)
  | IE_CnOperatorSelectionEntity x => IE_CnOperatorSelectionEntity (true_length IE_CnOperatorSelectionEntity x)
  | IE_Twmi x => IE_Twmi (true_length IE_Twmi x)
  | IE_NodeNumber x => IE_NodeNumber (true_length IE_NodeNumber x)
  | IE_NodeIdentifier x => IE_NodeIdentifier (true_length IE_NodeIdentifier x)
  | IE_PresenceReportingAreaAction x => IE_PresenceReportingAreaAction (true_length IE_PresenceReportingAreaAction x)
  | IE_PresenceReportingAreaInformation x => IE_PresenceReportingAreaInformation (true_length IE_PresenceReportingAreaInformation x)
  | IE_TwanIdTimeStamp x => IE_TwanIdTimeStamp (true_length IE_TwanIdTimeStamp x)
  | IE_OverloadControlInfo x => IE_OverloadControlInfo (true_lengths IE_OverloadControlInfo OverloadControlInfo_again x)
  | IE_LoadControlInfo x => IE_LoadControlInfo (true_lengths IE_LoadControlInfo LoadControl_again x)
  | IE_Metric x => IE_Metric (true_length IE_Metric x)
  | IE_Sqn x => IE_Sqn (true_length IE_Sqn x)
  | IE_ApnRelativeCapacity x => IE_ApnRelativeCapacity (true_length IE_ApnRelativeCapacity x)
  | IE_WlanOffloadIndication x => IE_WlanOffloadIndication (true_length IE_WlanOffloadIndication x)
  | IE_PagingServiceInfo x => IE_PagingServiceInfo (true_length IE_PagingServiceInfo x)
  | IE_IntegerNumber x => IE_IntegerNumber (true_length IE_IntegerNumber x)
  | IE_MilliSecondTimeStamp x => IE_MilliSecondTimeStamp (true_length IE_MilliSecondTimeStamp x)
  | IE_MonitoringEventInformation x => IE_MonitoringEventInformation (true_length IE_MonitoringEventInformation x)
  | IE_EcgiList x => IE_EcgiList (true_length IE_EcgiList x)
  | IE_RemoteUeContext x => IE_RemoteUeContext (true_lengths IE_RemoteUeContext RemoteUeContext_again x)
  | IE_RemoteUserId x => IE_RemoteUserId (true_length IE_RemoteUserId x)
  | IE_RemoteUeIpInformation x => IE_RemoteUeIpInformation (true_length IE_RemoteUeIpInformation x)
  | IE_CIoTOptimizationSupportIndication x => IE_CIoTOptimizationSupportIndication (true_length IE_CIoTOptimizationSupportIndication x)
  | IE_ScefPdnConnections x => IE_ScefPdnConnections (true_lengths IE_ScefPdnConnections ScefPdnConnections_again x)
  | IE_HeaderCompressionConfiguration x => IE_HeaderCompressionConfiguration (true_length IE_HeaderCompressionConfiguration x)
  | IE_Epco x => IE_Epco (true_length IE_Epco x)
  | IE_ServingPlmnRateControl x => IE_ServingPlmnRateControl (true_length IE_ServingPlmnRateControl x)
  | IE_Counter x => IE_Counter (true_length IE_Counter x)
  | IE_MappedUeUsageType x => IE_MappedUeUsageType (true_length IE_MappedUeUsageType x)
  | IE_SecondaryRatUsageDataReport x => IE_SecondaryRatUsageDataReport (true_length IE_SecondaryRatUsageDataReport x)
  | IE_UpFunctionSelectionIndicationFlags x => IE_UpFunctionSelectionIndicationFlags (true_length IE_UpFunctionSelectionIndicationFlags x)
  | IE_MaxPacketLossRate x => IE_MaxPacketLossRate (true_length IE_MaxPacketLossRate x)
  | IE_ApnRateControlStatus x => IE_ApnRateControlStatus (true_length IE_ApnRateControlStatus x)
  | IE_ExtendedTraceInformation x => IE_ExtendedTraceInformation (true_length IE_ExtendedTraceInformation x)
  | IE_MonitoringEventExtensionInfo x => IE_MonitoringEventExtensionInfo (true_length IE_MonitoringEventExtensionInfo x)
  | IE_AdditionalRrmPolicyIndex x => IE_AdditionalRrmPolicyIndex (true_length IE_AdditionalRrmPolicyIndex x)
  | IE_V2xInformation x => IE_V2xInformation (true_lengths IE_V2xInformation V2xInformation_again x)
  | IE_PC5QosParameters x => IE_PC5QosParameters (true_lengths IE_PC5QosParameters PC5QosParameters_again x)
  | IE_ServicesAuthorized x => IE_ServicesAuthorized (true_length IE_ServicesAuthorized x)
  | IE_BitRate x => IE_BitRate (true_length IE_BitRate x)
  | IE_PC5QosFlow x => IE_PC5QosFlow (true_length IE_PC5QosFlow x)
  | IE_SgiPtpTunnelAddress x => IE_SgiPtpTunnelAddress (true_length IE_SgiPtpTunnelAddress x)
  | IE_PgwChangeInfo x => IE_PgwChangeInfo (true_lengths IE_PgwChangeInfo PgwChangeInfo_again x)
  | IE_PgwFqdn x => IE_PgwFqdn (true_length IE_PgwFqdn x)
  | IE_GroupId x => IE_GroupId (true_length IE_GroupId x)
  | IE_PSCellId x => IE_PSCellId (true_length IE_PSCellId x)
  | IE_UpSecurityPolicy x => IE_UpSecurityPolicy (true_length IE_UpSecurityPolicy x)
  | IE_AlternativeImsi x => IE_AlternativeImsi (true_length IE_AlternativeImsi x)
  | IE_SpecialIEWithTypeExt x => IE_SpecialIEWithTypeExt (true_length IE_SpecialIEWithTypeExt x)
  | IE_PrivateExtension x => IE_PrivateExtension (true_length IE_PrivateExtension x)
  | IE_Unknown x => IE_Unknown (true_length IE_Unknown x)
  end.

(* ------------------------------------------------------------------------- *)
(* What the sender must check *)

Definition ascii (s : list N) : Prop := Forall (fun c => c < 128) s.
Definition given {A} (P : A -> Prop) (o : option A) : Prop := match o with Some x => P x | None => True end.
Definition there {A} (o : option A) : Prop := o <> None.
Definition source_again (s : source_type) : Prop :=
  match s with St_Cell _ => True | St_Rnc r => there (sr_ext r) | St_Spare => False end.
Definition target_again (t : target_type) : Prop :=
  match t with Tt_Rnc r => there (rn_ext r) | Tt_EnGNb _ => False | Tt_Spare => False | _ => True end.
(* The MM contexts: the capabilities are there, and (by kind) fields that the encoder and the decoder
   do not treat alike have the value with which they do. *)
Definition mm_survives (x : MmContext) : Prop :=
  match x with
  | MmEps i => let v := ie_v i in
      there (e_ue v) /\ there (e_ms v) /\ there (e_mei v) /\
      (e_ext v <> None \/ e_addsec v = None /\ e_nrsec v = None) /\ given (fun n => n < 8) (e_ncc v) /\
      e_rates v = None /\ e_core v = None /\ e_radioid v = None /\ e_ensct v = Some 0
  | MmUmtsQ i => let v := ie_v i in
      there (q_ue v) /\ there (q_ms v) /\ there (q_mei v) /\ there (q_vdn v) /\ (q_higher v = false -> q_iov v <> Some 1)
  | MmUmtsQq i => let v := ie_v i in there (d_ue v) /\ there (d_ms v) /\ there (d_mei v) /\ d_rates v = None
  | MmUmtsCq i => let v := ie_v i in
      there (c_ue v) /\ there (c_ms v) /\ there (c_mei v) /\ there (c_vdn v) /\ (c_higher v = false -> c_iov v <> Some 1)
  | MmGsmT i => let v := ie_v i in there (t_ue v) /\ there (t_ms v) /\ there (t_mei v)
  | MmGsmCq i => let v := ie_v i in there (g_ue v) /\ there (g_ms v) /\ there (g_mei v) /\ g_higher v = true
  end.
(* Elements that are not groups. *)
Definition plain_survives (e : ie) : Prop :=
  match e with
  (* at least one digit, or as many as an equipment identity has *)
  | IE_Imsi i | IE_Msisdn i | IE_AlternativeImsi i => ie_v i <> []
  | IE_Mei i => (length (ie_v i) = 15 \/ length (ie_v i) = 16)%nat
  (* names are written as UTF-8 and read octet by octet *)
  | IE_Apn i | IE_Fqdn i | IE_PgwFqdn i | IE_Ldn i => ascii (ie_v i)
  | IE_ApnRelativeCapacity i => ascii (arc_name (ie_v i))
  | IE_NodeIdentifier i => ascii (ni_name (ie_v i)) /\ ascii (ni_realm (ie_v i))
  (* fields that are not written as they are read *)
  | IE_AdditionalMmContextForSrvcc i => there (am_classmark2 (ie_v i)) /\ there (am_classmark3 (ie_v i))
  | IE_MdtConfiguration i => md_plmns (ie_v i) = None
  | IE_MmContext x => mm_survives x
  | IE_PresenceReportingAreaInformation i => exists a, pr_more (ie_v i) = Some [a]
  | IE_PresenceReportingAreaAction i => (length (pa_ext (ie_v i)) <= 63)%nat
  | IE_PrivateExtension i => pe_value (ie_v i) <> []
  | IE_SourceIdentification i => source_again (si_source (ie_v i))
  | IE_TargetIdentification i => target_again (ie_v i)
  | IE_Uci i => uc_csgid (ie_v i) < 2 ^ 27
  (* their type code is not the one under which they are read *)
  | IE_TwanId _ | IE_TraceReference _ | IE_Unknown _ => False
  (* groups: below *)
  | IE_LoadControlInfo _ | IE_OverloadControlInfo _ | IE_RemoteUeContext _ | IE_PC5QosParameters _ | IE_PgwChangeInfo _ | IE_ScefPdnConnections _ | IE_BearerContext _ | IE_V2xInformation _ | IE_PdnConnections _ => False
  | _ => True
  end.
(* the instance has four bits, the length sixteen; 65535 = 4 + 65531, the largest length the decoder adds to *)
Definition fit_for (survives : ie -> Prop) (e : ie) : Prop :=
  ie_instance e < 16 /\ nlen (ie_marshal e) <= 65535 /\ survives e.

(* Groups: every member, and the fields that are never written are not there. *)
Definition group_survives (e : ie) : Prop :=
  let ok := fit_for plain_survives in
  match e with
  | IE_LoadControlInfo i => let v := ie_v i in
      ok (IE_Sqn (lc_sqn v)) /\
      ok (IE_Metric (lc_metric v)) /\
      given (Forall (fun x => ok (IE_ApnRelativeCapacity x))) (lc_list v)
  | IE_OverloadControlInfo i => let v := ie_v i in
      ok (IE_Sqn (oc_sqn v)) /\
      ok (IE_Metric (oc_metric v)) /\
      ok (IE_EpcTimer (oc_validity v)) /\
      given (Forall (fun x => ok (IE_Apn x))) (oc_list v)
  | IE_RemoteUeContext i => let v := ie_v i in
      ok (IE_RemoteUserId (re_user_id v)) /\
      given (fun x => ok (IE_RemoteUeIpInformation x)) (re_ue_ip v)
  | IE_PC5QosParameters i => let v := ie_v i in
      Forall (fun x => ok (IE_PC5QosFlow x)) (p5_flows v) /\
      given (fun x => ok (IE_BitRate x)) (p5_abrs v)
  | IE_PgwChangeInfo i => let v := ie_v i in
      Forall (fun x => ok (IE_PgwFqdn x)) (pw_fqdns v) /\
      Forall (fun x => ok (IE_IpAddress x)) (pw_ips v) /\
      Forall (fun x => ok (IE_Fqcsid x)) (pw_fqcsid v) /\
      Forall (fun x => ok (IE_GroupId x)) (pw_groupids v) /\
      PgwChangeInfo_value v <> []
  | IE_ScefPdnConnections i => let v := ie_v i in
      ok (IE_Apn (sf_apn v)) /\
      ok (IE_Ebi (sf_ebi v)) /\
      ok (IE_NodeIdentifier (sf_scef v))
  | IE_BearerContext i => let v := ie_v i in
      ok (IE_Ebi (bc_ebi v)) /\
      given (fun x => ok (IE_Cause x)) (bc_cause v) /\
      given (fun x => ok (IE_BearerTft x)) (bc_tft v) /\
      Forall (fun x => ok (IE_Fteid x)) (bc_fteids v) /\
      given (fun x => ok (IE_BearerQos x)) (bc_qos v) /\
      given (fun x => ok (IE_ChargingId x)) (bc_charging v) /\
      given (fun x => ok (IE_BearerFlags x)) (bc_flags v) /\
      given (fun x => ok (IE_Pco x)) (bc_pco v) /\
      given (fun x => ok (IE_Apco x)) (bc_apco v) /\
      given (fun x => ok (IE_Epco x)) (bc_epco v) /\
      given (fun x => ok (IE_MaxPacketLossRate x)) (bc_loss v) /\
      given (fun x => ok (IE_RanNasCause x)) (bc_ran v) /\
      bc_bss v = None /\ bc_ti v = None
  | _ => plain_survives e
  end.
(* Groups of groups. *)
Definition survives (e : ie) : Prop :=
  let ok := fit_for group_survives in
  match e with
  | IE_V2xInformation i => let v := ie_v i in
      Forall (fun x => ok (IE_ServicesAuthorized x)) (vx_auth v) /\
      Forall (fun x => ok (IE_BitRate x)) (vx_brs v) /\
      given (fun x => ok (IE_PC5QosParameters x)) (vx_qos v) /\
      V2xInformation_value v <> []
  | IE_PdnConnections i => let v := ie_v i in
      ok (IE_Apn (pn_apn v)) /\
      given (fun x => ok (IE_ApnRestriction x)) (pn_restriction v) /\
      given (fun x => ok (IE_SelectionMode x)) (pn_selection v) /\
      given (fun x => ok (IE_IpAddress x)) (pn_ipv4 v) /\
      given (fun x => ok (IE_IpAddress x)) (pn_ipv6 v) /\
      ok (IE_Ebi (pn_ebi v)) /\
      ok (IE_Fteid (pn_pgw v)) /\
      given (fun x => ok (IE_Fqdn x)) (pn_node_name v) /\
      Forall (fun x => ok (IE_BearerContext x)) (pn_bearers v) /\
      ok (IE_ApnAmbr (pn_ambr v)) /\
      given (fun x => ok (IE_ChargingCharacteristics x)) (pn_charging v) /\
      given (fun x => ok (IE_ChangeReportingAction x)) (pn_reporting v) /\
      given (fun x => ok (IE_CSGInformationReportingAction x)) (pn_csg v) /\
      given (fun x => ok (IE_HenbInfoReporting x)) (pn_henb v) /\
      given (fun x => ok (IE_Indication x)) (pn_indication v) /\
      given (fun x => ok (IE_Spi x)) (pn_spi v) /\
      given (fun x => ok (IE_ChangeToReportFlags x)) (pn_report_flags v) /\
      given (fun x => ok (IE_Fqdn x)) (pn_home v) /\
      given (fun x => ok (IE_PresenceReportingAreaAction x)) (pn_praa v) /\
      given (fun x => ok (IE_WlanOffloadIndication x)) (pn_wlan v) /\
      Forall (fun x => ok (IE_RemoteUeContext x)) (pn_remotes v) /\
      given (fun x => ok (IE_PdnType x)) (pn_pdn_type v) /\
      given (fun x => ok (IE_HeaderCompressionConfiguration x)) (pn_compr v)
  | _ => group_survives e
  end.
Definition sendable : ie -> Prop := fit_for survives.
