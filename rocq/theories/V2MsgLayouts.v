(* V2MsgLayouts.v - what each GTPv2-C message holds: its fields in the order of its struct, with the kind
   of IE, how many, the instances and the instance that must be present. Together with V2MsgSpec.v this is
   the specification the message codecs are checked against. *)
From Coq Require Import String.
From Verif Require Import Base.
From Verif Require Export V2MsgSpec V2MsgTables.
Local Open Scope string_scope.
Local Open Scope N_scope.

(* alertmmeacknowledge.rs 15-19 *)
Definition ly_alertmmeacknowledge : layout := [
  field "cause" K_Cause One [InsIs 0] (Some (InsIs 0)) KeepFirst;
  field "private_ext" K_PrivateExtension Many [InsAny] (None) KeepAll].

(* alertmmenotification.rs 15-18 *)
Definition ly_alertmmenotification : layout := [
  field "private_ext" K_PrivateExtension Many [InsAny] (None) KeepAll].

(* bearerresourcecommand.rs 15-36 *)
Definition ly_bearerresourcecommand : layout := [
  field "linked_ebi" K_Ebi One [InsIs 0] (Some (InsIs 0)) KeepFirst;
  field "pti" K_Pti One [InsIs 0] (Some (InsIs 0)) KeepFirst;
  field "flow_qos" K_FlowQos Opt [InsIs 0] (None) KeepFirst;
  field "tad" K_TrafficAggregateDescription Opt [InsIs 0] (None) KeepFirst;
  field "rattype" K_RatType Opt [InsIs 0] (None) KeepFirst;
  field "servingnetwork" K_ServingNetwork Opt [InsIs 0] (None) KeepFirst;
  field "uli" K_Uli Opt [InsIs 0] (None) KeepFirst;
  field "ebi" K_Ebi Opt [InsIs 1] (None) KeepFirst;
  field "indication" K_Indication Opt [InsIs 0] (None) KeepFirst;
  field "sgsn_fteid" K_Fteid Opt [InsIs 0] (None) KeepFirst;
  field "rnc_fteid" K_Fteid Opt [InsIs 1] (None) KeepFirst;
  field "pco" K_Pco Opt [InsIs 0] (None) KeepFirst;
  field "spi" K_Spi Opt [InsIs 0] (None) KeepFirst;
  field "overload_info" K_OverloadControlInfo Many [InsBelow 2] (None) KeepAll;
  field "nbifom" K_Fcontainer Opt [InsIs 0] (None) KeepFirst;
  field "epco" K_Epco Opt [InsIs 0] (None) KeepFirst;
  field "fteid_control" K_Fteid Opt [InsIs 2] (None) KeepFirst;
  field "pscellid" K_PSCellId Opt [InsIs 0] (None) KeepFirst;
  field "private_ext" K_PrivateExtension Many [InsAny] (None) KeepAll].

(* bearerresourcefailureind.rs 15-25 *)
Definition ly_bearerresourcefailureind : layout := [
  field "cause" K_Cause One [InsIs 0] (Some (InsIs 0)) KeepFirst;
  field "linked_ebi" K_Ebi One [InsIs 0] (Some (InsIs 0)) KeepFirst;
  field "pti" K_Pti One [InsIs 0] (Some (InsIs 0)) KeepFirst;
  field "indication" K_Indication Opt [InsIs 0] (None) KeepFirst;
  field "overload_info" K_OverloadControlInfo Many [InsBelow 2] (None) KeepAll;
  field "recovery" K_Recovery Opt [InsIs 0] (None) KeepFirst;
  field "nbifom" K_Fcontainer Opt [InsIs 0] (None) KeepFirst;
  field "private_ext" K_PrivateExtension Many [InsAny] (None) KeepAll].

(* changenotificationreq.rs 15-30 *)
Definition ly_changenotificationreq : layout := [
  field "imsi" K_Imsi Opt [InsIs 0] (None) KeepFirst;
  field "mei" K_Mei Opt [InsIs 0] (None) KeepFirst;
  field "indication" K_Indication Opt [InsIs 0] (None) KeepFirst;
  field "rattype" K_RatType One [InsIs 0] (Some (InsIs 0)) KeepFirst;
  field "uli" K_Uli Opt [InsIs 0] (None) KeepFirst;
  field "uci" K_Uci Opt [InsIs 0] (None) KeepFirst;
  field "pgw_addr_control" K_IpAddress Opt [InsIs 0] (None) KeepFirst;
  field "linked_ebi" K_Ebi Opt [InsIs 0] (None) KeepFirst;
  field "prai" K_PresenceReportingAreaInformation Opt [InsIs 0] (None) KeepFirst;
  field "mo_exception_data_counter" K_Counter Opt [InsIs 0] (None) KeepFirst;
  field "secondary_rat_usage_report" K_SecondaryRatUsageDataReport Many [InsIs 0] (None) KeepAll;
  field "pscellid" K_PSCellId Opt [InsIs 0] (None) KeepFirst;
  field "private_ext" K_PrivateExtension Many [InsAny] (None) KeepAll].

(* changenotificationresp.rs 15-24 *)
Definition ly_changenotificationresp : layout := [
  field "imsi" K_Imsi Opt [InsIs 0] (None) KeepFirst;
  field "mei" K_Mei Opt [InsIs 0] (None) KeepFirst;
  field "cause" K_Cause One [InsIs 0] (Some (InsIs 0)) KeepFirst;
  field "cra" K_ChangeReportingAction Opt [InsIs 0] (None) KeepFirst;
  field "csg_ira" K_CSGInformationReportingAction Opt [InsIs 0] (None) KeepFirst;
  field "praa" K_PresenceReportingAreaAction Opt [InsIs 0] (None) KeepFirst;
  field "private_ext" K_PrivateExtension Many [InsAny] (None) KeepAll].

(* contextacknowledge.rs 15-24 *)
Definition ly_contextacknowledge : layout := [
  field "cause" K_Cause One [InsIs 0] (Some (InsIs 0)) KeepFirst;
  field "indication" K_Indication Opt [InsIs 0] (None) KeepFirst;
  field "fwd_fteid" K_Fteid Opt [InsIs 0] (None) KeepFirst;
  field "bearer_ctxs" K_BearerContext Many [InsIs 0] (None) KeepAll;
  field "node_nbrs" K_NodeNumber Many [InsBelow 3] (None) KeepAll;
  field "node_ids" K_NodeIdentifier Many [InsBelow 3] (None) KeepAll;
  field "private_ext" K_PrivateExtension Many [InsAny] (None) KeepAll].

(* contextreq.rs 15-37 *)
Definition ly_contextreq : layout := [
  field "imsi" K_Imsi Opt [InsIs 0] (None) KeepFirst;
  field "guti" K_Guti Opt [InsIs 0] (None) KeepFirst;
  field "rai" K_Uli Opt [InsIs 0] (None) KeepFirst;
  field "ptmsi" K_Ptmsi Opt [InsIs 0] (None) KeepFirst;
  field "ptmsi_signature" K_PtmsiSignature Opt [InsIs 0] (None) KeepFirst;
  field "complete_tau_req_msg" K_CompleteRequestMessage Opt [InsIs 0] (None) KeepFirst;
  field "fteid_control" K_Fteid Opt [InsIs 0] (None) KeepFirst;
  field "udp_src_port" K_PortNumber Opt [InsIs 0] (None) KeepFirst;
  field "rat_type" K_RatType Opt [InsIs 0] (None) KeepFirst;
  field "indication" K_Indication Opt [InsIs 0] (None) KeepFirst;
  field "hop_counter" K_HopCounter Opt [InsIs 0] (None) KeepFirst;
  field "target_plmnid" K_ServingNetwork Opt [InsIs 0] (None) KeepFirst;
  field "mme_sgsn_ldn" K_Ldn Opt [InsIs 0] (None) KeepFirst;
  field "sgsn_fqdn" K_Fqdn Opt [InsIs 0] (None) KeepFirst;
  field "mme_fqdn" K_Fqdn Opt [InsIs 1] (None) KeepFirst;
  field "sgsn_number" K_NodeNumber Opt [InsIs 0] (None) KeepFirst;
  field "sgsn_id" K_NodeIdentifier Opt [InsIs 0] (None) KeepFirst;
  field "mme_id" K_NodeIdentifier Opt [InsIs 1] (None) KeepFirst;
  field "ciot_optim_supp_ind" K_CIoTOptimizationSupportIndication Opt [InsIs 0] (None) KeepFirst;
  field "private_ext" K_PrivateExtension Many [InsAny] (None) KeepAll].

(* contextresp.rs 15-45 *)
Definition ly_contextresp : layout := [
  field "cause" K_Cause One [InsIs 0] (Some (InsIs 0)) KeepFirst;
  field "imsi" K_Imsi Opt [InsIs 0] (None) KeepFirst;
  field "mmctx" K_MmContext Opt [InsIs 0] (None) KeepFirst;
  field "ue_eps_pdn" K_PdnConnections Many [InsIs 0] (None) KeepAll;
  field "fteid_control" K_Fteid Opt [InsIs 0] (None) KeepFirst;
  field "sgw_fteid" K_Fteid Opt [InsIs 1] (None) KeepFirst;
  field "fqdns" K_Fqdn Many [InsBelow 3] (None) KeepAll;
  field "indication" K_Indication Opt [InsIs 0] (None) KeepFirst;
  field "trace_info" K_TraceInformation Opt [InsIs 0] (None) KeepFirst;
  field "ip_addresses" K_IpAddress Many [InsBelow 2] (None) KeepAll;
  field "rfsp_indexes" K_RfspIndex Many [InsBelow 2] (None) KeepAll;
  field "ue_time_zone" K_UeTimeZone Opt [InsIs 0] (None) KeepFirst;
  field "mme_sgsn_ldn" K_Ldn Opt [InsIs 0] (None) KeepFirst;
  field "mdt_cfg" K_MdtConfiguration Opt [InsIs 0] (None) KeepFirst;
  field "uci" K_Uci Opt [InsIs 0] (None) KeepFirst;
  field "monitor_event_info" K_MonitoringEventInformation Many [InsIs 0] (None) KeepAll;
  field "monitor_even_ext_info" K_MonitoringEventExtensionInfo Many [InsIs 0] (None) KeepAll;
  field "ue_usage_type" K_IntegerNumber Opt [InsIs 0] (None) KeepFirst;
  field "scef_pdn_connections" K_ScefPdnConnections Many [InsIs 0] (None) KeepAll;
  field "rat_type" K_RatType Opt [InsIs 0] (None) KeepFirst;
  field "srv_plmn_rate_cntrl" K_ServingPlmnRateControl Opt [InsIs 0] (None) KeepFirst;
  field "mo_exception_data_cntr" K_Counter Opt [InsIs 0] (None) KeepFirst;
  field "rem_running_srvc_gap_timer" K_IntegerNumber Opt [InsIs 1] (None) KeepFirst;
  field "ext_trace_info" K_ExtendedTraceInformation Opt [InsIs 0] (None) KeepFirst;
  field "add_rrm_policy_index" K_AdditionalRrmPolicyIndex Many [InsBelow 2] (None) KeepAll;
  field "iwk_scef_id" K_NodeIdentifier Opt [InsIs 0] (None) KeepFirst;
  field "alt_imsi" K_AlternativeImsi Opt [InsIs 0] (None) KeepFirst;
  field "private_ext" K_PrivateExtension Many [InsAny] (None) KeepAll].

(* createbearerreq.rs 15-34 *)
Definition ly_createbearerreq : layout := [
  field "pti" K_Pti Opt [InsIs 0] (None) KeepFirst;
  field "linked_ebi" K_Ebi One [InsIs 0] (Some (InsIs 0)) KeepFirst;
  field "pco" K_Pco Opt [InsIs 0] (None) KeepFirst;
  field "bearer_ctxs" K_BearerContext Many [InsIs 0] (Some (InsIs 0)) KeepAll;
  field "pgw_fqcsid" K_Fqcsid Opt [InsIs 0] (None) KeepFirst;
  field "sgw_fqcsid" K_Fqcsid Opt [InsIs 1] (None) KeepFirst;
  field "cra" K_ChangeReportingAction Opt [InsIs 0] (None) KeepFirst;
  field "csg_ira" K_CSGInformationReportingAction Opt [InsIs 0] (None) KeepFirst;
  field "henb_info_report" K_HenbInfoReporting Opt [InsIs 0] (None) KeepFirst;
  field "praa" K_PresenceReportingAreaAction Opt [InsIs 0] (None) KeepFirst;
  field "indication" K_Indication Opt [InsIs 0] (None) KeepFirst;
  field "load_control" K_LoadControlInfo Many [InsBelow 3] (None) KeepAll;
  field "overload_info" K_OverloadControlInfo Many [InsBelow 2] (None) KeepAll;
  field "nbifom" K_Fcontainer Opt [InsIs 0] (None) KeepFirst;
  field "pgw_change_info" K_PgwChangeInfo Many [InsIs 0] (None) KeepAll;
  field "sender_fteid_cntrl_plane" K_Fteid Opt [InsIs 0] (None) KeepFirst;
  field "private_ext" K_PrivateExtension Many [InsAny] (None) KeepAll].

(* createbearerresp.rs 15-38 *)
Definition ly_createbearerresp : layout := [
  field "cause" K_Cause One [InsIs 0] (Some (InsIs 0)) KeepFirst;
  field "bearer_ctxs" K_BearerContext Many [InsIs 0] (Some (InsIs 0)) KeepAll;
  field "recovery" K_Recovery Opt [InsIs 0] (None) KeepFirst;
  field "mme_fqcsid" K_Fqcsid Opt [InsIs 0] (None) KeepFirst;
  field "sgw_fqcsid" K_Fqcsid Opt [InsIs 1] (None) KeepFirst;
  field "epdg_fqcsid" K_Fqcsid Opt [InsIs 2] (None) KeepFirst;
  field "twan_fqcsid" K_Fqcsid Opt [InsIs 3] (None) KeepFirst;
  field "pco" K_Pco Opt [InsIs 0] (None) KeepFirst;
  field "uetimezone" K_UeTimeZone Opt [InsIs 0] (None) KeepFirst;
  field "uli" K_Uli Opt [InsIs 0] (None) KeepFirst;
  field "twan_id" K_TwanId Opt [InsIs 0] (None) KeepFirst;
  field "overload_info" K_OverloadControlInfo Many [InsBelow 3] (None) KeepAll;
  field "prai" K_PresenceReportingAreaInformation Opt [InsIs 0] (None) KeepFirst;
  field "ip" K_IpAddress Opt [InsIs 0] (None) KeepFirst;
  field "wlan_loc" K_TwanId Opt [InsIs 1] (None) KeepFirst;
  field "wlan_loc_timestamp" K_TwanIdTimeStamp Opt [InsIs 0] (None) KeepFirst;
  field "ue_udpport" K_PortNumber Opt [InsIs 0] (None) KeepFirst;
  field "nbifom" K_Fcontainer Opt [InsIs 0] (None) KeepFirst;
  field "ue_tcpport" K_PortNumber Opt [InsIs 1] (None) KeepFirst;
  field "pscellid" K_PSCellId Opt [InsIs 0] (None) KeepFirst;
  field "private_ext" K_PrivateExtension Many [InsAny] (None) KeepAll].

(* createforwardingtunnelreq.rs 15-19 *)
Definition ly_createforwardingtunnelreq : layout := [
  field "s103_pdf" K_S103pdf Many [InsIs 0] (Some (InsIs 0)) KeepAll;
  field "private_ext" K_PrivateExtension Many [InsAny] (None) KeepAll].

(* createforwardingtunnelresp.rs 15-20 *)
Definition ly_createforwardingtunnelresp : layout := [
  field "cause" K_Cause One [InsIs 0] (Some (InsIs 0)) KeepLast;
  field "s1udf" K_S1udf Many [InsIs 0] (None) KeepAll;
  field "private_ext" K_PrivateExtension Many [InsAny] (None) KeepAll].

(* createindirectdatafwtunnelreq.rs 15-24 *)
Definition ly_createindirectdatafwtunnelreq : layout := [
  field "imsi" K_Imsi Opt [InsIs 0] (None) KeepFirst;
  field "mei" K_Mei Opt [InsIs 0] (None) KeepFirst;
  field "indication" K_Indication Opt [InsIs 0] (None) KeepFirst;
  field "fteid_control" K_Fteid Opt [InsIs 0] (None) KeepFirst;
  field "bearer_ctxs" K_BearerContext Many [InsIs 0] (Some (InsIs 0)) KeepAll;
  field "recovery" K_Recovery Opt [InsIs 0] (None) KeepFirst;
  field "private_ext" K_PrivateExtension Many [InsAny] (None) KeepAll].

(* createindirectdatafwtunnelresp.rs 15-22 *)
Definition ly_createindirectdatafwtunnelresp : layout := [
  field "cause" K_Cause One [InsIs 0] (Some (InsIs 0)) KeepLast;
  field "fteid_control" K_Fteid Opt [InsIs 0] (None) KeepFirst;
  field "bearer_ctxs" K_BearerContext Many [InsIs 0] (Some (InsIs 0)) KeepAll;
  field "recovery" K_Recovery Opt [InsIs 0] (None) KeepFirst;
  field "private_ext" K_PrivateExtension Many [InsAny] (None) KeepAll].

(* createsessionreq.rs 15-77 *)
Definition ly_createsessionreq : layout := [
  field "imsi" K_Imsi Opt [InsIs 0] (None) KeepFirst;
  field "msisdn" K_Msisdn Opt [InsIs 0] (None) KeepFirst;
  field "mei" K_Mei Opt [InsIs 0] (None) KeepFirst;
  field "uli" K_Uli Opt [InsIs 0] (None) KeepFirst;
  field "servingnetwork" K_ServingNetwork Opt [InsIs 0] (None) KeepFirst;
  field "rattype" K_RatType One [InsIs 0] (Some (InsIs 0)) KeepFirst;
  field "indication" K_Indication Opt [InsIs 0] (None) KeepFirst;
  field "fteid_control" K_Fteid One [InsIs 0] (Some (InsIs 0)) KeepFirst;
  field "pgw_addr_control" K_Fteid Opt [InsIs 1] (None) KeepFirst;
  field "apn" K_Apn One [InsIs 0] (Some (InsIs 0)) KeepFirst;
  field "selectionmode" K_SelectionMode Opt [InsIs 0] (None) KeepFirst;
  field "pdntype" K_PdnType Opt [InsIs 0] (None) KeepFirst;
  field "paa" K_PdnAddressAllocation Opt [InsIs 0] (None) KeepFirst;
  field "max_apnrestriction" K_ApnRestriction Opt [InsIs 0] (None) KeepFirst;
  field "apnambr" K_ApnAmbr Opt [InsIs 0] (None) KeepFirst;
  field "linked_ebi" K_Ebi Opt [InsIs 0] (None) KeepFirst;
  field "twmi" K_Twmi Opt [InsIs 0] (None) KeepFirst;
  field "pco" K_Pco Opt [InsIs 0] (None) KeepFirst;
  field "bearer_ctxs" K_BearerContext Many [InsIs 0; InsIs 1] (Some (InsIs 0)) KeepAll;
  field "traceinfo" K_TraceInformation Opt [InsIs 0] (None) KeepFirst;
  field "recovery" K_Recovery Opt [InsIs 0] (None) KeepFirst;
  field "mme_fqcsid" K_Fqcsid Opt [InsIs 0] (None) KeepFirst;
  field "sgw_fqcsid" K_Fqcsid Opt [InsIs 1] (None) KeepFirst;
  field "epdg_fqcsid" K_Fqcsid Opt [InsIs 2] (None) KeepFirst;
  field "twan_fqcsid" K_Fqcsid Opt [InsIs 3] (None) KeepFirst;
  field "uetimezone" K_UeTimeZone Opt [InsIs 0] (None) KeepFirst;
  field "uci" K_Uci Opt [InsIs 0] (None) KeepFirst;
  field "chargingchar" K_ChargingCharacteristics Opt [InsIs 0] (None) KeepFirst;
  field "ldns" K_Ldn Many [InsAny] (None) KeepAll;
  field "spi" K_Spi Opt [InsIs 0] (None) KeepFirst;
  field "ue_localip" K_IpAddress Opt [InsIs 0] (None) KeepFirst;
  field "ue_udpport" K_PortNumber Opt [InsIs 0] (None) KeepFirst;
  field "apco" K_Apco Opt [InsIs 0] (None) KeepFirst;
  field "henb_localip" K_IpAddress Opt [InsIs 1] (None) KeepFirst;
  field "henb_udpport" K_PortNumber Opt [InsIs 1] (None) KeepFirst;
  field "mme_id" K_IpAddress Opt [InsIs 2] (None) KeepFirst;
  field "twan_id" K_TwanId Opt [InsIs 0] (None) KeepFirst;
  field "epdg_ip" K_IpAddress Opt [InsIs 3] (None) KeepFirst;
  field "cnose" K_CnOperatorSelectionEntity Opt [InsIs 0] (None) KeepFirst;
  field "prai" K_PresenceReportingAreaInformation Opt [InsIs 0] (None) KeepFirst;
  field "overload_info" K_OverloadControlInfo Many [InsBelow 3] (None) KeepAll;
  field "origination_timestamp" K_MilliSecondTimeStamp Opt [InsIs 0] (None) KeepFirst;
  field "max_waittime" K_IntegerNumber Opt [InsIs 0] (None) KeepFirst;
  field "wlan_loc" K_TwanId Opt [InsIs 1] (None) KeepFirst;
  field "wlan_loc_timestamp" K_TwanIdTimeStamp Opt [InsIs 0] (None) KeepFirst;
  field "nbifom" K_Fcontainer Opt [InsIs 0] (None) KeepFirst;
  field "remote_ue_ctx_connected" K_RemoteUeContext Many [InsIs 0] (None) KeepAll;
  field "aaaserver_id" K_NodeIdentifier Opt [InsIs 0] (None) KeepFirst;
  field "epco" K_Epco Opt [InsIs 0] (None) KeepFirst;
  field "srv_plmn_rate_cntrl" K_ServingPlmnRateControl Opt [InsIs 0] (None) KeepFirst;
  field "mo_exception_data_counter" K_Counter Opt [InsIs 0] (None) KeepFirst;
  field "ue_tcpport" K_PortNumber Opt [InsIs 2] (None) KeepFirst;
  field "mapped_ue_usage_type" K_MappedUeUsageType Opt [InsIs 0] (None) KeepFirst;
  field "uli_for_sgw" K_Uli Opt [InsIs 1] (None) KeepFirst;
  field "sgwu_node" K_Fqdn Opt [InsIs 0] (None) KeepFirst;
  field "secondary_rat_usage_report" K_SecondaryRatUsageDataReport Many [InsIs 0] (None) KeepAll;
  field "up_function_selection_flags" K_UpFunctionSelectionIndicationFlags Opt [InsIs 0] (None) KeepFirst;
  field "apn_rate_control_status" K_ApnRateControlStatus Opt [InsIs 0] (None) KeepFirst;
  field "pscellid" K_PSCellId Opt [InsIs 0] (None) KeepFirst;
  field "private_ext" K_PrivateExtension Many [InsAny] (None) KeepAll].

(* createsessionresp.rs 15-53 *)
Definition ly_createsessionresp : layout := [
  field "cause" K_Cause One [InsIs 0] (Some (InsIs 0)) KeepFirst;
  field "cra" K_ChangeReportingAction Opt [InsIs 0] (None) KeepFirst;
  field "csg_ira" K_CSGInformationReportingAction Opt [InsIs 0] (None) KeepFirst;
  field "henb_info_report" K_HenbInfoReporting Opt [InsIs 0] (None) KeepFirst;
  field "fteid_control" K_Fteid Opt [InsIs 0] (None) KeepFirst;
  field "fteid_pgw" K_Fteid Opt [InsIs 1] (None) KeepFirst;
  field "paa" K_PdnAddressAllocation Opt [InsIs 0] (None) KeepFirst;
  field "apn_restriction" K_ApnRestriction Opt [InsIs 0] (None) KeepFirst;
  field "apn_ambr" K_ApnAmbr Opt [InsIs 0] (None) KeepFirst;
  field "linked_ebi" K_Ebi Opt [InsIs 0] (None) KeepFirst;
  field "pco" K_Pco Opt [InsIs 0] (None) KeepFirst;
  field "bearer_ctxs" K_BearerContext Many [InsIs 0] (Some (InsIs 0)) KeepAll;
  field "recovery" K_Recovery Opt [InsIs 0] (None) KeepFirst;
  field "charging_gw_name" K_Fqdn Opt [InsIs 0] (None) KeepFirst;
  field "charging_gw_ip" K_IpAddress Opt [InsIs 0] (None) KeepFirst;
  field "pgw_fqcsid" K_Fqcsid Opt [InsIs 0] (None) KeepFirst;
  field "sgw_fqcsid" K_Fqcsid Opt [InsIs 1] (None) KeepFirst;
  field "sgw_ldn" K_Ldn Opt [InsIs 0] (None) KeepFirst;
  field "pgw_ldn" K_Ldn Opt [InsIs 1] (None) KeepFirst;
  field "pgw_backoff_time" K_EpcTimer Opt [InsIs 0] (None) KeepFirst;
  field "apco" K_Apco Opt [InsIs 0] (None) KeepFirst;
  field "twan_ip_params" K_Ip4Cp Opt [InsIs 0] (None) KeepFirst;
  field "indication" K_Indication Opt [InsIs 0] (None) KeepFirst;
  field "praa" K_PresenceReportingAreaAction Opt [InsIs 0] (None) KeepFirst;
  field "load_control" K_LoadControlInfo Many [InsBelow 3] (None) KeepAll;
  field "overload_info" K_OverloadControlInfo Many [InsBelow 2] (None) KeepAll;
  field "nbifom" K_Fcontainer Opt [InsIs 0] (None) KeepFirst;
  field "charging_id" K_ChargingId Opt [InsIs 0] (None) KeepFirst;
  field "epco" K_Epco Opt [InsIs 0] (None) KeepFirst;
  field "pgw_node_name" K_Fqdn Opt [InsIs 1] (None) KeepFirst;
  field "sgi_ptp_tunnel_addr" K_SgiPtpTunnelAddress Opt [InsIs 0] (None) KeepFirst;
  field "pgw_chng_info" K_PgwChangeInfo Opt [InsIs 0] (None) KeepFirst;
  field "alt_pgw_smf_fqdn" K_Fqdn Many [InsIs 3] (None) KeepAll;
  field "alt_pgw_smf_ip" K_IpAddress Many [InsIs 1] (None) KeepAll;
  field "upsp" K_UpSecurityPolicy Opt [InsIs 0] (None) KeepFirst;
  field "private_ext" K_PrivateExtension Many [InsAny] (None) KeepAll].

(* cspagingindication.rs 15-26 *)
Definition ly_cspagingindication : layout := [
  field "imsi" K_Imsi One [InsIs 0] (Some (InsIs 0)) KeepFirst;
  field "vlr" K_Fqdn One [InsIs 0] (Some (InsIs 0)) KeepFirst;
  field "tmsi" K_Tmsi Opt [InsIs 0] (None) KeepFirst;
  field "lai" K_Uli Opt [InsIs 0] (None) KeepFirst;
  field "global_cnid" K_GlobalCnId Opt [InsIs 0] (None) KeepFirst;
  field "channel_needed" K_ChannelNeeded Opt [InsIs 0] (None) KeepFirst;
  field "emlpp_prio" K_EmlppPriority Opt [InsIs 0] (None) KeepFirst;
  field "service_indicator" K_ServiceIndicator Opt [InsIs 0] (None) KeepFirst;
  field "private_ext" K_PrivateExtension Many [InsAny] (None) KeepAll].

(* deletebearercommand.rs 15-26 *)
Definition ly_deletebearercommand : layout := [
  field "bearer_ctxs" K_BearerContext Many [InsIs 0] (Some (InsIs 0)) KeepAll;
  field "uli" K_Uli Opt [InsIs 0] (None) KeepFirst;
  field "uli_timestamp" K_UliTimestamp Opt [InsIs 0] (None) KeepFirst;
  field "uetimezone" K_UeTimeZone Opt [InsIs 0] (None) KeepFirst;
  field "overload_info" K_OverloadControlInfo Many [InsBelow 2] (None) KeepAll;
  field "fteid_control" K_Fteid Opt [InsIs 0] (None) KeepFirst;
  field "secondary_rat_usage_report" K_SecondaryRatUsageDataReport Many [InsIs 0] (None) KeepAll;
  field "pscellid" K_PSCellId Opt [InsIs 0] (None) KeepFirst;
  field "private_ext" K_PrivateExtension Many [InsAny] (None) KeepAll].

(* deletebearerfailureind.rs 15-23 *)
Definition ly_deletebearerfailureind : layout := [
  field "cause" K_Cause One [InsIs 0] (Some (InsIs 0)) KeepFirst;
  field "bearer_ctxs" K_BearerContext Many [InsIs 0] (Some (InsIs 0)) KeepAll;
  field "recovery" K_Recovery Opt [InsIs 0] (None) KeepFirst;
  field "indication" K_Indication Opt [InsIs 0] (None) KeepFirst;
  field "overload_info" K_OverloadControlInfo Many [InsBelow 2] (None) KeepAll;
  field "private_ext" K_PrivateExtension Many [InsAny] (None) KeepAll].

(* deletebearerreq.rs 15-34 *)
Definition ly_deletebearerreq : layout := [
  field "linked_ebi" K_Ebi Opt [InsIs 0] (None) KeepFirst;
  field "ebi" K_Ebi Opt [InsIs 1] (None) KeepFirst;
  field "bearer_ctxs" K_BearerContext Many [InsIs 0] (None) KeepAll;
  field "pti" K_Pti Opt [InsIs 0] (None) KeepFirst;
  field "pco" K_Pco Opt [InsIs 0] (None) KeepFirst;
  field "pgw_fqcsid" K_Fqcsid Opt [InsIs 0] (None) KeepFirst;
  field "sgw_fqcsid" K_Fqcsid Opt [InsIs 1] (None) KeepFirst;
  field "cause" K_Cause Opt [InsIs 0] (None) KeepFirst;
  field "indication" K_Indication Opt [InsIs 0] (None) KeepFirst;
  field "load_control" K_LoadControlInfo Many [InsBelow 3] (None) KeepAll;
  field "overload_info" K_OverloadControlInfo Many [InsBelow 2] (None) KeepAll;
  field "nbifom" K_Fcontainer Opt [InsIs 0] (None) KeepFirst;
  field "apn_rate_control_status" K_ApnRateControlStatus Opt [InsIs 0] (None) KeepFirst;
  field "epco" K_Epco Opt [InsIs 0] (None) KeepFirst;
  field "pgw_change_info" K_PgwChangeInfo Many [InsIs 2] (None) KeepAll;
  field "fteid_control" K_Fteid Opt [InsIs 0] (None) KeepFirst;
  field "private_ext" K_PrivateExtension Many [InsAny] (None) KeepAll].

(* deletebearerresp.rs 15-41 *)
Definition ly_deletebearerresp : layout := [
  field "cause" K_Cause One [InsIs 0] (Some (InsIs 0)) KeepFirst;
  field "linked_ebi" K_Ebi Opt [InsIs 0] (None) KeepFirst;
  field "bearer_ctxs" K_BearerContext Many [InsIs 0] (None) KeepAll;
  field "recovery" K_Recovery Opt [InsIs 0] (None) KeepFirst;
  field "mme_fqcsid" K_Fqcsid Opt [InsIs 0] (None) KeepFirst;
  field "sgw_fqcsid" K_Fqcsid Opt [InsIs 1] (None) KeepFirst;
  field "epdg_fqcsid" K_Fqcsid Opt [InsIs 2] (None) KeepFirst;
  field "twan_fqcsid" K_Fqcsid Opt [InsIs 3] (None) KeepFirst;
  field "pco" K_Pco Opt [InsIs 0] (None) KeepFirst;
  field "uetimezone" K_UeTimeZone Opt [InsIs 0] (None) KeepFirst;
  field "uli" K_Uli Opt [InsIs 0] (None) KeepFirst;
  field "uli_timestamp" K_UliTimestamp Opt [InsIs 0] (None) KeepFirst;
  field "twan_id" K_TwanId Opt [InsIs 0] (None) KeepFirst;
  field "twan_id_timestamp" K_TwanIdTimeStamp Opt [InsIs 0] (None) KeepFirst;
  field "overload_info" K_OverloadControlInfo Many [InsBelow 3] (None) KeepAll;
  field "ip" K_IpAddress Opt [InsIs 0] (None) KeepFirst;
  field "wlan_loc" K_TwanId Opt [InsIs 1] (None) KeepFirst;
  field "wlan_loc_timestamp" K_TwanIdTimeStamp Opt [InsIs 1] (None) KeepFirst;
  field "ue_udpport" K_PortNumber Opt [InsIs 0] (None) KeepFirst;
  field "nbifom" K_Fcontainer Opt [InsIs 0] (None) KeepFirst;
  field "ue_tcpport" K_PortNumber Opt [InsIs 1] (None) KeepFirst;
  field "secondary_rat_usage_report" K_SecondaryRatUsageDataReport Many [InsAny] (None) KeepAll;
  field "pscellid" K_PSCellId Opt [InsIs 0] (None) KeepFirst;
  field "private_ext" K_PrivateExtension Many [InsAny] (None) KeepAll].

(* deleteindirectdatafwtunnelreq.rs 15-18 *)
Definition ly_deleteindirectdatafwtunnelreq : layout := [
  field "private_ext" K_PrivateExtension Many [InsAny] (None) KeepAll].

(* deleteindirectdatafwtunnelresp.rs 15-20 *)
Definition ly_deleteindirectdatafwtunnelresp : layout := [
  field "cause" K_Cause One [InsIs 0] (Some (InsIs 0)) KeepLast;
  field "recovery" K_Recovery Opt [InsIs 0] (None) KeepFirst;
  field "private_ext" K_PrivateExtension Many [InsAny] (None) KeepAll].

(* deletepdnconnectionsetreq.rs 15-23 *)
Definition ly_deletepdnconnectionsetreq : layout := [
  field "mme_fqcsid" K_Fqcsid Opt [InsIs 0] (None) KeepFirst;
  field "sgw_fqcsid" K_Fqcsid Opt [InsIs 1] (None) KeepFirst;
  field "pgw_fqcsid" K_Fqcsid Opt [InsIs 2] (None) KeepFirst;
  field "epdg_fqcsid" K_Fqcsid Opt [InsIs 3] (None) KeepFirst;
  field "twan_fqcsid" K_Fqcsid Opt [InsIs 4] (None) KeepFirst;
  field "private_ext" K_PrivateExtension Many [InsAny] (None) KeepAll].

(* deletepdnconnectionsetresp.rs 15-20 *)
Definition ly_deletepdnconnectionsetresp : layout := [
  field "cause" K_Cause One [InsIs 0] (Some (InsIs 0)) KeepLast;
  field "recovery" K_Recovery Opt [InsIs 0] (None) KeepFirst;
  field "private_ext" K_PrivateExtension Many [InsAny] (None) KeepAll].

(* deletesessionreq.rs 15-39 *)
Definition ly_deletesessionreq : layout := [
  field "cause" K_Cause Opt [InsIs 0] (None) KeepFirst;
  field "linked_ebi" K_Ebi Opt [InsIs 0] (None) KeepFirst;
  field "uli" K_Uli Opt [InsIs 0] (None) KeepFirst;
  field "indication" K_Indication Opt [InsIs 0] (None) KeepFirst;
  field "pco" K_Pco Opt [InsIs 0] (None) KeepFirst;
  field "orig_node" K_NodeType Opt [InsIs 0] (None) KeepFirst;
  field "fteid_control" K_Fteid Opt [InsIs 0] (None) KeepFirst;
  field "uetimezone" K_UeTimeZone Opt [InsIs 0] (None) KeepFirst;
  field "uli_timestamp" K_UliTimestamp Opt [InsIs 0] (None) KeepFirst;
  field "ran_nas_cause" K_RanNasCause Opt [InsIs 0] (None) KeepFirst;
  field "twan_id" K_TwanId Opt [InsIs 0] (None) KeepFirst;
  field "twan_id_timestamp" K_TwanIdTimeStamp Opt [InsIs 0] (None) KeepFirst;
  field "overload_info" K_OverloadControlInfo Many [InsBelow 3] (None) KeepAll;
  field "wlan_loc" K_TwanId Opt [InsIs 1] (None) KeepFirst;
  field "wlan_loc_timestamp" K_TwanIdTimeStamp Opt [InsIs 1] (None) KeepFirst;
  field "ue_localip" K_IpAddress Opt [InsIs 0] (None) KeepFirst;
  field "ue_udpport" K_PortNumber Opt [InsIs 0] (None) KeepFirst;
  field "epco" K_Epco Opt [InsIs 0] (None) KeepFirst;
  field "ue_tcpport" K_PortNumber Opt [InsIs 1] (None) KeepFirst;
  field "secondary_rat_usage_report" K_SecondaryRatUsageDataReport Many [InsIs 0] (None) KeepAll;
  field "pscellid" K_PSCellId Opt [InsIs 0] (None) KeepFirst;
  field "private_ext" K_PrivateExtension Many [InsAny] (None) KeepAll].

(* deletesessionresp.rs 15-26 *)
Definition ly_deletesessionresp : layout := [
  field "cause" K_Cause One [InsIs 0] (Some (InsIs 0)) KeepFirst;
  field "recovery" K_Recovery Opt [InsIs 0] (None) KeepFirst;
  field "pco" K_Pco Opt [InsIs 0] (None) KeepFirst;
  field "indication" K_Indication Opt [InsIs 0] (None) KeepFirst;
  field "load_control" K_LoadControlInfo Many [InsBelow 3] (None) KeepAll;
  field "overload_info" K_OverloadControlInfo Many [InsBelow 2] (None) KeepAll;
  field "epco" K_Epco Opt [InsIs 0] (None) KeepFirst;
  field "apn_rate_control_status" K_ApnRateControlStatus Opt [InsIs 0] (None) KeepFirst;
  field "private_ext" K_PrivateExtension Many [InsAny] (None) KeepAll].

(* detachacknowledge.rs 15-20 *)
Definition ly_detachacknowledge : layout := [
  field "cause" K_Cause One [InsIs 0] (Some (InsIs 0)) KeepLast;
  field "recovery" K_Recovery Opt [InsIs 0] (None) KeepFirst;
  field "private_ext" K_PrivateExtension Many [InsAny] (None) KeepAll].

(* detachnotification.rs 15-20 *)
Definition ly_detachnotification : layout := [
  field "cause" K_Cause One [InsIs 0] (Some (InsIs 0)) KeepFirst;
  field "detach_type" K_DetachType Opt [InsIs 0] (None) KeepFirst;
  field "private_ext" K_PrivateExtension Many [InsAny] (None) KeepAll].

(* downlinkdatanotification.rs 15-28 *)
Definition ly_downlinkdatanotification : layout := [
  field "cause" K_Cause Opt [InsIs 0] (None) KeepFirst;
  field "ebi" K_Ebi Opt [InsIs 0] (None) KeepFirst;
  field "arp" K_Arp Opt [InsIs 0] (None) KeepFirst;
  field "imsi" K_Imsi Opt [InsIs 0] (None) KeepFirst;
  field "fteid_control" K_Fteid Opt [InsIs 0] (None) KeepFirst;
  field "indication" K_Indication Opt [InsIs 0] (None) KeepFirst;
  field "load_control" K_LoadControlInfo Many [InsIs 0] (None) KeepAll;
  field "overload_info" K_OverloadControlInfo Many [InsIs 0] (None) KeepAll;
  field "psi" K_PagingServiceInfo Opt [InsIs 0] (None) KeepFirst;
  field "dl_data_pckts_size" K_IntegerNumber Opt [InsIs 0] (None) KeepFirst;
  field "private_ext" K_PrivateExtension Many [InsAny] (None) KeepAll].

(* downlinkdatanotificationacknowledge.rs 15-25 *)
Definition ly_downlinkdatanotificationacknowledge : layout := [
  field "cause" K_Cause One [InsIs 0] (Some (InsIs 0)) KeepLast;
  field "data_notification_delay" K_DelayValue Opt [InsIs 0] (None) KeepFirst;
  field "recovery" K_Recovery Opt [InsIs 0] (None) KeepFirst;
  field "dl_low_prio_traffic_throttling" K_Throttling Opt [InsIs 0] (None) KeepFirst;
  field "imsi" K_Imsi Opt [InsIs 0] (None) KeepFirst;
  field "dl_buff_dur" K_EpcTimer Opt [InsIs 0] (None) KeepFirst;
  field "dl_buff_sugg_packet_count" K_IntegerNumber Opt [InsIs 0] (None) KeepFirst;
  field "private_ext" K_PrivateExtension Many [InsAny] (None) KeepAll].

(* downlinkdatanotificationfailureindication.rs 15-21 *)
Definition ly_downlinkdatanotificationfailureindication : layout := [
  field "cause" K_Cause One [InsIs 0] (Some (InsIs 0)) KeepFirst;
  field "orig_node" K_NodeType Opt [InsIs 0] (None) KeepFirst;
  field "imsi" K_Imsi Opt [InsIs 0] (None) KeepFirst;
  field "private_ext" K_PrivateExtension Many [InsAny] (None) KeepAll].

(* echoreq.rs 15-20 *)
Definition ly_echoreq : layout := [
  field "recovery" K_Recovery One [InsIs 0] (Some (InsIs 0)) KeepFirst;
  field "sending_node_features" K_NodeFeatures Opt [InsIs 0] (None) KeepFirst;
  field "private_ext" K_PrivateExtension Many [InsAny] (None) KeepAll].

(* echoresp.rs 15-20 *)
Definition ly_echoresp : layout := [
  field "recovery" K_Recovery One [InsIs 0] (Some (InsIs 0)) KeepFirst;
  field "sending_node_features" K_NodeFeatures Opt [InsIs 0] (None) KeepFirst;
  field "private_ext" K_PrivateExtension Many [InsAny] (None) KeepAll].

(* forwardaccesscontextacknowledge.rs 15-19 *)
Definition ly_forwardaccesscontextacknowledge : layout := [
  field "cause" K_Cause One [InsIs 0] (Some (InsIs 0)) KeepFirst;
  field "private_ext" K_PrivateExtension Many [InsAny] (None) KeepAll].

(* forwardaccesscontextnotification.rs 15-22 *)
Definition ly_forwardaccesscontextnotification : layout := [
  field "rab_ctxs" K_RabContext Many [InsIs 0] (None) KeepAll;
  field "src_rnc_pdcp_ctx" K_SrcRncPdcpCtxInfo Opt [InsIs 0] (None) KeepFirst;
  field "pdu_numbers" K_PduNumbers Opt [InsIs 0] (None) KeepFirst;
  field "eutran_containers" K_Fcontainer Many [InsBelow 2] (None) KeepAll;
  field "private_ext" K_PrivateExtension Many [InsAny] (None) KeepAll].

(* forwardrelocationcompleteacknowledge.rs 15-21 *)
Definition ly_forwardrelocationcompleteacknowledge : layout := [
  field "cause" K_Cause One [InsIs 0] (Some (InsIs 0)) KeepFirst;
  field "recovery" K_Recovery Opt [InsIs 0] (None) KeepFirst;
  field "scnd_rat_udrs" K_SecondaryRatUsageDataReport Many [InsBelow 2] (None) KeepAll;
  field "private_ext" K_PrivateExtension Many [InsAny] (None) KeepAll].

(* forwardrelocationcompletenotification.rs 15-19 *)
Definition ly_forwardrelocationcompletenotification : layout := [
  field "indication" K_Indication Opt [InsIs 0] (None) KeepFirst;
  field "private_ext" K_PrivateExtension Many [InsAny] (None) KeepAll].

(* forwardrelocationreq.rs 15-56 *)
Definition ly_forwardrelocationreq : layout := [
  field "imsi" K_Imsi Opt [InsIs 0] (None) KeepFirst;
  field "fteid_control" K_Fteid One [InsIs 0] (Some (InsIs 0)) KeepFirst;
  field "ue_eps_pdn" K_PdnConnections Many [InsIs 0] (None) KeepAll;
  field "sgw_fteid" K_Fteid Opt [InsIs 1] (None) KeepFirst;
  field "fqdns" K_Fqdn Many [InsBelow 3] (None) KeepAll;
  field "mmctx" K_MmContext One [InsIs 0] (Some (InsIs 0)) KeepFirst;
  field "indication" K_Indication Opt [InsIs 0] (None) KeepFirst;
  field "f_containers" K_Fcontainer Many [InsBelow 3] (None) KeepAll;
  field "target_id" K_TargetIdentification Opt [InsIs 0] (None) KeepFirst;
  field "ip_addresses" K_IpAddress Many [InsBelow 2] (None) KeepAll;
  field "f_causes" K_Fcause Many [InsBelow 3] (None) KeepAll;
  field "source_id" K_SourceIdentification Opt [InsIs 0] (None) KeepFirst;
  field "selected_plmnid" K_PlmnId Opt [InsIs 0] (None) KeepFirst;
  field "recovery" K_Recovery Opt [InsIs 0] (None) KeepFirst;
  field "trace_info" K_TraceInformation Opt [InsIs 0] (None) KeepFirst;
  field "rfsp_indexes" K_RfspIndex Many [InsBelow 2] (None) KeepAll;
  field "csg_id" K_CsgId Opt [InsIs 0] (None) KeepFirst;
  field "cmi" K_CsgMembershipIndication Opt [InsIs 0] (None) KeepFirst;
  field "ue_time_zone" K_UeTimeZone Opt [InsIs 0] (None) KeepFirst;
  field "srv_network" K_ServingNetwork Opt [InsIs 0] (None) KeepFirst;
  field "mme_sgsn_ldn" K_Ldn Opt [InsIs 0] (None) KeepFirst;
  field "add_mmctx_for_srvcc" K_AdditionalMmContextForSrvcc Opt [InsIs 0] (None) KeepFirst;
  field "add_flags_for_srvcc" K_AdditionalFlagsSrvcc Opt [InsIs 0] (None) KeepFirst;
  field "stnsr" K_StnSr Opt [InsIs 0] (None) KeepFirst;
  field "msisdns" K_Msisdn Many [InsBelow 2] (None) KeepAll;
  field "mdt_cfg" K_MdtConfiguration Opt [InsIs 0] (None) KeepFirst;
  field "uci" K_Uci Opt [InsIs 0] (None) KeepFirst;
  field "monitor_event_info" K_MonitoringEventInformation Many [InsIs 0] (None) KeepAll;
  field "monitor_even_ext_info" K_MonitoringEventExtensionInfo Many [InsIs 0] (None) KeepAll;
  field "ue_usage_type" K_IntegerNumber Opt [InsIs 0] (None) KeepFirst;
  field "scef_pdn_connections" K_ScefPdnConnections Many [InsIs 0] (None) KeepAll;
  field "src_udp_port" K_PortNumber Opt [InsIs 0] (None) KeepFirst;
  field "srv_plmn_rate_cntrl" K_ServingPlmnRateControl Opt [InsIs 0] (None) KeepFirst;
  field "ext_trace_info" K_ExtendedTraceInformation Opt [InsIs 0] (None) KeepFirst;
  field "add_rrm_policy_index" K_AdditionalRrmPolicyIndex Many [InsBelow 2] (None) KeepAll;
  field "subcr_v2x_info" K_V2xInformation Opt [InsIs 0] (None) KeepFirst;
  field "iwk_scef_id" K_NodeIdentifier Opt [InsIs 0] (None) KeepFirst;
  field "alt_imsi" K_AlternativeImsi Opt [InsIs 0] (None) KeepFirst;
  field "private_ext" K_PrivateExtension Many [InsAny] (None) KeepAll].

(* forwardrelocationresp.rs 15-30 *)
Definition ly_forwardrelocationresp : layout := [
  field "cause" K_Cause One [InsIs 0] (Some (InsIs 0)) KeepFirst;
  field "fteid_control" K_Fteid Opt [InsIs 0] (None) KeepFirst;
  field "indication" K_Indication Opt [InsIs 0] (None) KeepFirst;
  field "bearer_ctxs" K_BearerContext Many [InsBelow 4] (None) KeepAll;
  field "f_causes" K_Fcause Many [InsBelow 3] (None) KeepAll;
  field "f_containers" K_Fcontainer Many [InsBelow 3] (None) KeepAll;
  field "mme_sgsn_ldn" K_Ldn Opt [InsIs 0] (None) KeepFirst;
  field "sgsn_fqdn" K_Fqdn Opt [InsIs 0] (None) KeepFirst;
  field "mme_fqdn" K_Fqdn Opt [InsIs 1] (None) KeepFirst;
  field "node_nbrs" K_NodeNumber Many [InsBelow 3] (None) KeepAll;
  field "node_ids" K_NodeIdentifier Many [InsBelow 4] (None) KeepAll;
  field "srvcc_reject_cause" K_SrvccCause Opt [InsIs 0] (None) KeepFirst;
  field "private_ext" K_PrivateExtension Many [InsAny] (None) KeepAll].

(* identificationreq.rs 15-27 *)
Definition ly_identificationreq : layout := [
  field "guti" K_Guti Opt [InsIs 0] (None) KeepFirst;
  field "rai" K_Uli Opt [InsIs 0] (None) KeepFirst;
  field "ptmsi" K_Ptmsi Opt [InsIs 0] (None) KeepFirst;
  field "ptmsi_sig" K_PtmsiSignature Opt [InsIs 0] (None) KeepFirst;
  field "carm" K_CompleteRequestMessage Opt [InsIs 0] (None) KeepFirst;
  field "ip_cplane" K_IpAddress Opt [InsIs 0] (None) KeepFirst;
  field "udp_src_port" K_PortNumber Opt [InsIs 0] (None) KeepFirst;
  field "hop_counter" K_HopCounter Opt [InsIs 0] (None) KeepFirst;
  field "target_plmnid" K_ServingNetwork Opt [InsIs 0] (None) KeepFirst;
  field "private_ext" K_PrivateExtension Many [InsAny] (None) KeepAll].

(* identificationresp.rs 15-26 *)
Definition ly_identificationresp : layout := [
  field "cause" K_Cause One [InsIs 0] (Some (InsIs 0)) KeepFirst;
  field "imsi" K_Imsi Opt [InsIs 0] (None) KeepFirst;
  field "mmctx" K_MmContext Opt [InsIs 0] (None) KeepFirst;
  field "trace_info" K_TraceInformation Opt [InsIs 0] (None) KeepFirst;
  field "ue_usage_type" K_IntegerNumber Opt [InsIs 0] (None) KeepFirst;
  field "monitor_event_info" K_MonitoringEventInformation Many [InsIs 0] (None) KeepAll;
  field "monitor_even_ext_info" K_MonitoringEventExtensionInfo Many [InsIs 0] (None) KeepAll;
  field "ext_trace_info" K_ExtendedTraceInformation Opt [InsIs 0] (None) KeepFirst;
  field "private_ext" K_PrivateExtension Many [InsAny] (None) KeepAll].

(* isrstatusindication.rs 15-19 *)
Definition ly_isrstatusindication : layout := [
  field "action_ind" K_ActionIndication One [InsIs 0] (Some (InsIs 0)) KeepLast;
  field "private_ext" K_PrivateExtension Many [InsAny] (None) KeepAll].

(* mbmssessionstartreq.rs 15-32 *)
Definition ly_mbmssessionstartreq : layout := [
  field "fteid_control" K_Fteid One [InsIs 0] (Some (InsIs 0)) KeepFirst;
  field "tmgi" K_Tmgi One [InsIs 0] (Some (InsIs 0)) KeepFirst;
  field "mbms_sess_dur" K_MbmsSd One [InsIs 0] (Some (InsIs 0)) KeepFirst;
  field "mbms_svc_area" K_MbmsSa One [InsIs 0] (Some (InsIs 0)) KeepFirst;
  field "mbms_sess_id" K_MbmsSessionId Opt [InsIs 0] (None) KeepFirst;
  field "mbms_flow_id" K_MbmsFlowId Opt [InsIs 0] (None) KeepFirst;
  field "qos_profile" K_BearerQos One [InsIs 0] (Some (InsIs 0)) KeepFirst;
  field "mbms_ip_multicast_dist" K_MbmsIpMulticastDistribution One [InsIs 0] (Some (InsIs 0)) KeepFirst;
  field "recovery" K_Recovery Opt [InsIs 0] (None) KeepFirst;
  field "mbms_time_to_data_transfer" K_MbmsTimeToDataTransfer Opt [InsIs 0] (None) KeepFirst;
  field "mbms_data_transfer_start" K_AbsoluteTimeMbmsDataTransfer Opt [InsIs 0] (None) KeepFirst;
  field "mbms_flags" K_MbmsFlags Opt [InsIs 0] (None) KeepFirst;
  field "mbms_alt_ip_multicast_dist" K_MbmsIpMulticastDistribution Opt [InsIs 1] (None) KeepFirst;
  field "mbms_cell_list" K_EcgiList Opt [InsIs 0] (None) KeepFirst;
  field "private_ext" K_PrivateExtension Many [InsAny] (None) KeepAll].

(* mbmssessionstartresp.rs 15-23 *)
Definition ly_mbmssessionstartresp : layout := [
  field "cause" K_Cause One [InsIs 0] (Some (InsIs 0)) KeepFirst;
  field "fteid_control" K_Fteid One [InsIs 0] (Some (InsIs 0)) KeepFirst;
  field "mbms_distr_ack" K_MbmsDistributionAck Opt [InsIs 0] (None) KeepFirst;
  field "sgsn_fteid" K_Fteid Opt [InsIs 1] (None) KeepFirst;
  field "recovery" K_Recovery Opt [InsIs 0] (None) KeepFirst;
  field "private_ext" K_PrivateExtension Many [InsAny] (None) KeepAll].

(* mbmssessionstopreq.rs 15-21 *)
Definition ly_mbmssessionstopreq : layout := [
  field "mbms_flow_id" K_MbmsFlowId Opt [InsIs 0] (None) KeepFirst;
  field "mbms_data_transfer_stop" K_AbsoluteTimeMbmsDataTransfer Opt [InsIs 0] (None) KeepFirst;
  field "mbms_flags" K_MbmsFlags Opt [InsIs 0] (None) KeepFirst;
  field "private_ext" K_PrivateExtension Many [InsAny] (None) KeepAll].

(* mbmssessionstopresp.rs 15-20 *)
Definition ly_mbmssessionstopresp : layout := [
  field "cause" K_Cause One [InsIs 0] (Some (InsIs 0)) KeepFirst;
  field "recovery" K_Recovery Opt [InsIs 0] (None) KeepFirst;
  field "private_ext" K_PrivateExtension Many [InsAny] (None) KeepAll].

(* mbmssessionupdatereq.rs 15-28 *)
Definition ly_mbmssessionupdatereq : layout := [
  field "mbms_svc_area" K_MbmsSa Opt [InsIs 0] (None) KeepFirst;
  field "tmgi" K_Tmgi One [InsIs 0] (Some (InsIs 0)) KeepFirst;
  field "fteid_control" K_Fteid Opt [InsIs 0] (None) KeepFirst;
  field "mbms_sess_dur" K_MbmsSd One [InsIs 0] (Some (InsIs 0)) KeepFirst;
  field "qos_profile" K_BearerQos One [InsIs 0] (Some (InsIs 0)) KeepFirst;
  field "mbms_sess_id" K_MbmsSessionId Opt [InsIs 0] (None) KeepFirst;
  field "mbms_flow_id" K_MbmsFlowId Opt [InsIs 0] (None) KeepFirst;
  field "mbms_time_to_data_transfer" K_MbmsTimeToDataTransfer Opt [InsIs 0] (None) KeepFirst;
  field "mbms_data_transfer_sus" K_AbsoluteTimeMbmsDataTransfer Opt [InsIs 0] (None) KeepFirst;
  field "mbms_cell_list" K_EcgiList Opt [InsIs 0] (None) KeepFirst;
  field "private_ext" K_PrivateExtension Many [InsAny] (None) KeepAll].

(* mbmssessionupdateresp.rs 15-22 *)
Definition ly_mbmssessionupdateresp : layout := [
  field "cause" K_Cause One [InsIs 0] (Some (InsIs 0)) KeepFirst;
  field "mbms_distr_ack" K_MbmsDistributionAck Opt [InsIs 0] (None) KeepFirst;
  field "sgsn_fteid" K_Fteid Opt [InsIs 0] (None) KeepFirst;
  field "recovery" K_Recovery Opt [InsIs 0] (None) KeepFirst;
  field "private_ext" K_PrivateExtension Many [InsAny] (None) KeepAll].

(* modifyaccessbearersreq.rs 15-25 *)
Definition ly_modifyaccessbearersreq : layout := [
  field "indication" K_Indication Opt [InsIs 0] (None) KeepFirst;
  field "fteid_control" K_Fteid Opt [InsIs 0] (None) KeepFirst;
  field "delay_dl_pckt_notif_req" K_DelayValue Opt [InsIs 0] (None) KeepFirst;
  field "bearer_ctxs" K_BearerContext Many [InsBelow 2] (None) KeepAll;
  field "recovery" K_Recovery Opt [InsIs 0] (None) KeepFirst;
  field "secondary_rat_usage_report" K_SecondaryRatUsageDataReport Many [InsIs 0] (None) KeepAll;
  field "pscellid" K_PSCellId Opt [InsIs 0] (None) KeepFirst;
  field "private_ext" K_PrivateExtension Many [InsAny] (None) KeepAll].

(* modifyaccessbearersresp.rs 15-24 *)
Definition ly_modifyaccessbearersresp : layout := [
  field "cause" K_Cause One [InsIs 0] (Some (InsIs 0)) KeepFirst;
  field "bearer_ctxs" K_BearerContext Many [InsBelow 2] (None) KeepAll;
  field "recovery" K_Recovery Opt [InsIs 0] (None) KeepFirst;
  field "indication" K_Indication Opt [InsIs 0] (None) KeepFirst;
  field "load_control_info" K_LoadControlInfo Opt [InsIs 0] (None) KeepFirst;
  field "overload_control_info" K_OverloadControlInfo Opt [InsIs 0] (None) KeepFirst;
  field "private_ext" K_PrivateExtension Many [InsAny] (None) KeepAll].

(* modifybearercommand.rs 15-22 *)
Definition ly_modifybearercommand : layout := [
  field "apnambr" K_ApnAmbr One [InsIs 0] (Some (InsIs 0)) KeepFirst;
  field "bearer_ctxs" K_BearerContext Many [InsIs 0] (Some (InsIs 0)) KeepFirst;
  field "overload_info" K_OverloadControlInfo Many [InsBelow 3] (None) KeepAll;
  field "fteid_control" K_Fteid Opt [InsIs 0] (None) KeepFirst;
  field "private_ext" K_PrivateExtension Many [InsAny] (None) KeepAll].

(* modifybearerfailureind.rs 15-22 *)
Definition ly_modifybearerfailureind : layout := [
  field "cause" K_Cause One [InsIs 0] (Some (InsIs 0)) KeepFirst;
  field "recovery" K_Recovery Opt [InsIs 0] (None) KeepFirst;
  field "indication" K_Indication Opt [InsIs 0] (None) KeepFirst;
  field "overload_info" K_OverloadControlInfo Many [InsBelow 2] (None) KeepAll;
  field "private_ext" K_PrivateExtension Many [InsAny] (None) KeepAll].

(* modifybearerreq.rs 15-50 *)
Definition ly_modifybearerreq : layout := [
  field "mei" K_Mei Opt [InsIs 0] (None) KeepFirst;
  field "uli" K_Uli Opt [InsIs 0] (None) KeepFirst;
  field "servingnetwork" K_ServingNetwork Opt [InsIs 0] (None) KeepFirst;
  field "rattype" K_RatType Opt [InsIs 0] (None) KeepFirst;
  field "indication" K_Indication Opt [InsIs 0] (None) KeepFirst;
  field "fteid_control" K_Fteid Opt [InsIs 0] (None) KeepFirst;
  field "apnambr" K_ApnAmbr Opt [InsIs 0] (None) KeepFirst;
  field "delay_dl_pnr" K_DelayValue Opt [InsIs 0] (None) KeepFirst;
  field "bearer_ctxs" K_BearerContext Many [InsBelow 2] (None) KeepAll;
  field "recovery" K_Recovery Opt [InsIs 0] (None) KeepFirst;
  field "uetimezone" K_UeTimeZone Opt [InsIs 0] (None) KeepFirst;
  field "mme_fqcsid" K_Fqcsid Opt [InsIs 0] (None) KeepFirst;
  field "sgw_fqcsid" K_Fqcsid Opt [InsIs 1] (None) KeepFirst;
  field "uci" K_Uci Opt [InsIs 0] (None) KeepFirst;
  field "ue_localip" K_IpAddress Opt [InsIs 1] (None) KeepFirst;
  field "ue_udpport" K_PortNumber Opt [InsIs 1] (None) KeepFirst;
  field "mme_ldn" K_Ldn Opt [InsIs 0] (None) KeepFirst;
  field "sgw_ldn" K_Ldn Opt [InsIs 1] (None) KeepFirst;
  field "henb_localip" K_IpAddress Opt [InsIs 0] (None) KeepFirst;
  field "henb_udpport" K_PortNumber Opt [InsIs 0] (None) KeepFirst;
  field "mme_id" K_IpAddress Opt [InsIs 2] (None) KeepFirst;
  field "cnose" K_CnOperatorSelectionEntity Opt [InsIs 0] (None) KeepFirst;
  field "prai" K_PresenceReportingAreaInformation Opt [InsIs 0] (None) KeepFirst;
  field "overload_info" K_OverloadControlInfo Many [InsBelow 3] (None) KeepAll;
  field "srv_plmn_rate_cntrl" K_ServingPlmnRateControl Opt [InsIs 0] (None) KeepFirst;
  field "mo_exception_data_counter" K_Counter Opt [InsIs 0] (None) KeepFirst;
  field "imsi" K_Imsi Opt [InsIs 0] (None) KeepFirst;
  field "uli_for_sgw" K_Uli Opt [InsIs 1] (None) KeepFirst;
  field "wlan_loc" K_TwanId Opt [InsIs 0] (None) KeepFirst;
  field "wlan_loc_timestamp" K_TwanIdTimeStamp Opt [InsIs 0] (None) KeepFirst;
  field "secondary_rat_usage_report" K_SecondaryRatUsageDataReport Many [InsIs 0] (None) KeepAll;
  field "pscellid" K_PSCellId Opt [InsIs 0] (None) KeepFirst;
  field "private_ext" K_PrivateExtension Many [InsAny] (None) KeepAll].

(* modifybearerresp.rs 15-40 *)
Definition ly_modifybearerresp : layout := [
  field "cause" K_Cause One [InsIs 0] (Some (InsIs 0)) KeepFirst;
  field "msisdn" K_Msisdn Opt [InsIs 0] (None) KeepFirst;
  field "linked_ebi" K_Ebi Opt [InsIs 0] (None) KeepFirst;
  field "apn_restriction" K_ApnRestriction Opt [InsIs 0] (None) KeepFirst;
  field "pco" K_Pco Opt [InsIs 0] (None) KeepFirst;
  field "bearer_ctxs" K_BearerContext Many [InsBelow 2] (None) KeepAll;
  field "cra" K_ChangeReportingAction Opt [InsIs 0] (None) KeepFirst;
  field "csg_ira" K_CSGInformationReportingAction Opt [InsIs 0] (None) KeepFirst;
  field "henb_info_report" K_HenbInfoReporting Opt [InsIs 0] (None) KeepFirst;
  field "charging_gw_name" K_Fqdn Opt [InsIs 0] (None) KeepFirst;
  field "charging_gw_ip" K_IpAddress Opt [InsIs 0] (None) KeepFirst;
  field "pgw_fqcsid" K_Fqcsid Opt [InsIs 0] (None) KeepFirst;
  field "sgw_fqcsid" K_Fqcsid Opt [InsIs 1] (None) KeepFirst;
  field "recovery" K_Recovery Opt [InsIs 0] (None) KeepFirst;
  field "sgw_ldn" K_Ldn Opt [InsIs 0] (None) KeepFirst;
  field "pgw_ldn" K_Ldn Opt [InsIs 1] (None) KeepFirst;
  field "indication" K_Indication Opt [InsIs 0] (None) KeepFirst;
  field "praa" K_PresenceReportingAreaAction Opt [InsIs 0] (None) KeepFirst;
  field "load_control" K_LoadControlInfo Many [InsBelow 3] (None) KeepAll;
  field "overload_info" K_OverloadControlInfo Many [InsBelow 2] (None) KeepAll;
  field "charging_id" K_ChargingId Opt [InsIs 0] (None) KeepFirst;
  field "pgw_change_info" K_PgwChangeInfo Opt [InsIs 0] (None) KeepFirst;
  field "private_ext" K_PrivateExtension Many [InsAny] (None) KeepAll].

(* pgwdownlinktriggeringacknowledge.rs 15-21 *)
Definition ly_pgwdownlinktriggeringacknowledge : layout := [
  field "cause" K_Cause One [InsIs 0] (Some (InsIs 0)) KeepFirst;
  field "imsi" K_Imsi Opt [InsIs 0] (None) KeepFirst;
  field "mme_sgsn_id" K_IpAddress Opt [InsIs 0] (None) KeepFirst;
  field "private_ext" K_PrivateExtension Many [InsAny] (None) KeepAll].

(* pgwdownlinktriggeringnotification.rs 15-21 *)
Definition ly_pgwdownlinktriggeringnotification : layout := [
  field "imsi" K_Imsi One [InsIs 0] (Some (InsIs 0)) KeepFirst;
  field "mme_sgsn_id" K_IpAddress Opt [InsIs 0] (None) KeepFirst;
  field "pgw_fteid" K_Fteid Opt [InsIs 0] (None) KeepFirst;
  field "private_ext" K_PrivateExtension Many [InsAny] (None) KeepAll].

(* pgwrestartnotification.rs 15-21 *)
Definition ly_pgwrestartnotification : layout := [
  field "pgw_addr_control" K_IpAddress One [InsIs 0] (Some (InsIs 0)) KeepFirst;
  field "sgw_addr_control" K_IpAddress One [InsIs 1] (Some (InsIs 1)) KeepFirst;
  field "cause" K_Cause Opt [InsIs 0] (None) KeepLast;
  field "private_ext" K_PrivateExtension Many [InsAny] (None) KeepAll].

(* pgwrestartnotificationacknowledge.rs 15-19 *)
Definition ly_pgwrestartnotificationacknowledge : layout := [
  field "cause" K_Cause One [InsIs 0] (Some (InsIs 0)) KeepLast;
  field "private_ext" K_PrivateExtension Many [InsAny] (None) KeepAll].

(* raninformationrelay.rs 15-20 *)
Definition ly_raninformationrelay : layout := [
  field "bss_container" K_Fcause One [InsIs 0] (Some (InsIs 0)) KeepFirst;
  field "rim_routing_addr" K_TargetIdentification Opt [InsIs 0] (None) KeepFirst;
  field "private_ext" K_PrivateExtension Many [InsAny] (None) KeepAll].

(* releaseaccessbearersreq.rs 15-23 *)
Definition ly_releaseaccessbearersreq : layout := [
  field "list_rabs" K_Ebi Many [InsIs 0] (None) KeepAll;
  field "orig_node" K_NodeType Opt [InsIs 0] (None) KeepFirst;
  field "indication" K_Indication Opt [InsIs 0] (None) KeepFirst;
  field "secondary_rat_usage_report" K_SecondaryRatUsageDataReport Many [InsIs 0] (None) KeepAll;
  field "pscellid" K_PSCellId Opt [InsIs 0] (None) KeepFirst;
  field "private_ext" K_PrivateExtension Many [InsAny] (None) KeepAll].

(* releaseaccessbearersresp.rs 15-23 *)
Definition ly_releaseaccessbearersresp : layout := [
  field "cause" K_Cause One [InsIs 0] (Some (InsIs 0)) KeepFirst;
  field "recovery" K_Recovery Opt [InsIs 0] (None) KeepFirst;
  field "indication" K_Indication Opt [InsIs 0] (None) KeepFirst;
  field "load_control" K_LoadControlInfo Many [InsBelow 3] (None) KeepAll;
  field "overload_info" K_OverloadControlInfo Many [InsBelow 2] (None) KeepAll;
  field "private_ext" K_PrivateExtension Many [InsAny] (None) KeepAll].

(* relocationcancelreq.rs 15-22 *)
Definition ly_relocationcancelreq : layout := [
  field "imsi" K_Imsi Opt [InsIs 0] (None) KeepFirst;
  field "mei" K_Mei Opt [InsIs 0] (None) KeepFirst;
  field "indication" K_Indication Opt [InsIs 0] (None) KeepFirst;
  field "ranap_cause" K_Fcause Opt [InsIs 0] (None) KeepFirst;
  field "private_ext" K_PrivateExtension Many [InsAny] (None) KeepAll].

(* relocationcancelresp.rs 15-19 *)
Definition ly_relocationcancelresp : layout := [
  field "cause" K_Cause One [InsIs 0] (Some (InsIs 0)) KeepFirst;
  field "private_ext" K_PrivateExtension Many [InsAny] (None) KeepAll].

(* remoteuereportacknowledge.rs 15-19 *)
Definition ly_remoteuereportacknowledge : layout := [
  field "cause" K_Cause One [InsIs 0] (Some (InsIs 0)) KeepLast;
  field "private_ext" K_PrivateExtension Many [InsAny] (None) KeepAll].

(* remoteuereportnotification.rs 15-20 *)
Definition ly_remoteuereportnotification : layout := [
  field "remote_ue_ctx_connected" K_RemoteUeContext Many [InsIs 0] (None) KeepAll;
  field "remote_ue_ctx_disconnected" K_RemoteUeContext Many [InsIs 1] (None) KeepAll;
  field "private_ext" K_PrivateExtension Many [InsAny] (None) KeepAll].

(* resumeacknowledge.rs 15-19 *)
Definition ly_resumeacknowledge : layout := [
  field "cause" K_Cause One [InsIs 0] (Some (InsIs 0)) KeepFirst;
  field "private_ext" K_PrivateExtension Many [InsAny] (None) KeepAll].

(* resumenotification.rs 15-22 *)
Definition ly_resumenotification : layout := [
  field "imsi" K_Imsi One [InsIs 0] (Some (InsIs 0)) KeepFirst;
  field "linked_ebi" K_Ebi Opt [InsIs 0] (None) KeepFirst;
  field "orig_node" K_NodeType Opt [InsIs 0] (None) KeepFirst;
  field "fteid_control" K_Fteid Opt [InsIs 0] (None) KeepFirst;
  field "private_ext" K_PrivateExtension Many [InsAny] (None) KeepAll].

(* stoppagingindication.rs 15-19 *)
Definition ly_stoppagingindication : layout := [
  field "imsi" K_Imsi Opt [InsIs 0] (None) KeepLast;
  field "private_ext" K_PrivateExtension Many [InsAny] (None) KeepAll].

(* suspendacknowledge.rs 15-19 *)
Definition ly_suspendacknowledge : layout := [
  field "cause" K_Cause One [InsIs 0] (Some (InsIs 0)) KeepFirst;
  field "private_ext" K_PrivateExtension Many [InsAny] (None) KeepAll].

(* suspendnotification.rs 15-27 *)
Definition ly_suspendnotification : layout := [
  field "imsi" K_Imsi Opt [InsIs 0] (None) KeepFirst;
  field "rai" K_Uli Opt [InsIs 0] (None) KeepFirst;
  field "linked_ebi" K_Ebi Opt [InsIs 0] (None) KeepFirst;
  field "ptmsi" K_Ptmsi Opt [InsIs 0] (None) KeepFirst;
  field "orig_node" K_NodeType Opt [InsIs 0] (None) KeepFirst;
  field "ip_control" K_IpAddress Opt [InsIs 0] (None) KeepFirst;
  field "udp_port" K_PortNumber Opt [InsIs 0] (None) KeepFirst;
  field "hop_counter" K_HopCounter Opt [InsIs 0] (None) KeepFirst;
  field "fteid_control" K_Fteid Opt [InsIs 0] (None) KeepFirst;
  field "private_ext" K_PrivateExtension Many [InsAny] (None) KeepAll].

(* tracesessionactivation.rs 15-20 *)
Definition ly_tracesessionactivation : layout := [
  field "imsi" K_Imsi Opt [InsIs 0] (None) KeepFirst;
  field "trace_info" K_TraceInformation One [InsIs 0] (Some (InsIs 0)) KeepFirst;
  field "mei" K_Mei Opt [InsIs 0] (None) KeepFirst].

(* tracesessiondeactivation.rs 15-18 *)
Definition ly_tracesessiondeactivation : layout := [
  field "trace_info" K_TraceInformation One [InsIs 0] (Some (InsIs 0)) KeepFirst].

(* ueactivityacknowledge.rs 15-19 *)
Definition ly_ueactivityacknowledge : layout := [
  field "cause" K_Cause One [InsIs 0] (Some (InsIs 0)) KeepFirst;
  field "private_ext" K_PrivateExtension Many [InsAny] (None) KeepAll].

(* ueactivitynotification.rs 15-18 *)
Definition ly_ueactivitynotification : layout := [
  field "private_ext" K_PrivateExtension Many [InsAny] (None) KeepAll].

(* ueregistrationqueryreq.rs 15-19 *)
Definition ly_ueregistrationqueryreq : layout := [
  field "imsi" K_Imsi One [InsIs 0] (Some (InsIs 0)) KeepLast;
  field "private_ext" K_PrivateExtension Many [InsAny] (None) KeepAll].

(* ueregistrationqueryresp.rs 15-21 *)
Definition ly_ueregistrationqueryresp : layout := [
  field "cause" K_Cause One [InsIs 0] (Some (InsIs 0)) KeepFirst;
  field "imsi" K_Imsi One [InsIs 0] (Some (InsIs 0)) KeepFirst;
  field "selected_cnoid" K_PlmnId One [InsIs 0] (Some (InsIs 0)) KeepFirst;
  field "private_ext" K_PrivateExtension Many [InsAny] (None) KeepAll].

(* updatebearerreq.rs 15-34 *)
Definition ly_updatebearerreq : layout := [
  field "bearer_ctxs" K_BearerContext Many [InsIs 0] (Some (InsIs 0)) KeepAll;
  field "pti" K_Pti Opt [InsIs 0] (None) KeepFirst;
  field "pco" K_Pco Opt [InsIs 0] (None) KeepFirst;
  field "apnambr" K_ApnAmbr One [InsIs 0] (Some (InsIs 0)) KeepFirst;
  field "cra" K_ChangeReportingAction Opt [InsIs 0] (None) KeepFirst;
  field "csg_ira" K_CSGInformationReportingAction Opt [InsIs 0] (None) KeepFirst;
  field "henb_info_report" K_HenbInfoReporting Opt [InsIs 0] (None) KeepFirst;
  field "indication" K_Indication Opt [InsIs 0] (None) KeepFirst;
  field "pgw_fqcsid" K_Fqcsid Opt [InsIs 0] (None) KeepFirst;
  field "sgw_fqcsid" K_Fqcsid Opt [InsIs 1] (None) KeepFirst;
  field "praa" K_PresenceReportingAreaAction Opt [InsIs 0] (None) KeepFirst;
  field "load_control" K_LoadControlInfo Many [InsBelow 3] (None) KeepAll;
  field "overload_info" K_OverloadControlInfo Many [InsBelow 2] (None) KeepAll;
  field "nbifom" K_Fcontainer Opt [InsIs 0] (None) KeepFirst;
  field "pgw_change_info" K_PgwChangeInfo Many [InsIs 0] (None) KeepAll;
  field "fteid_control" K_Fteid Opt [InsIs 0] (None) KeepFirst;
  field "private_ext" K_PrivateExtension Many [InsAny] (None) KeepAll].

(* updatebearerresp.rs 15-39 *)
Definition ly_updatebearerresp : layout := [
  field "cause" K_Cause One [InsIs 0] (Some (InsIs 0)) KeepFirst;
  field "bearer_ctxs" K_BearerContext Many [InsIs 0] (Some (InsIs 0)) KeepAll;
  field "pco" K_Pco Opt [InsIs 0] (None) KeepFirst;
  field "recovery" K_Recovery Opt [InsIs 0] (None) KeepFirst;
  field "mme_fqcsid" K_Fqcsid Opt [InsIs 0] (None) KeepFirst;
  field "sgw_fqcsid" K_Fqcsid Opt [InsIs 1] (None) KeepFirst;
  field "epdg_fqcsid" K_Fqcsid Opt [InsIs 2] (None) KeepFirst;
  field "twan_fqcsid" K_Fqcsid Opt [InsIs 3] (None) KeepFirst;
  field "indication" K_Indication Opt [InsIs 0] (None) KeepFirst;
  field "uetimezone" K_UeTimeZone Opt [InsIs 0] (None) KeepFirst;
  field "uli" K_Uli Opt [InsIs 0] (None) KeepFirst;
  field "twan_id" K_TwanId Opt [InsIs 0] (None) KeepFirst;
  field "overload_info" K_OverloadControlInfo Many [InsBelow 3] (None) KeepAll;
  field "prai" K_PresenceReportingAreaInformation Opt [InsIs 0] (None) KeepFirst;
  field "ip" K_IpAddress Opt [InsIs 0] (None) KeepFirst;
  field "wlan_loc" K_TwanId Opt [InsIs 1] (None) KeepFirst;
  field "wlan_loc_timestamp" K_TwanIdTimeStamp Opt [InsIs 1] (None) KeepFirst;
  field "ue_udpport" K_PortNumber Opt [InsIs 0] (None) KeepFirst;
  field "nbifom" K_Fcontainer Opt [InsIs 0] (None) KeepFirst;
  field "ue_tcpport" K_PortNumber Opt [InsIs 1] (None) KeepFirst;
  field "pscellid" K_PSCellId Opt [InsIs 0] (None) KeepFirst;
  field "private_ext" K_PrivateExtension Many [InsAny] (None) KeepAll].

(* updatepdnconnectionsetreq.rs 15-20 *)
Definition ly_updatepdnconnectionsetreq : layout := [
  field "mme_fqcsid" K_Fqcsid Opt [InsIs 0] (None) KeepFirst;
  field "sgw_fqcsid" K_Fqcsid Opt [InsIs 1] (None) KeepFirst;
  field "private_ext" K_PrivateExtension Many [InsAny] (None) KeepAll].

(* updatepdnconnectionsetresp.rs 15-21 *)
Definition ly_updatepdnconnectionsetresp : layout := [
  field "cause" K_Cause One [InsIs 0] (Some (InsIs 0)) KeepLast;
  field "pgw_fqcsid" K_Fqcsid Opt [InsIs 0] (None) KeepFirst;
  field "recovery" K_Recovery Opt [InsIs 0] (None) KeepFirst;
  field "private_ext" K_PrivateExtension Many [InsAny] (None) KeepAll].

(* versionnotsupported.rs 15-17 *)
Definition ly_versionnotsupported : layout := [
].

(* the 83 message types of src/gtpv2/messages/mod.rs *)
Definition gtpv2_messages : list (message_def * layout) := [
  (md_alertmmeacknowledge, ly_alertmmeacknowledge);
  (md_alertmmenotification, ly_alertmmenotification);
  (md_bearerresourcecommand, ly_bearerresourcecommand);
  (md_bearerresourcefailureind, ly_bearerresourcefailureind);
  (md_changenotificationreq, ly_changenotificationreq);
  (md_changenotificationresp, ly_changenotificationresp);
  (md_contextacknowledge, ly_contextacknowledge);
  (md_contextreq, ly_contextreq);
  (md_contextresp, ly_contextresp);
  (md_createbearerreq, ly_createbearerreq);
  (md_createbearerresp, ly_createbearerresp);
  (md_createforwardingtunnelreq, ly_createforwardingtunnelreq);
  (md_createforwardingtunnelresp, ly_createforwardingtunnelresp);
  (md_createindirectdatafwtunnelreq, ly_createindirectdatafwtunnelreq);
  (md_createindirectdatafwtunnelresp, ly_createindirectdatafwtunnelresp);
  (md_createsessionreq, ly_createsessionreq);
  (md_createsessionresp, ly_createsessionresp);
  (md_cspagingindication, ly_cspagingindication);
  (md_deletebearercommand, ly_deletebearercommand);
  (md_deletebearerfailureind, ly_deletebearerfailureind);
  (md_deletebearerreq, ly_deletebearerreq);
  (md_deletebearerresp, ly_deletebearerresp);
  (md_deleteindirectdatafwtunnelreq, ly_deleteindirectdatafwtunnelreq);
  (md_deleteindirectdatafwtunnelresp, ly_deleteindirectdatafwtunnelresp);
  (md_deletepdnconnectionsetreq, ly_deletepdnconnectionsetreq);
  (md_deletepdnconnectionsetresp, ly_deletepdnconnectionsetresp);
  (md_deletesessionreq, ly_deletesessionreq);
  (md_deletesessionresp, ly_deletesessionresp);
  (md_detachacknowledge, ly_detachacknowledge);
  (md_detachnotification, ly_detachnotification);
  (md_downlinkdatanotification, ly_downlinkdatanotification);
  (md_downlinkdatanotificationacknowledge, ly_downlinkdatanotificationacknowledge);
  (md_downlinkdatanotificationfailureindication, ly_downlinkdatanotificationfailureindication);
  (md_echoreq, ly_echoreq);
  (md_echoresp, ly_echoresp);
  (md_forwardaccesscontextacknowledge, ly_forwardaccesscontextacknowledge);
  (md_forwardaccesscontextnotification, ly_forwardaccesscontextnotification);
  (md_forwardrelocationcompleteacknowledge, ly_forwardrelocationcompleteacknowledge);
  (md_forwardrelocationcompletenotification, ly_forwardrelocationcompletenotification);
  (md_forwardrelocationreq, ly_forwardrelocationreq);
  (md_forwardrelocationresp, ly_forwardrelocationresp);
  (md_identificationreq, ly_identificationreq);
  (md_identificationresp, ly_identificationresp);
  (md_isrstatusindication, ly_isrstatusindication);
  (md_mbmssessionstartreq, ly_mbmssessionstartreq);
  (md_mbmssessionstartresp, ly_mbmssessionstartresp);
  (md_mbmssessionstopreq, ly_mbmssessionstopreq);
  (md_mbmssessionstopresp, ly_mbmssessionstopresp);
  (md_mbmssessionupdatereq, ly_mbmssessionupdatereq);
  (md_mbmssessionupdateresp, ly_mbmssessionupdateresp);
  (md_modifyaccessbearersreq, ly_modifyaccessbearersreq);
  (md_modifyaccessbearersresp, ly_modifyaccessbearersresp);
  (md_modifybearercommand, ly_modifybearercommand);
  (md_modifybearerfailureind, ly_modifybearerfailureind);
  (md_modifybearerreq, ly_modifybearerreq);
  (md_modifybearerresp, ly_modifybearerresp);
  (md_pgwdownlinktriggeringacknowledge, ly_pgwdownlinktriggeringacknowledge);
  (md_pgwdownlinktriggeringnotification, ly_pgwdownlinktriggeringnotification);
  (md_pgwrestartnotification, ly_pgwrestartnotification);
  (md_pgwrestartnotificationacknowledge, ly_pgwrestartnotificationacknowledge);
  (md_raninformationrelay, ly_raninformationrelay);
  (md_releaseaccessbearersreq, ly_releaseaccessbearersreq);
  (md_releaseaccessbearersresp, ly_releaseaccessbearersresp);
  (md_relocationcancelreq, ly_relocationcancelreq);
  (md_relocationcancelresp, ly_relocationcancelresp);
  (md_remoteuereportacknowledge, ly_remoteuereportacknowledge);
  (md_remoteuereportnotification, ly_remoteuereportnotification);
  (md_resumeacknowledge, ly_resumeacknowledge);
  (md_resumenotification, ly_resumenotification);
  (md_stoppagingindication, ly_stoppagingindication);
  (md_suspendacknowledge, ly_suspendacknowledge);
  (md_suspendnotification, ly_suspendnotification);
  (md_tracesessionactivation, ly_tracesessionactivation);
  (md_tracesessiondeactivation, ly_tracesessiondeactivation);
  (md_ueactivityacknowledge, ly_ueactivityacknowledge);
  (md_ueactivitynotification, ly_ueactivitynotification);
  (md_ueregistrationqueryreq, ly_ueregistrationqueryreq);
  (md_ueregistrationqueryresp, ly_ueregistrationqueryresp);
  (md_updatebearerreq, ly_updatebearerreq);
  (md_updatebearerresp, ly_updatebearerresp);
  (md_updatepdnconnectionsetreq, ly_updatepdnconnectionsetreq);
  (md_updatepdnconnectionsetresp, ly_updatepdnconnectionsetresp);
  (md_versionnotsupported, ly_versionnotsupported)].
