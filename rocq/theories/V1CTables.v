(* V1CTables.v - the tables of the GTPv1-C messages, one per file of
   src/gtpv1/gtpc/messages. Slots are the fields in the order marshal writes them; arms are
   those of the match in unmarshal, in source order; the last line lists the element types
   checked after the loop. The two MS Info Change files write the loop differently
   (entry().and_modify().or_insert_with(), the order check first) with the same effect; the
   dbg! output of msinfochangenotifreq.rs is not modelled. *)
From Verif Require Import Base.
From Verif Require Export V1CMsg.
Local Open Scope N_scope.

(* createpdpctxreq.rs: marshal 110-340, unmarshal 342-1005 *)
Definition CreatePDPContextRequest_T : table1 := mkTable1 16
  [ opt1 K1_Imsi  (* 0 imsi *)
  ; opt1 K1_Rai  (* 1 rai *)
  ; opt1 K1_Recovery  (* 2 recovery *)
  ; opt1 K1_SelectionMode  (* 3 selectionmode *)
  ; mand1 K1_Teid Teid_default  (* 4 teid_data *)
  ; opt1 K1_Teid  (* 5 teid_control *)
  ; mand1 K1_Nsapi Nsapi_default  (* 6 nsapi *)
  ; opt1 K1_Nsapi  (* 7 linked_nsapi *)
  ; opt1 K1_ChargingChar  (* 8 charging_char *)
  ; opt1 K1_TraceReference  (* 9 trace_ref *)
  ; opt1 K1_TraceType  (* 10 trace_type *)
  ; opt1 K1_Eua  (* 11 end_user_address *)
  ; opt1 K1_Apn  (* 12 apn *)
  ; opt1 K1_Pco  (* 13 pco *)
  ; mand1 K1_Gsn Gsn_default  (* 14 sgsn_ip_control *)
  ; mand1 K1_Gsn Gsn_default  (* 15 sgsn_ip_user *)
  ; opt1 K1_Msisdn  (* 16 msisdn *)
  ; mand1 K1_Qos Qos_default  (* 17 qos *)
  ; opt1 K1_Tft  (* 18 tft *)
  ; opt1 K1_TriggerId  (* 19 trigger_id *)
  ; opt1 K1_OmcId  (* 20 omc_id *)
  ; opt1 K1_CommonFlags  (* 21 common_flags *)
  ; opt1 K1_ApnRestriction  (* 22 apn_restriction *)
  ; opt1 K1_RatType  (* 23 rat_type *)
  ; opt1 K1_Uli  (* 24 uli *)
  ; opt1 K1_Tz  (* 25 ms_timezone *)
  ; opt1 K1_Imei  (* 26 imei *)
  ; opt1 K1_Camel  (* 27 camel_cic *)
  ; opt1 K1_Ati  (* 28 add_trace_info *)
  ; opt1 K1_CorrelationId  (* 29 correlation_id *)
  ; opt1 K1_Earp  (* 30 evolved_alloc *)
  ; opt1 K1_ExtCommonFlags  (* 31 ext_common_flags *)
  ; opt1 K1_Uci  (* 32 user_csg_info *)
  ; opt1 K1_Ambr  (* 33 apn_ambr *)
  ; opt1 K1_Spi  (* 34 signalling_prio *)
  ; opt1 K1_Cnose  (* 35 cnose *)
  ; opt1 K1_Mueut  (* 36 mapped_ue_usage_type *)
  ; opt1 K1_Upfsif  (* 37 up_func_selection_flags *)
  ; opt1 K1_Pe  (* 38 private_extension *) ]
  [ mkArm1 IMSI K1_Imsi (One 0) EOpt
  ; mkArm1 RAI K1_Rai (One 1) EOpt
  ; mkArm1 RECOVERY K1_Recovery (One 2) EOpt
  ; mkArm1 SELECTION_MODE K1_SelectionMode (One 3) EOpt
  ; mkArm1 TEID_DATA K1_Teid (One 4) EMand
  ; mkArm1 TEID_CONTROL K1_Teid (One 5) EOpt
  ; mkArm1 NSAPI K1_Nsapi (Two 6 7) ENsapi
  ; mkArm1 CHARGING_CHARACTERISTICS K1_ChargingChar (One 8) EOpt
  ; mkArm1 TRACE_REFERENCE K1_TraceReference (One 9) EOpt
  ; mkArm1 TRACE_TYPE K1_TraceType (One 10) EOpt
  ; mkArm1 END_USER_ADDRESS K1_Eua (One 11) EOpt
  ; mkArm1 APN K1_Apn (One 12) EOpt
  ; mkArm1 PCO K1_Pco (One 13) EOpt
  ; mkArm1 GSN_ADDRESS K1_Gsn (Two 14 15) EMand
  ; mkArm1 MSISDN K1_Msisdn (One 16) EOpt
  ; mkArm1 QOS K1_Qos (One 17) EMand
  ; mkArm1 TFT K1_Tft (One 18) EOpt
  ; mkArm1 TRIGGERID K1_TriggerId (One 19) EOpt
  ; mkArm1 OMCID K1_OmcId (One 20) EOpt
  ; mkArm1 COMMONFLAGS K1_CommonFlags (One 21) EOpt
  ; mkArm1 APNRESTRICTION K1_ApnRestriction (One 22) EOpt
  ; mkArm1 RATTYPE K1_RatType (One 23) EOpt
  ; mkArm1 ULI K1_Uli (One 24) EOpt
  ; mkArm1 MSTIMEZONETYPE K1_Tz (One 25) EOpt
  ; mkArm1 IMEI K1_Imei (One 26) EOpt
  ; mkArm1 CAMELCIC K1_Camel (One 27) EOpt
  ; mkArm1 ADDITIONALTRACEINFO K1_Ati (One 28) EOpt
  ; mkArm1 CORRELATIONID K1_CorrelationId (One 29) EOpt
  ; mkArm1 EVOLVEDALLOCRETENTIONI K1_Earp (One 30) EOpt
  ; mkArm1 EXTCOMMONFLAGS K1_ExtCommonFlags (One 31) EOpt
  ; mkArm1 UCI K1_Uci (One 32) EOpt
  ; mkArm1 APNAMBR K1_Ambr (One 33) EOpt
  ; mkArm1 SPI K1_Spi (One 34) EOpt
  ; mkArm1 CNOSE K1_Cnose (One 35) EOpt
  ; mkArm1 MUEUT K1_Mueut (One 36) EOpt
  ; mkArm1 UPFSIF K1_Upfsif (One 37) EOpt
  ; mkArm1 PRIVATE_EXTENSION K1_Pe (One 38) EOpt ]
  [TEID_DATA; NSAPI; GSN_ADDRESS; QOS].

(* createpdpctxresp.rs: marshal 86-252, unmarshal 254-702 *)
Definition CreatePDPContextResponse_T : table1 := mkTable1 17
  [ mand1 K1_Cause Cause_default  (* 0 cause *)
  ; opt1 K1_Reordering  (* 1 reordering_req *)
  ; opt1 K1_Recovery  (* 2 recovery *)
  ; opt1 K1_Teid  (* 3 teid_data *)
  ; opt1 K1_Teid  (* 4 teid_control *)
  ; opt1 K1_Nsapi  (* 5 nsapi *)
  ; opt1 K1_ChargingId  (* 6 charging_id *)
  ; opt1 K1_Eua  (* 7 end_user_address *)
  ; opt1 K1_Pco  (* 8 pco *)
  ; opt1 K1_Gsn  (* 9 ggsn_ip_control *)
  ; opt1 K1_Gsn  (* 10 ggsn_ip_user *)
  ; opt1 K1_Gsn  (* 11 alt_ggsn_ip_control *)
  ; opt1 K1_Gsn  (* 12 alt_ggsn_ip_user *)
  ; opt1 K1_Qos  (* 13 qos *)
  ; opt1 K1_ChargingGw  (* 14 charging_gw_addr *)
  ; opt1 K1_ChargingGw  (* 15 alt_charging_gw_addr *)
  ; opt1 K1_CommonFlags  (* 16 common_flags *)
  ; opt1 K1_ApnRestriction  (* 17 apn_restriction *)
  ; opt1 K1_MsInfoChange  (* 18 ms_info_change *)
  ; opt1 K1_BearerControlMode  (* 19 bearer_ctrl_mode *)
  ; opt1 K1_Earp  (* 20 evolved_alloc *)
  ; opt1 K1_ExtCommonFlags  (* 21 ext_common_flags *)
  ; opt1 K1_CsgInfo  (* 22 csg_info_report *)
  ; opt1 K1_Ambr  (* 23 apn_ambr *)
  ; opt1 K1_Backoff  (* 24 ggsn_backoff_time *)
  ; opt1 K1_ExtCommonFlagsII  (* 25 ext_common_flags_ii *)
  ; opt1 K1_Pe  (* 26 private_extension *) ]
  [ mkArm1 CAUSE K1_Cause (One 0) EMand
  ; mkArm1 REORDERING_REQUIRED K1_Reordering (One 1) EOpt
  ; mkArm1 RECOVERY K1_Recovery (One 2) EOpt
  ; mkArm1 TEID_DATA K1_Teid (One 3) EOpt
  ; mkArm1 TEID_CONTROL K1_Teid (One 4) EOpt
  ; mkArm1 NSAPI K1_Nsapi (One 5) EOpt
  ; mkArm1 CHARGING_ID K1_ChargingId (One 6) EOpt
  ; mkArm1 END_USER_ADDRESS K1_Eua (One 7) EOpt
  ; mkArm1 PCO K1_Pco (One 8) EOpt
  ; mkArm1 GSN_ADDRESS K1_Gsn (Four 9 10 11 12) EOpt
  ; mkArm1 QOS K1_Qos (One 13) EMand
  ; mkArm1 CHARGING_GW_ADDRESS K1_ChargingGw (Two 14 15) EOpt
  ; mkArm1 COMMONFLAGS K1_CommonFlags (One 16) EOpt
  ; mkArm1 APNRESTRICTION K1_ApnRestriction (One 17) EOpt
  ; mkArm1 MSINFO_CHANGE K1_MsInfoChange (One 18) EOpt
  ; mkArm1 BEARER_CONTROL_MODE K1_BearerControlMode (One 19) EOpt
  ; mkArm1 EVOLVEDALLOCRETENTIONI K1_Earp (One 20) EOpt
  ; mkArm1 EXTCOMMONFLAGS K1_ExtCommonFlags (One 21) EOpt
  ; mkArm1 CSG_INFO_REPORT K1_CsgInfo (One 22) EOpt
  ; mkArm1 APNAMBR K1_Ambr (One 23) EOpt
  ; mkArm1 GGSN_BACKOFF K1_Backoff (One 24) EOpt
  ; mkArm1 EXTCOMMONFLAGS_II K1_ExtCommonFlagsII (One 25) EOpt
  ; mkArm1 PRIVATE_EXTENSION K1_Pe (One 26) EOpt ]
  [CAUSE].

(* updatepdpctxreq.rs: marshal 94-276, unmarshal 278-796 *)
Definition UpdatePDPContextRequest_T : table1 := mkTable1 18
  [ opt1 K1_Imsi  (* 0 imsi *)
  ; opt1 K1_Rai  (* 1 rai *)
  ; opt1 K1_Recovery  (* 2 recovery *)
  ; mand1 K1_Teid Teid_default  (* 3 teid_data *)
  ; opt1 K1_Teid  (* 4 teid_control *)
  ; mand1 K1_Nsapi Nsapi_default  (* 5 nsapi *)
  ; opt1 K1_TraceReference  (* 6 trace_ref *)
  ; opt1 K1_TraceType  (* 7 trace_type *)
  ; opt1 K1_Pco  (* 8 pco *)
  ; mand1 K1_Gsn Gsn_default  (* 9 sgsn_ip_control *)
  ; mand1 K1_Gsn Gsn_default  (* 10 sgsn_ip_user *)
  ; opt1 K1_Gsn  (* 11 alt_sgsn_ip_control *)
  ; opt1 K1_Gsn  (* 12 alt_sgsn_ip_user *)
  ; mand1 K1_Qos Qos_default  (* 13 qos *)
  ; opt1 K1_Tft  (* 14 tft *)
  ; opt1 K1_TriggerId  (* 15 trigger_id *)
  ; opt1 K1_OmcId  (* 16 omc_id *)
  ; opt1 K1_CommonFlags  (* 17 common_flags *)
  ; opt1 K1_RatType  (* 18 rat_type *)
  ; opt1 K1_Uli  (* 19 uli *)
  ; opt1 K1_Tz  (* 20 ms_timezone *)
  ; opt1 K1_Imei  (* 21 imei *)
  ; opt1 K1_Ati  (* 22 add_trace_info *)
  ; opt1 K1_DirectTunnel  (* 23 dtf *)
  ; opt1 K1_Earp  (* 24 evolved_alloc *)
  ; opt1 K1_ExtCommonFlags  (* 25 ext_common_flags *)
  ; opt1 K1_Uci  (* 26 user_csg_info *)
  ; opt1 K1_Ambr  (* 27 apn_ambr *)
  ; opt1 K1_Spi  (* 28 signalling_prio *)
  ; opt1 K1_Cnose  (* 29 cnose *)
  ; opt1 K1_Pe  (* 30 private_extension *) ]
  [ mkArm1 IMSI K1_Imsi (One 0) EOpt
  ; mkArm1 RAI K1_Rai (One 1) EOpt
  ; mkArm1 RECOVERY K1_Recovery (One 2) EOpt
  ; mkArm1 TEID_DATA K1_Teid (One 3) EMand
  ; mkArm1 TEID_CONTROL K1_Teid (One 4) EOpt
  ; mkArm1 NSAPI K1_Nsapi (One 5) EMand
  ; mkArm1 TRACE_REFERENCE K1_TraceReference (One 6) EOpt
  ; mkArm1 TRACE_TYPE K1_TraceType (One 7) EOpt
  ; mkArm1 PCO K1_Pco (One 8) EOpt
  ; mkArm1 GSN_ADDRESS K1_Gsn (Four 9 10 11 12) EGsn
  ; mkArm1 QOS K1_Qos (One 13) EMand
  ; mkArm1 TFT K1_Tft (One 14) EOpt
  ; mkArm1 TRIGGERID K1_TriggerId (One 15) EOpt
  ; mkArm1 OMCID K1_OmcId (One 16) EOpt
  ; mkArm1 COMMONFLAGS K1_CommonFlags (One 17) EOpt
  ; mkArm1 RATTYPE K1_RatType (One 18) EOpt
  ; mkArm1 ULI K1_Uli (One 19) EOpt
  ; mkArm1 MSTIMEZONETYPE K1_Tz (One 20) EOpt
  ; mkArm1 IMEI K1_Imei (One 21) EOpt
  ; mkArm1 ADDITIONALTRACEINFO K1_Ati (One 22) EOpt
  ; mkArm1 DTF K1_DirectTunnel (One 23) EOpt
  ; mkArm1 EVOLVEDALLOCRETENTIONI K1_Earp (One 24) EOpt
  ; mkArm1 EXTCOMMONFLAGS K1_ExtCommonFlags (One 25) EOpt
  ; mkArm1 UCI K1_Uci (One 26) EOpt
  ; mkArm1 APNAMBR K1_Ambr (One 27) EOpt
  ; mkArm1 SPI K1_Spi (One 28) EOpt
  ; mkArm1 CNOSE K1_Cnose (One 29) EOpt
  ; mkArm1 PRIVATE_EXTENSION K1_Pe (One 30) EOpt ]
  [TEID_DATA; NSAPI; GSN_ADDRESS; QOS].

(* updatepdpctxreq_ggsn.rs: marshal 63-169, unmarshal 171-488 *)
Definition UpdatePDPContextRequestGGSN_T : table1 := mkTable1 18
  [ opt1 K1_Imsi  (* 0 imsi *)
  ; opt1 K1_Recovery  (* 1 recovery *)
  ; mand1 K1_Nsapi Nsapi_default  (* 2 nsapi *)
  ; opt1 K1_Eua  (* 3 end_user_address *)
  ; opt1 K1_Pco  (* 4 pco *)
  ; opt1 K1_Qos  (* 5 qos *)
  ; opt1 K1_Tft  (* 6 tft *)
  ; opt1 K1_CommonFlags  (* 7 common_flags *)
  ; opt1 K1_ApnRestriction  (* 8 apn_restriction *)
  ; opt1 K1_MsInfoChange  (* 9 ms_info_change *)
  ; opt1 K1_DirectTunnel  (* 10 dtf *)
  ; opt1 K1_BearerControlMode  (* 11 bearer_ctrl_mode *)
  ; opt1 K1_Earp  (* 12 evolved_alloc *)
  ; opt1 K1_ExtCommonFlags  (* 13 ext_common_flags *)
  ; opt1 K1_CsgInfo  (* 14 user_csg_info *)
  ; opt1 K1_Ambr  (* 15 apn_ambr *)
  ; opt1 K1_Pe  (* 16 private_extension *) ]
  [ mkArm1 IMSI K1_Imsi (One 0) EOpt
  ; mkArm1 RECOVERY K1_Recovery (One 1) EOpt
  ; mkArm1 NSAPI K1_Nsapi (One 2) EMand
  ; mkArm1 END_USER_ADDRESS K1_Eua (One 3) EOpt
  ; mkArm1 PCO K1_Pco (One 4) EOpt
  ; mkArm1 QOS K1_Qos (One 5) EMand
  ; mkArm1 TFT K1_Tft (One 6) EOpt
  ; mkArm1 COMMONFLAGS K1_CommonFlags (One 7) EOpt
  ; mkArm1 APNRESTRICTION K1_ApnRestriction (One 8) EOpt
  ; mkArm1 MSINFO_CHANGE K1_MsInfoChange (One 9) EOpt
  ; mkArm1 DTF K1_DirectTunnel (One 10) EOpt
  ; mkArm1 BEARER_CONTROL_MODE K1_BearerControlMode (One 11) EOpt
  ; mkArm1 EVOLVEDALLOCRETENTIONI K1_Earp (One 12) EOpt
  ; mkArm1 EXTCOMMONFLAGS K1_ExtCommonFlags (One 13) EOpt
  ; mkArm1 CSG_INFO_REPORT K1_CsgInfo (One 14) EOpt
  ; mkArm1 APNAMBR K1_Ambr (One 15) EOpt
  ; mkArm1 PRIVATE_EXTENSION K1_Pe (One 16) EOpt ]
  [NSAPI].

(* updatepdpctxresp.rs: marshal 74-204, unmarshal 206-554 *)
Definition UpdatePDPContextResponse_T : table1 := mkTable1 19
  [ mand1 K1_Cause Cause_default  (* 0 cause *)
  ; opt1 K1_Recovery  (* 1 recovery *)
  ; opt1 K1_Teid  (* 2 teid_data *)
  ; opt1 K1_Teid  (* 3 teid_control *)
  ; opt1 K1_ChargingId  (* 4 charging_id *)
  ; opt1 K1_Pco  (* 5 pco *)
  ; opt1 K1_Gsn  (* 6 ggsn_ip_control *)
  ; opt1 K1_Gsn  (* 7 ggsn_ip_user *)
  ; opt1 K1_Gsn  (* 8 alt_ggsn_ip_control *)
  ; opt1 K1_Gsn  (* 9 alt_ggsn_ip_user *)
  ; opt1 K1_Qos  (* 10 qos *)
  ; opt1 K1_ChargingGw  (* 11 charging_gw_addr *)
  ; opt1 K1_ChargingGw  (* 12 alt_charging_gw_addr *)
  ; opt1 K1_CommonFlags  (* 13 common_flags *)
  ; opt1 K1_ApnRestriction  (* 14 apn_restriction *)
  ; opt1 K1_MsInfoChange  (* 15 ms_info_change *)
  ; opt1 K1_BearerControlMode  (* 16 bearer_ctrl_mode *)
  ; opt1 K1_Earp  (* 17 evolved_alloc *)
  ; opt1 K1_CsgInfo  (* 18 csg_info_report *)
  ; opt1 K1_Ambr  (* 19 apn_ambr *)
  ; opt1 K1_Pe  (* 20 private_extension *) ]
  [ mkArm1 CAUSE K1_Cause (One 0) EMand
  ; mkArm1 RECOVERY K1_Recovery (One 1) EOpt
  ; mkArm1 TEID_DATA K1_Teid (One 2) EOpt
  ; mkArm1 TEID_CONTROL K1_Teid (One 3) EOpt
  ; mkArm1 CHARGING_ID K1_ChargingId (One 4) EOpt
  ; mkArm1 PCO K1_Pco (One 5) EOpt
  ; mkArm1 GSN_ADDRESS K1_Gsn (Four 6 7 8 9) EOpt
  ; mkArm1 QOS K1_Qos (One 10) EMand
  ; mkArm1 CHARGING_GW_ADDRESS K1_ChargingGw (Two 11 12) EOpt
  ; mkArm1 COMMONFLAGS K1_CommonFlags (One 13) EOpt
  ; mkArm1 APNRESTRICTION K1_ApnRestriction (One 14) EOpt
  ; mkArm1 MSINFO_CHANGE K1_MsInfoChange (One 15) EOpt
  ; mkArm1 BEARER_CONTROL_MODE K1_BearerControlMode (One 16) EOpt
  ; mkArm1 EVOLVEDALLOCRETENTIONI K1_Earp (One 17) EOpt
  ; mkArm1 CSG_INFO_REPORT K1_CsgInfo (One 18) EOpt
  ; mkArm1 APNAMBR K1_Ambr (One 19) EOpt
  ; mkArm1 PRIVATE_EXTENSION K1_Pe (One 20) EOpt ]
  [CAUSE].

(* updatepdpctxresp_ggsn.rs: marshal 53-129, unmarshal 131-362 *)
Definition UpdatePDPContextResponseGGSN_T : table1 := mkTable1 19
  [ mand1 K1_Cause Cause_default  (* 0 cause *)
  ; opt1 K1_Recovery  (* 1 recovery *)
  ; opt1 K1_Teid  (* 2 teid_data *)
  ; opt1 K1_Pco  (* 3 pco *)
  ; opt1 K1_Gsn  (* 4 sgsn_ip_user *)
  ; opt1 K1_Qos  (* 5 qos *)
  ; opt1 K1_Uli  (* 6 uli *)
  ; opt1 K1_Tz  (* 7 ms_timezone *)
  ; opt1 K1_DirectTunnel  (* 8 dtf *)
  ; opt1 K1_Earp  (* 9 evolved_alloc *)
  ; opt1 K1_Ambr  (* 10 apn_ambr *)
  ; opt1 K1_Pe  (* 11 private_extension *) ]
  [ mkArm1 CAUSE K1_Cause (One 0) EMand
  ; mkArm1 RECOVERY K1_Recovery (One 1) EOpt
  ; mkArm1 TEID_DATA K1_Teid (One 2) EOpt
  ; mkArm1 PCO K1_Pco (One 3) EOpt
  ; mkArm1 GSN_ADDRESS K1_Gsn (One 4) EOpt
  ; mkArm1 QOS K1_Qos (One 5) EMand
  ; mkArm1 ULI K1_Uli (One 6) EOpt
  ; mkArm1 MSTIMEZONETYPE K1_Tz (One 7) EOpt
  ; mkArm1 DTF K1_DirectTunnel (One 8) EOpt
  ; mkArm1 EVOLVEDALLOCRETENTIONI K1_Earp (One 9) EOpt
  ; mkArm1 APNAMBR K1_Ambr (One 10) EOpt
  ; mkArm1 PRIVATE_EXTENSION K1_Pe (One 11) EOpt ]
  [CAUSE].

(* deletepdpctxreq.rs: marshal 50-108, unmarshal 110-291 *)
Definition DeletePDPContextRequest_T : table1 := mkTable1 20
  [ opt1 K1_Cause  (* 0 cause *)
  ; opt1 K1_Teardown  (* 1 teardown *)
  ; mand1 K1_Nsapi Nsapi_default  (* 2 nsapi *)
  ; opt1 K1_Pco  (* 3 pco *)
  ; opt1 K1_Uli  (* 4 uli *)
  ; opt1 K1_Tz  (* 5 ms_timezone *)
  ; opt1 K1_ExtCommonFlags  (* 6 ext_common_flags *)
  ; opt1 K1_UliTs  (* 7 uli_timestamp *)
  ; opt1 K1_Pe  (* 8 private_extension *) ]
  [ mkArm1 CAUSE K1_Cause (One 0) EOpt
  ; mkArm1 TEARDOWN_IND K1_Teardown (One 1) EOpt
  ; mkArm1 NSAPI K1_Nsapi (One 2) EMand
  ; mkArm1 PCO K1_Pco (One 3) EOpt
  ; mkArm1 ULI K1_Uli (One 4) EOpt
  ; mkArm1 MSTIMEZONETYPE K1_Tz (One 5) EOpt
  ; mkArm1 EXTCOMMONFLAGS K1_ExtCommonFlags (One 6) EOpt
  ; mkArm1 ULI_TIMESTAMP K1_UliTs (One 7) EOpt
  ; mkArm1 PRIVATE_EXTENSION K1_Pe (One 8) EOpt ]
  [NSAPI].

(* deletepdpctxresp.rs: marshal 44-84, unmarshal 86-219 *)
Definition DeletePDPContextResponse_T : table1 := mkTable1 21
  [ mand1 K1_Cause Cause_default  (* 0 cause *)
  ; opt1 K1_Pco  (* 1 pco *)
  ; opt1 K1_Uli  (* 2 uli *)
  ; opt1 K1_Tz  (* 3 ms_timezone *)
  ; opt1 K1_UliTs  (* 4 uli_timestamp *)
  ; opt1 K1_Pe  (* 5 private_extension *) ]
  [ mkArm1 CAUSE K1_Cause (One 0) EOpt
  ; mkArm1 PCO K1_Pco (One 1) EOpt
  ; mkArm1 ULI K1_Uli (One 2) EOpt
  ; mkArm1 MSTIMEZONETYPE K1_Tz (One 3) EOpt
  ; mkArm1 ULI_TIMESTAMP K1_UliTs (One 4) EOpt
  ; mkArm1 PRIVATE_EXTENSION K1_Pe (One 5) EOpt ]
  [CAUSE].

(* initiatepdpctxactivationreq.rs: marshal 45-87, unmarshal 89-244 *)
Definition InitiatePDPContextActivationRequest_T : table1 := mkTable1 22
  [ mand1 K1_Nsapi Nsapi_default  (* 0 linked_nsapi *)
  ; opt1 K1_Pco  (* 1 pco *)
  ; mand1 K1_Qos Qos_default  (* 2 qos *)
  ; opt1 K1_Tft  (* 3 tft *)
  ; mand1 K1_CorrelationId CorrelationId_default  (* 4 correlation_id *)
  ; opt1 K1_Earp  (* 5 evolved_alloc *)
  ; opt1 K1_Pe  (* 6 private_extension *) ]
  [ mkArm1 NSAPI K1_Nsapi (One 0) EMand
  ; mkArm1 PCO K1_Pco (One 1) EOpt
  ; mkArm1 QOS K1_Qos (One 2) EMand
  ; mkArm1 TFT K1_Tft (One 3) EOpt
  ; mkArm1 CORRELATIONID K1_CorrelationId (One 4) EMand
  ; mkArm1 EVOLVEDALLOCRETENTIONI K1_Earp (One 5) EOpt
  ; mkArm1 PRIVATE_EXTENSION K1_Pe (One 6) EOpt ]
  [NSAPI; QOS; CORRELATIONID].

(* initiatepdpctxactivationresp.rs: marshal 37-59, unmarshal 61-147 *)
Definition InitiatePDPContextActivationResponse_T : table1 := mkTable1 23
  [ mand1 K1_Cause Cause_default  (* 0 cause *)
  ; opt1 K1_Pco  (* 1 pco *)
  ; opt1 K1_Pe  (* 2 private_extension *) ]
  [ mkArm1 CAUSE K1_Cause (One 0) EMand
  ; mkArm1 PCO K1_Pco (One 1) EOpt
  ; mkArm1 PRIVATE_EXTENSION K1_Pe (One 2) EOpt ]
  [CAUSE].

(* pdunotificationreq.rs: marshal 45-83, unmarshal 85-239 *)
Definition PDUNotificationRequest_T : table1 := mkTable1 27
  [ mand1 K1_Imsi Imsi_default  (* 0 imsi *)
  ; mand1 K1_Teid Teid_default  (* 1 teid_control *)
  ; mand1 K1_Eua Eua_default  (* 2 end_user_address *)
  ; mand1 K1_Apn Apn_default  (* 3 apn *)
  ; opt1 K1_Pco  (* 4 pco *)
  ; mand1 K1_Gsn Gsn_default  (* 5 ggsn_ip_control *)
  ; opt1 K1_Pe  (* 6 private_extension *) ]
  [ mkArm1 IMSI K1_Imsi (One 0) EMand
  ; mkArm1 TEID_CONTROL K1_Teid (One 1) EOpt
  ; mkArm1 END_USER_ADDRESS K1_Eua (One 2) EMand
  ; mkArm1 APN K1_Apn (One 3) EMand
  ; mkArm1 PCO K1_Pco (One 4) EOpt
  ; mkArm1 GSN_ADDRESS K1_Gsn (One 5) EMand
  ; mkArm1 PRIVATE_EXTENSION K1_Pe (One 6) EOpt ]
  [IMSI; TEID_CONTROL; END_USER_ADDRESS; APN; GSN_ADDRESS].

(* pdunotificationresp.rs: marshal 35-51, unmarshal 53-122 *)
Definition PDUNotificationResponse_T : table1 := mkTable1 28
  [ mand1 K1_Cause Cause_default  (* 0 cause *)
  ; opt1 K1_Pe  (* 1 private_extension *) ]
  [ mkArm1 CAUSE K1_Cause (One 0) EMand
  ; mkArm1 PRIVATE_EXTENSION K1_Pe (One 1) EOpt ]
  [CAUSE].

(* pdunotificationrejectreq.rs: marshal 43-77, unmarshal 79-216 *)
Definition PDUNotificationRejectRequest_T : table1 := mkTable1 29
  [ mand1 K1_Cause Cause_default  (* 0 cause *)
  ; mand1 K1_Teid Teid_default  (* 1 teid_control *)
  ; mand1 K1_Eua Eua_default  (* 2 end_user_address *)
  ; mand1 K1_Apn Apn_default  (* 3 apn *)
  ; opt1 K1_Pco  (* 4 pco *)
  ; opt1 K1_Pe  (* 5 private_extension *) ]
  [ mkArm1 CAUSE K1_Cause (One 0) EMand
  ; mkArm1 TEID_CONTROL K1_Teid (One 1) EOpt
  ; mkArm1 END_USER_ADDRESS K1_Eua (One 2) EMand
  ; mkArm1 APN K1_Apn (One 3) EMand
  ; mkArm1 PCO K1_Pco (One 4) EOpt
  ; mkArm1 PRIVATE_EXTENSION K1_Pe (One 5) EOpt ]
  [CAUSE; TEID_CONTROL; END_USER_ADDRESS; APN].

(* pdunotificationrejectresp.rs: marshal 35-51, unmarshal 53-122 *)
Definition PDUNotificationRejectResponse_T : table1 := mkTable1 30
  [ mand1 K1_Cause Cause_default  (* 0 cause *)
  ; opt1 K1_Pe  (* 1 private_extension *) ]
  [ mkArm1 CAUSE K1_Cause (One 0) EMand
  ; mkArm1 PRIVATE_EXTENSION K1_Pe (One 1) EOpt ]
  [CAUSE].

(* msinfochangenotifreq.rs: marshal 44-87, unmarshal 89-231 *)
Definition MSInfoChangeNotificationRequest_T : table1 := mkTable1 128
  [ opt1 K1_Imsi  (* 0 imsi *)
  ; opt1 K1_Nsapi  (* 1 linked_nsapi *)
  ; mand1 K1_RatType RatType_default  (* 2 rat_type *)
  ; opt1 K1_Uli  (* 3 uli *)
  ; opt1 K1_Imei  (* 4 imei *)
  ; opt1 K1_ExtCommonFlags  (* 5 ext_common_flags *)
  ; opt1 K1_Uci  (* 6 user_csg_info *)
  ; opt1 K1_Pe  (* 7 private_extension *) ]
  [ mkArm1 IMSI K1_Imsi (One 0) EOpt
  ; mkArm1 NSAPI K1_Nsapi (One 1) EOpt
  ; mkArm1 RATTYPE K1_RatType (One 2) EMand
  ; mkArm1 ULI K1_Uli (One 3) EOpt
  ; mkArm1 IMEI K1_Imei (One 4) EOpt
  ; mkArm1 EXTCOMMONFLAGS K1_ExtCommonFlags (One 5) EOpt
  ; mkArm1 UCI K1_Uci (One 6) EOpt
  ; mkArm1 PRIVATE_EXTENSION K1_Pe (One 7) EOpt ]
  [RATTYPE].

(* msinfochangenotifresp.rs: marshal 42-80, unmarshal 82-212 *)
Definition MSInfoChangeNotificationResponse_T : table1 := mkTable1 129
  [ mand1 K1_Cause Cause_default  (* 0 cause *)
  ; opt1 K1_Imsi  (* 1 imsi *)
  ; opt1 K1_Nsapi  (* 2 linked_nsapi *)
  ; opt1 K1_Imei  (* 3 imei *)
  ; opt1 K1_MsInfoChange  (* 4 ms_info_change *)
  ; opt1 K1_CsgInfo  (* 5 csg_info_report *)
  ; opt1 K1_Pe  (* 6 private_extension *) ]
  [ mkArm1 CAUSE K1_Cause (One 0) EMand
  ; mkArm1 IMSI K1_Imsi (One 1) EOpt
  ; mkArm1 NSAPI K1_Nsapi (One 2) EOpt
  ; mkArm1 IMEI K1_Imei (One 3) EOpt
  ; mkArm1 MSINFO_CHANGE K1_MsInfoChange (One 4) EOpt
  ; mkArm1 CSG_INFO_REPORT K1_CsgInfo (One 5) EOpt
  ; mkArm1 PRIVATE_EXTENSION K1_Pe (One 6) EOpt ]
  [CAUSE].

Definition tables1 : list table1 :=
  [ CreatePDPContextRequest_T
  ; CreatePDPContextResponse_T
  ; UpdatePDPContextRequest_T
  ; UpdatePDPContextRequestGGSN_T
  ; UpdatePDPContextResponse_T
  ; UpdatePDPContextResponseGGSN_T
  ; DeletePDPContextRequest_T
  ; DeletePDPContextResponse_T
  ; InitiatePDPContextActivationRequest_T
  ; InitiatePDPContextActivationResponse_T
  ; PDUNotificationRequest_T
  ; PDUNotificationResponse_T
  ; PDUNotificationRejectRequest_T
  ; PDUNotificationRejectResponse_T
  ; MSInfoChangeNotificationRequest_T
  ; MSInfoChangeNotificationResponse_T ].
