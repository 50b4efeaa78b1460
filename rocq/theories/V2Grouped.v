(* V2Grouped.v - the grouped information elements of src/gtpv2/messages/ies: contents, encoder and
   reported size. Their decoders need the IE list decoder and are in V2Decoder.v. The struct fields t,
   length, ins are in [Tliv]. In Rust [marshal] builds a GroupedIe with the members in to_vec order and
   GroupedIe::marshal (groupedie.rs 28-36) runs InformationElement::encoder over them; here [X_value] is the
   concatenation of the encodings of the members in that order. *)
From Verif Require Import Base.
From Verif Require Export V2Base V2Enums V2Common V2IeA V2IeB V2IeC V2IeD V2IeE V2IeF.
Local Open Scope N_scope.

(* [if let Some(i) = field { v.push(i.into()) }] and [for j in field { v.push(j.into()) }] *)
Definition opt_enc {A} (f : A -> list N) (o : option A) : list N := match o with Some i => f i | None => [] end.
Definition many_enc {A} (f : A -> list N) (l : list A) : list N := concat (map f l).
Definition opt_list {A} (o : option (list A)) : list A := match o with Some l => l | None => [] end.

(* ---- loadcontrolinfo.rs: 10-17, 32-41, 64-67 *)
Record load_control := mkLoadControl {
  lc_sqn : Tliv N;
  lc_metric : Tliv N;
  lc_list : option (list (Tliv apn_rel_cap)) }.
(* to_vec 98-108 *)
Definition LoadControl_value (v : load_control) : list N :=
  Sqn_marshal (lc_sqn v) ++
  Metric_marshal (lc_metric v) ++
  many_enc ApnRelativeCapacity_marshal (opt_list (lc_list v)).
Definition LoadControl_marshal := marshal_ie 181 LoadControl_value.
(* 82-84 *)
Definition LoadControl_len (m : mode) (x : Tliv load_control) : res nat := len_usize x.

(* ---- overloadcontrolinfo.rs: 10-18, 34-43, 67-70 *)
Record overload_control := mkOverloadControlInfo {
  oc_sqn : Tliv N;
  oc_metric : Tliv N;
  oc_validity : Tliv epc_timer;
  oc_list : option (list (Tliv (list N))) }.
(* to_vec 101-112 *)
Definition OverloadControlInfo_value (v : overload_control) : list N :=
  Sqn_marshal (oc_sqn v) ++
  Metric_marshal (oc_metric v) ++
  EpcTimer_marshal (oc_validity v) ++
  many_enc Apn_marshal (opt_list (oc_list v)).
Definition OverloadControlInfo_marshal := marshal_ie 180 OverloadControlInfo_value.
(* 85-87 *)
Definition OverloadControlInfo_len (m : mode) (x : Tliv overload_control) : res nat := len_usize x.

(* ---- remoteuecontext.rs: 10-16, 30-39, 57-60 *)
Record remote_ue_context := mkRemoteUeContext {
  re_user_id : Tliv remote_user;
  re_ue_ip : option (Tliv remote_ip) }.
(* to_vec 86-93 *)
Definition RemoteUeContext_value (v : remote_ue_context) : list N :=
  RemoteUserId_marshal (re_user_id v) ++
  opt_enc RemoteUeIpInformation_marshal (re_ue_ip v).
Definition RemoteUeContext_marshal := marshal_ie 191 RemoteUeContext_value.
(* 70-72 *)
Definition RemoteUeContext_len (m : mode) (x : Tliv remote_ue_context) : res nat := len_usize x.

(* ---- pc5qosparameters.rs: 10-16, 30-39, 65-68 *)
Record pc5_qos_parameters := mkPC5QosParameters {
  p5_flows : list (Tliv pc5_flow);
  p5_abrs : option (Tliv N) }.
(* to_vec 98-107 *)
Definition PC5QosParameters_value (v : pc5_qos_parameters) : list N :=
  many_enc PC5QosFlow_marshal (p5_flows v) ++
  opt_enc BitRate_marshal (p5_abrs v).
Definition PC5QosParameters_marshal := marshal_ie 209 PC5QosParameters_value.
(* 82-84 *)
Definition PC5QosParameters_len (m : mode) (x : Tliv pc5_qos_parameters) : res nat := len_usize x.

(* ---- pgwchangeinfo.rs: 10-18, 34-43, 79-82 *)
Record pgw_change_info := mkPgwChangeInfo {
  pw_fqdns : list (Tliv (list N));
  pw_ips : list (Tliv ipaddr);
  pw_fqcsid : list (Tliv fqcsid);
  pw_groupids : list (Tliv (list N)) }.
(* to_vec 108-119 *)
Definition PgwChangeInfo_value (v : pgw_change_info) : list N :=
  many_enc IpAddress_marshal (pw_ips v) ++
  many_enc PgwFqdn_marshal (pw_fqdns v) ++
  many_enc Fqcsid_marshal (pw_fqcsid v) ++
  many_enc GroupId_marshal (pw_groupids v).
Definition PgwChangeInfo_marshal := marshal_ie 214 PgwChangeInfo_value.
(* 92-94 *)
Definition PgwChangeInfo_len (m : mode) (x : Tliv pgw_change_info) : res nat := len_usize x.

(* ---- scefpdnconnections.rs: 10-17, 32-41, 72-75 *)
Record scef_pdn_connections := mkScefPdnConnections {
  sf_apn : Tliv (list N);
  sf_ebi : Tliv N;
  sf_scef : Tliv node_identifier }.
(* to_vec 101-107 *)
Definition ScefPdnConnections_value (v : scef_pdn_connections) : list N :=
  Apn_marshal (sf_apn v) ++
  Ebi_marshal (sf_ebi v) ++
  NodeIdentifier_marshal (sf_scef v).
Definition ScefPdnConnections_marshal := marshal_ie 195 ScefPdnConnections_value.
(* 85-87 *)
Definition ScefPdnConnections_len (m : mode) (x : Tliv scef_pdn_connections) : res nat := len_usize x.

(* ---- bearercontext.rs: 10-28, 54-63, 146-149 *)
Record bearer_context := mkBearerContext {
  bc_ebi : Tliv N;
  bc_cause : option (Tliv cause);
  bc_tft : option (Tliv (list N));
  bc_fteids : list (Tliv fteid);
  bc_qos : option (Tliv bearer_qos);
  bc_charging : option (Tliv N);
  bc_flags : option (Tliv bearer_flags);
  bc_pco : option (Tliv (list N));
  bc_apco : option (Tliv (list N));
  bc_epco : option (Tliv (list N));
  bc_loss : option (Tliv max_loss);
  bc_ran : option (Tliv ran_nas_cause);
  bc_bss : option (Tliv container);
  bc_ti : option (Tliv transaction_id) }.
(* to_vec 175-225 *)
Definition BearerContext_value (v : bearer_context) : list N :=
  opt_enc Cause_marshal (bc_cause v) ++
  Ebi_marshal (bc_ebi v) ++
  opt_enc BearerTft_marshal (bc_tft v) ++
  many_enc Fteid_marshal (bc_fteids v) ++
  opt_enc BearerQos_marshal (bc_qos v) ++
  opt_enc ChargingId_marshal (bc_charging v) ++
  opt_enc BearerFlags_marshal (bc_flags v) ++
  opt_enc Pco_marshal (bc_pco v) ++
  opt_enc Apco_marshal (bc_apco v) ++
  opt_enc Epco_marshal (bc_epco v) ++
  opt_enc MaxPacketLossRate_marshal (bc_loss v) ++
  opt_enc RanNasCause_marshal (bc_ran v).
Definition BearerContext_marshal := marshal_ie 93 BearerContext_value.
(* 159-161 *)
Definition BearerContext_len (m : mode) (x : Tliv bearer_context) : res nat := len_usize x.

(* ---- v2xinformation.rs: 10-17, 32-41, 72-75 *)
Record v2x_information := mkV2xInformation {
  vx_auth : list (Tliv services_auth);
  vx_brs : list (Tliv N);
  vx_qos : option (Tliv pc5_qos_parameters) }.
(* to_vec 101-113 *)
Definition V2xInformation_value (v : v2x_information) : list N :=
  many_enc ServicesAuthorized_marshal (vx_auth v) ++
  many_enc BitRate_marshal (vx_brs v) ++
  opt_enc PC5QosParameters_marshal (vx_qos v).
Definition V2xInformation_marshal := marshal_ie 208 V2xInformation_value.
(* 85-87 *)
Definition V2xInformation_len (m : mode) (x : Tliv v2x_information) : res nat := len_usize x.

(* ---- pdnconnections.rs: 10-39, 76-85, 214-217 *)
Record pdn_connections := mkPdnConnections {
  pn_apn : Tliv (list N);
  pn_restriction : option (Tliv Restriction);
  pn_selection : option (Tliv N);
  pn_ipv4 : option (Tliv ipaddr);
  pn_ipv6 : option (Tliv ipaddr);
  pn_ebi : Tliv N;
  pn_pgw : Tliv fteid;
  pn_node_name : option (Tliv (list N));
  pn_bearers : list (Tliv bearer_context);
  pn_ambr : Tliv ambr;
  pn_charging : option (Tliv N);
  pn_reporting : option (Tliv N);
  pn_csg : option (Tliv N);
  pn_henb : option (Tliv bool);
  pn_indication : option (Tliv indication);
  pn_spi : option (Tliv bool);
  pn_report_flags : option (Tliv ctr_flags);
  pn_home : option (Tliv (list N));
  pn_praa : option (Tliv praa);
  pn_wlan : option (Tliv wlan_offload);
  pn_remotes : list (Tliv remote_ue_context);
  pn_pdn_type : option (Tliv Pdn);
  pn_compr : option (Tliv hdr_compr);
  pn_change : option (Tliv pgw_change_info);
  pn_policy : option (Tliv UpIpPolicy) }.
(* to_vec 243-331 *)
Definition PdnConnections_value (v : pdn_connections) : list N :=
  Apn_marshal (pn_apn v) ++
  opt_enc ApnRestriction_marshal (pn_restriction v) ++
  opt_enc SelectionMode_marshal (pn_selection v) ++
  opt_enc IpAddress_marshal (pn_ipv4 v) ++
  opt_enc IpAddress_marshal (pn_ipv6 v) ++
  Ebi_marshal (pn_ebi v) ++
  Fteid_marshal (pn_pgw v) ++
  opt_enc Fqdn_marshal (pn_node_name v) ++
  many_enc BearerContext_marshal (pn_bearers v) ++
  Ambr_marshal (pn_ambr v) ++
  opt_enc ChargingCharacteristics_marshal (pn_charging v) ++
  opt_enc ChangeReportingAction_marshal (pn_reporting v) ++
  opt_enc CSGInformationReportingAction_marshal (pn_csg v) ++
  opt_enc HenbInfoReporting_marshal (pn_henb v) ++
  opt_enc Indication_marshal (pn_indication v) ++
  opt_enc Spi_marshal (pn_spi v) ++
  opt_enc ChangeToReportFlags_marshal (pn_report_flags v) ++
  opt_enc Fqdn_marshal (pn_home v) ++
  opt_enc PresenceReportingAreaAction_marshal (pn_praa v) ++
  opt_enc WlanOffloadIndication_marshal (pn_wlan v) ++
  many_enc RemoteUeContext_marshal (pn_remotes v) ++
  opt_enc PdnType_marshal (pn_pdn_type v) ++
  opt_enc HeaderCompressionConfiguration_marshal (pn_compr v).
Definition PdnConnections_marshal := marshal_ie 109 PdnConnections_value.
(* 227-229 *)
Definition PdnConnections_len (m : mode) (x : Tliv pdn_connections) : res nat := len_usize x.
