(* V2ListSpec.v - what received octets mean as a sequence of GTPv2-C information elements, and as a
   message: which element a type code announces, where the next element begins, how the members of a
   grouped element make its fields. The elements themselves are in V2ReadSpec.v. *)
From Verif Require Import Base.
From Verif Require Export V2ReadSpec.
Local Open Scope N_scope.

(* ------------------------------------------------------------------------- *)
(* Members of grouped elements *)

(* the members of one kind, those of them with one of the instances, in the order received *)
Definition members {A} (sel : ie -> option A) (l : list ie) : list A :=
  concat (map (fun e => match sel e with Some x => [x] | None => [] end) l).
Definition instances {A} (ok : N -> bool) (l : list (Tliv A)) : list (Tliv A) := filter (fun x => ok (ie_ins x)) l.
Definition every {A} (sel : ie -> option (Tliv A)) (ok : N -> bool) (l : list ie) : list (Tliv A) := instances ok (members sel l).
Definition oldest {A} (sel : ie -> option (Tliv A)) (ok : N -> bool) (l : list ie) : option (Tliv A) := hd_error (every sel ok l).
Definition newest {A} (sel : ie -> option (Tliv A)) (ok : N -> bool) (l : list ie) : option (Tliv A) := hd_error (rev (every sel ok l)).
Definition or_else {A} (d : A) (o : option A) : A := match o with Some x => x | None => d end.
Definition only (n i : N) : bool := i =? n.
Definition below (n i : N) : bool := i <? n.
Definition any_instance (i : N) : bool := true.

(* REMARK: members that are not optional (TS 29.274) may be missing; the receiver then has an empty one. *)
Definition no_ebi : Tliv N := mkIe 73 1 0 0.
Definition no_apn : Tliv (list N) := mkIe 71 0 0 [].
Definition no_fteid : Tliv fteid := mkIe 87 9 0 (mkFteid 0 0 (Some [0; 0; 0; 0]) None).
Definition no_ambr : Tliv ambr := mkIe 72 8 0 (mkAmbr 0 0).
Definition no_sqn : Tliv N := mkIe 183 4 0 0.
Definition no_metric : Tliv N := mkIe 182 1 0 0.
Definition no_timer : Tliv epc_timer := mkIe 156 1 0 (mkEpcTimer 0 0).
Definition no_user : Tliv remote_user := mkIe 192 0 0 (mkRemoteUser [] None None).
Definition no_node : Tliv node_identifier := mkIe 176 0 0 (mkNodeIdentifier [] []).

(* REMARK: of several APNs (relative capacities) only the last is kept *)
Definition LoadControl_holds (l : list ie) : load_control :=
  mkLoadControl (or_else no_sqn (newest as_Sqn any_instance l)) (or_else no_metric (newest as_Metric any_instance l))
    (option_map (fun x => [x]) (newest as_ApnRelativeCapacity any_instance l)).
Definition OverloadControlInfo_holds (l : list ie) : overload_control :=
  mkOverloadControlInfo (or_else no_sqn (newest as_Sqn any_instance l)) (or_else no_metric (newest as_Metric any_instance l))
    (or_else no_timer (newest as_EpcTimer any_instance l)) (option_map (fun x => [x]) (newest as_Apn any_instance l)).
Definition RemoteUeContext_holds (l : list ie) : remote_ue_context :=
  mkRemoteUeContext (or_else no_user (newest as_RemoteUserId any_instance l)) (newest as_RemoteUeIpInformation any_instance l).
Definition PC5QosParameters_holds (l : list ie) : pc5_qos_parameters :=
  mkPC5QosParameters (every as_PC5QosFlow (only 0) l) (oldest as_BitRate (only 0) l).
Definition PgwChangeInfo_holds (l : list ie) : pgw_change_info :=
  mkPgwChangeInfo (every as_PgwFqdn (below 2) l) (every as_IpAddress (below 4) l) (every as_Fqcsid (only 0) l) (every as_GroupId (below 2) l).
Definition ScefPdnConnections_holds (l : list ie) : scef_pdn_connections :=
  mkScefPdnConnections (or_else no_apn (newest as_Apn (only 0) l)) (or_else no_ebi (newest as_Ebi (only 0) l))
    (or_else no_node (newest as_NodeIdentifier (only 0) l)).
Definition BearerContext_holds (l : list ie) : bearer_context := {|
  bc_ebi := or_else no_ebi (oldest as_Ebi (only 0) l);
  bc_cause := oldest as_Cause (only 0) l;
  bc_tft := oldest as_BearerTft (only 0) l;
  bc_fteids := every as_Fteid any_instance l;
  bc_qos := oldest as_BearerQos (only 0) l;
  bc_charging := oldest as_ChargingId (only 0) l;
  bc_flags := oldest as_BearerFlags (only 0) l;
  bc_pco := oldest as_Pco (only 0) l;
  bc_apco := oldest as_Apco (only 0) l;
  bc_epco := oldest as_Epco (only 0) l;
  bc_loss := oldest as_MaxPacketLossRate (only 0) l;
  bc_ran := oldest as_RanNasCause (only 0) l;
  bc_bss := oldest as_Fcontainer (only 0) l;
  bc_ti := oldest as_TransactionIdentifier (only 0) l |}.
Definition V2xInformation_holds (l : list ie) : v2x_information :=
  mkV2xInformation (every as_ServicesAuthorized (below 2) l) (every as_BitRate (below 2) l) (oldest as_PC5QosParameters (only 0) l).
(* REMARK: the last two fields are never filled *)
Definition PdnConnections_holds (l : list ie) : pdn_connections := {|
  pn_apn := or_else no_apn (newest as_Apn (only 0) l);
  pn_restriction := oldest as_ApnRestriction (only 0) l;
  pn_selection := oldest as_SelectionMode (only 0) l;
  pn_ipv4 := oldest as_IpAddress (only 0) l;
  pn_ipv6 := oldest as_IpAddress (only 1) l;
  pn_ebi := or_else no_ebi (newest as_Ebi (only 0) l);
  pn_pgw := or_else no_fteid (newest as_Fteid (only 0) l);
  pn_node_name := oldest as_Fqdn (only 0) l;
  pn_bearers := every as_BearerContext (only 0) l;
  pn_ambr := or_else no_ambr (newest as_ApnAmbr (only 0) l);
  pn_charging := oldest as_ChargingCharacteristics (only 0) l;
  pn_reporting := oldest as_ChangeReportingAction (only 0) l;
  pn_csg := oldest as_CSGInformationReportingAction (only 0) l;
  pn_henb := oldest as_HenbInfoReporting (only 0) l;
  pn_indication := oldest as_Indication (only 0) l;
  pn_spi := oldest as_Spi (only 0) l;
  pn_report_flags := oldest as_ChangeToReportFlags (only 0) l;
  pn_home := oldest as_Fqdn (only 1) l;
  pn_praa := oldest as_PresenceReportingAreaAction (only 0) l;
  pn_wlan := oldest as_WlanOffloadIndication (only 0) l;
  pn_remotes := every as_RemoteUeContext (only 0) l;
  pn_pdn_type := oldest as_PdnType (only 0) l;
  pn_compr := oldest as_HeaderCompressionConfiguration (only 0) l;
  pn_change := None;
  pn_policy := None |}.

(* ------------------------------------------------------------------------- *)
(* The elements by their type codes *)

(* Where the next element begins: after the length; the same, if it can be added to four in 16 bits;
   after a fixed number of octets (with the header) whatever the length says; after the octets of the
   value. *)
Inductive extent := Declared | Declared16 | Exactly (n : nat) | Own.
(* An element of its own, or a group, made from type, length, instance and the members. *)
Inductive meaning := Plain (r : list N -> option ie) | Group (f : Tliv (list ie) -> option ie).
Definition plain {A} (c : A -> ie) (r : list N -> option A) : meaning := Plain (fun s => option_map c (r s)).
Definition group {A} (c : Tliv A -> ie) (f : list ie -> A) : meaning :=
  Group (fun g => Some (c (mkIe (ie_t g) (ie_length g) (ie_ins g) (f (ie_v g))))).
(* with at least one flow *)
Definition pc5_group : meaning :=
  Group (fun g => match every as_PC5QosFlow (only 0) (ie_v g) with
                  | [] => None
                  | _ => Some (IE_PC5QosParameters (mkIe (ie_t g) (ie_length g) (ie_ins g) (PC5QosParameters_holds (ie_v g))))
                  end).

(* TS 29.274, table 8.1-1. REMARK: 169 is the TWAN identifier there, and is read as an action indication. *)
Definition catalogue : list (N * (extent * meaning)) := [
  (1, (Declared, plain IE_Imsi Imsi_reads));
  (2, (Declared16, plain IE_Cause Cause_reads));
  (3, (Exactly 5, plain IE_Recovery Recovery_reads));
  (51, (Declared, plain IE_StnSr StnSr_reads));
  (56, (Exactly 5, plain IE_SrvccCause SrvccCause_reads));
  (71, (Declared16, plain IE_Apn Apn_reads));
  (72, (Exactly 12, plain IE_ApnAmbr Ambr_reads));
  (73, (Exactly 5, plain IE_Ebi Ebi_reads));
  (74, (Declared, plain IE_IpAddress IpAddress_reads));
  (75, (Exactly 12, plain IE_Mei Mei_reads));
  (76, (Declared, plain IE_Msisdn Msisdn_reads));
  (77, (Declared, plain IE_Indication Indication_reads));
  (78, (Declared, plain IE_Pco Pco_reads));
  (79, (Declared, plain IE_PdnAddressAllocation PdnAddressAllocation_reads));
  (80, (Exactly 26, plain IE_BearerQos BearerQos_reads));
  (81, (Exactly 25, plain IE_FlowQos FlowQos_reads));
  (82, (Exactly 5, plain IE_RatType RatType_reads));
  (83, (Exactly 7, plain IE_ServingNetwork ServingNetwork_reads));
  (84, (Declared, plain IE_BearerTft BearerTft_reads));
  (85, (Declared, plain IE_TrafficAggregateDescription TrafficAggregateDescription_reads));
  (86, (Declared, plain IE_Uli Uli_reads));
  (87, (Declared16, plain IE_Fteid Fteid_reads));
  (88, (Declared, plain IE_Tmsi Tmsi_reads));
  (89, (Exactly 9, plain IE_GlobalCnId GlobalCnId_reads));
  (90, (Declared, plain IE_S103pdf S103pdf_reads));
  (91, (Declared, plain IE_S1udf S1udf_reads));
  (92, (Exactly 5, plain IE_DelayValue DelayValue_reads));
  (93, (Declared, group IE_BearerContext BearerContext_holds));
  (94, (Exactly 8, plain IE_ChargingId ChargingId_reads));
  (95, (Exactly 6, plain IE_ChargingCharacteristics ChargingCharacteristics_reads));
  (96, (Exactly 38, plain IE_TraceInformation TraceInformation_reads));
  (97, (Declared, plain IE_BearerFlags BearerFlags_reads));
  (99, (Exactly 5, plain IE_PdnType PdnType_reads));
  (100, (Exactly 5, plain IE_Pti Pti_reads));
  (103, (Declared, plain (fun x => IE_MmContext (MmGsmT x)) MmGsmT_reads));
  (104, (Declared, plain (fun x => IE_MmContext (MmUmtsCq x)) MmUmtsCq_reads));
  (105, (Declared, plain (fun x => IE_MmContext (MmGsmCq x)) MmGsmCq_reads));
  (106, (Declared, plain (fun x => IE_MmContext (MmUmtsQ x)) MmUmtsQ_reads));
  (107, (Declared, plain (fun x => IE_MmContext (MmEps x)) MmEps_reads));
  (108, (Declared, plain (fun x => IE_MmContext (MmUmtsQq x)) MmUmtsQq_reads));
  (109, (Declared, group IE_PdnConnections PdnConnections_holds));
  (110, (Declared, plain IE_PduNumbers PduNumbers_reads));
  (111, (Exactly 8, plain IE_Ptmsi Ptmsi_reads));
  (112, (Exactly 8, plain IE_PtmsiSignature PtmsiSignature_reads));
  (113, (Declared, plain IE_HopCounter HopCounter_reads));
  (114, (Exactly 6, plain IE_UeTimeZone UeTimeZone_reads));
  (115, (Exactly 10, plain IE_TraceReference TraceReference_reads));
  (116, (Declared16, plain IE_CompleteRequestMessage CompleteRequestMessage_reads));
  (117, (Exactly 14, plain IE_Guti Guti_reads));
  (118, (Declared16, plain IE_Fcontainer Fcontainer_reads));
  (119, (Declared, plain IE_Fcause Fcause_reads));
  (120, (Exactly 7, plain IE_PlmnId PlmnId_reads));
  (121, (Own, plain IE_TargetIdentification TargetIdentification_reads));
  (123, (Exactly 9, plain IE_PacketFlowId PacketFlowId_reads));
  (124, (Exactly 13, plain IE_RabContext RabContext_reads));
  (125, (Declared16, plain IE_SrcRncPdcpCtxInfo SourceRncPdcpContextInfo_reads));
  (126, (Exactly 6, plain IE_PortNumber PortNumber_reads));
  (127, (Exactly 5, plain IE_ApnRestriction ApnRestriction_reads));
  (128, (Exactly 5, plain IE_SelectionMode SelectionMode_reads));
  (129, (Own, plain IE_SourceIdentification SourceIdentification_reads));
  (131, (Exactly 5, plain IE_ChangeReportingAction ChangeReportingAction_reads));
  (132, (Declared16, plain IE_Fqcsid Fqcsid_reads));
  (133, (Exactly 5, plain IE_ChannelNeeded ChannelNeeded_reads));
  (134, (Exactly 5, plain IE_EmlppPriority EmlppPriority_reads));
  (135, (Exactly 5, plain IE_NodeType NodeType_reads));
  (136, (Declared16, plain IE_Fqdn Fqdn_reads));
  (137, (Declared, plain IE_TransactionIdentifier TransactionIdentifier_reads));
  (138, (Exactly 7, plain IE_MbmsSd MbmsSessionDuration_reads));
  (139, (Declared, plain IE_MbmsSa MbmsServiceArea_reads));
  (140, (Exactly 5, plain IE_MbmsSessionId MbmsSessionId_reads));
  (141, (Exactly 6, plain IE_MbmsFlowId MbmsFlowId_reads));
  (142, (Declared, plain IE_MbmsIpMulticastDistribution MbmsIpMulticastDistribution_reads));
  (143, (Exactly 5, plain IE_MbmsDistributionAck MbmsDistributionAck_reads));
  (144, (Exactly 6, plain IE_RfspIndex RfspIndex_reads));
  (145, (Exactly 12, plain IE_Uci Uci_reads));
  (146, (Exactly 5, plain IE_CSGInformationReportingAction CSGInformationReportingAction_reads));
  (147, (Exactly 8, plain IE_CsgId CsgId_reads));
  (148, (Exactly 5, plain IE_CsgMembershipIndication CsgMembershipIndication_reads));
  (149, (Exactly 5, plain IE_ServiceIndicator ServiceIndicator_reads));
  (150, (Exactly 5, plain IE_DetachType DetachType_reads));
  (151, (Declared16, plain IE_Ldn Ldn_reads));
  (152, (Exactly 5, plain IE_NodeFeatures NodeFeatures_reads));
  (153, (Exactly 5, plain IE_MbmsTimeToDataTransfer MbmsTimeToDataTransfer_reads));
  (154, (Exactly 6, plain IE_Throttling Throttling_reads));
  (155, (Declared, plain IE_Arp Arp_reads));
  (156, (Exactly 5, plain IE_EpcTimer EpcTimer_reads));
  (157, (Exactly 5, plain IE_Spi Spi_reads));
  (158, (Exactly 10, plain IE_Tmgi Tmgi_reads));
  (159, (Declared, plain IE_AdditionalMmContextForSrvcc AdditionalMmContextForSrvcc_reads));
  (160, (Exactly 5, plain IE_AdditionalFlagsSrvcc AdditionalFlagsSrvcc_reads));
  (162, (Declared, plain IE_MdtConfiguration MdtConfiguration_reads));
  (163, (Declared, plain IE_Apco Apco_reads));
  (164, (Exactly 12, plain IE_AbsoluteTimeMbmsDataTransfer AbsoluteTimeMbmsDataTransfer_reads));
  (165, (Exactly 5, plain IE_HenbInfoReporting HenbInfoReporting_reads));
  (166, (Exactly 9, plain IE_Ip4Cp Ip4Cp_reads));
  (167, (Exactly 5, plain IE_ChangeToReportFlags ChangeToReportFlags_reads));
  (168, (Declared, plain IE_ActionIndication ActionIndication_reads));
  (169, (Declared, plain IE_ActionIndication ActionIndication_reads));
  (170, (Exactly 8, plain IE_UliTimestamp UliTimestamp_reads));
  (171, (Exactly 5, plain IE_MbmsFlags MbmsFlags_reads));
  (172, (Declared, plain IE_RanNasCause RanNasCause_reads));
  (173, (Exactly 5, plain IE_CnOperatorSelectionEntity CnOperatorSelectionEntity_reads));
  (174, (Exactly 5, plain IE_Twmi Twmi_reads));
  (175, (Declared, plain IE_NodeNumber NodeNumber_reads));
  (176, (Declared, plain IE_NodeIdentifier NodeIdentifier_reads));
  (177, (Declared, plain IE_PresenceReportingAreaAction PresenceReportingAreaAction_reads));
  (178, (Exactly 12, plain IE_PresenceReportingAreaInformation PresenceReportingAreaInformation_reads));
  (179, (Exactly 8, plain IE_TwanIdTimeStamp TwanIdTimeStamp_reads));
  (180, (Declared, group IE_OverloadControlInfo OverloadControlInfo_holds));
  (181, (Declared, group IE_LoadControlInfo LoadControl_holds));
  (182, (Exactly 5, plain IE_Metric Metric_reads));
  (183, (Exactly 8, plain IE_Sqn Sqn_reads));
  (184, (Declared, plain IE_ApnRelativeCapacity ApnRelativeCapacity_reads));
  (185, (Exactly 5, plain IE_WlanOffloadIndication WlanOffloadIndication_reads));
  (186, (Own, plain IE_PagingServiceInfo PagingServiceInfo_reads));
  (187, (Declared, plain IE_IntegerNumber IntegerNumber_reads));
  (188, (Exactly 10, plain IE_MilliSecondTimeStamp MilliSecondTimeStamp_reads));
  (189, (Declared, plain IE_MonitoringEventInformation MonitoringEventInformation_reads));
  (190, (Own, plain IE_EcgiList EcgiList_reads));
  (191, (Declared, group IE_RemoteUeContext RemoteUeContext_holds));
  (192, (Declared, plain IE_RemoteUserId RemoteUserId_reads));
  (193, (Declared16, plain IE_RemoteUeIpInformation RemoteUeIpInformation_reads));
  (194, (Exactly 5, plain IE_CIoTOptimizationSupportIndication CIoTOptimizationSupportIndication_reads));
  (195, (Declared, group IE_ScefPdnConnections ScefPdnConnections_holds));
  (196, (Exactly 8, plain IE_HeaderCompressionConfiguration HeaderCompressionConfiguration_reads));
  (197, (Declared, plain IE_Epco Epco_reads));
  (198, (Exactly 8, plain IE_ServingPlmnRateControl ServingPlmnRateControl_reads));
  (199, (Exactly 9, plain IE_Counter Counter_reads));
  (200, (Exactly 6, plain IE_MappedUeUsageType MappedUeUsageType_reads));
  (201, (Declared, plain IE_SecondaryRatUsageDataReport SecondaryRatUsageDataReport_reads));
  (202, (Exactly 5, plain IE_UpFunctionSelectionIndicationFlags UpFunctionSelectionIndicationFlags_reads));
  (203, (Declared, plain IE_MaxPacketLossRate MaxPacketLossRate_reads));
  (204, (Declared, plain IE_ApnRateControlStatus ApnRateControlStatus_reads));
  (205, (Declared16, plain IE_ExtendedTraceInformation ExtendedTraceInformation_reads));
  (206, (Declared, plain IE_MonitoringEventExtensionInfo MonitoringEventExtensionInfo_reads));
  (207, (Exactly 8, plain IE_AdditionalRrmPolicyIndex AdditionalRrmPolicyIndex_reads));
  (208, (Declared, group IE_V2xInformation V2xInformation_holds));
  (209, (Declared, pc5_group));
  (210, (Exactly 6, plain IE_ServicesAuthorized ServicesAuthorized_reads));
  (211, (Exactly 8, plain IE_BitRate BitRate_reads));
  (212, (Declared, plain IE_PC5QosFlow PC5QosFlow_reads));
  (213, (Declared, plain IE_SgiPtpTunnelAddress SgiPtpTunnelAddress_reads));
  (214, (Declared, group IE_PgwChangeInfo PgwChangeInfo_holds));
  (215, (Declared, plain IE_PgwFqdn PgwFqdn_reads));
  (216, (Declared, plain IE_GroupId GroupId_reads));
  (217, (Exactly 12, plain IE_PSCellId PSCellId_reads));
  (218, (Exactly 5, plain IE_UpSecurityPolicy UpSecurityPolicy_reads));
  (219, (Declared, plain IE_AlternativeImsi AlternativeImsi_reads));
  (254, (Declared, plain IE_SpecialIEWithTypeExt SpecialIEWithTypeExt_reads));
  (255, (Declared, plain IE_PrivateExtension PrivateExtension_reads))].
Definition kind_of_code (t : N) : extent * meaning :=
  match find (fun e => fst e =? t) catalogue with Some e => snd e | None => (Declared, plain IE_Unknown Unknown_reads) end.

Definition declared (s : list N) : N := 256 * nth 1 s 0 + nth 2 s 0.
Definition own_size (e : ie) : nat :=
  match e with
  | IE_EcgiList x => match ie_v x with Some l => 6 + 7 * length l | None => 6 end
  | IE_PagingServiceInfo x => match pg_policy (ie_v x) with Some _ => 7 | None => 6 end
  | IE_SourceIdentification x =>
      match si_source (ie_v x) with St_Cell _ => 21 | St_Rnc r => match sr_ext r with Some _ => 20 | None => 18 end | St_Spare => 14 end
  | IE_TargetIdentification x =>
      5 + match ie_v x with
          | Tt_Rnc r => match rn_ext r with Some _ => 10 | None => 8 end
          | Tt_GNb _ => 11
          | Tt_MacroNg _ | Tt_ExtNg _ => 9
          | Tt_EnGNb g => match eg_tac g, eg_etac g with Some _, Some _ => 14 | Some _, None => 11 | None, _ => 8 end
          | Tt_MacroEnbIdentifier _ | Tt_Spare => 1
          | _ => 8
          end
  | _ => 0
  end%nat.
Definition next_after (x : extent) (s : list N) (e : ie) : option nat :=
  match x with
  | Declared => Some (4 + N.to_nat (declared s))%nat
  | Declared16 => if declared s <=? 65531 then Some (4 + N.to_nat (declared s))%nat else None
  | Exactly n => Some n
  | Own => Some (own_size e)
  end.

(* ------------------------------------------------------------------------- *)
(* Sequences of elements. [octets_say s l]: the octets [s] are the elements [l]. [head_says s e n]: [s]
   begins with the element [e], and the next one begins after [n] octets. *)
Inductive octets_say : list N -> list ie -> Prop :=
| say_end : octets_say [] []
| say_more s e n l : head_says s e n -> octets_say (skipn n s) l -> octets_say s (e :: l)
with head_says : list N -> ie -> nat -> Prop :=
| head_plain t q x r e n :
    kind_of_code t = (x, Plain r) -> r (t :: q) = Some e -> next_after x (t :: q) e = Some n -> head_says (t :: q) e n
| head_group t a b c q x f l e n :
    kind_of_code t = (x, Group f) -> fits (256 * a + b) q = true ->
    octets_say (firstn (N.to_nat (256 * a + b)) q) l -> f (mkIe t (256 * a + b) c l) = Some e ->
    next_after x (t :: a :: b :: c :: q) e = Some n -> head_says (t :: a :: b :: c :: q) e n.
