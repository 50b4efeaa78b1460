(* V2DecLoop.v - the IE list decoder terminates, its nesting is bounded, and on tame octets it returns. *)
From Verif Require Import Base BaseFacts.
From Verif Require Export V2DecMore.
Local Open Scope N_scope.

(* sizes *)
Lemma ie_len_sized m e : sized_by_length e -> ie_lenfield e <= 65531 -> ie_len m e = Ok (4 + N.to_nat (ie_lenfield e))%nat.
Proof.
  intros H L. destruct e as [x|x|x|x|x|x|x|x|x|x|x|x|x|x|x|x|x|x|x|x|x|x|x|x|x|x|x|x|x|x|x|x|x|x|x|x|x|x|x|x|x|x|x|x|x|x|x|x|x|x|x|x|x|x|x|x|x|x|x|x|x|x|x|x|x|x|x|x|x|x|x|x|x|x|x|x|x|x|x|x|x|x|x|x|x|x|x|x|x|x|x|x|x|x|x|x|x|x|x|x|x|x|x|x|x|x|x|x|x|x|x|x|x|x|x|x|x|x|x|x|x|x|x|x|x|x|x|x|x|x|x|x|x|x|x|x|x|x|x|x|x|x|x|x|x|x]; cbn [sized_by_length] in H; try contradiction; unfold ie_len; cbn [ie_lenfield] in *; clear H.
  - unfold Imsi_len, len_usize. f_equal. lia.
  - unfold Cause_len, len_u16. rewrite add16_small by lia. rewrite bindOk. f_equal. lia.
  - unfold StnSr_len, len_usize. f_equal. lia.
  - unfold Apn_len, len_u16. rewrite add16_small by lia. rewrite bindOk. f_equal. lia.
  - unfold IpAddress_len, len_usize. f_equal. lia.
  - unfold Msisdn_len, len_usize. f_equal. lia.
  - unfold Indication_len, len_usize. f_equal. lia.
  - unfold Pco_len, len_usize. f_equal. lia.
  - unfold PdnAddressAllocation_len, len_usize. f_equal. lia.
  - unfold BearerTft_len, len_usize. f_equal. lia.
  - unfold TrafficAggregateDescription_len, len_usize. f_equal. lia.
  - unfold Uli_len, len_usize. f_equal. lia.
  - unfold Fteid_len, len_u16. rewrite add16_small by lia. rewrite bindOk. f_equal. lia.
  - unfold Tmsi_len, len_usize. f_equal. lia.
  - unfold S103pdf_len, len_usize. f_equal. lia.
  - unfold S1udf_len, len_usize. f_equal. lia.
  - unfold BearerContext_len, len_usize. f_equal. lia.
  - unfold BearerFlags_len, len_usize. f_equal. lia.
  - destruct x as [x|x|x|x|x|x]; cbn [MmContext_length MmContext_len] in *; match goal with |- ?f m x = _ => unfold f end; unfold len_usize; f_equal; lia.
  - unfold PdnConnections_len, len_usize. f_equal. lia.
  - unfold PduNumbers_len, len_usize. f_equal. lia.
  - unfold HopCounter_len, len_usize. f_equal. lia.
  - unfold CompleteRequestMessage_len, len_u16. rewrite add16_small by lia. rewrite bindOk. f_equal. lia.
  - unfold Fcontainer_len, len_u16. rewrite add16_small by lia. rewrite bindOk. f_equal. lia.
  - unfold Fcause_len, len_usize. f_equal. lia.
  - unfold SourceRncPdcpContextInfo_len, len_u16. rewrite add16_small by lia. rewrite bindOk. f_equal. lia.
  - unfold Fqcsid_len, len_u16. rewrite add16_small by lia. rewrite bindOk. f_equal. lia.
  - unfold Fqdn_len, len_u16. rewrite add16_small by lia. rewrite bindOk. f_equal. lia.
  - unfold TransactionIdentifier_len, len_usize. f_equal. lia.
  - unfold MbmsServiceArea_len, len_usize. f_equal. lia.
  - unfold MbmsIpMulticastDistribution_len, len_usize. f_equal. lia.
  - unfold Ldn_len, len_u16. rewrite add16_small by lia. rewrite bindOk. f_equal. lia.
  - unfold Arp_len, len_usize. f_equal. lia.
  - unfold AdditionalMmContextForSrvcc_len, len_usize. f_equal. lia.
  - unfold MdtConfiguration_len, len_usize. f_equal. lia.
  - unfold Apco_len, len_usize. f_equal. lia.
  - unfold ActionIndication_len, len_usize. f_equal. lia.
  - unfold TwanId_len, len_usize. f_equal. lia.
  - unfold RanNasCause_len, len_usize. f_equal. lia.
  - unfold NodeNumber_len, len_usize. f_equal. lia.
  - unfold NodeIdentifier_len, len_usize. f_equal. lia.
  - unfold PresenceReportingAreaAction_len, len_usize. f_equal. lia.
  - unfold OverloadControlInfo_len, len_usize. f_equal. lia.
  - unfold LoadControl_len, len_usize. f_equal. lia.
  - unfold ApnRelativeCapacity_len, len_usize. f_equal. lia.
  - unfold IntegerNumber_len, len_usize. f_equal. lia.
  - unfold MonitoringEventInformation_len, len_usize. f_equal. lia.
  - unfold RemoteUeContext_len, len_usize. f_equal. lia.
  - unfold RemoteUserId_len, len_usize. f_equal. lia.
  - unfold RemoteUeIpInformation_len, len_u16. rewrite add16_small by lia. rewrite bindOk. f_equal. lia.
  - unfold ScefPdnConnections_len, len_usize. f_equal. lia.
  - unfold Epco_len, len_usize. f_equal. lia.
  - unfold SecondaryRatUsageDataReport_len, len_usize. f_equal. lia.
  - unfold MaxPacketLossRate_len, len_usize. f_equal. lia.
  - unfold ApnRateControlStatus_len, len_usize. f_equal. lia.
  - unfold ExtendedTraceInformation_len, len_u16. rewrite add16_small by lia. rewrite bindOk. f_equal. lia.
  - unfold MonitoringEventExtensionInfo_len, len_usize. f_equal. lia.
  - unfold V2xInformation_len, len_usize. f_equal. lia.
  - unfold PC5QosParameters_len, len_usize. f_equal. lia.
  - unfold PC5QosFlow_len, len_usize. f_equal. lia.
  - unfold SgiPtpTunnelAddress_len, len_usize. f_equal. lia.
  - unfold PgwChangeInfo_len, len_usize. f_equal. lia.
  - unfold PgwFqdn_len, len_usize. f_equal. lia.
  - unfold GroupId_len, len_usize. f_equal. lia.
  - unfold AlternativeImsi_len, len_usize. f_equal. lia.
  - unfold SpecialIEWithTypeExt_len, len_usize. f_equal. lia.
  - unfold PrivateExtension_len, len_usize. f_equal. lia.
  - unfold Unknown_len, len_usize. f_equal. lia.
Qed.
Lemma ie_len_fixed m e n : fixed_size e = Some n -> ie_len m e = Ok n.
Proof. intros H. destruct e; cbn [fixed_size] in H; try discriminate H; injection H as <-; reflexivity. Qed.
(* [len()] is never zero in a debug build, nor in a release build unless the length field is near 2^16 *)
Lemma len_u16_pos {A} m (x : Tliv A) n : (m = Debug \/ ie_length x <= 65531) -> len_u16 m x = Ok n -> (0 < n)%nat.
Proof.
  unfold len_u16. intros H E. destruct (N.leb_spec (ie_length x) 65531) as [L|L].
  - rewrite add16_small in E by lia. rewrite bindOk in E. apply Ok_inj in E. lia.
  - destruct H as [->|H]; [|lia]. unfold add16, ov in E. destruct (N.ltb_spec (ie_length x + 4) 65536); [lia|]. discriminate E.
Qed.
Lemma ie_len_pos m e n : (m = Debug \/ ie_lenfield e <= 65531) -> ie_len m e = Ok n -> (0 < n)%nat.
Proof.
  intros H. destruct e as [x|x|x|x|x|x|x|x|x|x|x|x|x|x|x|x|x|x|x|x|x|x|x|x|x|x|x|x|x|x|x|x|x|x|x|x|x|x|x|x|x|x|x|x|x|x|x|x|x|x|x|x|x|x|x|x|x|x|x|x|x|x|x|x|x|x|x|x|x|x|x|x|x|x|x|x|x|x|x|x|x|x|x|x|x|x|x|x|x|x|x|x|x|x|x|x|x|x|x|x|x|x|x|x|x|x|x|x|x|x|x|x|x|x|x|x|x|x|x|x|x|x|x|x|x|x|x|x|x|x|x|x|x|x|x|x|x|x|x|x|x|x|x|x|x|x]; unfold ie_len; cbn [ie_lenfield] in H; intros E.
  - unfold Imsi_len, len_usize, len_const in E. apply Ok_inj in E. lia.
  - exact (len_u16_pos m x n H E).
  - unfold Recovery_len, len_usize, len_const in E. apply Ok_inj in E. lia.
  - unfold StnSr_len, len_usize, len_const in E. apply Ok_inj in E. lia.
  - unfold SrvccCause_len, len_usize, len_const in E. apply Ok_inj in E. lia.
  - exact (len_u16_pos m x n H E).
  - unfold Ambr_len, len_usize, len_const in E. apply Ok_inj in E. lia.
  - unfold Ebi_len, len_usize, len_const in E. apply Ok_inj in E. lia.
  - unfold IpAddress_len, len_usize, len_const in E. apply Ok_inj in E. lia.
  - unfold Mei_len, len_usize, len_const in E. apply Ok_inj in E. lia.
  - unfold Msisdn_len, len_usize, len_const in E. apply Ok_inj in E. lia.
  - unfold Indication_len, len_usize, len_const in E. apply Ok_inj in E. lia.
  - unfold Pco_len, len_usize, len_const in E. apply Ok_inj in E. lia.
  - unfold PdnAddressAllocation_len, len_usize, len_const in E. apply Ok_inj in E. lia.
  - unfold BearerQos_len, len_usize, len_const in E. apply Ok_inj in E. lia.
  - unfold FlowQos_len, len_usize, len_const in E. apply Ok_inj in E. lia.
  - unfold RatType_len, len_usize, len_const in E. apply Ok_inj in E. lia.
  - unfold ServingNetwork_len, len_usize, len_const in E. apply Ok_inj in E. lia.
  - unfold BearerTft_len, len_usize, len_const in E. apply Ok_inj in E. lia.
  - unfold TrafficAggregateDescription_len, len_usize, len_const in E. apply Ok_inj in E. lia.
  - unfold Uli_len, len_usize, len_const in E. apply Ok_inj in E. lia.
  - exact (len_u16_pos m x n H E).
  - unfold Tmsi_len, len_usize, len_const in E. apply Ok_inj in E. lia.
  - unfold GlobalCnId_len, len_usize, len_const in E. apply Ok_inj in E. lia.
  - unfold S103pdf_len, len_usize, len_const in E. apply Ok_inj in E. lia.
  - unfold S1udf_len, len_usize, len_const in E. apply Ok_inj in E. lia.
  - unfold DelayValue_len, len_usize, len_const in E. apply Ok_inj in E. lia.
  - unfold BearerContext_len, len_usize, len_const in E. apply Ok_inj in E. lia.
  - unfold ChargingId_len, len_usize, len_const in E. apply Ok_inj in E. lia.
  - unfold ChargingCharacteristics_len, len_usize, len_const in E. apply Ok_inj in E. lia.
  - unfold TraceInformation_len, len_usize, len_const in E. apply Ok_inj in E. lia.
  - unfold BearerFlags_len, len_usize, len_const in E. apply Ok_inj in E. lia.
  - unfold PdnType_len, len_usize, len_const in E. apply Ok_inj in E. lia.
  - unfold Pti_len, len_usize, len_const in E. apply Ok_inj in E. lia.
  - unfold MmContext_len in E. destruct x; apply Ok_inj in E; lia.
  - unfold PdnConnections_len, len_usize, len_const in E. apply Ok_inj in E. lia.
  - unfold PduNumbers_len, len_usize, len_const in E. apply Ok_inj in E. lia.
  - unfold Ptmsi_len, len_usize, len_const in E. apply Ok_inj in E. lia.
  - unfold PtmsiSignature_len, len_usize, len_const in E. apply Ok_inj in E. lia.
  - unfold HopCounter_len, len_usize, len_const in E. apply Ok_inj in E. lia.
  - unfold UeTimeZone_len, len_usize, len_const in E. apply Ok_inj in E. lia.
  - unfold TraceReference_len, len_usize, len_const in E. apply Ok_inj in E. lia.
  - exact (len_u16_pos m x n H E).
  - unfold Guti_len, len_usize, len_const in E. apply Ok_inj in E. lia.
  - exact (len_u16_pos m x n H E).
  - unfold Fcause_len, len_usize, len_const in E. apply Ok_inj in E. lia.
  - unfold PlmnId_len, len_usize, len_const in E. apply Ok_inj in E. lia.
  - unfold TargetIdentification_len, len_usize, len_const in E. apply Ok_inj in E. lia.
  - unfold PacketFlowId_len, len_usize, len_const in E. apply Ok_inj in E. lia.
  - unfold RabContext_len, len_usize, len_const in E. apply Ok_inj in E. lia.
  - exact (len_u16_pos m x n H E).
  - unfold PortNumber_len, len_usize, len_const in E. apply Ok_inj in E. lia.
  - unfold ApnRestriction_len, len_usize, len_const in E. apply Ok_inj in E. lia.
  - unfold SelectionMode_len, len_usize, len_const in E. apply Ok_inj in E. lia.
  - unfold SourceIdentification_len, len_usize, len_const in E. apply Ok_inj in E. lia.
  - unfold ChangeReportingAction_len, len_usize, len_const in E. apply Ok_inj in E. lia.
  - exact (len_u16_pos m x n H E).
  - unfold ChannelNeeded_len, len_usize, len_const in E. apply Ok_inj in E. lia.
  - unfold EmlppPriority_len, len_usize, len_const in E. apply Ok_inj in E. lia.
  - unfold NodeType_len, len_usize, len_const in E. apply Ok_inj in E. lia.
  - exact (len_u16_pos m x n H E).
  - unfold TransactionIdentifier_len, len_usize, len_const in E. apply Ok_inj in E. lia.
  - unfold MbmsServiceArea_len, len_usize, len_const in E. apply Ok_inj in E. lia.
  - unfold MbmsSessionDuration_len, len_usize, len_const in E. apply Ok_inj in E. lia.
  - unfold MbmsSessionId_len, len_usize, len_const in E. apply Ok_inj in E. lia.
  - unfold MbmsFlowId_len, len_usize, len_const in E. apply Ok_inj in E. lia.
  - unfold MbmsIpMulticastDistribution_len, len_usize, len_const in E. apply Ok_inj in E. lia.
  - unfold MbmsDistributionAck_len, len_usize, len_const in E. apply Ok_inj in E. lia.
  - unfold RfspIndex_len, len_usize, len_const in E. apply Ok_inj in E. lia.
  - unfold Uci_len, len_usize, len_const in E. apply Ok_inj in E. lia.
  - unfold CSGInformationReportingAction_len, len_usize, len_const in E. apply Ok_inj in E. lia.
  - unfold CsgId_len, len_usize, len_const in E. apply Ok_inj in E. lia.
  - unfold CsgMembershipIndication_len, len_usize, len_const in E. apply Ok_inj in E. lia.
  - unfold ServiceIndicator_len, len_usize, len_const in E. apply Ok_inj in E. lia.
  - unfold DetachType_len, len_usize, len_const in E. apply Ok_inj in E. lia.
  - exact (len_u16_pos m x n H E).
  - unfold NodeFeatures_len, len_usize, len_const in E. apply Ok_inj in E. lia.
  - unfold MbmsTimeToDataTransfer_len, len_usize, len_const in E. apply Ok_inj in E. lia.
  - unfold Throttling_len, len_usize, len_const in E. apply Ok_inj in E. lia.
  - unfold Arp_len, len_usize, len_const in E. apply Ok_inj in E. lia.
  - unfold EpcTimer_len, len_usize, len_const in E. apply Ok_inj in E. lia.
  - unfold Spi_len, len_usize, len_const in E. apply Ok_inj in E. lia.
  - unfold Tmgi_len, len_usize, len_const in E. apply Ok_inj in E. lia.
  - unfold AdditionalMmContextForSrvcc_len, len_usize, len_const in E. apply Ok_inj in E. lia.
  - unfold AdditionalFlagsSrvcc_len, len_usize, len_const in E. apply Ok_inj in E. lia.
  - unfold MdtConfiguration_len, len_usize, len_const in E. apply Ok_inj in E. lia.
  - unfold Apco_len, len_usize, len_const in E. apply Ok_inj in E. lia.
  - unfold AbsoluteTimeMbmsDataTransfer_len, len_usize, len_const in E. apply Ok_inj in E. lia.
  - unfold HenbInfoReporting_len, len_usize, len_const in E. apply Ok_inj in E. lia.
  - unfold Ip4Cp_len, len_usize, len_const in E. apply Ok_inj in E. lia.
  - unfold ChangeToReportFlags_len, len_usize, len_const in E. apply Ok_inj in E. lia.
  - unfold ActionIndication_len, len_usize, len_const in E. apply Ok_inj in E. lia.
  - unfold TwanId_len, len_usize, len_const in E. apply Ok_inj in E. lia.
  - unfold UliTimestamp_len, len_usize, len_const in E. apply Ok_inj in E. lia.
  - unfold MbmsFlags_len, len_usize, len_const in E. apply Ok_inj in E. lia.
  - unfold RanNasCause_len, len_usize, len_const in E. apply Ok_inj in E. lia.
  - unfold CnOperatorSelectionEntity_len, len_usize, len_const in E. apply Ok_inj in E. lia.
  - unfold Twmi_len, len_usize, len_const in E. apply Ok_inj in E. lia.
  - unfold NodeNumber_len, len_usize, len_const in E. apply Ok_inj in E. lia.
  - unfold NodeIdentifier_len, len_usize, len_const in E. apply Ok_inj in E. lia.
  - unfold PresenceReportingAreaAction_len, len_usize, len_const in E. apply Ok_inj in E. lia.
  - unfold PresenceReportingAreaInformation_len, len_usize, len_const in E. apply Ok_inj in E. lia.
  - unfold TwanIdTimeStamp_len, len_usize, len_const in E. apply Ok_inj in E. lia.
  - unfold OverloadControlInfo_len, len_usize, len_const in E. apply Ok_inj in E. lia.
  - unfold LoadControl_len, len_usize, len_const in E. apply Ok_inj in E. lia.
  - unfold Metric_len, len_usize, len_const in E. apply Ok_inj in E. lia.
  - unfold Sqn_len, len_usize, len_const in E. apply Ok_inj in E. lia.
  - unfold ApnRelativeCapacity_len, len_usize, len_const in E. apply Ok_inj in E. lia.
  - unfold WlanOffloadIndication_len, len_usize, len_const in E. apply Ok_inj in E. lia.
  - unfold PagingServiceInfo_len, len_usize, len_const in E. apply Ok_inj in E. destruct (is_some _); lia.
  - unfold IntegerNumber_len, len_usize, len_const in E. apply Ok_inj in E. lia.
  - unfold MilliSecondTimeStamp_len, len_usize, len_const in E. apply Ok_inj in E. lia.
  - unfold MonitoringEventInformation_len, len_usize, len_const in E. apply Ok_inj in E. lia.
  - unfold EcgiList_len, len_usize, len_const in E. apply Ok_inj in E. destruct (ie_v x); lia.
  - unfold RemoteUeContext_len, len_usize, len_const in E. apply Ok_inj in E. lia.
  - unfold RemoteUserId_len, len_usize, len_const in E. apply Ok_inj in E. lia.
  - exact (len_u16_pos m x n H E).
  - unfold CIoTOptimizationSupportIndication_len, len_usize, len_const in E. apply Ok_inj in E. lia.
  - unfold ScefPdnConnections_len, len_usize, len_const in E. apply Ok_inj in E. lia.
  - unfold HeaderCompressionConfiguration_len, len_usize, len_const in E. apply Ok_inj in E. lia.
  - unfold Epco_len, len_usize, len_const in E. apply Ok_inj in E. lia.
  - unfold ServingPlmnRateControl_len, len_usize, len_const in E. apply Ok_inj in E. lia.
  - unfold Counter_len, len_usize, len_const in E. apply Ok_inj in E. lia.
  - unfold MappedUeUsageType_len, len_usize, len_const in E. apply Ok_inj in E. lia.
  - unfold SecondaryRatUsageDataReport_len, len_usize, len_const in E. apply Ok_inj in E. lia.
  - unfold UpFunctionSelectionIndicationFlags_len, len_usize, len_const in E. apply Ok_inj in E. lia.
  - unfold MaxPacketLossRate_len, len_usize, len_const in E. apply Ok_inj in E. lia.
  - unfold ApnRateControlStatus_len, len_usize, len_const in E. apply Ok_inj in E. lia.
  - exact (len_u16_pos m x n H E).
  - unfold MonitoringEventExtensionInfo_len, len_usize, len_const in E. apply Ok_inj in E. lia.
  - unfold AdditionalRrmPolicyIndex_len, len_usize, len_const in E. apply Ok_inj in E. lia.
  - unfold V2xInformation_len, len_usize, len_const in E. apply Ok_inj in E. lia.
  - unfold PC5QosParameters_len, len_usize, len_const in E. apply Ok_inj in E. lia.
  - unfold ServicesAuthorized_len, len_usize, len_const in E. apply Ok_inj in E. lia.
  - unfold BitRate_len, len_usize, len_const in E. apply Ok_inj in E. lia.
  - unfold PC5QosFlow_len, len_usize, len_const in E. apply Ok_inj in E. lia.
  - unfold SgiPtpTunnelAddress_len, len_usize, len_const in E. apply Ok_inj in E. lia.
  - unfold PgwChangeInfo_len, len_usize, len_const in E. apply Ok_inj in E. lia.
  - unfold PgwFqdn_len, len_usize, len_const in E. apply Ok_inj in E. lia.
  - unfold GroupId_len, len_usize, len_const in E. apply Ok_inj in E. lia.
  - unfold PSCellId_len, len_usize, len_const in E. apply Ok_inj in E. lia.
  - unfold UpSecurityPolicy_len, len_usize, len_const in E. apply Ok_inj in E. lia.
  - unfold AlternativeImsi_len, len_usize, len_const in E. apply Ok_inj in E. lia.
  - unfold SpecialIEWithTypeExt_len, len_usize, len_const in E. apply Ok_inj in E. lia.
  - unfold PrivateExtension_len, len_usize, len_const in E. apply Ok_inj in E. lia.
  - unfold Unknown_len, len_usize, len_const in E. apply Ok_inj in E. lia.
Qed.
Lemma halts_ie_len m e : halts (ie_len m e).
Proof.
  destruct e as [x|x|x|x|x|x|x|x|x|x|x|x|x|x|x|x|x|x|x|x|x|x|x|x|x|x|x|x|x|x|x|x|x|x|x|x|x|x|x|x|x|x|x|x|x|x|x|x|x|x|x|x|x|x|x|x|x|x|x|x|x|x|x|x|x|x|x|x|x|x|x|x|x|x|x|x|x|x|x|x|x|x|x|x|x|x|x|x|x|x|x|x|x|x|x|x|x|x|x|x|x|x|x|x|x|x|x|x|x|x|x|x|x|x|x|x|x|x|x|x|x|x|x|x|x|x|x|x|x|x|x|x|x|x|x|x|x|x|x|x|x|x|x|x|x|x]; unfold ie_len.
  - apply halts_ok.
  - unfold Cause_len, len_u16, add16. repeat hc.
  - apply halts_ok.
  - apply halts_ok.
  - apply halts_ok.
  - unfold Apn_len, len_u16, add16. repeat hc.
  - apply halts_ok.
  - apply halts_ok.
  - apply halts_ok.
  - apply halts_ok.
  - apply halts_ok.
  - apply halts_ok.
  - apply halts_ok.
  - apply halts_ok.
  - apply halts_ok.
  - apply halts_ok.
  - apply halts_ok.
  - apply halts_ok.
  - apply halts_ok.
  - apply halts_ok.
  - apply halts_ok.
  - unfold Fteid_len, len_u16, add16. repeat hc.
  - apply halts_ok.
  - apply halts_ok.
  - apply halts_ok.
  - apply halts_ok.
  - apply halts_ok.
  - apply halts_ok.
  - apply halts_ok.
  - apply halts_ok.
  - apply halts_ok.
  - apply halts_ok.
  - apply halts_ok.
  - apply halts_ok.
  - destruct x; apply halts_ok.
  - apply halts_ok.
  - apply halts_ok.
  - apply halts_ok.
  - apply halts_ok.
  - apply halts_ok.
  - apply halts_ok.
  - apply halts_ok.
  - unfold CompleteRequestMessage_len, len_u16, add16. repeat hc.
  - apply halts_ok.
  - unfold Fcontainer_len, len_u16, add16. repeat hc.
  - apply halts_ok.
  - apply halts_ok.
  - apply halts_ok.
  - apply halts_ok.
  - apply halts_ok.
  - unfold SourceRncPdcpContextInfo_len, len_u16, add16. repeat hc.
  - apply halts_ok.
  - apply halts_ok.
  - apply halts_ok.
  - apply halts_ok.
  - apply halts_ok.
  - unfold Fqcsid_len, len_u16, add16. repeat hc.
  - apply halts_ok.
  - apply halts_ok.
  - apply halts_ok.
  - unfold Fqdn_len, len_u16, add16. repeat hc.
  - apply halts_ok.
  - apply halts_ok.
  - apply halts_ok.
  - apply halts_ok.
  - apply halts_ok.
  - apply halts_ok.
  - apply halts_ok.
  - apply halts_ok.
  - apply halts_ok.
  - apply halts_ok.
  - apply halts_ok.
  - apply halts_ok.
  - apply halts_ok.
  - apply halts_ok.
  - unfold Ldn_len, len_u16, add16. repeat hc.
  - apply halts_ok.
  - apply halts_ok.
  - apply halts_ok.
  - apply halts_ok.
  - apply halts_ok.
  - apply halts_ok.
  - apply halts_ok.
  - apply halts_ok.
  - apply halts_ok.
  - apply halts_ok.
  - apply halts_ok.
  - apply halts_ok.
  - apply halts_ok.
  - apply halts_ok.
  - apply halts_ok.
  - apply halts_ok.
  - apply halts_ok.
  - apply halts_ok.
  - apply halts_ok.
  - apply halts_ok.
  - apply halts_ok.
  - apply halts_ok.
  - apply halts_ok.
  - apply halts_ok.
  - apply halts_ok.
  - apply halts_ok.
  - apply halts_ok.
  - apply halts_ok.
  - apply halts_ok.
  - apply halts_ok.
  - apply halts_ok.
  - apply halts_ok.
  - apply halts_ok.
  - apply halts_ok.
  - apply halts_ok.
  - apply halts_ok.
  - apply halts_ok.
  - apply halts_ok.
  - apply halts_ok.
  - apply halts_ok.
  - unfold RemoteUeIpInformation_len, len_u16, add16. repeat hc.
  - apply halts_ok.
  - apply halts_ok.
  - apply halts_ok.
  - apply halts_ok.
  - apply halts_ok.
  - apply halts_ok.
  - apply halts_ok.
  - apply halts_ok.
  - apply halts_ok.
  - apply halts_ok.
  - apply halts_ok.
  - unfold ExtendedTraceInformation_len, len_u16, add16. repeat hc.
  - apply halts_ok.
  - apply halts_ok.
  - apply halts_ok.
  - apply halts_ok.
  - apply halts_ok.
  - apply halts_ok.
  - apply halts_ok.
  - apply halts_ok.
  - apply halts_ok.
  - apply halts_ok.
  - apply halts_ok.
  - apply halts_ok.
  - apply halts_ok.
  - apply halts_ok.
  - apply halts_ok.
  - apply halts_ok.
  - apply halts_ok.
Qed.
Lemma returns_ie_len m e : ie_lenfield e <= 65531 -> returns (ie_len m e).
Proof.
  intros H. destruct e as [x|x|x|x|x|x|x|x|x|x|x|x|x|x|x|x|x|x|x|x|x|x|x|x|x|x|x|x|x|x|x|x|x|x|x|x|x|x|x|x|x|x|x|x|x|x|x|x|x|x|x|x|x|x|x|x|x|x|x|x|x|x|x|x|x|x|x|x|x|x|x|x|x|x|x|x|x|x|x|x|x|x|x|x|x|x|x|x|x|x|x|x|x|x|x|x|x|x|x|x|x|x|x|x|x|x|x|x|x|x|x|x|x|x|x|x|x|x|x|x|x|x|x|x|x|x|x|x|x|x|x|x|x|x|x|x|x|x|x|x|x|x|x|x|x|x]; unfold ie_len; cbn [ie_lenfield] in H.
  - exact I.
  - unfold Cause_len, len_u16. rewrite add16_small by lia. exact I.
  - exact I.
  - exact I.
  - exact I.
  - unfold Apn_len, len_u16. rewrite add16_small by lia. exact I.
  - exact I.
  - exact I.
  - exact I.
  - exact I.
  - exact I.
  - exact I.
  - exact I.
  - exact I.
  - exact I.
  - exact I.
  - exact I.
  - exact I.
  - exact I.
  - exact I.
  - exact I.
  - unfold Fteid_len, len_u16. rewrite add16_small by lia. exact I.
  - exact I.
  - exact I.
  - exact I.
  - exact I.
  - exact I.
  - exact I.
  - exact I.
  - exact I.
  - exact I.
  - exact I.
  - exact I.
  - exact I.
  - destruct x; exact I.
  - exact I.
  - exact I.
  - exact I.
  - exact I.
  - exact I.
  - exact I.
  - exact I.
  - unfold CompleteRequestMessage_len, len_u16. rewrite add16_small by lia. exact I.
  - exact I.
  - unfold Fcontainer_len, len_u16. rewrite add16_small by lia. exact I.
  - exact I.
  - exact I.
  - exact I.
  - exact I.
  - exact I.
  - unfold SourceRncPdcpContextInfo_len, len_u16. rewrite add16_small by lia. exact I.
  - exact I.
  - exact I.
  - exact I.
  - exact I.
  - exact I.
  - unfold Fqcsid_len, len_u16. rewrite add16_small by lia. exact I.
  - exact I.
  - exact I.
  - exact I.
  - unfold Fqdn_len, len_u16. rewrite add16_small by lia. exact I.
  - exact I.
  - exact I.
  - exact I.
  - exact I.
  - exact I.
  - exact I.
  - exact I.
  - exact I.
  - exact I.
  - exact I.
  - exact I.
  - exact I.
  - exact I.
  - exact I.
  - unfold Ldn_len, len_u16. rewrite add16_small by lia. exact I.
  - exact I.
  - exact I.
  - exact I.
  - exact I.
  - exact I.
  - exact I.
  - exact I.
  - exact I.
  - exact I.
  - exact I.
  - exact I.
  - exact I.
  - exact I.
  - exact I.
  - exact I.
  - exact I.
  - exact I.
  - exact I.
  - exact I.
  - exact I.
  - exact I.
  - exact I.
  - exact I.
  - exact I.
  - exact I.
  - exact I.
  - exact I.
  - exact I.
  - exact I.
  - exact I.
  - exact I.
  - exact I.
  - exact I.
  - exact I.
  - exact I.
  - exact I.
  - exact I.
  - exact I.
  - exact I.
  - exact I.
  - unfold RemoteUeIpInformation_len, len_u16. rewrite add16_small by lia. exact I.
  - exact I.
  - exact I.
  - exact I.
  - exact I.
  - exact I.
  - exact I.
  - exact I.
  - exact I.
  - exact I.
  - exact I.
  - exact I.
  - unfold ExtendedTraceInformation_len, len_u16. rewrite add16_small by lia. exact I.
  - exact I.
  - exact I.
  - exact I.
  - exact I.
  - exact I.
  - exact I.
  - exact I.
  - exact I.
  - exact I.
  - exact I.
  - exact I.
  - exact I.
  - exact I.
  - exact I.
  - exact I.
  - exact I.
  - exact I.
Qed.

(* The decoder of one IE calls the list decoder only on shorter octets, of which there are at most 65531. *)
Lemma slice_len {E} b i j (s : list N) : slice (E:=E) b i j = Ok s -> (length s + i = j /\ j <= length b)%nat.
Proof. unfold slice. destruct (_ && _) eqn:C; [|discriminate]. apply andb_prop in C. destruct C as [C1 C2]. apply Nat.leb_le in C1, C2. intros H. apply Ok_inj in H. subst. rewrite firstn_length, skipn_length. lia. Qed.
Lemma end16_lt m len k e : end16 m len k = Ok e -> N.of_nat e <= 65535.
Proof.
  unfold end16, add16, ov. destruct (N.ltb_spec (len + k) 65536); cbn [bind]; intros H1; [apply Ok_inj in H1; lia|].
  destruct m; [discriminate H1|]. apply Ok_inj in H1. subst. pose proof (N.mod_lt (len + k) 65536 ltac:(lia)). lia.
Qed.
Definition inner (b s : list N) : Prop := (length s + 4 <= length b)%nat /\ nlen s <= 65531.
Lemma bind_ext {A B} (r : res A) (f g : A -> res B) : (forall a, r = Ok a -> f a = g a) -> bind r f = bind r g.
Proof. intros H. destruct r; try reflexivity. apply H. reflexivity. Qed.
Lemma GroupedIe_ext dec dec' m b : (forall s, inner b s -> dec s = dec' s) -> GroupedIe_unmarshal dec m b = GroupedIe_unmarshal dec' m b.
Proof.
  intros H. unfold GroupedIe_unmarshal. destruct (_ <=? _)%nat; [|reflexivity]. apply bind_ext. intros t _. unfold hdr4.
  apply bind_ext. intros l1 _. apply bind_ext. intros l2 _. apply bind_ext. intros i _. unfold checked. apply bind_ext. intros [] _; [|reflexivity].
  apply bind_ext. intros e He. apply bind_ext. intros s Hs. rewrite H; [reflexivity|]. apply end16_lt in He. apply slice_len in Hs. unfold inner, nlen. lia.
Qed.
Lemma decode_one_ext dec dec' m b : (forall s, inner b s -> dec s = dec' s) -> decode_one dec m b = decode_one dec' m b.
Proof.
  intros H. assert (G := GroupedIe_ext dec dec' m b H). unfold decode_one. apply bind_ext. intros t _.
  destruct (t =? 1); [reflexivity|].
  destruct (t =? 2); [reflexivity|].
  destruct (t =? 3); [reflexivity|].
  destruct (t =? 51); [reflexivity|].
  destruct (t =? 56); [reflexivity|].
  destruct (t =? 71); [reflexivity|].
  destruct (t =? 72); [reflexivity|].
  destruct (t =? 73); [reflexivity|].
  destruct (t =? 74); [reflexivity|].
  destruct (t =? 75); [reflexivity|].
  destruct (t =? 76); [reflexivity|].
  destruct (t =? 77); [reflexivity|].
  destruct (t =? 78); [reflexivity|].
  destruct (t =? 79); [reflexivity|].
  destruct (t =? 80); [reflexivity|].
  destruct (t =? 81); [reflexivity|].
  destruct (t =? 82); [reflexivity|].
  destruct (t =? 83); [reflexivity|].
  destruct (t =? 84); [reflexivity|].
  destruct (t =? 85); [reflexivity|].
  destruct (t =? 86); [reflexivity|].
  destruct (t =? 87); [reflexivity|].
  destruct (t =? 88); [reflexivity|].
  destruct (t =? 89); [reflexivity|].
  destruct (t =? 90); [reflexivity|].
  destruct (t =? 91); [reflexivity|].
  destruct (t =? 92); [reflexivity|].
  destruct (t =? 93); [unfold BearerContext_unmarshal; rewrite G; reflexivity|].
  destruct (t =? 94); [reflexivity|].
  destruct (t =? 95); [reflexivity|].
  destruct (t =? 96); [reflexivity|].
  destruct (t =? 97); [reflexivity|].
  destruct (t =? 99); [reflexivity|].
  destruct (t =? 100); [reflexivity|].
  destruct ((103 <=? t) && (t <=? 108)); [reflexivity|].
  destruct (t =? 109); [unfold PdnConnections_unmarshal; rewrite G; reflexivity|].
  destruct (t =? 110); [reflexivity|].
  destruct (t =? 111); [reflexivity|].
  destruct (t =? 112); [reflexivity|].
  destruct (t =? 113); [reflexivity|].
  destruct (t =? 114); [reflexivity|].
  destruct (t =? 115); [reflexivity|].
  destruct (t =? 116); [reflexivity|].
  destruct (t =? 117); [reflexivity|].
  destruct (t =? 118); [reflexivity|].
  destruct (t =? 119); [reflexivity|].
  destruct (t =? 120); [reflexivity|].
  destruct (t =? 121); [reflexivity|].
  destruct (t =? 123); [reflexivity|].
  destruct (t =? 124); [reflexivity|].
  destruct (t =? 125); [reflexivity|].
  destruct (t =? 126); [reflexivity|].
  destruct (t =? 127); [reflexivity|].
  destruct (t =? 128); [reflexivity|].
  destruct (t =? 129); [reflexivity|].
  destruct (t =? 131); [reflexivity|].
  destruct (t =? 132); [reflexivity|].
  destruct (t =? 133); [reflexivity|].
  destruct (t =? 134); [reflexivity|].
  destruct (t =? 135); [reflexivity|].
  destruct (t =? 136); [reflexivity|].
  destruct (t =? 137); [reflexivity|].
  destruct (t =? 138); [reflexivity|].
  destruct (t =? 139); [reflexivity|].
  destruct (t =? 140); [reflexivity|].
  destruct (t =? 141); [reflexivity|].
  destruct (t =? 142); [reflexivity|].
  destruct (t =? 143); [reflexivity|].
  destruct (t =? 144); [reflexivity|].
  destruct (t =? 145); [reflexivity|].
  destruct (t =? 146); [reflexivity|].
  destruct (t =? 147); [reflexivity|].
  destruct (t =? 148); [reflexivity|].
  destruct (t =? 149); [reflexivity|].
  destruct (t =? 150); [reflexivity|].
  destruct (t =? 151); [reflexivity|].
  destruct (t =? 152); [reflexivity|].
  destruct (t =? 153); [reflexivity|].
  destruct (t =? 154); [reflexivity|].
  destruct (t =? 155); [reflexivity|].
  destruct (t =? 156); [reflexivity|].
  destruct (t =? 157); [reflexivity|].
  destruct (t =? 158); [reflexivity|].
  destruct (t =? 159); [reflexivity|].
  destruct (t =? 160); [reflexivity|].
  destruct (t =? 162); [reflexivity|].
  destruct (t =? 163); [reflexivity|].
  destruct (t =? 164); [reflexivity|].
  destruct (t =? 165); [reflexivity|].
  destruct (t =? 166); [reflexivity|].
  destruct (t =? 167); [reflexivity|].
  destruct (t =? 168); [reflexivity|].
  destruct (t =? 169); [reflexivity|].
  destruct (t =? 170); [reflexivity|].
  destruct (t =? 171); [reflexivity|].
  destruct (t =? 172); [reflexivity|].
  destruct (t =? 173); [reflexivity|].
  destruct (t =? 174); [reflexivity|].
  destruct (t =? 175); [reflexivity|].
  destruct (t =? 176); [reflexivity|].
  destruct (t =? 177); [reflexivity|].
  destruct (t =? 178); [reflexivity|].
  destruct (t =? 179); [reflexivity|].
  destruct (t =? 180); [unfold OverloadControlInfo_unmarshal; rewrite G; reflexivity|].
  destruct (t =? 181); [unfold LoadControl_unmarshal; rewrite G; reflexivity|].
  destruct (t =? 182); [reflexivity|].
  destruct (t =? 183); [reflexivity|].
  destruct (t =? 184); [reflexivity|].
  destruct (t =? 185); [reflexivity|].
  destruct (t =? 186); [reflexivity|].
  destruct (t =? 187); [reflexivity|].
  destruct (t =? 188); [reflexivity|].
  destruct (t =? 189); [reflexivity|].
  destruct (t =? 190); [reflexivity|].
  destruct (t =? 191); [unfold RemoteUeContext_unmarshal; rewrite G; reflexivity|].
  destruct (t =? 192); [reflexivity|].
  destruct (t =? 193); [reflexivity|].
  destruct (t =? 194); [reflexivity|].
  destruct (t =? 195); [unfold ScefPdnConnections_unmarshal; rewrite G; reflexivity|].
  destruct (t =? 196); [reflexivity|].
  destruct (t =? 197); [reflexivity|].
  destruct (t =? 198); [reflexivity|].
  destruct (t =? 199); [reflexivity|].
  destruct (t =? 200); [reflexivity|].
  destruct (t =? 201); [reflexivity|].
  destruct (t =? 202); [reflexivity|].
  destruct (t =? 203); [reflexivity|].
  destruct (t =? 204); [reflexivity|].
  destruct (t =? 205); [reflexivity|].
  destruct (t =? 206); [reflexivity|].
  destruct (t =? 207); [reflexivity|].
  destruct (t =? 208); [unfold V2xInformation_unmarshal; rewrite G; reflexivity|].
  destruct (t =? 209); [unfold PC5QosParameters_unmarshal; rewrite G; reflexivity|].
  destruct (t =? 210); [reflexivity|].
  destruct (t =? 211); [reflexivity|].
  destruct (t =? 212); [reflexivity|].
  destruct (t =? 213); [reflexivity|].
  destruct (t =? 214); [unfold PgwChangeInfo_unmarshal; rewrite G; reflexivity|].
  destruct (t =? 215); [reflexivity|].
  destruct (t =? 216); [reflexivity|].
  destruct (t =? 217); [reflexivity|].
  destruct (t =? 218); [reflexivity|].
  destruct (t =? 219); [reflexivity|].
  destruct (t =? 254); [reflexivity|].
  destruct (t =? 255); [reflexivity|].
  reflexivity.
Qed.

Lemma ie_loop_ext one one' m : forall fuel b, (forall s, (length s <= length b)%nat -> one s = one' s) -> ie_loop one m fuel b = ie_loop one' m fuel b.
Proof.
  induction fuel as [|f IH]; intros [|x b] H; try reflexivity. cbn [ie_loop]. rewrite H by lia. apply bind_ext. intros e _. apply bind_ext. intros n _.
  rewrite IH; [reflexivity|]. intros s Hs. apply H. rewrite skipn_length in Hs. lia.
Qed.
Lemma decode_ies_deep m d : forall b, (length b <= 4 * d)%nat -> forall d', (d <= d')%nat -> decode_ies d' m b = decode_ies d m b.
Proof.
  induction d as [|d IH]; intros b H d' Hd.
  - destruct b; [|cbn in H; lia]. destruct d'; reflexivity.
  - destruct d' as [|d']; [lia|]. cbn [decode_ies]. apply ie_loop_ext. intros s Hs. apply decode_one_ext. intros u [Hu _].
    apply IH; lia.
Qed.
Lemma decode_ies_16384 m b d : 16384 <= N.of_nat d -> decode_ies d m b = decode_ies (N.to_nat 16384) m b.
Proof.
  intros H. destruct d as [|d]; [lia|]. destruct (N.to_nat 16384) as [|k] eqn:K; [lia|].
  cbn [decode_ies]. apply ie_loop_ext. intros s Hs. apply decode_one_ext. intros u [_ Hu]. unfold nlen in Hu.
  apply decode_ies_deep; lia.
Qed.
Lemma decoder_deep m b d : (length b < d)%nat -> decode_ies d m b = decoder m b.
Proof. intros H. unfold decoder. transitivity (decode_ies (length b) m b); [|symmetry]; apply decode_ies_deep; lia. Qed.
(* one step of the decoder, without the nesting bound *)
Lemma decoder_one m (b s : list N) d : (length s <= length b)%nat -> (length b <= d)%nat -> decode_one (decode_ies d m) m s = decode_one (decoder m) m s.
Proof. intros H Hd. apply decode_one_ext. intros u [Hu _]. apply decoder_deep. lia. Qed.
Lemma decoder_eq m b : decoder m b = ie_loop (decode_one (decoder m) m) m (length b) b.
Proof. unfold decoder. cbn [decode_ies]. apply ie_loop_ext. intros s Hs. apply decoder_one with (b := b); [exact Hs|lia]. Qed.

(* termination *)
Lemma halts_lift {A} (c : A -> ie) r : halts r -> halts (lift c r).
Proof. unfold lift, halts. destruct r; cbn; congruence. Qed.
Lemma halts_GroupedIe dec m b : (forall s, inner b s -> halts (dec s)) -> halts (GroupedIe_unmarshal dec m b).
Proof.
  intros H. rewrite (GroupedIe_ext dec (fun s => if (length s + 4 <=? length b)%nat && (nlen s <=? 65531) then dec s else Ok []) m b).
  - unfold GroupedIe_unmarshal. destruct (_ <=? _)%nat; [|repeat hc]. apply halts_bind; [repeat hc|]. intros t. unfold hdr4.
    apply halts_bind; [repeat hc|intros]. apply halts_bind; [repeat hc|intros]. apply halts_bind; [repeat hc|intros]. unfold checked.
    apply halts_bind; [repeat hc|intros []; [|apply halts_err]]. apply halts_bind; [repeat hc|intros]. apply halts_bind; [repeat hc|intros].
    apply halts_bind; [|intros; apply halts_ok]. destruct (_ && _) eqn:C; [|apply halts_ok]. apply andb_prop in C. destruct C as [C1 C2]. apply Nat.leb_le in C1. apply N.leb_le in C2. apply H. split; lia.
  - intros s [H1 H2]. rewrite (proj2 (Nat.leb_le _ _) H1), (proj2 (N.leb_le _ _) H2). reflexivity.
Qed.
Lemma halts_decode_one dec m b : (forall s, inner b s -> halts (dec s)) -> halts (decode_one dec m b).
Proof.
  intros H. assert (G := halts_GroupedIe dec m b H). unfold decode_one. apply halts_bind; [repeat hc|]. intros t.
  destruct (t =? 1); [apply halts_lift, Imsi_halts|].
  destruct (t =? 2); [apply halts_lift, Cause_halts|].
  destruct (t =? 3); [apply halts_lift, Recovery_halts|].
  destruct (t =? 51); [apply halts_lift, StnSr_halts|].
  destruct (t =? 56); [apply halts_lift, SrvccCause_halts|].
  destruct (t =? 71); [apply halts_lift, Apn_halts|].
  destruct (t =? 72); [apply halts_lift, Ambr_halts|].
  destruct (t =? 73); [apply halts_lift, Ebi_halts|].
  destruct (t =? 74); [apply halts_lift, IpAddress_halts|].
  destruct (t =? 75); [apply halts_lift, Mei_halts|].
  destruct (t =? 76); [apply halts_lift, Msisdn_halts|].
  destruct (t =? 77); [apply halts_lift, Indication_halts|].
  destruct (t =? 78); [apply halts_lift, Pco_halts|].
  destruct (t =? 79); [apply halts_lift, PdnAddressAllocation_halts|].
  destruct (t =? 80); [apply halts_lift, BearerQos_halts|].
  destruct (t =? 81); [apply halts_lift, FlowQos_halts|].
  destruct (t =? 82); [apply halts_lift, RatType_halts|].
  destruct (t =? 83); [apply halts_lift, ServingNetwork_halts|].
  destruct (t =? 84); [apply halts_lift, BearerTft_halts|].
  destruct (t =? 85); [apply halts_lift, TrafficAggregateDescription_halts|].
  destruct (t =? 86); [apply halts_lift, Uli_halts|].
  destruct (t =? 87); [apply halts_lift, Fteid_halts|].
  destruct (t =? 88); [apply halts_lift, Tmsi_halts|].
  destruct (t =? 89); [apply halts_lift, GlobalCnId_halts|].
  destruct (t =? 90); [apply halts_lift, S103pdf_halts|].
  destruct (t =? 91); [apply halts_lift, S1udf_halts|].
  destruct (t =? 92); [apply halts_lift, DelayValue_halts|].
  destruct (t =? 93); [apply halts_lift; unfold BearerContext_unmarshal; apply halts_bind; [exact G|intros; repeat hc]|].
  destruct (t =? 94); [apply halts_lift, ChargingId_halts|].
  destruct (t =? 95); [apply halts_lift, ChargingCharacteristics_halts|].
  destruct (t =? 96); [apply halts_lift, TraceInformation_halts|].
  destruct (t =? 97); [apply halts_lift, BearerFlags_halts|].
  destruct (t =? 99); [apply halts_lift, PdnType_halts|].
  destruct (t =? 100); [apply halts_lift, Pti_halts|].
  destruct ((103 <=? t) && (t <=? 108)); [apply halts_lift, MmContext_halts|].
  destruct (t =? 109); [apply halts_lift; unfold PdnConnections_unmarshal; apply halts_bind; [exact G|intros; repeat hc]|].
  destruct (t =? 110); [apply halts_lift, PduNumbers_halts|].
  destruct (t =? 111); [apply halts_lift, Ptmsi_halts|].
  destruct (t =? 112); [apply halts_lift, PtmsiSignature_halts|].
  destruct (t =? 113); [apply halts_lift, HopCounter_halts|].
  destruct (t =? 114); [apply halts_lift, UeTimeZone_halts|].
  destruct (t =? 115); [apply halts_lift, TraceReference_halts|].
  destruct (t =? 116); [apply halts_lift, CompleteRequestMessage_halts|].
  destruct (t =? 117); [apply halts_lift, Guti_halts|].
  destruct (t =? 118); [apply halts_lift, Fcontainer_halts|].
  destruct (t =? 119); [apply halts_lift, Fcause_halts|].
  destruct (t =? 120); [apply halts_lift, PlmnId_halts|].
  destruct (t =? 121); [apply halts_lift, TargetIdentification_halts|].
  destruct (t =? 123); [apply halts_lift, PacketFlowId_halts|].
  destruct (t =? 124); [apply halts_lift, RabContext_halts|].
  destruct (t =? 125); [apply halts_lift, SourceRncPdcpContextInfo_halts|].
  destruct (t =? 126); [apply halts_lift, PortNumber_halts|].
  destruct (t =? 127); [apply halts_lift, ApnRestriction_halts|].
  destruct (t =? 128); [apply halts_lift, SelectionMode_halts|].
  destruct (t =? 129); [apply halts_lift, SourceIdentification_halts|].
  destruct (t =? 131); [apply halts_lift, ChangeReportingAction_halts|].
  destruct (t =? 132); [apply halts_lift, Fqcsid_halts|].
  destruct (t =? 133); [apply halts_lift, ChannelNeeded_halts|].
  destruct (t =? 134); [apply halts_lift, EmlppPriority_halts|].
  destruct (t =? 135); [apply halts_lift, NodeType_halts|].
  destruct (t =? 136); [apply halts_lift, Fqdn_halts|].
  destruct (t =? 137); [apply halts_lift, TransactionIdentifier_halts|].
  destruct (t =? 138); [apply halts_lift, MbmsSessionDuration_halts|].
  destruct (t =? 139); [apply halts_lift, MbmsServiceArea_halts|].
  destruct (t =? 140); [apply halts_lift, MbmsSessionId_halts|].
  destruct (t =? 141); [apply halts_lift, MbmsFlowId_halts|].
  destruct (t =? 142); [apply halts_lift, MbmsIpMulticastDistribution_halts|].
  destruct (t =? 143); [apply halts_lift, MbmsDistributionAck_halts|].
  destruct (t =? 144); [apply halts_lift, RfspIndex_halts|].
  destruct (t =? 145); [apply halts_lift, Uci_halts|].
  destruct (t =? 146); [apply halts_lift, CSGInformationReportingAction_halts|].
  destruct (t =? 147); [apply halts_lift, CsgId_halts|].
  destruct (t =? 148); [apply halts_lift, CsgMembershipIndication_halts|].
  destruct (t =? 149); [apply halts_lift, ServiceIndicator_halts|].
  destruct (t =? 150); [apply halts_lift, DetachType_halts|].
  destruct (t =? 151); [apply halts_lift, Ldn_halts|].
  destruct (t =? 152); [apply halts_lift, NodeFeatures_halts|].
  destruct (t =? 153); [apply halts_lift, MbmsTimeToDataTransfer_halts|].
  destruct (t =? 154); [apply halts_lift, Throttling_halts|].
  destruct (t =? 155); [apply halts_lift, Arp_halts|].
  destruct (t =? 156); [apply halts_lift, EpcTimer_halts|].
  destruct (t =? 157); [apply halts_lift, Spi_halts|].
  destruct (t =? 158); [apply halts_lift, Tmgi_halts|].
  destruct (t =? 159); [apply halts_lift, AdditionalMmContextForSrvcc_halts|].
  destruct (t =? 160); [apply halts_lift, AdditionalFlagsSrvcc_halts|].
  destruct (t =? 162); [apply halts_lift, MdtConfiguration_halts|].
  destruct (t =? 163); [apply halts_lift, Apco_halts|].
  destruct (t =? 164); [apply halts_lift, AbsoluteTimeMbmsDataTransfer_halts|].
  destruct (t =? 165); [apply halts_lift, HenbInfoReporting_halts|].
  destruct (t =? 166); [apply halts_lift, Ip4Cp_halts|].
  destruct (t =? 167); [apply halts_lift, ChangeToReportFlags_halts|].
  destruct (t =? 168); [apply halts_lift, ActionIndication_halts|].
  destruct (t =? 169); [apply halts_lift, ActionIndication_halts|].
  destruct (t =? 170); [apply halts_lift, UliTimestamp_halts|].
  destruct (t =? 171); [apply halts_lift, MbmsFlags_halts|].
  destruct (t =? 172); [apply halts_lift, RanNasCause_halts|].
  destruct (t =? 173); [apply halts_lift, CnOperatorSelectionEntity_halts|].
  destruct (t =? 174); [apply halts_lift, Twmi_halts|].
  destruct (t =? 175); [apply halts_lift, NodeNumber_halts|].
  destruct (t =? 176); [apply halts_lift, NodeIdentifier_halts|].
  destruct (t =? 177); [apply halts_lift, PresenceReportingAreaAction_halts|].
  destruct (t =? 178); [apply halts_lift, PresenceReportingAreaInformation_halts|].
  destruct (t =? 179); [apply halts_lift, TwanIdTimeStamp_halts|].
  destruct (t =? 180); [apply halts_lift; unfold OverloadControlInfo_unmarshal; apply halts_bind; [exact G|intros; repeat hc]|].
  destruct (t =? 181); [apply halts_lift; unfold LoadControl_unmarshal; apply halts_bind; [exact G|intros; repeat hc]|].
  destruct (t =? 182); [apply halts_lift, Metric_halts|].
  destruct (t =? 183); [apply halts_lift, Sqn_halts|].
  destruct (t =? 184); [apply halts_lift, ApnRelativeCapacity_halts|].
  destruct (t =? 185); [apply halts_lift, WlanOffloadIndication_halts|].
  destruct (t =? 186); [apply halts_lift, PagingServiceInfo_halts|].
  destruct (t =? 187); [apply halts_lift, IntegerNumber_halts|].
  destruct (t =? 188); [apply halts_lift, MilliSecondTimeStamp_halts|].
  destruct (t =? 189); [apply halts_lift, MonitoringEventInformation_halts|].
  destruct (t =? 190); [apply halts_lift, EcgiList_halts|].
  destruct (t =? 191); [apply halts_lift; unfold RemoteUeContext_unmarshal; apply halts_bind; [exact G|intros; repeat hc]|].
  destruct (t =? 192); [apply halts_lift, RemoteUserId_halts|].
  destruct (t =? 193); [apply halts_lift, RemoteUeIpInformation_halts|].
  destruct (t =? 194); [apply halts_lift, CIoTOptimizationSupportIndication_halts|].
  destruct (t =? 195); [apply halts_lift; unfold ScefPdnConnections_unmarshal; apply halts_bind; [exact G|intros; repeat hc]|].
  destruct (t =? 196); [apply halts_lift, HeaderCompressionConfiguration_halts|].
  destruct (t =? 197); [apply halts_lift, Epco_halts|].
  destruct (t =? 198); [apply halts_lift, ServingPlmnRateControl_halts|].
  destruct (t =? 199); [apply halts_lift, Counter_halts|].
  destruct (t =? 200); [apply halts_lift, MappedUeUsageType_halts|].
  destruct (t =? 201); [apply halts_lift, SecondaryRatUsageDataReport_halts|].
  destruct (t =? 202); [apply halts_lift, UpFunctionSelectionIndicationFlags_halts|].
  destruct (t =? 203); [apply halts_lift, MaxPacketLossRate_halts|].
  destruct (t =? 204); [apply halts_lift, ApnRateControlStatus_halts|].
  destruct (t =? 205); [apply halts_lift, ExtendedTraceInformation_halts|].
  destruct (t =? 206); [apply halts_lift, MonitoringEventExtensionInfo_halts|].
  destruct (t =? 207); [apply halts_lift, AdditionalRrmPolicyIndex_halts|].
  destruct (t =? 208); [apply halts_lift; unfold V2xInformation_unmarshal; apply halts_bind; [exact G|intros; repeat hc]|].
  destruct (t =? 209); [apply halts_lift; unfold PC5QosParameters_unmarshal; apply halts_bind; [exact G|intros; repeat hc]|].
  destruct (t =? 210); [apply halts_lift, ServicesAuthorized_halts|].
  destruct (t =? 211); [apply halts_lift, BitRate_halts|].
  destruct (t =? 212); [apply halts_lift, PC5QosFlow_halts|].
  destruct (t =? 213); [apply halts_lift, SgiPtpTunnelAddress_halts|].
  destruct (t =? 214); [apply halts_lift; unfold PgwChangeInfo_unmarshal; apply halts_bind; [exact G|intros; repeat hc]|].
  destruct (t =? 215); [apply halts_lift, PgwFqdn_halts|].
  destruct (t =? 216); [apply halts_lift, GroupId_halts|].
  destruct (t =? 217); [apply halts_lift, PSCellId_halts|].
  destruct (t =? 218); [apply halts_lift, UpSecurityPolicy_halts|].
  destruct (t =? 219); [apply halts_lift, AlternativeImsi_halts|].
  destruct (t =? 254); [apply halts_lift, SpecialIEWithTypeExt_halts|].
  destruct (t =? 255); [apply halts_lift, PrivateExtension_halts|].
  apply halts_lift, Unknown_halts.
Qed.

Lemma halts_ie_loop (one : list N -> res ie) m : forall fuel b, (length b <= fuel)%nat -> (forall s, (length s <= length b)%nat -> halts (one s)) ->
  (forall s e n, (length s <= length b)%nat -> one s = Ok e -> ie_len m e = Ok n -> (0 < n)%nat) -> halts (ie_loop one m fuel b).
Proof.
  induction fuel as [|f IH]; intros [|x b] F H P; try apply halts_ok; [cbn in F; lia|]. cbn [ie_loop].
  destruct (one (x :: b)) as [e| | |] eqn:E; [|apply halts_err|apply halts_panic|exfalso; exact (H (x :: b) ltac:(lia) E)].
  rewrite bindOk. destruct (ie_len m e) as [n| | |] eqn:L; [|apply halts_err|apply halts_panic|exfalso; exact (halts_ie_len m e L)].
  rewrite bindOk. pose proof (P (x :: b) e n ltac:(lia) E L) as Hn. apply halts_bind; [|intros; apply halts_ok].
  cbn [length] in *. assert (S1 : (length (skipn n (x :: b)) <= length b)%nat) by (rewrite skipn_length; cbn [length]; lia).
  apply IH; [lia| |]; intros; [apply H; lia|eapply P; [|eassumption|eassumption]; lia].
Qed.
Lemma decoder_halts_debug b : halts (decoder Debug b).
Proof.
  remember (length b) as k eqn:Hk. revert b Hk. induction k as [k IH] using lt_wf_ind. intros b ->. rewrite decoder_eq. apply halts_ie_loop; [lia| |].
  - intros s Hs. apply halts_decode_one. intros u [Hu _]. eapply IH; [|reflexivity]. lia.
  - intros s e n _ _ L. eapply ie_len_pos; [left; reflexivity|exact L].
Qed.

