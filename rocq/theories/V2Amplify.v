(* V2Amplify.v - facts for C80: an element takes at least four octets of the packet. *)
From Verif Require Import Base BaseFacts V2Base V2BaseFacts V2Decoder V2IeSpec V2WireSpec V2DeclFacts V2DecMore V2DecLoop.
Local Open Scope N_scope.

Lemma len_u16_min {A} m (x : Tliv A) n : (m = Debug \/ ie_length x <= 65531) -> len_u16 m x = Ok n -> (4 <= n)%nat.
Proof.
  unfold len_u16. intros H E. destruct (N.leb_spec (ie_length x) 65531) as [L|L].
  - rewrite add16_small in E by lia. rewrite bindOk in E. apply Ok_inj in E. lia.
  - destruct H as [->|H]; [|lia]. unfold add16, ov in E. destruct (N.ltb_spec (ie_length x + 4) 65536); [lia|]. discriminate E.
Qed.
Lemma ie_len_min m e n : (m = Debug \/ ie_lenfield e <= 65531) -> ie_len m e = Ok n -> (4 <= n)%nat.
Proof.
  intros H. destruct e as [x|x|x|x|x|x|x|x|x|x|x|x|x|x|x|x|x|x|x|x|x|x|x|x|x|x|x|x|x|x|x|x|x|x|x|x|x|x|x|x|x|x|x|x|x|x|x|x|x|x|x|x|x|x|x|x|x|x|x|x|x|x|x|x|x|x|x|x|x|x|x|x|x|x|x|x|x|x|x|x|x|x|x|x|x|x|x|x|x|x|x|x|x|x|x|x|x|x|x|x|x|x|x|x|x|x|x|x|x|x|x|x|x|x|x|x|x|x|x|x|x|x|x|x|x|x|x|x|x|x|x|x|x|x|x|x|x|x|x|x|x|x|x|x|x|x]; unfold ie_len; cbn [ie_lenfield] in H; intros E.
  - unfold Imsi_len, len_usize, len_const in E. apply Ok_inj in E. lia.
  - exact (len_u16_min m x n H E).
  - unfold Recovery_len, len_usize, len_const in E. apply Ok_inj in E. lia.
  - unfold StnSr_len, len_usize, len_const in E. apply Ok_inj in E. lia.
  - unfold SrvccCause_len, len_usize, len_const in E. apply Ok_inj in E. lia.
  - exact (len_u16_min m x n H E).
  - unfold Ambr_len, len_usize, len_const in E. apply Ok_inj in E. lia.
  - unfold Ebi_len, len_usize, len_const in E. apply Ok_inj in E. lia.
  - unfold IpAddress_len, len_usize, len_const in E. apply Ok_inj in E. lia.
  - unfold Mei_len, len_usize, len_const in E. apply Ok_inj in E. lia.
  - unfold Msisdn_len, len_usize, len_const in E. apply Ok_inj in E. lia.
  - unfold Indication_len, len_usize, len_const in E. apply Ok_inj in E. lia.
  - unfold Pco_len, len_usize, len_const in E. apply Ok_inj in E. lia.
  - unfold PdnAddressAllocation_len, len_usize, len_const in E. apply Ok_inj in E. lia.
  - unfold BearerQos_len, len_usize, len_const in E. apply Ok_inj in E. lia.
  - unfold FlowQos_len, len_usize, len_const in E. apply Ok_inj in E. lia.
  - unfold RatType_len, len_usize, len_const in E. apply Ok_inj in E. lia.
  - unfold ServingNetwork_len, len_usize, len_const in E. apply Ok_inj in E. lia.
  - unfold BearerTft_len, len_usize, len_const in E. apply Ok_inj in E. lia.
  - unfold TrafficAggregateDescription_len, len_usize, len_const in E. apply Ok_inj in E. lia.
  - unfold Uli_len, len_usize, len_const in E. apply Ok_inj in E. lia.
  - exact (len_u16_min m x n H E).
  - unfold Tmsi_len, len_usize, len_const in E. apply Ok_inj in E. lia.
  - unfold GlobalCnId_len, len_usize, len_const in E. apply Ok_inj in E. lia.
  - unfold S103pdf_len, len_usize, len_const in E. apply Ok_inj in E. lia.
  - unfold S1udf_len, len_usize, len_const in E. apply Ok_inj in E. lia.
  - unfold DelayValue_len, len_usize, len_const in E. apply Ok_inj in E. lia.
  - unfold BearerContext_len, len_usize, len_const in E. apply Ok_inj in E. lia.
  - unfold ChargingId_len, len_usize, len_const in E. apply Ok_inj in E. lia.
  - unfold ChargingCharacteristics_len, len_usize, len_const in E. apply Ok_inj in E. lia.
  - unfold TraceInformation_len, len_usize, len_const in E. apply Ok_inj in E. lia.
  - unfold BearerFlags_len, len_usize, len_const in E. apply Ok_inj in E. lia.
  - unfold PdnType_len, len_usize, len_const in E. apply Ok_inj in E. lia.
  - unfold Pti_len, len_usize, len_const in E. apply Ok_inj in E. lia.
  - unfold MmContext_len in E. destruct x; apply Ok_inj in E; lia.
  - unfold PdnConnections_len, len_usize, len_const in E. apply Ok_inj in E. lia.
  - unfold PduNumbers_len, len_usize, len_const in E. apply Ok_inj in E. lia.
  - unfold Ptmsi_len, len_usize, len_const in E. apply Ok_inj in E. lia.
  - unfold PtmsiSignature_len, len_usize, len_const in E. apply Ok_inj in E. lia.
  - unfold HopCounter_len, len_usize, len_const in E. apply Ok_inj in E. lia.
  - unfold UeTimeZone_len, len_usize, len_const in E. apply Ok_inj in E. lia.
  - unfold TraceReference_len, len_usize, len_const in E. apply Ok_inj in E. lia.
  - exact (len_u16_min m x n H E).
  - unfold Guti_len, len_usize, len_const in E. apply Ok_inj in E. lia.
  - exact (len_u16_min m x n H E).
  - unfold Fcause_len, len_usize, len_const in E. apply Ok_inj in E. lia.
  - unfold PlmnId_len, len_usize, len_const in E. apply Ok_inj in E. lia.
  - unfold TargetIdentification_len, len_usize, len_const in E. apply Ok_inj in E. lia.
  - unfold PacketFlowId_len, len_usize, len_const in E. apply Ok_inj in E. lia.
  - unfold RabContext_len, len_usize, len_const in E. apply Ok_inj in E. lia.
  - exact (len_u16_min m x n H E).
  - unfold PortNumber_len, len_usize, len_const in E. apply Ok_inj in E. lia.
  - unfold ApnRestriction_len, len_usize, len_const in E. apply Ok_inj in E. lia.
  - unfold SelectionMode_len, len_usize, len_const in E. apply Ok_inj in E. lia.
  - unfold SourceIdentification_len, len_usize, len_const in E. apply Ok_inj in E. lia.
  - unfold ChangeReportingAction_len, len_usize, len_const in E. apply Ok_inj in E. lia.
  - exact (len_u16_min m x n H E).
  - unfold ChannelNeeded_len, len_usize, len_const in E. apply Ok_inj in E. lia.
  - unfold EmlppPriority_len, len_usize, len_const in E. apply Ok_inj in E. lia.
  - unfold NodeType_len, len_usize, len_const in E. apply Ok_inj in E. lia.
  - exact (len_u16_min m x n H E).
  - unfold TransactionIdentifier_len, len_usize, len_const in E. apply Ok_inj in E. lia.
  - unfold MbmsServiceArea_len, len_usize, len_const in E. apply Ok_inj in E. lia.
  - unfold MbmsSessionDuration_len, len_usize, len_const in E. apply Ok_inj in E. lia.
  - unfold MbmsSessionId_len, len_usize, len_const in E. apply Ok_inj in E. lia.
  - unfold MbmsFlowId_len, len_usize, len_const in E. apply Ok_inj in E. lia.
  - unfold MbmsIpMulticastDistribution_len, len_usize, len_const in E. apply Ok_inj in E. lia.
  - unfold MbmsDistributionAck_len, len_usize, len_const in E. apply Ok_inj in E. lia.
  - unfold RfspIndex_len, len_usize, len_const in E. apply Ok_inj in E. lia.
  - unfold Uci_len, len_usize, len_const in E. apply Ok_inj in E. lia.
  - unfold CSGInformationReportingAction_len, len_usize, len_const in E. apply Ok_inj in E. lia.
  - unfold CsgId_len, len_usize, len_const in E. apply Ok_inj in E. lia.
  - unfold CsgMembershipIndication_len, len_usize, len_const in E. apply Ok_inj in E. lia.
  - unfold ServiceIndicator_len, len_usize, len_const in E. apply Ok_inj in E. lia.
  - unfold DetachType_len, len_usize, len_const in E. apply Ok_inj in E. lia.
  - exact (len_u16_min m x n H E).
  - unfold NodeFeatures_len, len_usize, len_const in E. apply Ok_inj in E. lia.
  - unfold MbmsTimeToDataTransfer_len, len_usize, len_const in E. apply Ok_inj in E. lia.
  - unfold Throttling_len, len_usize, len_const in E. apply Ok_inj in E. lia.
  - unfold Arp_len, len_usize, len_const in E. apply Ok_inj in E. lia.
  - unfold EpcTimer_len, len_usize, len_const in E. apply Ok_inj in E. lia.
  - unfold Spi_len, len_usize, len_const in E. apply Ok_inj in E. lia.
  - unfold Tmgi_len, len_usize, len_const in E. apply Ok_inj in E. lia.
  - unfold AdditionalMmContextForSrvcc_len, len_usize, len_const in E. apply Ok_inj in E. lia.
  - unfold AdditionalFlagsSrvcc_len, len_usize, len_const in E. apply Ok_inj in E. lia.
  - unfold MdtConfiguration_len, len_usize, len_const in E. apply Ok_inj in E. lia.
  - unfold Apco_len, len_usize, len_const in E. apply Ok_inj in E. lia.
  - unfold AbsoluteTimeMbmsDataTransfer_len, len_usize, len_const in E. apply Ok_inj in E. lia.
  - unfold HenbInfoReporting_len, len_usize, len_const in E. apply Ok_inj in E. lia.
  - unfold Ip4Cp_len, len_usize, len_const in E. apply Ok_inj in E. lia.
  - unfold ChangeToReportFlags_len, len_usize, len_const in E. apply Ok_inj in E. lia.
  - unfold ActionIndication_len, len_usize, len_const in E. apply Ok_inj in E. lia.
  - unfold TwanId_len, len_usize, len_const in E. apply Ok_inj in E. lia.
  - unfold UliTimestamp_len, len_usize, len_const in E. apply Ok_inj in E. lia.
  - unfold MbmsFlags_len, len_usize, len_const in E. apply Ok_inj in E. lia.
  - unfold RanNasCause_len, len_usize, len_const in E. apply Ok_inj in E. lia.
  - unfold CnOperatorSelectionEntity_len, len_usize, len_const in E. apply Ok_inj in E. lia.
  - unfold Twmi_len, len_usize, len_const in E. apply Ok_inj in E. lia.
  - unfold NodeNumber_len, len_usize, len_const in E. apply Ok_inj in E. lia.
  - unfold NodeIdentifier_len, len_usize, len_const in E. apply Ok_inj in E. lia.
  - unfold PresenceReportingAreaAction_len, len_usize, len_const in E. apply Ok_inj in E. lia.
  - unfold PresenceReportingAreaInformation_len, len_usize, len_const in E. apply Ok_inj in E. lia.
  - unfold TwanIdTimeStamp_len, len_usize, len_const in E. apply Ok_inj in E. lia.
  - unfold OverloadControlInfo_len, len_usize, len_const in E. apply Ok_inj in E. lia.
  - unfold LoadControl_len, len_usize, len_const in E. apply Ok_inj in E. lia.
  - unfold Metric_len, len_usize, len_const in E. apply Ok_inj in E. lia.
  - unfold Sqn_len, len_usize, len_const in E. apply Ok_inj in E. lia.
  - unfold ApnRelativeCapacity_len, len_usize, len_const in E. apply Ok_inj in E. lia.
  - unfold WlanOffloadIndication_len, len_usize, len_const in E. apply Ok_inj in E. lia.
  - unfold PagingServiceInfo_len, len_usize, len_const in E. apply Ok_inj in E. destruct (is_some _); lia.
  - unfold IntegerNumber_len, len_usize, len_const in E. apply Ok_inj in E. lia.
  - unfold MilliSecondTimeStamp_len, len_usize, len_const in E. apply Ok_inj in E. lia.
  - unfold MonitoringEventInformation_len, len_usize, len_const in E. apply Ok_inj in E. lia.
  - unfold EcgiList_len, len_usize, len_const in E. apply Ok_inj in E. destruct (ie_v x); lia.
  - unfold RemoteUeContext_len, len_usize, len_const in E. apply Ok_inj in E. lia.
  - unfold RemoteUserId_len, len_usize, len_const in E. apply Ok_inj in E. lia.
  - exact (len_u16_min m x n H E).
  - unfold CIoTOptimizationSupportIndication_len, len_usize, len_const in E. apply Ok_inj in E. lia.
  - unfold ScefPdnConnections_len, len_usize, len_const in E. apply Ok_inj in E. lia.
  - unfold HeaderCompressionConfiguration_len, len_usize, len_const in E. apply Ok_inj in E. lia.
  - unfold Epco_len, len_usize, len_const in E. apply Ok_inj in E. lia.
  - unfold ServingPlmnRateControl_len, len_usize, len_const in E. apply Ok_inj in E. lia.
  - unfold Counter_len, len_usize, len_const in E. apply Ok_inj in E. lia.
  - unfold MappedUeUsageType_len, len_usize, len_const in E. apply Ok_inj in E. lia.
  - unfold SecondaryRatUsageDataReport_len, len_usize, len_const in E. apply Ok_inj in E. lia.
  - unfold UpFunctionSelectionIndicationFlags_len, len_usize, len_const in E. apply Ok_inj in E. lia.
  - unfold MaxPacketLossRate_len, len_usize, len_const in E. apply Ok_inj in E. lia.
  - unfold ApnRateControlStatus_len, len_usize, len_const in E. apply Ok_inj in E. lia.
  - exact (len_u16_min m x n H E).
  - unfold MonitoringEventExtensionInfo_len, len_usize, len_const in E. apply Ok_inj in E. lia.
  - unfold AdditionalRrmPolicyIndex_len, len_usize, len_const in E. apply Ok_inj in E. lia.
  - unfold V2xInformation_len, len_usize, len_const in E. apply Ok_inj in E. lia.
  - unfold PC5QosParameters_len, len_usize, len_const in E. apply Ok_inj in E. lia.
  - unfold ServicesAuthorized_len, len_usize, len_const in E. apply Ok_inj in E. lia.
  - unfold BitRate_len, len_usize, len_const in E. apply Ok_inj in E. lia.
  - unfold PC5QosFlow_len, len_usize, len_const in E. apply Ok_inj in E. lia.
  - unfold SgiPtpTunnelAddress_len, len_usize, len_const in E. apply Ok_inj in E. lia.
  - unfold PgwChangeInfo_len, len_usize, len_const in E. apply Ok_inj in E. lia.
  - unfold PgwFqdn_len, len_usize, len_const in E. apply Ok_inj in E. lia.
  - unfold GroupId_len, len_usize, len_const in E. apply Ok_inj in E. lia.
  - unfold PSCellId_len, len_usize, len_const in E. apply Ok_inj in E. lia.
  - unfold UpSecurityPolicy_len, len_usize, len_const in E. apply Ok_inj in E. lia.
  - unfold AlternativeImsi_len, len_usize, len_const in E. apply Ok_inj in E. lia.
  - unfold SpecialIEWithTypeExt_len, len_usize, len_const in E. apply Ok_inj in E. lia.
  - unfold PrivateExtension_len, len_usize, len_const in E. apply Ok_inj in E. lia.
  - unfold Unknown_len, len_usize, len_const in E. apply Ok_inj in E. lia.
Qed.

(* an element that was decoded has a whole header *)
Lemma post_hdr4_long {A} b (k : N -> N -> res A) : post (fun _ => (4 <= length b)%nat) (hdr4 b k).
Proof.
  intros y E. do 4 (destruct b as [|? b]; [discriminate E|]). cbn [length]. lia.
Qed.
Ltac pl := lazymatch goal with
  | |- post _ (hdr4 _ _) => apply post_hdr4_long
  | |- post _ (Err _) => apply post_err
  | |- post _ Panic => apply post_panic
  | |- post _ (need _ _ _ _) => apply post_need
  | |- post _ (bind _ _) => apply post_bind; intros; cbv beta
  | |- post _ (match ?x with _ => _ end) => destruct x
  end.
Lemma GroupedIe_long dec m b : post (fun _ => (4 <= length b)%nat) (GroupedIe_unmarshal dec m b).
Proof. unfold GroupedIe_unmarshal. repeat pl. Qed.
Lemma group_long {A} dec m b (f : Tliv (list ie) -> res A) : post (fun _ => (4 <= length b)%nat) (bind (GroupedIe_unmarshal dec m b) f).
Proof. intros y E. destruct (GroupedIe_unmarshal dec m b) as [g| | |] eqn:G; try discriminate E. exact (GroupedIe_long dec m b g G). Qed.
Lemma AbsoluteTimeMbmsDataTransfer_long m b : post (fun _ => (4 <= length b)%nat) (AbsoluteTimeMbmsDataTransfer_unmarshal m b).
Proof. unfold AbsoluteTimeMbmsDataTransfer_unmarshal. repeat pl. Qed.
Lemma ActionIndication_long m b : post (fun _ => (4 <= length b)%nat) (ActionIndication_unmarshal m b).
Proof. unfold ActionIndication_unmarshal. repeat pl. Qed.
Lemma AdditionalFlagsSrvcc_long m b : post (fun _ => (4 <= length b)%nat) (AdditionalFlagsSrvcc_unmarshal m b).
Proof. unfold AdditionalFlagsSrvcc_unmarshal. repeat pl. Qed.
Lemma AdditionalMmContextForSrvcc_long m b : post (fun _ => (4 <= length b)%nat) (AdditionalMmContextForSrvcc_unmarshal m b).
Proof. unfold AdditionalMmContextForSrvcc_unmarshal. repeat pl. Qed.
Lemma AdditionalRrmPolicyIndex_long m b : post (fun _ => (4 <= length b)%nat) (AdditionalRrmPolicyIndex_unmarshal m b).
Proof. unfold AdditionalRrmPolicyIndex_unmarshal. repeat pl. Qed.
Lemma AlternativeImsi_long m b : post (fun _ => (4 <= length b)%nat) (AlternativeImsi_unmarshal m b).
Proof. unfold AlternativeImsi_unmarshal. repeat pl. Qed.
Lemma Ambr_long m b : post (fun _ => (4 <= length b)%nat) (Ambr_unmarshal m b).
Proof. unfold Ambr_unmarshal. repeat pl. Qed.
Lemma Apco_long m b : post (fun _ => (4 <= length b)%nat) (Apco_unmarshal m b).
Proof. unfold Apco_unmarshal. repeat pl. Qed.
Lemma Apn_long m b : post (fun _ => (4 <= length b)%nat) (Apn_unmarshal m b).
Proof. unfold Apn_unmarshal. repeat pl. Qed.
Lemma ApnRateControlStatus_long m b : post (fun _ => (4 <= length b)%nat) (ApnRateControlStatus_unmarshal m b).
Proof. unfold ApnRateControlStatus_unmarshal. repeat pl. Qed.
Lemma ApnRelativeCapacity_long m b : post (fun _ => (4 <= length b)%nat) (ApnRelativeCapacity_unmarshal m b).
Proof. unfold ApnRelativeCapacity_unmarshal. repeat pl. Qed.
Lemma ApnRestriction_long m b : post (fun _ => (4 <= length b)%nat) (ApnRestriction_unmarshal m b).
Proof. unfold ApnRestriction_unmarshal. repeat pl. Qed.
Lemma Arp_long m b : post (fun _ => (4 <= length b)%nat) (Arp_unmarshal m b).
Proof. unfold Arp_unmarshal. repeat pl. Qed.
Lemma BearerContext_long dec m b : post (fun _ => (4 <= length b)%nat) (BearerContext_unmarshal dec m b).
Proof. unfold BearerContext_unmarshal. apply group_long. Qed.
Lemma BearerFlags_long m b : post (fun _ => (4 <= length b)%nat) (BearerFlags_unmarshal m b).
Proof. unfold BearerFlags_unmarshal. repeat pl. Qed.
Lemma BearerQos_long m b : post (fun _ => (4 <= length b)%nat) (BearerQos_unmarshal m b).
Proof. unfold BearerQos_unmarshal. repeat pl. Qed.
Lemma BearerTft_long m b : post (fun _ => (4 <= length b)%nat) (BearerTft_unmarshal m b).
Proof. unfold BearerTft_unmarshal. repeat pl. Qed.
Lemma BitRate_long m b : post (fun _ => (4 <= length b)%nat) (BitRate_unmarshal m b).
Proof. unfold BitRate_unmarshal. repeat pl. Qed.
Lemma CIoTOptimizationSupportIndication_long m b : post (fun _ => (4 <= length b)%nat) (CIoTOptimizationSupportIndication_unmarshal m b).
Proof. unfold CIoTOptimizationSupportIndication_unmarshal. repeat pl. Qed.
Lemma CSGInformationReportingAction_long m b : post (fun _ => (4 <= length b)%nat) (CSGInformationReportingAction_unmarshal m b).
Proof. unfold CSGInformationReportingAction_unmarshal. repeat pl. Qed.
Lemma Cause_long m b : post (fun _ => (4 <= length b)%nat) (Cause_unmarshal m b).
Proof. unfold Cause_unmarshal. repeat pl. Qed.
Lemma ChangeReportingAction_long m b : post (fun _ => (4 <= length b)%nat) (ChangeReportingAction_unmarshal m b).
Proof. unfold ChangeReportingAction_unmarshal. repeat pl. Qed.
Lemma ChangeToReportFlags_long m b : post (fun _ => (4 <= length b)%nat) (ChangeToReportFlags_unmarshal m b).
Proof. unfold ChangeToReportFlags_unmarshal. repeat pl. Qed.
Lemma ChannelNeeded_long m b : post (fun _ => (4 <= length b)%nat) (ChannelNeeded_unmarshal m b).
Proof. unfold ChannelNeeded_unmarshal. repeat pl. Qed.
Lemma ChargingCharacteristics_long m b : post (fun _ => (4 <= length b)%nat) (ChargingCharacteristics_unmarshal m b).
Proof. unfold ChargingCharacteristics_unmarshal. repeat pl. Qed.
Lemma ChargingId_long m b : post (fun _ => (4 <= length b)%nat) (ChargingId_unmarshal m b).
Proof. unfold ChargingId_unmarshal. repeat pl. Qed.
Lemma CnOperatorSelectionEntity_long m b : post (fun _ => (4 <= length b)%nat) (CnOperatorSelectionEntity_unmarshal m b).
Proof. unfold CnOperatorSelectionEntity_unmarshal. repeat pl. Qed.
Lemma CompleteRequestMessage_long m b : post (fun _ => (4 <= length b)%nat) (CompleteRequestMessage_unmarshal m b).
Proof. unfold CompleteRequestMessage_unmarshal. repeat pl. Qed.
Lemma Counter_long m b : post (fun _ => (4 <= length b)%nat) (Counter_unmarshal m b).
Proof. unfold Counter_unmarshal. repeat pl. Qed.
Lemma CsgId_long m b : post (fun _ => (4 <= length b)%nat) (CsgId_unmarshal m b).
Proof. unfold CsgId_unmarshal. repeat pl. Qed.
Lemma CsgMembershipIndication_long m b : post (fun _ => (4 <= length b)%nat) (CsgMembershipIndication_unmarshal m b).
Proof. unfold CsgMembershipIndication_unmarshal. repeat pl. Qed.
Lemma DelayValue_long m b : post (fun _ => (4 <= length b)%nat) (DelayValue_unmarshal m b).
Proof. unfold DelayValue_unmarshal. repeat pl. Qed.
Lemma DetachType_long m b : post (fun _ => (4 <= length b)%nat) (DetachType_unmarshal m b).
Proof. unfold DetachType_unmarshal. repeat pl. Qed.
Lemma Ebi_long m b : post (fun _ => (4 <= length b)%nat) (Ebi_unmarshal m b).
Proof. unfold Ebi_unmarshal. repeat pl. Qed.
Lemma EcgiList_long m b : post (fun _ => (4 <= length b)%nat) (EcgiList_unmarshal m b).
Proof. unfold EcgiList_unmarshal. repeat pl. Qed.
Lemma EmlppPriority_long m b : post (fun _ => (4 <= length b)%nat) (EmlppPriority_unmarshal m b).
Proof. unfold EmlppPriority_unmarshal. repeat pl. Qed.
Lemma EpcTimer_long m b : post (fun _ => (4 <= length b)%nat) (EpcTimer_unmarshal m b).
Proof. unfold EpcTimer_unmarshal. repeat pl. Qed.
Lemma Epco_long m b : post (fun _ => (4 <= length b)%nat) (Epco_unmarshal m b).
Proof. unfold Epco_unmarshal. repeat pl. Qed.
Lemma ExtendedTraceInformation_long m b : post (fun _ => (4 <= length b)%nat) (ExtendedTraceInformation_unmarshal m b).
Proof. unfold ExtendedTraceInformation_unmarshal. repeat pl. Qed.
Lemma Fcause_long m b : post (fun _ => (4 <= length b)%nat) (Fcause_unmarshal m b).
Proof. unfold Fcause_unmarshal. repeat pl. Qed.
Lemma Fcontainer_long m b : post (fun _ => (4 <= length b)%nat) (Fcontainer_unmarshal m b).
Proof. unfold Fcontainer_unmarshal. repeat pl. Qed.
Lemma FlowQos_long m b : post (fun _ => (4 <= length b)%nat) (FlowQos_unmarshal m b).
Proof. unfold FlowQos_unmarshal. repeat pl. Qed.
Lemma Fqcsid_long m b : post (fun _ => (4 <= length b)%nat) (Fqcsid_unmarshal m b).
Proof. unfold Fqcsid_unmarshal. repeat pl. Qed.
Lemma Fqdn_long m b : post (fun _ => (4 <= length b)%nat) (Fqdn_unmarshal m b).
Proof. unfold Fqdn_unmarshal. repeat pl. Qed.
Lemma Fteid_long m b : post (fun _ => (4 <= length b)%nat) (Fteid_unmarshal m b).
Proof. unfold Fteid_unmarshal. repeat pl. Qed.
Lemma GlobalCnId_long m b : post (fun _ => (4 <= length b)%nat) (GlobalCnId_unmarshal m b).
Proof. unfold GlobalCnId_unmarshal. repeat pl. Qed.
Lemma GroupId_long m b : post (fun _ => (4 <= length b)%nat) (GroupId_unmarshal m b).
Proof. unfold GroupId_unmarshal. repeat pl. Qed.
Lemma Guti_long m b : post (fun _ => (4 <= length b)%nat) (Guti_unmarshal m b).
Proof. unfold Guti_unmarshal. repeat pl. Qed.
Lemma HeaderCompressionConfiguration_long m b : post (fun _ => (4 <= length b)%nat) (HeaderCompressionConfiguration_unmarshal m b).
Proof. unfold HeaderCompressionConfiguration_unmarshal. repeat pl. Qed.
Lemma HenbInfoReporting_long m b : post (fun _ => (4 <= length b)%nat) (HenbInfoReporting_unmarshal m b).
Proof. unfold HenbInfoReporting_unmarshal. repeat pl. Qed.
Lemma HopCounter_long m b : post (fun _ => (4 <= length b)%nat) (HopCounter_unmarshal m b).
Proof. unfold HopCounter_unmarshal. repeat pl. Qed.
Lemma Imsi_long m b : post (fun _ => (4 <= length b)%nat) (Imsi_unmarshal m b).
Proof. unfold Imsi_unmarshal. repeat pl. Qed.
Lemma Indication_long m b : post (fun _ => (4 <= length b)%nat) (Indication_unmarshal m b).
Proof. unfold Indication_unmarshal. repeat pl. Qed.
Lemma IntegerNumber_long m b : post (fun _ => (4 <= length b)%nat) (IntegerNumber_unmarshal m b).
Proof. unfold IntegerNumber_unmarshal. repeat pl. Qed.
Lemma Ip4Cp_long m b : post (fun _ => (4 <= length b)%nat) (Ip4Cp_unmarshal m b).
Proof. unfold Ip4Cp_unmarshal. repeat pl. Qed.
Lemma IpAddress_long m b : post (fun _ => (4 <= length b)%nat) (IpAddress_unmarshal m b).
Proof. unfold IpAddress_unmarshal. repeat pl. Qed.
Lemma Ldn_long m b : post (fun _ => (4 <= length b)%nat) (Ldn_unmarshal m b).
Proof. unfold Ldn_unmarshal. repeat pl. Qed.
Lemma LoadControl_long dec m b : post (fun _ => (4 <= length b)%nat) (LoadControl_unmarshal dec m b).
Proof. unfold LoadControl_unmarshal. apply group_long. Qed.
Lemma MappedUeUsageType_long m b : post (fun _ => (4 <= length b)%nat) (MappedUeUsageType_unmarshal m b).
Proof. unfold MappedUeUsageType_unmarshal. repeat pl. Qed.
Lemma MaxPacketLossRate_long m b : post (fun _ => (4 <= length b)%nat) (MaxPacketLossRate_unmarshal m b).
Proof. unfold MaxPacketLossRate_unmarshal. repeat pl. Qed.
Lemma MbmsDistributionAck_long m b : post (fun _ => (4 <= length b)%nat) (MbmsDistributionAck_unmarshal m b).
Proof. unfold MbmsDistributionAck_unmarshal. repeat pl. Qed.
Lemma MbmsFlags_long m b : post (fun _ => (4 <= length b)%nat) (MbmsFlags_unmarshal m b).
Proof. unfold MbmsFlags_unmarshal. repeat pl. Qed.
Lemma MbmsFlowId_long m b : post (fun _ => (4 <= length b)%nat) (MbmsFlowId_unmarshal m b).
Proof. unfold MbmsFlowId_unmarshal. repeat pl. Qed.
Lemma MbmsIpMulticastDistribution_long m b : post (fun _ => (4 <= length b)%nat) (MbmsIpMulticastDistribution_unmarshal m b).
Proof. unfold MbmsIpMulticastDistribution_unmarshal. repeat pl. Qed.
Lemma MbmsServiceArea_long m b : post (fun _ => (4 <= length b)%nat) (MbmsServiceArea_unmarshal m b).
Proof. unfold MbmsServiceArea_unmarshal. repeat pl. Qed.
Lemma MbmsSessionDuration_long m b : post (fun _ => (4 <= length b)%nat) (MbmsSessionDuration_unmarshal m b).
Proof. unfold MbmsSessionDuration_unmarshal. repeat pl. Qed.
Lemma MbmsSessionId_long m b : post (fun _ => (4 <= length b)%nat) (MbmsSessionId_unmarshal m b).
Proof. unfold MbmsSessionId_unmarshal. repeat pl. Qed.
Lemma MbmsTimeToDataTransfer_long m b : post (fun _ => (4 <= length b)%nat) (MbmsTimeToDataTransfer_unmarshal m b).
Proof. unfold MbmsTimeToDataTransfer_unmarshal. repeat pl. Qed.
Lemma MdtConfiguration_long m b : post (fun _ => (4 <= length b)%nat) (MdtConfiguration_unmarshal m b).
Proof. unfold MdtConfiguration_unmarshal. repeat pl. Qed.
Lemma Mei_long m b : post (fun _ => (4 <= length b)%nat) (Mei_unmarshal m b).
Proof. unfold Mei_unmarshal. repeat pl. Qed.
Lemma Metric_long m b : post (fun _ => (4 <= length b)%nat) (Metric_unmarshal m b).
Proof. unfold Metric_unmarshal. repeat pl. Qed.
Lemma MilliSecondTimeStamp_long m b : post (fun _ => (4 <= length b)%nat) (MilliSecondTimeStamp_unmarshal m b).
Proof. unfold MilliSecondTimeStamp_unmarshal. repeat pl. Qed.
Lemma MonitoringEventExtensionInfo_long m b : post (fun _ => (4 <= length b)%nat) (MonitoringEventExtensionInfo_unmarshal m b).
Proof. unfold MonitoringEventExtensionInfo_unmarshal. repeat pl. Qed.
Lemma MonitoringEventInformation_long m b : post (fun _ => (4 <= length b)%nat) (MonitoringEventInformation_unmarshal m b).
Proof. unfold MonitoringEventInformation_unmarshal. repeat pl. Qed.
Lemma Msisdn_long m b : post (fun _ => (4 <= length b)%nat) (Msisdn_unmarshal m b).
Proof. unfold Msisdn_unmarshal. repeat pl. Qed.
Lemma NodeFeatures_long m b : post (fun _ => (4 <= length b)%nat) (NodeFeatures_unmarshal m b).
Proof. unfold NodeFeatures_unmarshal. repeat pl. Qed.
Lemma NodeIdentifier_long m b : post (fun _ => (4 <= length b)%nat) (NodeIdentifier_unmarshal m b).
Proof. unfold NodeIdentifier_unmarshal. repeat pl. Qed.
Lemma NodeNumber_long m b : post (fun _ => (4 <= length b)%nat) (NodeNumber_unmarshal m b).
Proof. unfold NodeNumber_unmarshal. repeat pl. Qed.
Lemma NodeType_long m b : post (fun _ => (4 <= length b)%nat) (NodeType_unmarshal m b).
Proof. unfold NodeType_unmarshal. repeat pl. Qed.
Lemma OverloadControlInfo_long dec m b : post (fun _ => (4 <= length b)%nat) (OverloadControlInfo_unmarshal dec m b).
Proof. unfold OverloadControlInfo_unmarshal. apply group_long. Qed.
Lemma PC5QosFlow_long m b : post (fun _ => (4 <= length b)%nat) (PC5QosFlow_unmarshal m b).
Proof. unfold PC5QosFlow_unmarshal. repeat pl. Qed.
Lemma PC5QosParameters_long dec m b : post (fun _ => (4 <= length b)%nat) (PC5QosParameters_unmarshal dec m b).
Proof. unfold PC5QosParameters_unmarshal. apply group_long. Qed.
Lemma PSCellId_long m b : post (fun _ => (4 <= length b)%nat) (PSCellId_unmarshal m b).
Proof. unfold PSCellId_unmarshal. repeat pl. Qed.
Lemma PacketFlowId_long m b : post (fun _ => (4 <= length b)%nat) (PacketFlowId_unmarshal m b).
Proof. unfold PacketFlowId_unmarshal. repeat pl. Qed.
Lemma PagingServiceInfo_long m b : post (fun _ => (4 <= length b)%nat) (PagingServiceInfo_unmarshal m b).
Proof. unfold PagingServiceInfo_unmarshal. repeat pl. Qed.
Lemma Pco_long m b : post (fun _ => (4 <= length b)%nat) (Pco_unmarshal m b).
Proof. unfold Pco_unmarshal. repeat pl. Qed.
Lemma PdnAddressAllocation_long m b : post (fun _ => (4 <= length b)%nat) (PdnAddressAllocation_unmarshal m b).
Proof. unfold PdnAddressAllocation_unmarshal. repeat pl. Qed.
Lemma PdnConnections_long dec m b : post (fun _ => (4 <= length b)%nat) (PdnConnections_unmarshal dec m b).
Proof. unfold PdnConnections_unmarshal. apply group_long. Qed.
Lemma PdnType_long m b : post (fun _ => (4 <= length b)%nat) (PdnType_unmarshal m b).
Proof. unfold PdnType_unmarshal. repeat pl. Qed.
Lemma PduNumbers_long m b : post (fun _ => (4 <= length b)%nat) (PduNumbers_unmarshal m b).
Proof. unfold PduNumbers_unmarshal. repeat pl. Qed.
Lemma PgwChangeInfo_long dec m b : post (fun _ => (4 <= length b)%nat) (PgwChangeInfo_unmarshal dec m b).
Proof. unfold PgwChangeInfo_unmarshal. apply group_long. Qed.
Lemma PgwFqdn_long m b : post (fun _ => (4 <= length b)%nat) (PgwFqdn_unmarshal m b).
Proof. unfold PgwFqdn_unmarshal. repeat pl. Qed.
Lemma PlmnId_long m b : post (fun _ => (4 <= length b)%nat) (PlmnId_unmarshal m b).
Proof. unfold PlmnId_unmarshal. repeat pl. Qed.
Lemma PortNumber_long m b : post (fun _ => (4 <= length b)%nat) (PortNumber_unmarshal m b).
Proof. unfold PortNumber_unmarshal. repeat pl. Qed.
Lemma PresenceReportingAreaAction_long m b : post (fun _ => (4 <= length b)%nat) (PresenceReportingAreaAction_unmarshal m b).
Proof. unfold PresenceReportingAreaAction_unmarshal. repeat pl. Qed.
Lemma PresenceReportingAreaInformation_long m b : post (fun _ => (4 <= length b)%nat) (PresenceReportingAreaInformation_unmarshal m b).
Proof. unfold PresenceReportingAreaInformation_unmarshal. repeat pl. Qed.
Lemma PrivateExtension_long m b : post (fun _ => (4 <= length b)%nat) (PrivateExtension_unmarshal m b).
Proof. unfold PrivateExtension_unmarshal. repeat pl. Qed.
Lemma Pti_long m b : post (fun _ => (4 <= length b)%nat) (Pti_unmarshal m b).
Proof. unfold Pti_unmarshal. repeat pl. Qed.
Lemma Ptmsi_long m b : post (fun _ => (4 <= length b)%nat) (Ptmsi_unmarshal m b).
Proof. unfold Ptmsi_unmarshal. repeat pl. Qed.
Lemma PtmsiSignature_long m b : post (fun _ => (4 <= length b)%nat) (PtmsiSignature_unmarshal m b).
Proof. unfold PtmsiSignature_unmarshal. repeat pl. Qed.
Lemma RabContext_long m b : post (fun _ => (4 <= length b)%nat) (RabContext_unmarshal m b).
Proof. unfold RabContext_unmarshal. repeat pl. Qed.
Lemma RanNasCause_long m b : post (fun _ => (4 <= length b)%nat) (RanNasCause_unmarshal m b).
Proof. unfold RanNasCause_unmarshal. repeat pl. Qed.
Lemma RatType_long m b : post (fun _ => (4 <= length b)%nat) (RatType_unmarshal m b).
Proof. unfold RatType_unmarshal. repeat pl. Qed.
Lemma Recovery_long m b : post (fun _ => (4 <= length b)%nat) (Recovery_unmarshal m b).
Proof. unfold Recovery_unmarshal. repeat pl. Qed.
Lemma RemoteUeContext_long dec m b : post (fun _ => (4 <= length b)%nat) (RemoteUeContext_unmarshal dec m b).
Proof. unfold RemoteUeContext_unmarshal. apply group_long. Qed.
Lemma RemoteUeIpInformation_long m b : post (fun _ => (4 <= length b)%nat) (RemoteUeIpInformation_unmarshal m b).
Proof. unfold RemoteUeIpInformation_unmarshal. repeat pl. Qed.
Lemma RemoteUserId_long m b : post (fun _ => (4 <= length b)%nat) (RemoteUserId_unmarshal m b).
Proof. unfold RemoteUserId_unmarshal. repeat pl. Qed.
Lemma RfspIndex_long m b : post (fun _ => (4 <= length b)%nat) (RfspIndex_unmarshal m b).
Proof. unfold RfspIndex_unmarshal. repeat pl. Qed.
Lemma S103pdf_long m b : post (fun _ => (4 <= length b)%nat) (S103pdf_unmarshal m b).
Proof. unfold S103pdf_unmarshal. repeat pl. Qed.
Lemma S1udf_long m b : post (fun _ => (4 <= length b)%nat) (S1udf_unmarshal m b).
Proof. unfold S1udf_unmarshal. repeat pl. Qed.
Lemma ScefPdnConnections_long dec m b : post (fun _ => (4 <= length b)%nat) (ScefPdnConnections_unmarshal dec m b).
Proof. unfold ScefPdnConnections_unmarshal. apply group_long. Qed.
Lemma SecondaryRatUsageDataReport_long m b : post (fun _ => (4 <= length b)%nat) (SecondaryRatUsageDataReport_unmarshal m b).
Proof. unfold SecondaryRatUsageDataReport_unmarshal. repeat pl. Qed.
Lemma SelectionMode_long m b : post (fun _ => (4 <= length b)%nat) (SelectionMode_unmarshal m b).
Proof. unfold SelectionMode_unmarshal. repeat pl. Qed.
Lemma ServiceIndicator_long m b : post (fun _ => (4 <= length b)%nat) (ServiceIndicator_unmarshal m b).
Proof. unfold ServiceIndicator_unmarshal. repeat pl. Qed.
Lemma ServicesAuthorized_long m b : post (fun _ => (4 <= length b)%nat) (ServicesAuthorized_unmarshal m b).
Proof. unfold ServicesAuthorized_unmarshal. repeat pl. Qed.
Lemma ServingNetwork_long m b : post (fun _ => (4 <= length b)%nat) (ServingNetwork_unmarshal m b).
Proof. unfold ServingNetwork_unmarshal. repeat pl. Qed.
Lemma ServingPlmnRateControl_long m b : post (fun _ => (4 <= length b)%nat) (ServingPlmnRateControl_unmarshal m b).
Proof. unfold ServingPlmnRateControl_unmarshal. repeat pl. Qed.
Lemma SgiPtpTunnelAddress_long m b : post (fun _ => (4 <= length b)%nat) (SgiPtpTunnelAddress_unmarshal m b).
Proof. unfold SgiPtpTunnelAddress_unmarshal. repeat pl. Qed.
Lemma SourceIdentification_long m b : post (fun _ => (4 <= length b)%nat) (SourceIdentification_unmarshal m b).
Proof. unfold SourceIdentification_unmarshal. repeat pl. Qed.
Lemma SourceRncPdcpContextInfo_long m b : post (fun _ => (4 <= length b)%nat) (SourceRncPdcpContextInfo_unmarshal m b).
Proof. unfold SourceRncPdcpContextInfo_unmarshal. repeat pl. Qed.
Lemma SpecialIEWithTypeExt_long m b : post (fun _ => (4 <= length b)%nat) (SpecialIEWithTypeExt_unmarshal m b).
Proof. unfold SpecialIEWithTypeExt_unmarshal. repeat pl. Qed.
Lemma Spi_long m b : post (fun _ => (4 <= length b)%nat) (Spi_unmarshal m b).
Proof. unfold Spi_unmarshal. repeat pl. Qed.
Lemma Sqn_long m b : post (fun _ => (4 <= length b)%nat) (Sqn_unmarshal m b).
Proof. unfold Sqn_unmarshal. repeat pl. Qed.
Lemma SrvccCause_long m b : post (fun _ => (4 <= length b)%nat) (SrvccCause_unmarshal m b).
Proof. unfold SrvccCause_unmarshal. repeat pl. Qed.
Lemma StnSr_long m b : post (fun _ => (4 <= length b)%nat) (StnSr_unmarshal m b).
Proof. unfold StnSr_unmarshal. repeat pl. Qed.
Lemma TargetIdentification_long m b : post (fun _ => (4 <= length b)%nat) (TargetIdentification_unmarshal m b).
Proof. unfold TargetIdentification_unmarshal. repeat pl. Qed.
Lemma Throttling_long m b : post (fun _ => (4 <= length b)%nat) (Throttling_unmarshal m b).
Proof. unfold Throttling_unmarshal. repeat pl. Qed.
Lemma Tmgi_long m b : post (fun _ => (4 <= length b)%nat) (Tmgi_unmarshal m b).
Proof. unfold Tmgi_unmarshal. repeat pl. Qed.
Lemma Tmsi_long m b : post (fun _ => (4 <= length b)%nat) (Tmsi_unmarshal m b).
Proof. unfold Tmsi_unmarshal. repeat pl. Qed.
Lemma TraceInformation_long m b : post (fun _ => (4 <= length b)%nat) (TraceInformation_unmarshal m b).
Proof. unfold TraceInformation_unmarshal. repeat pl. Qed.
Lemma TraceReference_long m b : post (fun _ => (4 <= length b)%nat) (TraceReference_unmarshal m b).
Proof. unfold TraceReference_unmarshal. repeat pl. Qed.
Lemma TrafficAggregateDescription_long m b : post (fun _ => (4 <= length b)%nat) (TrafficAggregateDescription_unmarshal m b).
Proof. unfold TrafficAggregateDescription_unmarshal. repeat pl. Qed.
Lemma TransactionIdentifier_long m b : post (fun _ => (4 <= length b)%nat) (TransactionIdentifier_unmarshal m b).
Proof. unfold TransactionIdentifier_unmarshal. repeat pl. Qed.
Lemma TwanIdTimeStamp_long m b : post (fun _ => (4 <= length b)%nat) (TwanIdTimeStamp_unmarshal m b).
Proof. unfold TwanIdTimeStamp_unmarshal. repeat pl. Qed.
Lemma Twmi_long m b : post (fun _ => (4 <= length b)%nat) (Twmi_unmarshal m b).
Proof. unfold Twmi_unmarshal. repeat pl. Qed.
Lemma Uci_long m b : post (fun _ => (4 <= length b)%nat) (Uci_unmarshal m b).
Proof. unfold Uci_unmarshal. repeat pl. Qed.
Lemma UeTimeZone_long m b : post (fun _ => (4 <= length b)%nat) (UeTimeZone_unmarshal m b).
Proof. unfold UeTimeZone_unmarshal. repeat pl. Qed.
Lemma Uli_long m b : post (fun _ => (4 <= length b)%nat) (Uli_unmarshal m b).
Proof. unfold Uli_unmarshal. repeat pl. Qed.
Lemma UliTimestamp_long m b : post (fun _ => (4 <= length b)%nat) (UliTimestamp_unmarshal m b).
Proof. unfold UliTimestamp_unmarshal. repeat pl. Qed.
Lemma UpFunctionSelectionIndicationFlags_long m b : post (fun _ => (4 <= length b)%nat) (UpFunctionSelectionIndicationFlags_unmarshal m b).
Proof. unfold UpFunctionSelectionIndicationFlags_unmarshal. repeat pl. Qed.
Lemma UpSecurityPolicy_long m b : post (fun _ => (4 <= length b)%nat) (UpSecurityPolicy_unmarshal m b).
Proof. unfold UpSecurityPolicy_unmarshal. repeat pl. Qed.
Lemma V2xInformation_long dec m b : post (fun _ => (4 <= length b)%nat) (V2xInformation_unmarshal dec m b).
Proof. unfold V2xInformation_unmarshal. apply group_long. Qed.
Lemma WlanOffloadIndication_long m b : post (fun _ => (4 <= length b)%nat) (WlanOffloadIndication_unmarshal m b).
Proof. unfold WlanOffloadIndication_unmarshal. repeat pl. Qed.
Lemma MmContextGsmKeyTriplets_long m b : post (fun _ => (4 <= length b)%nat) (MmContextGsmKeyTriplets_unmarshal m b).
Proof. unfold MmContextGsmKeyTriplets_unmarshal. repeat pl. Qed.
Lemma MmContextUmtsKeyCipherQuintuplets_long m b : post (fun _ => (4 <= length b)%nat) (MmContextUmtsKeyCipherQuintuplets_unmarshal m b).
Proof. unfold MmContextUmtsKeyCipherQuintuplets_unmarshal. repeat pl. Qed.
Lemma MmContextGsmKeyCipherQuintuplets_long m b : post (fun _ => (4 <= length b)%nat) (MmContextGsmKeyCipherQuintuplets_unmarshal m b).
Proof. unfold MmContextGsmKeyCipherQuintuplets_unmarshal. repeat pl. Qed.
Lemma MmContextUmtsKeyQuintuplets_long m b : post (fun _ => (4 <= length b)%nat) (MmContextUmtsKeyQuintuplets_unmarshal m b).
Proof. unfold MmContextUmtsKeyQuintuplets_unmarshal. repeat pl. Qed.
Lemma MmContextEpsSecurityContextQuadruplets_long m b : post (fun _ => (4 <= length b)%nat) (MmContextEpsSecurityContextQuadruplets_unmarshal m b).
Proof. unfold MmContextEpsSecurityContextQuadruplets_unmarshal. repeat pl. Qed.
Lemma MmContextUmtsKeyQuadrupletsQuintuplets_long m b : post (fun _ => (4 <= length b)%nat) (MmContextUmtsKeyQuadrupletsQuintuplets_unmarshal m b).
Proof. unfold MmContextUmtsKeyQuadrupletsQuintuplets_unmarshal. repeat pl. Qed.
Lemma Unknown_long m b : post (fun _ => (4 <= length b)%nat) (Unknown_unmarshal m b).
Proof. unfold Unknown_unmarshal. repeat pl. Qed.
Lemma lift_long {A} (b : list N) (c : A -> ie) r : post (fun _ => (4 <= length b)%nat) r -> post (fun _ => (4 <= length b)%nat) (lift c r).
Proof. intros H. unfold lift. apply post_bind_with with (Q := fun _ => (4 <= length b)%nat); [exact H|]. intros a L y _. exact L. Qed.
Lemma MmContext_long m b : post (fun _ => (4 <= length b)%nat) (MmContext_unmarshal m b).
Proof.
  unfold MmContext_unmarshal. apply post_bind. intros t. cbv beta.
  repeat match goal with |- post _ (if ?c then _ else _) => destruct c end;
    first [apply post_err | match goal with |- post _ (bind ?r _) => apply post_bind_with with (Q := fun _ => (4 <= length b)%nat); [|intros a L y _; exact L] end];
    first [apply MmContextGsmKeyTriplets_long|apply MmContextUmtsKeyCipherQuintuplets_long|apply MmContextGsmKeyCipherQuintuplets_long|apply MmContextUmtsKeyQuintuplets_long|apply MmContextEpsSecurityContextQuadruplets_long|apply MmContextUmtsKeyQuadrupletsQuintuplets_long].
Qed.
Lemma decode_one_long dec m b : post (fun _ => (4 <= length b)%nat) (decode_one dec m b).
Proof.
  unfold decode_one. apply post_bind. intros t. cbv beta.
  repeat match goal with |- post _ (if ?c then lift _ (?f _ _) else _) => destruct c; [apply lift_long|] | |- post _ (if ?c then lift _ (?f _ _ _) else _) => destruct c; [apply lift_long|] end.
  - apply Imsi_long.
  - apply Cause_long.
  - apply Recovery_long.
  - apply StnSr_long.
  - apply SrvccCause_long.
  - apply Apn_long.
  - apply Ambr_long.
  - apply Ebi_long.
  - apply IpAddress_long.
  - apply Mei_long.
  - apply Msisdn_long.
  - apply Indication_long.
  - apply Pco_long.
  - apply PdnAddressAllocation_long.
  - apply BearerQos_long.
  - apply FlowQos_long.
  - apply RatType_long.
  - apply ServingNetwork_long.
  - apply BearerTft_long.
  - apply TrafficAggregateDescription_long.
  - apply Uli_long.
  - apply Fteid_long.
  - apply Tmsi_long.
  - apply GlobalCnId_long.
  - apply S103pdf_long.
  - apply S1udf_long.
  - apply DelayValue_long.
  - apply BearerContext_long.
  - apply ChargingId_long.
  - apply ChargingCharacteristics_long.
  - apply TraceInformation_long.
  - apply BearerFlags_long.
  - apply PdnType_long.
  - apply Pti_long.
  - apply MmContext_long.
  - apply PdnConnections_long.
  - apply PduNumbers_long.
  - apply Ptmsi_long.
  - apply PtmsiSignature_long.
  - apply HopCounter_long.
  - apply UeTimeZone_long.
  - apply TraceReference_long.
  - apply CompleteRequestMessage_long.
  - apply Guti_long.
  - apply Fcontainer_long.
  - apply Fcause_long.
  - apply PlmnId_long.
  - apply TargetIdentification_long.
  - apply PacketFlowId_long.
  - apply RabContext_long.
  - apply SourceRncPdcpContextInfo_long.
  - apply PortNumber_long.
  - apply ApnRestriction_long.
  - apply SelectionMode_long.
  - apply SourceIdentification_long.
  - apply ChangeReportingAction_long.
  - apply Fqcsid_long.
  - apply ChannelNeeded_long.
  - apply EmlppPriority_long.
  - apply NodeType_long.
  - apply Fqdn_long.
  - apply TransactionIdentifier_long.
  - apply MbmsSessionDuration_long.
  - apply MbmsServiceArea_long.
  - apply MbmsSessionId_long.
  - apply MbmsFlowId_long.
  - apply MbmsIpMulticastDistribution_long.
  - apply MbmsDistributionAck_long.
  - apply RfspIndex_long.
  - apply Uci_long.
  - apply CSGInformationReportingAction_long.
  - apply CsgId_long.
  - apply CsgMembershipIndication_long.
  - apply ServiceIndicator_long.
  - apply DetachType_long.
  - apply Ldn_long.
  - apply NodeFeatures_long.
  - apply MbmsTimeToDataTransfer_long.
  - apply Throttling_long.
  - apply Arp_long.
  - apply EpcTimer_long.
  - apply Spi_long.
  - apply Tmgi_long.
  - apply AdditionalMmContextForSrvcc_long.
  - apply AdditionalFlagsSrvcc_long.
  - apply MdtConfiguration_long.
  - apply Apco_long.
  - apply AbsoluteTimeMbmsDataTransfer_long.
  - apply HenbInfoReporting_long.
  - apply Ip4Cp_long.
  - apply ChangeToReportFlags_long.
  - apply ActionIndication_long.
  - apply ActionIndication_long.
  - apply UliTimestamp_long.
  - apply MbmsFlags_long.
  - apply RanNasCause_long.
  - apply CnOperatorSelectionEntity_long.
  - apply Twmi_long.
  - apply NodeNumber_long.
  - apply NodeIdentifier_long.
  - apply PresenceReportingAreaAction_long.
  - apply PresenceReportingAreaInformation_long.
  - apply TwanIdTimeStamp_long.
  - apply OverloadControlInfo_long.
  - apply LoadControl_long.
  - apply Metric_long.
  - apply Sqn_long.
  - apply ApnRelativeCapacity_long.
  - apply WlanOffloadIndication_long.
  - apply PagingServiceInfo_long.
  - apply IntegerNumber_long.
  - apply MilliSecondTimeStamp_long.
  - apply MonitoringEventInformation_long.
  - apply EcgiList_long.
  - apply RemoteUeContext_long.
  - apply RemoteUserId_long.
  - apply RemoteUeIpInformation_long.
  - apply CIoTOptimizationSupportIndication_long.
  - apply ScefPdnConnections_long.
  - apply HeaderCompressionConfiguration_long.
  - apply Epco_long.
  - apply ServingPlmnRateControl_long.
  - apply Counter_long.
  - apply MappedUeUsageType_long.
  - apply SecondaryRatUsageDataReport_long.
  - apply UpFunctionSelectionIndicationFlags_long.
  - apply MaxPacketLossRate_long.
  - apply ApnRateControlStatus_long.
  - apply ExtendedTraceInformation_long.
  - apply MonitoringEventExtensionInfo_long.
  - apply AdditionalRrmPolicyIndex_long.
  - apply V2xInformation_long.
  - apply PC5QosParameters_long.
  - apply ServicesAuthorized_long.
  - apply BitRate_long.
  - apply PC5QosFlow_long.
  - apply SgiPtpTunnelAddress_long.
  - apply PgwChangeInfo_long.
  - apply PgwFqdn_long.
  - apply GroupId_long.
  - apply PSCellId_long.
  - apply UpSecurityPolicy_long.
  - apply AlternativeImsi_long.
  - apply SpecialIEWithTypeExt_long.
  - apply PrivateExtension_long.
  - apply lift_long, Unknown_long.
Qed.
