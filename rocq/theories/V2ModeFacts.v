(* V2ModeFacts.v - the GTPv2-C decoders in debug and release builds. *)
From Verif Require Import BaseFacts ModeFacts V2Base V2Decoder V2Msg.
Local Open Scope N_scope.

Lemma check2_same m l b : refines (check_tliv_ie_buffer Debug l b) (check_tliv_ie_buffer m l b).
Proof. unfold check_tliv_ie_buffer. same. Qed.
Lemma checked_same {A} m l b e (k k' : res A) : refines k k' -> refines (checked Debug l b e k) (checked m l b e k').
Proof. intros H. unfold checked. apply refines_bind; [apply check2_same|]. intros []; [exact H|apply refines_refl]. Qed.
Lemma end16_same m l k : refines (end16 Debug l k) (end16 m l k).
Proof. unfold end16. same. Qed.
Lemma len_u16_same {A} m (x : Tliv A) : refines (len_u16 Debug x) (len_u16 m x).
Proof. unfold len_u16. same. Qed.
Lemma need_same {A} b n e (k k' : res A) : refines k k' -> refines (need b n e k) (need b n e k').
Proof. intros H. unfold need. destruct (_ <=? _)%nat; [exact H|apply refines_refl]. Qed.
Lemma hdr4_same {A} b (k k' : N -> N -> res A) : (forall l i, refines (k l i) (k' l i)) -> refines (hdr4 b k) (hdr4 b k').
Proof. intros H. unfold hdr4. same. apply H. Qed.
Ltac same2 := repeat first
  [ progress same
  | apply checked_same | apply check2_same | apply end16_same | apply len_u16_same | apply need_same | apply hdr4_same
  | match goal with |- refines (let x := _ in _) _ => cbv zeta end ].

Lemma AbsoluteTimeMbmsDataTransfer_unmarshal_same m b : refines (AbsoluteTimeMbmsDataTransfer_unmarshal Debug b) (AbsoluteTimeMbmsDataTransfer_unmarshal m b).
Proof. unfold AbsoluteTimeMbmsDataTransfer_unmarshal. same2. Qed.
Lemma AbsoluteTimeMbmsDataTransfer_len_same m x : refines (AbsoluteTimeMbmsDataTransfer_len Debug x) (AbsoluteTimeMbmsDataTransfer_len m x).
Proof. unfold AbsoluteTimeMbmsDataTransfer_len. same2. Qed.
Lemma ActionIndication_unmarshal_same m b : refines (ActionIndication_unmarshal Debug b) (ActionIndication_unmarshal m b).
Proof. unfold ActionIndication_unmarshal. same2. Qed.
Lemma ActionIndication_len_same m x : refines (ActionIndication_len Debug x) (ActionIndication_len m x).
Proof. unfold ActionIndication_len. same2. Qed.
Lemma AdditionalFlagsSrvcc_unmarshal_same m b : refines (AdditionalFlagsSrvcc_unmarshal Debug b) (AdditionalFlagsSrvcc_unmarshal m b).
Proof. unfold AdditionalFlagsSrvcc_unmarshal. same2. Qed.
Lemma AdditionalFlagsSrvcc_len_same m x : refines (AdditionalFlagsSrvcc_len Debug x) (AdditionalFlagsSrvcc_len m x).
Proof. unfold AdditionalFlagsSrvcc_len. same2. Qed.
Lemma AdditionalMmContextForSrvcc_unmarshal_same m b : refines (AdditionalMmContextForSrvcc_unmarshal Debug b) (AdditionalMmContextForSrvcc_unmarshal m b).
Proof. unfold AdditionalMmContextForSrvcc_unmarshal. same2. Qed.
Lemma AdditionalMmContextForSrvcc_len_same m x : refines (AdditionalMmContextForSrvcc_len Debug x) (AdditionalMmContextForSrvcc_len m x).
Proof. unfold AdditionalMmContextForSrvcc_len. same2. Qed.
Lemma AlternativeImsi_unmarshal_same m b : refines (AlternativeImsi_unmarshal Debug b) (AlternativeImsi_unmarshal m b).
Proof. unfold AlternativeImsi_unmarshal. same2. Qed.
Lemma AlternativeImsi_len_same m x : refines (AlternativeImsi_len Debug x) (AlternativeImsi_len m x).
Proof. unfold AlternativeImsi_len. same2. Qed.
Lemma Ambr_unmarshal_same m b : refines (Ambr_unmarshal Debug b) (Ambr_unmarshal m b).
Proof. unfold Ambr_unmarshal. same2. Qed.
Lemma Ambr_len_same m x : refines (Ambr_len Debug x) (Ambr_len m x).
Proof. unfold Ambr_len. same2. Qed.
Lemma Apco_unmarshal_same m b : refines (Apco_unmarshal Debug b) (Apco_unmarshal m b).
Proof. unfold Apco_unmarshal. same2. Qed.
Lemma Apco_len_same m x : refines (Apco_len Debug x) (Apco_len m x).
Proof. unfold Apco_len. same2. Qed.
Lemma Apn_unmarshal_same m b : refines (Apn_unmarshal Debug b) (Apn_unmarshal m b).
Proof. unfold Apn_unmarshal. same2. Qed.
Lemma Apn_len_same m x : refines (Apn_len Debug x) (Apn_len m x).
Proof. unfold Apn_len. same2. Qed.
Lemma ApnRateControlStatus_unmarshal_same m b : refines (ApnRateControlStatus_unmarshal Debug b) (ApnRateControlStatus_unmarshal m b).
Proof. unfold ApnRateControlStatus_unmarshal. same2. Qed.
Lemma ApnRateControlStatus_len_same m x : refines (ApnRateControlStatus_len Debug x) (ApnRateControlStatus_len m x).
Proof. unfold ApnRateControlStatus_len. same2. Qed.
Lemma ApnRelativeCapacity_unmarshal_same m b : refines (ApnRelativeCapacity_unmarshal Debug b) (ApnRelativeCapacity_unmarshal m b).
Proof. unfold ApnRelativeCapacity_unmarshal. same2. Qed.
Lemma ApnRelativeCapacity_len_same m x : refines (ApnRelativeCapacity_len Debug x) (ApnRelativeCapacity_len m x).
Proof. unfold ApnRelativeCapacity_len. same2. Qed.
Lemma ApnRestriction_unmarshal_same m b : refines (ApnRestriction_unmarshal Debug b) (ApnRestriction_unmarshal m b).
Proof. unfold ApnRestriction_unmarshal. same2. Qed.
Lemma ApnRestriction_len_same m x : refines (ApnRestriction_len Debug x) (ApnRestriction_len m x).
Proof. unfold ApnRestriction_len. same2. Qed.
Lemma Arp_unmarshal_same m b : refines (Arp_unmarshal Debug b) (Arp_unmarshal m b).
Proof. unfold Arp_unmarshal. same2. Qed.
Lemma Arp_len_same m x : refines (Arp_len Debug x) (Arp_len m x).
Proof. unfold Arp_len. same2. Qed.
Lemma AdditionalRrmPolicyIndex_unmarshal_same m b : refines (AdditionalRrmPolicyIndex_unmarshal Debug b) (AdditionalRrmPolicyIndex_unmarshal m b).
Proof. unfold AdditionalRrmPolicyIndex_unmarshal. same2. Qed.
Lemma AdditionalRrmPolicyIndex_len_same m x : refines (AdditionalRrmPolicyIndex_len Debug x) (AdditionalRrmPolicyIndex_len m x).
Proof. unfold AdditionalRrmPolicyIndex_len. same2. Qed.
Lemma BearerFlags_unmarshal_same m b : refines (BearerFlags_unmarshal Debug b) (BearerFlags_unmarshal m b).
Proof. unfold BearerFlags_unmarshal. same2. Qed.
Lemma BearerFlags_len_same m x : refines (BearerFlags_len Debug x) (BearerFlags_len m x).
Proof. unfold BearerFlags_len. same2. Qed.
Lemma BearerQos_unmarshal_same m b : refines (BearerQos_unmarshal Debug b) (BearerQos_unmarshal m b).
Proof. unfold BearerQos_unmarshal. same2. Qed.
Lemma BearerQos_len_same m x : refines (BearerQos_len Debug x) (BearerQos_len m x).
Proof. unfold BearerQos_len. same2. Qed.
Lemma BearerTft_unmarshal_same m b : refines (BearerTft_unmarshal Debug b) (BearerTft_unmarshal m b).
Proof. unfold BearerTft_unmarshal. same2. Qed.
Lemma BearerTft_len_same m x : refines (BearerTft_len Debug x) (BearerTft_len m x).
Proof. unfold BearerTft_len. same2. Qed.
Lemma BitRate_unmarshal_same m b : refines (BitRate_unmarshal Debug b) (BitRate_unmarshal m b).
Proof. unfold BitRate_unmarshal. same2. Qed.
Lemma BitRate_len_same m x : refines (BitRate_len Debug x) (BitRate_len m x).
Proof. unfold BitRate_len. same2. Qed.
Lemma Cause_unmarshal_same m b : refines (Cause_unmarshal Debug b) (Cause_unmarshal m b).
Proof. unfold Cause_unmarshal. same2. Qed.
Lemma Cause_len_same m x : refines (Cause_len Debug x) (Cause_len m x).
Proof. unfold Cause_len. same2. Qed.
Lemma ChangeReportingAction_unmarshal_same m b : refines (ChangeReportingAction_unmarshal Debug b) (ChangeReportingAction_unmarshal m b).
Proof. unfold ChangeReportingAction_unmarshal. same2. Qed.
Lemma ChangeReportingAction_len_same m x : refines (ChangeReportingAction_len Debug x) (ChangeReportingAction_len m x).
Proof. unfold ChangeReportingAction_len. same2. Qed.
Lemma ChangeToReportFlags_unmarshal_same m b : refines (ChangeToReportFlags_unmarshal Debug b) (ChangeToReportFlags_unmarshal m b).
Proof. unfold ChangeToReportFlags_unmarshal. same2. Qed.
Lemma ChangeToReportFlags_len_same m x : refines (ChangeToReportFlags_len Debug x) (ChangeToReportFlags_len m x).
Proof. unfold ChangeToReportFlags_len. same2. Qed.
Lemma ChannelNeeded_unmarshal_same m b : refines (ChannelNeeded_unmarshal Debug b) (ChannelNeeded_unmarshal m b).
Proof. unfold ChannelNeeded_unmarshal. same2. Qed.
Lemma ChannelNeeded_len_same m x : refines (ChannelNeeded_len Debug x) (ChannelNeeded_len m x).
Proof. unfold ChannelNeeded_len. same2. Qed.
Lemma ChargingCharacteristics_unmarshal_same m b : refines (ChargingCharacteristics_unmarshal Debug b) (ChargingCharacteristics_unmarshal m b).
Proof. unfold ChargingCharacteristics_unmarshal. same2. Qed.
Lemma ChargingCharacteristics_len_same m x : refines (ChargingCharacteristics_len Debug x) (ChargingCharacteristics_len m x).
Proof. unfold ChargingCharacteristics_len. same2. Qed.
Lemma ChargingId_unmarshal_same m b : refines (ChargingId_unmarshal Debug b) (ChargingId_unmarshal m b).
Proof. unfold ChargingId_unmarshal. same2. Qed.
Lemma ChargingId_len_same m x : refines (ChargingId_len Debug x) (ChargingId_len m x).
Proof. unfold ChargingId_len. same2. Qed.
Lemma CIoTOptimizationSupportIndication_unmarshal_same m b : refines (CIoTOptimizationSupportIndication_unmarshal Debug b) (CIoTOptimizationSupportIndication_unmarshal m b).
Proof. unfold CIoTOptimizationSupportIndication_unmarshal. same2. Qed.
Lemma CIoTOptimizationSupportIndication_len_same m x : refines (CIoTOptimizationSupportIndication_len Debug x) (CIoTOptimizationSupportIndication_len m x).
Proof. unfold CIoTOptimizationSupportIndication_len. same2. Qed.
Lemma CsgMembershipIndication_unmarshal_same m b : refines (CsgMembershipIndication_unmarshal Debug b) (CsgMembershipIndication_unmarshal m b).
Proof. unfold CsgMembershipIndication_unmarshal. same2. Qed.
Lemma CsgMembershipIndication_len_same m x : refines (CsgMembershipIndication_len Debug x) (CsgMembershipIndication_len m x).
Proof. unfold CsgMembershipIndication_len. same2. Qed.
Lemma CnOperatorSelectionEntity_unmarshal_same m b : refines (CnOperatorSelectionEntity_unmarshal Debug b) (CnOperatorSelectionEntity_unmarshal m b).
Proof. unfold CnOperatorSelectionEntity_unmarshal. same2. Qed.
Lemma CnOperatorSelectionEntity_len_same m x : refines (CnOperatorSelectionEntity_len Debug x) (CnOperatorSelectionEntity_len m x).
Proof. unfold CnOperatorSelectionEntity_len. same2. Qed.
Lemma CompleteRequestMessage_unmarshal_same m b : refines (CompleteRequestMessage_unmarshal Debug b) (CompleteRequestMessage_unmarshal m b).
Proof. unfold CompleteRequestMessage_unmarshal. same2. Qed.
Lemma CompleteRequestMessage_len_same m x : refines (CompleteRequestMessage_len Debug x) (CompleteRequestMessage_len m x).
Proof. unfold CompleteRequestMessage_len. same2. Qed.
Lemma Counter_unmarshal_same m b : refines (Counter_unmarshal Debug b) (Counter_unmarshal m b).
Proof. unfold Counter_unmarshal. same2. Qed.
Lemma Counter_len_same m x : refines (Counter_len Debug x) (Counter_len m x).
Proof. unfold Counter_len. same2. Qed.
Lemma CsgId_unmarshal_same m b : refines (CsgId_unmarshal Debug b) (CsgId_unmarshal m b).
Proof. unfold CsgId_unmarshal. same2. Qed.
Lemma CsgId_len_same m x : refines (CsgId_len Debug x) (CsgId_len m x).
Proof. unfold CsgId_len. same2. Qed.
Lemma CSGInformationReportingAction_unmarshal_same m b : refines (CSGInformationReportingAction_unmarshal Debug b) (CSGInformationReportingAction_unmarshal m b).
Proof. unfold CSGInformationReportingAction_unmarshal. same2. Qed.
Lemma CSGInformationReportingAction_len_same m x : refines (CSGInformationReportingAction_len Debug x) (CSGInformationReportingAction_len m x).
Proof. unfold CSGInformationReportingAction_len. same2. Qed.
Lemma DelayValue_unmarshal_same m b : refines (DelayValue_unmarshal Debug b) (DelayValue_unmarshal m b).
Proof. unfold DelayValue_unmarshal. same2. Qed.
Lemma DelayValue_len_same m x : refines (DelayValue_len Debug x) (DelayValue_len m x).
Proof. unfold DelayValue_len. same2. Qed.
Lemma DetachType_unmarshal_same m b : refines (DetachType_unmarshal Debug b) (DetachType_unmarshal m b).
Proof. unfold DetachType_unmarshal. same2. Qed.
Lemma DetachType_len_same m x : refines (DetachType_len Debug x) (DetachType_len m x).
Proof. unfold DetachType_len. same2. Qed.
Lemma Ebi_unmarshal_same m b : refines (Ebi_unmarshal Debug b) (Ebi_unmarshal m b).
Proof. unfold Ebi_unmarshal. same2. Qed.
Lemma Ebi_len_same m x : refines (Ebi_len Debug x) (Ebi_len m x).
Proof. unfold Ebi_len. same2. Qed.
Lemma EcgiList_unmarshal_same m b : refines (EcgiList_unmarshal Debug b) (EcgiList_unmarshal m b).
Proof. unfold EcgiList_unmarshal. same2. Qed.
Lemma EcgiList_len_same m x : refines (EcgiList_len Debug x) (EcgiList_len m x).
Proof. unfold EcgiList_len. same2. Qed.
Lemma EmlppPriority_unmarshal_same m b : refines (EmlppPriority_unmarshal Debug b) (EmlppPriority_unmarshal m b).
Proof. unfold EmlppPriority_unmarshal. same2. Qed.
Lemma EmlppPriority_len_same m x : refines (EmlppPriority_len Debug x) (EmlppPriority_len m x).
Proof. unfold EmlppPriority_len. same2. Qed.
Lemma Epco_unmarshal_same m b : refines (Epco_unmarshal Debug b) (Epco_unmarshal m b).
Proof. unfold Epco_unmarshal. same2. Qed.
Lemma Epco_len_same m x : refines (Epco_len Debug x) (Epco_len m x).
Proof. unfold Epco_len. same2. Qed.
Lemma EpcTimer_unmarshal_same m b : refines (EpcTimer_unmarshal Debug b) (EpcTimer_unmarshal m b).
Proof. unfold EpcTimer_unmarshal. same2. Qed.
Lemma EpcTimer_len_same m x : refines (EpcTimer_len Debug x) (EpcTimer_len m x).
Proof. unfold EpcTimer_len. same2. Qed.
Lemma ExtendedTraceInformation_unmarshal_same m b : refines (ExtendedTraceInformation_unmarshal Debug b) (ExtendedTraceInformation_unmarshal m b).
Proof. unfold ExtendedTraceInformation_unmarshal. same2. Qed.
Lemma ExtendedTraceInformation_len_same m x : refines (ExtendedTraceInformation_len Debug x) (ExtendedTraceInformation_len m x).
Proof. unfold ExtendedTraceInformation_len. same2. Qed.
Lemma Fcause_unmarshal_same m b : refines (Fcause_unmarshal Debug b) (Fcause_unmarshal m b).
Proof. unfold Fcause_unmarshal. same2. Qed.
Lemma Fcause_len_same m x : refines (Fcause_len Debug x) (Fcause_len m x).
Proof. unfold Fcause_len. same2. Qed.
Lemma Fcontainer_unmarshal_same m b : refines (Fcontainer_unmarshal Debug b) (Fcontainer_unmarshal m b).
Proof. unfold Fcontainer_unmarshal. same2. Qed.
Lemma Fcontainer_len_same m x : refines (Fcontainer_len Debug x) (Fcontainer_len m x).
Proof. unfold Fcontainer_len. same2. Qed.
Lemma FlowQos_unmarshal_same m b : refines (FlowQos_unmarshal Debug b) (FlowQos_unmarshal m b).
Proof. unfold FlowQos_unmarshal. same2. Qed.
Lemma FlowQos_len_same m x : refines (FlowQos_len Debug x) (FlowQos_len m x).
Proof. unfold FlowQos_len. same2. Qed.
Lemma Fqcsid_unmarshal_same m b : refines (Fqcsid_unmarshal Debug b) (Fqcsid_unmarshal m b).
Proof. unfold Fqcsid_unmarshal. same2. Qed.
Lemma Fqcsid_len_same m x : refines (Fqcsid_len Debug x) (Fqcsid_len m x).
Proof. unfold Fqcsid_len. same2. Qed.
Lemma Fqdn_unmarshal_same m b : refines (Fqdn_unmarshal Debug b) (Fqdn_unmarshal m b).
Proof. unfold Fqdn_unmarshal. same2. Qed.
Lemma Fqdn_len_same m x : refines (Fqdn_len Debug x) (Fqdn_len m x).
Proof. unfold Fqdn_len. same2. Qed.
Lemma Fteid_unmarshal_same m b : refines (Fteid_unmarshal Debug b) (Fteid_unmarshal m b).
Proof. unfold Fteid_unmarshal. same2. Qed.
Lemma Fteid_len_same m x : refines (Fteid_len Debug x) (Fteid_len m x).
Proof. unfold Fteid_len. same2. Qed.
Lemma GlobalCnId_unmarshal_same m b : refines (GlobalCnId_unmarshal Debug b) (GlobalCnId_unmarshal m b).
Proof. unfold GlobalCnId_unmarshal. same2. Qed.
Lemma GlobalCnId_len_same m x : refines (GlobalCnId_len Debug x) (GlobalCnId_len m x).
Proof. unfold GlobalCnId_len. same2. Qed.
Lemma GroupId_unmarshal_same m b : refines (GroupId_unmarshal Debug b) (GroupId_unmarshal m b).
Proof. unfold GroupId_unmarshal. same2. Qed.
Lemma GroupId_len_same m x : refines (GroupId_len Debug x) (GroupId_len m x).
Proof. unfold GroupId_len. same2. Qed.
Lemma Guti_unmarshal_same m b : refines (Guti_unmarshal Debug b) (Guti_unmarshal m b).
Proof. unfold Guti_unmarshal. same2. Qed.
Lemma Guti_len_same m x : refines (Guti_len Debug x) (Guti_len m x).
Proof. unfold Guti_len. same2. Qed.
Lemma HeaderCompressionConfiguration_unmarshal_same m b : refines (HeaderCompressionConfiguration_unmarshal Debug b) (HeaderCompressionConfiguration_unmarshal m b).
Proof. unfold HeaderCompressionConfiguration_unmarshal. same2. Qed.
Lemma HeaderCompressionConfiguration_len_same m x : refines (HeaderCompressionConfiguration_len Debug x) (HeaderCompressionConfiguration_len m x).
Proof. unfold HeaderCompressionConfiguration_len. same2. Qed.
Lemma HenbInfoReporting_unmarshal_same m b : refines (HenbInfoReporting_unmarshal Debug b) (HenbInfoReporting_unmarshal m b).
Proof. unfold HenbInfoReporting_unmarshal. same2. Qed.
Lemma HenbInfoReporting_len_same m x : refines (HenbInfoReporting_len Debug x) (HenbInfoReporting_len m x).
Proof. unfold HenbInfoReporting_len. same2. Qed.
Lemma HopCounter_unmarshal_same m b : refines (HopCounter_unmarshal Debug b) (HopCounter_unmarshal m b).
Proof. unfold HopCounter_unmarshal. same2. Qed.
Lemma HopCounter_len_same m x : refines (HopCounter_len Debug x) (HopCounter_len m x).
Proof. unfold HopCounter_len. same2. Qed.
Lemma Imsi_unmarshal_same m b : refines (Imsi_unmarshal Debug b) (Imsi_unmarshal m b).
Proof. unfold Imsi_unmarshal. same2. Qed.
Lemma Imsi_len_same m x : refines (Imsi_len Debug x) (Imsi_len m x).
Proof. unfold Imsi_len. same2. Qed.
Lemma Indication_unmarshal_same m b : refines (Indication_unmarshal Debug b) (Indication_unmarshal m b).
Proof. unfold Indication_unmarshal. same2. Qed.
Lemma Indication_len_same m x : refines (Indication_len Debug x) (Indication_len m x).
Proof. unfold Indication_len. same2. Qed.
Lemma IntegerNumber_unmarshal_same m b : refines (IntegerNumber_unmarshal Debug b) (IntegerNumber_unmarshal m b).
Proof. unfold IntegerNumber_unmarshal. same2. Qed.
Lemma IntegerNumber_len_same m x : refines (IntegerNumber_len Debug x) (IntegerNumber_len m x).
Proof. unfold IntegerNumber_len. same2. Qed.
Lemma Ip4Cp_unmarshal_same m b : refines (Ip4Cp_unmarshal Debug b) (Ip4Cp_unmarshal m b).
Proof. unfold Ip4Cp_unmarshal. same2. Qed.
Lemma Ip4Cp_len_same m x : refines (Ip4Cp_len Debug x) (Ip4Cp_len m x).
Proof. unfold Ip4Cp_len. same2. Qed.
Lemma IpAddress_unmarshal_same m b : refines (IpAddress_unmarshal Debug b) (IpAddress_unmarshal m b).
Proof. unfold IpAddress_unmarshal. same2. Qed.
Lemma IpAddress_len_same m x : refines (IpAddress_len Debug x) (IpAddress_len m x).
Proof. unfold IpAddress_len. same2. Qed.
Lemma Ldn_unmarshal_same m b : refines (Ldn_unmarshal Debug b) (Ldn_unmarshal m b).
Proof. unfold Ldn_unmarshal. same2. Qed.
Lemma Ldn_len_same m x : refines (Ldn_len Debug x) (Ldn_len m x).
Proof. unfold Ldn_len. same2. Qed.
Lemma MaxPacketLossRate_unmarshal_same m b : refines (MaxPacketLossRate_unmarshal Debug b) (MaxPacketLossRate_unmarshal m b).
Proof. unfold MaxPacketLossRate_unmarshal. same2. Qed.
Lemma MaxPacketLossRate_len_same m x : refines (MaxPacketLossRate_len Debug x) (MaxPacketLossRate_len m x).
Proof. unfold MaxPacketLossRate_len. same2. Qed.
Lemma MbmsDistributionAck_unmarshal_same m b : refines (MbmsDistributionAck_unmarshal Debug b) (MbmsDistributionAck_unmarshal m b).
Proof. unfold MbmsDistributionAck_unmarshal. same2. Qed.
Lemma MbmsDistributionAck_len_same m x : refines (MbmsDistributionAck_len Debug x) (MbmsDistributionAck_len m x).
Proof. unfold MbmsDistributionAck_len. same2. Qed.
Lemma MbmsFlags_unmarshal_same m b : refines (MbmsFlags_unmarshal Debug b) (MbmsFlags_unmarshal m b).
Proof. unfold MbmsFlags_unmarshal. same2. Qed.
Lemma MbmsFlags_len_same m x : refines (MbmsFlags_len Debug x) (MbmsFlags_len m x).
Proof. unfold MbmsFlags_len. same2. Qed.
Lemma MbmsFlowId_unmarshal_same m b : refines (MbmsFlowId_unmarshal Debug b) (MbmsFlowId_unmarshal m b).
Proof. unfold MbmsFlowId_unmarshal. same2. Qed.
Lemma MbmsFlowId_len_same m x : refines (MbmsFlowId_len Debug x) (MbmsFlowId_len m x).
Proof. unfold MbmsFlowId_len. same2. Qed.
Lemma MbmsIpMulticastDistribution_unmarshal_same m b : refines (MbmsIpMulticastDistribution_unmarshal Debug b) (MbmsIpMulticastDistribution_unmarshal m b).
Proof. unfold MbmsIpMulticastDistribution_unmarshal. same2. Qed.
Lemma MbmsIpMulticastDistribution_len_same m x : refines (MbmsIpMulticastDistribution_len Debug x) (MbmsIpMulticastDistribution_len m x).
Proof. unfold MbmsIpMulticastDistribution_len. same2. Qed.
Lemma MbmsServiceArea_unmarshal_same m b : refines (MbmsServiceArea_unmarshal Debug b) (MbmsServiceArea_unmarshal m b).
Proof. unfold MbmsServiceArea_unmarshal. same2. Qed.
Lemma MbmsServiceArea_len_same m x : refines (MbmsServiceArea_len Debug x) (MbmsServiceArea_len m x).
Proof. unfold MbmsServiceArea_len. same2. Qed.
Lemma MbmsSessionDuration_unmarshal_same m b : refines (MbmsSessionDuration_unmarshal Debug b) (MbmsSessionDuration_unmarshal m b).
Proof. unfold MbmsSessionDuration_unmarshal. same2. Qed.
Lemma MbmsSessionDuration_len_same m x : refines (MbmsSessionDuration_len Debug x) (MbmsSessionDuration_len m x).
Proof. unfold MbmsSessionDuration_len. same2. Qed.
Lemma MbmsSessionId_unmarshal_same m b : refines (MbmsSessionId_unmarshal Debug b) (MbmsSessionId_unmarshal m b).
Proof. unfold MbmsSessionId_unmarshal. same2. Qed.
Lemma MbmsSessionId_len_same m x : refines (MbmsSessionId_len Debug x) (MbmsSessionId_len m x).
Proof. unfold MbmsSessionId_len. same2. Qed.
Lemma MbmsTimeToDataTransfer_unmarshal_same m b : refines (MbmsTimeToDataTransfer_unmarshal Debug b) (MbmsTimeToDataTransfer_unmarshal m b).
Proof. unfold MbmsTimeToDataTransfer_unmarshal. same2. Qed.
Lemma MbmsTimeToDataTransfer_len_same m x : refines (MbmsTimeToDataTransfer_len Debug x) (MbmsTimeToDataTransfer_len m x).
Proof. unfold MbmsTimeToDataTransfer_len. same2. Qed.
Lemma MdtConfiguration_unmarshal_same m b : refines (MdtConfiguration_unmarshal Debug b) (MdtConfiguration_unmarshal m b).
Proof. unfold MdtConfiguration_unmarshal. same2. Qed.
Lemma MdtConfiguration_len_same m x : refines (MdtConfiguration_len Debug x) (MdtConfiguration_len m x).
Proof. unfold MdtConfiguration_len. same2. Qed.
Lemma Mei_unmarshal_same m b : refines (Mei_unmarshal Debug b) (Mei_unmarshal m b).
Proof. unfold Mei_unmarshal. same2. Qed.
Lemma Mei_len_same m x : refines (Mei_len Debug x) (Mei_len m x).
Proof. unfold Mei_len. same2. Qed.
Lemma Metric_unmarshal_same m b : refines (Metric_unmarshal Debug b) (Metric_unmarshal m b).
Proof. unfold Metric_unmarshal. same2. Qed.
Lemma Metric_len_same m x : refines (Metric_len Debug x) (Metric_len m x).
Proof. unfold Metric_len. same2. Qed.
Lemma MilliSecondTimeStamp_unmarshal_same m b : refines (MilliSecondTimeStamp_unmarshal Debug b) (MilliSecondTimeStamp_unmarshal m b).
Proof. unfold MilliSecondTimeStamp_unmarshal. same2. Qed.
Lemma MilliSecondTimeStamp_len_same m x : refines (MilliSecondTimeStamp_len Debug x) (MilliSecondTimeStamp_len m x).
Proof. unfold MilliSecondTimeStamp_len. same2. Qed.
Lemma MmContextEpsSecurityContextQuadruplets_unmarshal_same m b : refines (MmContextEpsSecurityContextQuadruplets_unmarshal Debug b) (MmContextEpsSecurityContextQuadruplets_unmarshal m b).
Proof. unfold MmContextEpsSecurityContextQuadruplets_unmarshal. same2. Qed.
Lemma MmContextEpsSecurityContextQuadruplets_len_same m x : refines (MmContextEpsSecurityContextQuadruplets_len Debug x) (MmContextEpsSecurityContextQuadruplets_len m x).
Proof. unfold MmContextEpsSecurityContextQuadruplets_len. same2. Qed.
Lemma MmContextGsmKeyCipherQuintuplets_unmarshal_same m b : refines (MmContextGsmKeyCipherQuintuplets_unmarshal Debug b) (MmContextGsmKeyCipherQuintuplets_unmarshal m b).
Proof. unfold MmContextGsmKeyCipherQuintuplets_unmarshal. same2. Qed.
Lemma MmContextGsmKeyCipherQuintuplets_len_same m x : refines (MmContextGsmKeyCipherQuintuplets_len Debug x) (MmContextGsmKeyCipherQuintuplets_len m x).
Proof. unfold MmContextGsmKeyCipherQuintuplets_len. same2. Qed.
Lemma MmContextGsmKeyTriplets_unmarshal_same m b : refines (MmContextGsmKeyTriplets_unmarshal Debug b) (MmContextGsmKeyTriplets_unmarshal m b).
Proof. unfold MmContextGsmKeyTriplets_unmarshal. same2. Qed.
Lemma MmContextGsmKeyTriplets_len_same m x : refines (MmContextGsmKeyTriplets_len Debug x) (MmContextGsmKeyTriplets_len m x).
Proof. unfold MmContextGsmKeyTriplets_len. same2. Qed.
Lemma MmContextUmtsKeyCipherQuintuplets_unmarshal_same m b : refines (MmContextUmtsKeyCipherQuintuplets_unmarshal Debug b) (MmContextUmtsKeyCipherQuintuplets_unmarshal m b).
Proof. unfold MmContextUmtsKeyCipherQuintuplets_unmarshal. same2. Qed.
Lemma MmContextUmtsKeyCipherQuintuplets_len_same m x : refines (MmContextUmtsKeyCipherQuintuplets_len Debug x) (MmContextUmtsKeyCipherQuintuplets_len m x).
Proof. unfold MmContextUmtsKeyCipherQuintuplets_len. same2. Qed.
Lemma MmContextUmtsKeyQuadrupletsQuintuplets_unmarshal_same m b : refines (MmContextUmtsKeyQuadrupletsQuintuplets_unmarshal Debug b) (MmContextUmtsKeyQuadrupletsQuintuplets_unmarshal m b).
Proof. unfold MmContextUmtsKeyQuadrupletsQuintuplets_unmarshal. same2. Qed.
Lemma MmContextUmtsKeyQuadrupletsQuintuplets_len_same m x : refines (MmContextUmtsKeyQuadrupletsQuintuplets_len Debug x) (MmContextUmtsKeyQuadrupletsQuintuplets_len m x).
Proof. unfold MmContextUmtsKeyQuadrupletsQuintuplets_len. same2. Qed.
Lemma MmContextUmtsKeyQuintuplets_unmarshal_same m b : refines (MmContextUmtsKeyQuintuplets_unmarshal Debug b) (MmContextUmtsKeyQuintuplets_unmarshal m b).
Proof. unfold MmContextUmtsKeyQuintuplets_unmarshal. same2. Qed.
Lemma MmContextUmtsKeyQuintuplets_len_same m x : refines (MmContextUmtsKeyQuintuplets_len Debug x) (MmContextUmtsKeyQuintuplets_len m x).
Proof. unfold MmContextUmtsKeyQuintuplets_len. same2. Qed.
Lemma MmContext_unmarshal_same m b : refines (MmContext_unmarshal Debug b) (MmContext_unmarshal m b).
Proof. unfold MmContext_unmarshal. same2. Qed.
Lemma MmContext_len_same m x : refines (MmContext_len Debug x) (MmContext_len m x).
Proof. destruct x; apply refines_refl. Qed.
Lemma MonitoringEventExtensionInfo_unmarshal_same m b : refines (MonitoringEventExtensionInfo_unmarshal Debug b) (MonitoringEventExtensionInfo_unmarshal m b).
Proof. unfold MonitoringEventExtensionInfo_unmarshal. same2. Qed.
Lemma MonitoringEventExtensionInfo_len_same m x : refines (MonitoringEventExtensionInfo_len Debug x) (MonitoringEventExtensionInfo_len m x).
Proof. unfold MonitoringEventExtensionInfo_len. same2. Qed.
Lemma MonitoringEventInformation_unmarshal_same m b : refines (MonitoringEventInformation_unmarshal Debug b) (MonitoringEventInformation_unmarshal m b).
Proof. unfold MonitoringEventInformation_unmarshal. same2. Qed.
Lemma MonitoringEventInformation_len_same m x : refines (MonitoringEventInformation_len Debug x) (MonitoringEventInformation_len m x).
Proof. unfold MonitoringEventInformation_len. same2. Qed.
Lemma Msisdn_unmarshal_same m b : refines (Msisdn_unmarshal Debug b) (Msisdn_unmarshal m b).
Proof. unfold Msisdn_unmarshal. same2. Qed.
Lemma Msisdn_len_same m x : refines (Msisdn_len Debug x) (Msisdn_len m x).
Proof. unfold Msisdn_len. same2. Qed.
Lemma MappedUeUsageType_unmarshal_same m b : refines (MappedUeUsageType_unmarshal Debug b) (MappedUeUsageType_unmarshal m b).
Proof. unfold MappedUeUsageType_unmarshal. same2. Qed.
Lemma MappedUeUsageType_len_same m x : refines (MappedUeUsageType_len Debug x) (MappedUeUsageType_len m x).
Proof. unfold MappedUeUsageType_len. same2. Qed.
Lemma NodeFeatures_unmarshal_same m b : refines (NodeFeatures_unmarshal Debug b) (NodeFeatures_unmarshal m b).
Proof. unfold NodeFeatures_unmarshal. same2. Qed.
Lemma NodeFeatures_len_same m x : refines (NodeFeatures_len Debug x) (NodeFeatures_len m x).
Proof. unfold NodeFeatures_len. same2. Qed.
Lemma NodeIdentifier_unmarshal_same m b : refines (NodeIdentifier_unmarshal Debug b) (NodeIdentifier_unmarshal m b).
Proof. unfold NodeIdentifier_unmarshal. same2. Qed.
Lemma NodeIdentifier_len_same m x : refines (NodeIdentifier_len Debug x) (NodeIdentifier_len m x).
Proof. unfold NodeIdentifier_len. same2. Qed.
Lemma NodeNumber_unmarshal_same m b : refines (NodeNumber_unmarshal Debug b) (NodeNumber_unmarshal m b).
Proof. unfold NodeNumber_unmarshal. same2. Qed.
Lemma NodeNumber_len_same m x : refines (NodeNumber_len Debug x) (NodeNumber_len m x).
Proof. unfold NodeNumber_len. same2. Qed.
Lemma NodeType_unmarshal_same m b : refines (NodeType_unmarshal Debug b) (NodeType_unmarshal m b).
Proof. unfold NodeType_unmarshal. same2. Qed.
Lemma NodeType_len_same m x : refines (NodeType_len Debug x) (NodeType_len m x).
Proof. unfold NodeType_len. same2. Qed.
Lemma PdnAddressAllocation_unmarshal_same m b : refines (PdnAddressAllocation_unmarshal Debug b) (PdnAddressAllocation_unmarshal m b).
Proof. unfold PdnAddressAllocation_unmarshal. same2. Qed.
Lemma PdnAddressAllocation_len_same m x : refines (PdnAddressAllocation_len Debug x) (PdnAddressAllocation_len m x).
Proof. unfold PdnAddressAllocation_len. same2. Qed.
Lemma PacketFlowId_unmarshal_same m b : refines (PacketFlowId_unmarshal Debug b) (PacketFlowId_unmarshal m b).
Proof. unfold PacketFlowId_unmarshal. same2. Qed.
Lemma PacketFlowId_len_same m x : refines (PacketFlowId_len Debug x) (PacketFlowId_len m x).
Proof. unfold PacketFlowId_len. same2. Qed.
Lemma PagingServiceInfo_unmarshal_same m b : refines (PagingServiceInfo_unmarshal Debug b) (PagingServiceInfo_unmarshal m b).
Proof. unfold PagingServiceInfo_unmarshal. same2. Qed.
Lemma PagingServiceInfo_len_same m x : refines (PagingServiceInfo_len Debug x) (PagingServiceInfo_len m x).
Proof. unfold PagingServiceInfo_len. same2. Qed.
Lemma PC5QosFlow_unmarshal_same m b : refines (PC5QosFlow_unmarshal Debug b) (PC5QosFlow_unmarshal m b).
Proof. unfold PC5QosFlow_unmarshal. same2. Qed.
Lemma PC5QosFlow_len_same m x : refines (PC5QosFlow_len Debug x) (PC5QosFlow_len m x).
Proof. unfold PC5QosFlow_len. same2. Qed.
Lemma Pco_unmarshal_same m b : refines (Pco_unmarshal Debug b) (Pco_unmarshal m b).
Proof. unfold Pco_unmarshal. same2. Qed.
Lemma Pco_len_same m x : refines (Pco_len Debug x) (Pco_len m x).
Proof. unfold Pco_len. same2. Qed.
Lemma PdnType_unmarshal_same m b : refines (PdnType_unmarshal Debug b) (PdnType_unmarshal m b).
Proof. unfold PdnType_unmarshal. same2. Qed.
Lemma PdnType_len_same m x : refines (PdnType_len Debug x) (PdnType_len m x).
Proof. unfold PdnType_len. same2. Qed.
Lemma PduNumbers_unmarshal_same m b : refines (PduNumbers_unmarshal Debug b) (PduNumbers_unmarshal m b).
Proof. unfold PduNumbers_unmarshal. same2. Qed.
Lemma PduNumbers_len_same m x : refines (PduNumbers_len Debug x) (PduNumbers_len m x).
Proof. unfold PduNumbers_len. same2. Qed.
Lemma PgwFqdn_unmarshal_same m b : refines (PgwFqdn_unmarshal Debug b) (PgwFqdn_unmarshal m b).
Proof. unfold PgwFqdn_unmarshal. same2. Qed.
Lemma PgwFqdn_len_same m x : refines (PgwFqdn_len Debug x) (PgwFqdn_len m x).
Proof. unfold PgwFqdn_len. same2. Qed.
Lemma PlmnId_unmarshal_same m b : refines (PlmnId_unmarshal Debug b) (PlmnId_unmarshal m b).
Proof. unfold PlmnId_unmarshal. same2. Qed.
Lemma PlmnId_len_same m x : refines (PlmnId_len Debug x) (PlmnId_len m x).
Proof. unfold PlmnId_len. same2. Qed.
Lemma PortNumber_unmarshal_same m b : refines (PortNumber_unmarshal Debug b) (PortNumber_unmarshal m b).
Proof. unfold PortNumber_unmarshal. same2. Qed.
Lemma PortNumber_len_same m x : refines (PortNumber_len Debug x) (PortNumber_len m x).
Proof. unfold PortNumber_len. same2. Qed.
Lemma PresenceReportingAreaAction_unmarshal_same m b : refines (PresenceReportingAreaAction_unmarshal Debug b) (PresenceReportingAreaAction_unmarshal m b).
Proof. unfold PresenceReportingAreaAction_unmarshal. same2. Qed.
Lemma PresenceReportingAreaAction_len_same m x : refines (PresenceReportingAreaAction_len Debug x) (PresenceReportingAreaAction_len m x).
Proof. unfold PresenceReportingAreaAction_len. same2. Qed.
Lemma PresenceReportingAreaInformation_unmarshal_same m b : refines (PresenceReportingAreaInformation_unmarshal Debug b) (PresenceReportingAreaInformation_unmarshal m b).
Proof. unfold PresenceReportingAreaInformation_unmarshal. same2. Qed.
Lemma PresenceReportingAreaInformation_len_same m x : refines (PresenceReportingAreaInformation_len Debug x) (PresenceReportingAreaInformation_len m x).
Proof. unfold PresenceReportingAreaInformation_len. same2. Qed.
Lemma PrivateExtension_unmarshal_same m b : refines (PrivateExtension_unmarshal Debug b) (PrivateExtension_unmarshal m b).
Proof. unfold PrivateExtension_unmarshal. same2. Qed.
Lemma PrivateExtension_len_same m x : refines (PrivateExtension_len Debug x) (PrivateExtension_len m x).
Proof. unfold PrivateExtension_len. same2. Qed.
Lemma PSCellId_unmarshal_same m b : refines (PSCellId_unmarshal Debug b) (PSCellId_unmarshal m b).
Proof. unfold PSCellId_unmarshal. same2. Qed.
Lemma PSCellId_len_same m x : refines (PSCellId_len Debug x) (PSCellId_len m x).
Proof. unfold PSCellId_len. same2. Qed.
Lemma Pti_unmarshal_same m b : refines (Pti_unmarshal Debug b) (Pti_unmarshal m b).
Proof. unfold Pti_unmarshal. same2. Qed.
Lemma Pti_len_same m x : refines (Pti_len Debug x) (Pti_len m x).
Proof. unfold Pti_len. same2. Qed.
Lemma Ptmsi_unmarshal_same m b : refines (Ptmsi_unmarshal Debug b) (Ptmsi_unmarshal m b).
Proof. unfold Ptmsi_unmarshal. same2. Qed.
Lemma Ptmsi_len_same m x : refines (Ptmsi_len Debug x) (Ptmsi_len m x).
Proof. unfold Ptmsi_len. same2. Qed.
Lemma PtmsiSignature_unmarshal_same m b : refines (PtmsiSignature_unmarshal Debug b) (PtmsiSignature_unmarshal m b).
Proof. unfold PtmsiSignature_unmarshal. same2. Qed.
Lemma PtmsiSignature_len_same m x : refines (PtmsiSignature_len Debug x) (PtmsiSignature_len m x).
Proof. unfold PtmsiSignature_len. same2. Qed.
Lemma RabContext_unmarshal_same m b : refines (RabContext_unmarshal Debug b) (RabContext_unmarshal m b).
Proof. unfold RabContext_unmarshal. same2. Qed.
Lemma RabContext_len_same m x : refines (RabContext_len Debug x) (RabContext_len m x).
Proof. unfold RabContext_len. same2. Qed.
Lemma RanNasCause_unmarshal_same m b : refines (RanNasCause_unmarshal Debug b) (RanNasCause_unmarshal m b).
Proof. unfold RanNasCause_unmarshal. same2. Qed.
Lemma RanNasCause_len_same m x : refines (RanNasCause_len Debug x) (RanNasCause_len m x).
Proof. unfold RanNasCause_len. same2. Qed.
Lemma RatType_unmarshal_same m b : refines (RatType_unmarshal Debug b) (RatType_unmarshal m b).
Proof. unfold RatType_unmarshal. same2. Qed.
Lemma RatType_len_same m x : refines (RatType_len Debug x) (RatType_len m x).
Proof. unfold RatType_len. same2. Qed.
Lemma Recovery_unmarshal_same m b : refines (Recovery_unmarshal Debug b) (Recovery_unmarshal m b).
Proof. unfold Recovery_unmarshal. same2. Qed.
Lemma Recovery_len_same m x : refines (Recovery_len Debug x) (Recovery_len m x).
Proof. unfold Recovery_len. same2. Qed.
Lemma RemoteUeIpInformation_unmarshal_same m b : refines (RemoteUeIpInformation_unmarshal Debug b) (RemoteUeIpInformation_unmarshal m b).
Proof. unfold RemoteUeIpInformation_unmarshal. same2. Qed.
Lemma RemoteUeIpInformation_len_same m x : refines (RemoteUeIpInformation_len Debug x) (RemoteUeIpInformation_len m x).
Proof. unfold RemoteUeIpInformation_len. same2. Qed.
Lemma RemoteUserId_unmarshal_same m b : refines (RemoteUserId_unmarshal Debug b) (RemoteUserId_unmarshal m b).
Proof. unfold RemoteUserId_unmarshal. same2. Qed.
Lemma RemoteUserId_len_same m x : refines (RemoteUserId_len Debug x) (RemoteUserId_len m x).
Proof. unfold RemoteUserId_len. same2. Qed.
Lemma RfspIndex_unmarshal_same m b : refines (RfspIndex_unmarshal Debug b) (RfspIndex_unmarshal m b).
Proof. unfold RfspIndex_unmarshal. same2. Qed.
Lemma RfspIndex_len_same m x : refines (RfspIndex_len Debug x) (RfspIndex_len m x).
Proof. unfold RfspIndex_len. same2. Qed.
Lemma S103pdf_unmarshal_same m b : refines (S103pdf_unmarshal Debug b) (S103pdf_unmarshal m b).
Proof. unfold S103pdf_unmarshal. same2. Qed.
Lemma S103pdf_len_same m x : refines (S103pdf_len Debug x) (S103pdf_len m x).
Proof. unfold S103pdf_len. same2. Qed.
Lemma S1udf_unmarshal_same m b : refines (S1udf_unmarshal Debug b) (S1udf_unmarshal m b).
Proof. unfold S1udf_unmarshal. same2. Qed.
Lemma S1udf_len_same m x : refines (S1udf_len Debug x) (S1udf_len m x).
Proof. unfold S1udf_len. same2. Qed.
Lemma SecondaryRatUsageDataReport_unmarshal_same m b : refines (SecondaryRatUsageDataReport_unmarshal Debug b) (SecondaryRatUsageDataReport_unmarshal m b).
Proof. unfold SecondaryRatUsageDataReport_unmarshal. same2. Qed.
Lemma SecondaryRatUsageDataReport_len_same m x : refines (SecondaryRatUsageDataReport_len Debug x) (SecondaryRatUsageDataReport_len m x).
Proof. unfold SecondaryRatUsageDataReport_len. same2. Qed.
Lemma SelectionMode_unmarshal_same m b : refines (SelectionMode_unmarshal Debug b) (SelectionMode_unmarshal m b).
Proof. unfold SelectionMode_unmarshal. same2. Qed.
Lemma SelectionMode_len_same m x : refines (SelectionMode_len Debug x) (SelectionMode_len m x).
Proof. unfold SelectionMode_len. same2. Qed.
Lemma ServiceIndicator_unmarshal_same m b : refines (ServiceIndicator_unmarshal Debug b) (ServiceIndicator_unmarshal m b).
Proof. unfold ServiceIndicator_unmarshal. same2. Qed.
Lemma ServiceIndicator_len_same m x : refines (ServiceIndicator_len Debug x) (ServiceIndicator_len m x).
Proof. unfold ServiceIndicator_len. same2. Qed.
Lemma ServicesAuthorized_unmarshal_same m b : refines (ServicesAuthorized_unmarshal Debug b) (ServicesAuthorized_unmarshal m b).
Proof. unfold ServicesAuthorized_unmarshal. same2. Qed.
Lemma ServicesAuthorized_len_same m x : refines (ServicesAuthorized_len Debug x) (ServicesAuthorized_len m x).
Proof. unfold ServicesAuthorized_len. same2. Qed.
Lemma ServingNetwork_unmarshal_same m b : refines (ServingNetwork_unmarshal Debug b) (ServingNetwork_unmarshal m b).
Proof. unfold ServingNetwork_unmarshal. same2. Qed.
Lemma ServingNetwork_len_same m x : refines (ServingNetwork_len Debug x) (ServingNetwork_len m x).
Proof. unfold ServingNetwork_len. same2. Qed.
Lemma ServingPlmnRateControl_unmarshal_same m b : refines (ServingPlmnRateControl_unmarshal Debug b) (ServingPlmnRateControl_unmarshal m b).
Proof. unfold ServingPlmnRateControl_unmarshal. same2. Qed.
Lemma ServingPlmnRateControl_len_same m x : refines (ServingPlmnRateControl_len Debug x) (ServingPlmnRateControl_len m x).
Proof. unfold ServingPlmnRateControl_len. same2. Qed.
Lemma SgiPtpTunnelAddress_unmarshal_same m b : refines (SgiPtpTunnelAddress_unmarshal Debug b) (SgiPtpTunnelAddress_unmarshal m b).
Proof. unfold SgiPtpTunnelAddress_unmarshal. same2. Qed.
Lemma SgiPtpTunnelAddress_len_same m x : refines (SgiPtpTunnelAddress_len Debug x) (SgiPtpTunnelAddress_len m x).
Proof. unfold SgiPtpTunnelAddress_len. same2. Qed.
Lemma SourceIdentification_unmarshal_same m b : refines (SourceIdentification_unmarshal Debug b) (SourceIdentification_unmarshal m b).
Proof. unfold SourceIdentification_unmarshal. same2. Qed.
Lemma SourceIdentification_len_same m x : refines (SourceIdentification_len Debug x) (SourceIdentification_len m x).
Proof. unfold SourceIdentification_len. same2. Qed.
Lemma SpecialIEWithTypeExt_unmarshal_same m b : refines (SpecialIEWithTypeExt_unmarshal Debug b) (SpecialIEWithTypeExt_unmarshal m b).
Proof. unfold SpecialIEWithTypeExt_unmarshal. same2. Qed.
Lemma SpecialIEWithTypeExt_len_same m x : refines (SpecialIEWithTypeExt_len Debug x) (SpecialIEWithTypeExt_len m x).
Proof. unfold SpecialIEWithTypeExt_len. same2. Qed.
Lemma Spi_unmarshal_same m b : refines (Spi_unmarshal Debug b) (Spi_unmarshal m b).
Proof. unfold Spi_unmarshal. same2. Qed.
Lemma Spi_len_same m x : refines (Spi_len Debug x) (Spi_len m x).
Proof. unfold Spi_len. same2. Qed.
Lemma Sqn_unmarshal_same m b : refines (Sqn_unmarshal Debug b) (Sqn_unmarshal m b).
Proof. unfold Sqn_unmarshal. same2. Qed.
Lemma Sqn_len_same m x : refines (Sqn_len Debug x) (Sqn_len m x).
Proof. unfold Sqn_len. same2. Qed.
Lemma SourceRncPdcpContextInfo_unmarshal_same m b : refines (SourceRncPdcpContextInfo_unmarshal Debug b) (SourceRncPdcpContextInfo_unmarshal m b).
Proof. unfold SourceRncPdcpContextInfo_unmarshal. same2. Qed.
Lemma SourceRncPdcpContextInfo_len_same m x : refines (SourceRncPdcpContextInfo_len Debug x) (SourceRncPdcpContextInfo_len m x).
Proof. unfold SourceRncPdcpContextInfo_len. same2. Qed.
Lemma SrvccCause_unmarshal_same m b : refines (SrvccCause_unmarshal Debug b) (SrvccCause_unmarshal m b).
Proof. unfold SrvccCause_unmarshal. same2. Qed.
Lemma SrvccCause_len_same m x : refines (SrvccCause_len Debug x) (SrvccCause_len m x).
Proof. unfold SrvccCause_len. same2. Qed.
Lemma StnSr_unmarshal_same m b : refines (StnSr_unmarshal Debug b) (StnSr_unmarshal m b).
Proof. unfold StnSr_unmarshal. same2. Qed.
Lemma StnSr_len_same m x : refines (StnSr_len Debug x) (StnSr_len m x).
Proof. unfold StnSr_len. same2. Qed.
Lemma TrafficAggregateDescription_unmarshal_same m b : refines (TrafficAggregateDescription_unmarshal Debug b) (TrafficAggregateDescription_unmarshal m b).
Proof. unfold TrafficAggregateDescription_unmarshal. same2. Qed.
Lemma TrafficAggregateDescription_len_same m x : refines (TrafficAggregateDescription_len Debug x) (TrafficAggregateDescription_len m x).
Proof. unfold TrafficAggregateDescription_len. same2. Qed.
Lemma TargetIdentification_unmarshal_same m b : refines (TargetIdentification_unmarshal Debug b) (TargetIdentification_unmarshal m b).
Proof. unfold TargetIdentification_unmarshal. same2. Qed.
Lemma TargetIdentification_len_same m x : refines (TargetIdentification_len Debug x) (TargetIdentification_len m x).
Proof. unfold TargetIdentification_len. same2. Qed.
Lemma Throttling_unmarshal_same m b : refines (Throttling_unmarshal Debug b) (Throttling_unmarshal m b).
Proof. unfold Throttling_unmarshal. same2. Qed.
Lemma Throttling_len_same m x : refines (Throttling_len Debug x) (Throttling_len m x).
Proof. unfold Throttling_len. same2. Qed.
Lemma Tmgi_unmarshal_same m b : refines (Tmgi_unmarshal Debug b) (Tmgi_unmarshal m b).
Proof. unfold Tmgi_unmarshal. same2. Qed.
Lemma Tmgi_len_same m x : refines (Tmgi_len Debug x) (Tmgi_len m x).
Proof. unfold Tmgi_len. same2. Qed.
Lemma Tmsi_unmarshal_same m b : refines (Tmsi_unmarshal Debug b) (Tmsi_unmarshal m b).
Proof. unfold Tmsi_unmarshal. same2. Qed.
Lemma Tmsi_len_same m x : refines (Tmsi_len Debug x) (Tmsi_len m x).
Proof. unfold Tmsi_len. same2. Qed.
Lemma TraceInformation_unmarshal_same m b : refines (TraceInformation_unmarshal Debug b) (TraceInformation_unmarshal m b).
Proof. unfold TraceInformation_unmarshal. same2. Qed.
Lemma TraceInformation_len_same m x : refines (TraceInformation_len Debug x) (TraceInformation_len m x).
Proof. unfold TraceInformation_len. same2. Qed.
Lemma TraceReference_unmarshal_same m b : refines (TraceReference_unmarshal Debug b) (TraceReference_unmarshal m b).
Proof. unfold TraceReference_unmarshal. same2. Qed.
Lemma TraceReference_len_same m x : refines (TraceReference_len Debug x) (TraceReference_len m x).
Proof. unfold TraceReference_len. same2. Qed.
Lemma TransactionIdentifier_unmarshal_same m b : refines (TransactionIdentifier_unmarshal Debug b) (TransactionIdentifier_unmarshal m b).
Proof. unfold TransactionIdentifier_unmarshal. same2. Qed.
Lemma TransactionIdentifier_len_same m x : refines (TransactionIdentifier_len Debug x) (TransactionIdentifier_len m x).
Proof. unfold TransactionIdentifier_len. same2. Qed.
Lemma TwanId_unmarshal_same m b : refines (TwanId_unmarshal Debug b) (TwanId_unmarshal m b).
Proof. unfold TwanId_unmarshal. same2. Qed.
Lemma TwanId_len_same m x : refines (TwanId_len Debug x) (TwanId_len m x).
Proof. unfold TwanId_len. same2. Qed.
Lemma TwanIdTimeStamp_unmarshal_same m b : refines (TwanIdTimeStamp_unmarshal Debug b) (TwanIdTimeStamp_unmarshal m b).
Proof. unfold TwanIdTimeStamp_unmarshal. same2. Qed.
Lemma TwanIdTimeStamp_len_same m x : refines (TwanIdTimeStamp_len Debug x) (TwanIdTimeStamp_len m x).
Proof. unfold TwanIdTimeStamp_len. same2. Qed.
Lemma Twmi_unmarshal_same m b : refines (Twmi_unmarshal Debug b) (Twmi_unmarshal m b).
Proof. unfold Twmi_unmarshal. same2. Qed.
Lemma Twmi_len_same m x : refines (Twmi_len Debug x) (Twmi_len m x).
Proof. unfold Twmi_len. same2. Qed.
Lemma Uci_unmarshal_same m b : refines (Uci_unmarshal Debug b) (Uci_unmarshal m b).
Proof. unfold Uci_unmarshal. same2. Qed.
Lemma Uci_len_same m x : refines (Uci_len Debug x) (Uci_len m x).
Proof. unfold Uci_len. same2. Qed.
Lemma UeTimeZone_unmarshal_same m b : refines (UeTimeZone_unmarshal Debug b) (UeTimeZone_unmarshal m b).
Proof. unfold UeTimeZone_unmarshal. same2. Qed.
Lemma UeTimeZone_len_same m x : refines (UeTimeZone_len Debug x) (UeTimeZone_len m x).
Proof. unfold UeTimeZone_len. same2. Qed.
Lemma Uli_unmarshal_same m b : refines (Uli_unmarshal Debug b) (Uli_unmarshal m b).
Proof. unfold Uli_unmarshal. same2. Qed.
Lemma Uli_len_same m x : refines (Uli_len Debug x) (Uli_len m x).
Proof. unfold Uli_len. same2. Qed.
Lemma UliTimestamp_unmarshal_same m b : refines (UliTimestamp_unmarshal Debug b) (UliTimestamp_unmarshal m b).
Proof. unfold UliTimestamp_unmarshal. same2. Qed.
Lemma UliTimestamp_len_same m x : refines (UliTimestamp_len Debug x) (UliTimestamp_len m x).
Proof. unfold UliTimestamp_len. same2. Qed.
Lemma Unknown_unmarshal_same m b : refines (Unknown_unmarshal Debug b) (Unknown_unmarshal m b).
Proof. unfold Unknown_unmarshal. same2. Qed.
Lemma Unknown_len_same m x : refines (Unknown_len Debug x) (Unknown_len m x).
Proof. unfold Unknown_len. same2. Qed.
Lemma UpFunctionSelectionIndicationFlags_unmarshal_same m b : refines (UpFunctionSelectionIndicationFlags_unmarshal Debug b) (UpFunctionSelectionIndicationFlags_unmarshal m b).
Proof. unfold UpFunctionSelectionIndicationFlags_unmarshal. same2. Qed.
Lemma UpFunctionSelectionIndicationFlags_len_same m x : refines (UpFunctionSelectionIndicationFlags_len Debug x) (UpFunctionSelectionIndicationFlags_len m x).
Proof. unfold UpFunctionSelectionIndicationFlags_len. same2. Qed.
Lemma UpSecurityPolicy_unmarshal_same m b : refines (UpSecurityPolicy_unmarshal Debug b) (UpSecurityPolicy_unmarshal m b).
Proof. unfold UpSecurityPolicy_unmarshal. same2. Qed.
Lemma UpSecurityPolicy_len_same m x : refines (UpSecurityPolicy_len Debug x) (UpSecurityPolicy_len m x).
Proof. unfold UpSecurityPolicy_len. same2. Qed.
Lemma WlanOffloadIndication_unmarshal_same m b : refines (WlanOffloadIndication_unmarshal Debug b) (WlanOffloadIndication_unmarshal m b).
Proof. unfold WlanOffloadIndication_unmarshal. same2. Qed.
Lemma WlanOffloadIndication_len_same m x : refines (WlanOffloadIndication_len Debug x) (WlanOffloadIndication_len m x).
Proof. unfold WlanOffloadIndication_len. same2. Qed.
Lemma GroupedIe_unmarshal_same dec dec' m b : (forall s, refines (dec s) (dec' s)) -> refines (GroupedIe_unmarshal dec Debug b) (GroupedIe_unmarshal dec' m b).
Proof. intros H. unfold GroupedIe_unmarshal. same2. all: first [apply H | apply GroupedIe_unmarshal_same; exact H]. Qed.
Lemma LoadControl_unmarshal_same dec dec' m b : (forall s, refines (dec s) (dec' s)) -> refines (LoadControl_unmarshal dec Debug b) (LoadControl_unmarshal dec' m b).
Proof. intros H. unfold LoadControl_unmarshal. same2. all: first [apply H | apply GroupedIe_unmarshal_same; exact H]. Qed.
Lemma OverloadControlInfo_unmarshal_same dec dec' m b : (forall s, refines (dec s) (dec' s)) -> refines (OverloadControlInfo_unmarshal dec Debug b) (OverloadControlInfo_unmarshal dec' m b).
Proof. intros H. unfold OverloadControlInfo_unmarshal. same2. all: first [apply H | apply GroupedIe_unmarshal_same; exact H]. Qed.
Lemma RemoteUeContext_unmarshal_same dec dec' m b : (forall s, refines (dec s) (dec' s)) -> refines (RemoteUeContext_unmarshal dec Debug b) (RemoteUeContext_unmarshal dec' m b).
Proof. intros H. unfold RemoteUeContext_unmarshal. same2. all: first [apply H | apply GroupedIe_unmarshal_same; exact H]. Qed.
Lemma PC5QosParameters_unmarshal_same dec dec' m b : (forall s, refines (dec s) (dec' s)) -> refines (PC5QosParameters_unmarshal dec Debug b) (PC5QosParameters_unmarshal dec' m b).
Proof. intros H. unfold PC5QosParameters_unmarshal. same2. all: first [apply H | apply GroupedIe_unmarshal_same; exact H]. Qed.
Lemma PgwChangeInfo_unmarshal_same dec dec' m b : (forall s, refines (dec s) (dec' s)) -> refines (PgwChangeInfo_unmarshal dec Debug b) (PgwChangeInfo_unmarshal dec' m b).
Proof. intros H. unfold PgwChangeInfo_unmarshal. same2. all: first [apply H | apply GroupedIe_unmarshal_same; exact H]. Qed.
Lemma ScefPdnConnections_unmarshal_same dec dec' m b : (forall s, refines (dec s) (dec' s)) -> refines (ScefPdnConnections_unmarshal dec Debug b) (ScefPdnConnections_unmarshal dec' m b).
Proof. intros H. unfold ScefPdnConnections_unmarshal. same2. all: first [apply H | apply GroupedIe_unmarshal_same; exact H]. Qed.
Lemma BearerContext_unmarshal_same dec dec' m b : (forall s, refines (dec s) (dec' s)) -> refines (BearerContext_unmarshal dec Debug b) (BearerContext_unmarshal dec' m b).
Proof. intros H. unfold BearerContext_unmarshal. same2. all: first [apply H | apply GroupedIe_unmarshal_same; exact H]. Qed.
Lemma V2xInformation_unmarshal_same dec dec' m b : (forall s, refines (dec s) (dec' s)) -> refines (V2xInformation_unmarshal dec Debug b) (V2xInformation_unmarshal dec' m b).
Proof. intros H. unfold V2xInformation_unmarshal. same2. all: first [apply H | apply GroupedIe_unmarshal_same; exact H]. Qed.
Lemma PdnConnections_unmarshal_same dec dec' m b : (forall s, refines (dec s) (dec' s)) -> refines (PdnConnections_unmarshal dec Debug b) (PdnConnections_unmarshal dec' m b).
Proof. intros H. unfold PdnConnections_unmarshal. same2. all: first [apply H | apply GroupedIe_unmarshal_same; exact H]. Qed.
Lemma ie_len_same m e : refines (ie_len Debug e) (ie_len m e).
Proof. destruct e; cbn [ie_len]. all: first [apply refines_refl | apply len_u16_same | apply AbsoluteTimeMbmsDataTransfer_len_same | apply ActionIndication_len_same | apply AdditionalFlagsSrvcc_len_same | apply AdditionalMmContextForSrvcc_len_same | apply AlternativeImsi_len_same | apply Ambr_len_same | apply Apco_len_same | apply Apn_len_same | apply ApnRateControlStatus_len_same | apply ApnRelativeCapacity_len_same | apply ApnRestriction_len_same | apply Arp_len_same | apply AdditionalRrmPolicyIndex_len_same | apply BearerFlags_len_same | apply BearerQos_len_same | apply BearerTft_len_same | apply BitRate_len_same | apply Cause_len_same | apply ChangeReportingAction_len_same | apply ChangeToReportFlags_len_same | apply ChannelNeeded_len_same | apply ChargingCharacteristics_len_same | apply ChargingId_len_same | apply CIoTOptimizationSupportIndication_len_same | apply CsgMembershipIndication_len_same | apply CnOperatorSelectionEntity_len_same | apply CompleteRequestMessage_len_same | apply Counter_len_same | apply CsgId_len_same | apply CSGInformationReportingAction_len_same | apply DelayValue_len_same | apply DetachType_len_same | apply Ebi_len_same | apply EcgiList_len_same | apply EmlppPriority_len_same | apply Epco_len_same | apply EpcTimer_len_same | apply ExtendedTraceInformation_len_same | apply Fcause_len_same | apply Fcontainer_len_same | apply FlowQos_len_same | apply Fqcsid_len_same | apply Fqdn_len_same | apply Fteid_len_same | apply GlobalCnId_len_same | apply GroupId_len_same | apply Guti_len_same | apply HeaderCompressionConfiguration_len_same | apply HenbInfoReporting_len_same | apply HopCounter_len_same | apply Imsi_len_same | apply Indication_len_same | apply IntegerNumber_len_same | apply Ip4Cp_len_same | apply IpAddress_len_same | apply Ldn_len_same | apply MaxPacketLossRate_len_same | apply MbmsDistributionAck_len_same | apply MbmsFlags_len_same | apply MbmsFlowId_len_same | apply MbmsIpMulticastDistribution_len_same | apply MbmsServiceArea_len_same | apply MbmsSessionDuration_len_same | apply MbmsSessionId_len_same | apply MbmsTimeToDataTransfer_len_same | apply MdtConfiguration_len_same | apply Mei_len_same | apply Metric_len_same | apply MilliSecondTimeStamp_len_same | apply MmContextEpsSecurityContextQuadruplets_len_same | apply MmContextGsmKeyCipherQuintuplets_len_same | apply MmContextGsmKeyTriplets_len_same | apply MmContextUmtsKeyCipherQuintuplets_len_same | apply MmContextUmtsKeyQuadrupletsQuintuplets_len_same | apply MmContextUmtsKeyQuintuplets_len_same | apply MmContext_len_same | apply MonitoringEventExtensionInfo_len_same | apply MonitoringEventInformation_len_same | apply Msisdn_len_same | apply MappedUeUsageType_len_same | apply NodeFeatures_len_same | apply NodeIdentifier_len_same | apply NodeNumber_len_same | apply NodeType_len_same | apply PdnAddressAllocation_len_same | apply PacketFlowId_len_same | apply PagingServiceInfo_len_same | apply PC5QosFlow_len_same | apply Pco_len_same | apply PdnType_len_same | apply PduNumbers_len_same | apply PgwFqdn_len_same | apply PlmnId_len_same | apply PortNumber_len_same | apply PresenceReportingAreaAction_len_same | apply PresenceReportingAreaInformation_len_same | apply PrivateExtension_len_same | apply PSCellId_len_same | apply Pti_len_same | apply Ptmsi_len_same | apply PtmsiSignature_len_same | apply RabContext_len_same | apply RanNasCause_len_same | apply RatType_len_same | apply Recovery_len_same | apply RemoteUeIpInformation_len_same | apply RemoteUserId_len_same | apply RfspIndex_len_same | apply S103pdf_len_same | apply S1udf_len_same | apply SecondaryRatUsageDataReport_len_same | apply SelectionMode_len_same | apply ServiceIndicator_len_same | apply ServicesAuthorized_len_same | apply ServingNetwork_len_same | apply ServingPlmnRateControl_len_same | apply SgiPtpTunnelAddress_len_same | apply SourceIdentification_len_same | apply SpecialIEWithTypeExt_len_same | apply Spi_len_same | apply Sqn_len_same | apply SourceRncPdcpContextInfo_len_same | apply SrvccCause_len_same | apply StnSr_len_same | apply TrafficAggregateDescription_len_same | apply TargetIdentification_len_same | apply Throttling_len_same | apply Tmgi_len_same | apply Tmsi_len_same | apply TraceInformation_len_same | apply TraceReference_len_same | apply TransactionIdentifier_len_same | apply TwanId_len_same | apply TwanIdTimeStamp_len_same | apply Twmi_len_same | apply Uci_len_same | apply UeTimeZone_len_same | apply Uli_len_same | apply UliTimestamp_len_same | apply Unknown_len_same | apply UpFunctionSelectionIndicationFlags_len_same | apply UpSecurityPolicy_len_same | apply WlanOffloadIndication_len_same]. Qed.
Lemma lift_same {A} (c : A -> ie) d r : refines d r -> refines (lift c d) (lift c r).
Proof. intros H. unfold lift. apply refines_bind; [exact H|]. intros. apply refines_refl. Qed.
Lemma decode_one_same dec dec' m b : (forall s, refines (dec s) (dec' s)) -> refines (decode_one dec Debug b) (decode_one dec' m b).
Proof.
  intros H. unfold decode_one. apply refines_bind; [apply refines_refl|]. intros t.
  repeat match goal with |- refines (if ?c then _ else _) _ => destruct c; [apply lift_same|] end; try apply lift_same.
  all: first [apply AbsoluteTimeMbmsDataTransfer_unmarshal_same | apply ActionIndication_unmarshal_same | apply AdditionalFlagsSrvcc_unmarshal_same | apply AdditionalMmContextForSrvcc_unmarshal_same | apply AlternativeImsi_unmarshal_same | apply Ambr_unmarshal_same | apply Apco_unmarshal_same | apply Apn_unmarshal_same | apply ApnRateControlStatus_unmarshal_same | apply ApnRelativeCapacity_unmarshal_same | apply ApnRestriction_unmarshal_same | apply Arp_unmarshal_same | apply AdditionalRrmPolicyIndex_unmarshal_same | apply BearerFlags_unmarshal_same | apply BearerQos_unmarshal_same | apply BearerTft_unmarshal_same | apply BitRate_unmarshal_same | apply Cause_unmarshal_same | apply ChangeReportingAction_unmarshal_same | apply ChangeToReportFlags_unmarshal_same | apply ChannelNeeded_unmarshal_same | apply ChargingCharacteristics_unmarshal_same | apply ChargingId_unmarshal_same | apply CIoTOptimizationSupportIndication_unmarshal_same | apply CsgMembershipIndication_unmarshal_same | apply CnOperatorSelectionEntity_unmarshal_same | apply CompleteRequestMessage_unmarshal_same | apply Counter_unmarshal_same | apply CsgId_unmarshal_same | apply CSGInformationReportingAction_unmarshal_same | apply DelayValue_unmarshal_same | apply DetachType_unmarshal_same | apply Ebi_unmarshal_same | apply EcgiList_unmarshal_same | apply EmlppPriority_unmarshal_same | apply Epco_unmarshal_same | apply EpcTimer_unmarshal_same | apply ExtendedTraceInformation_unmarshal_same | apply Fcause_unmarshal_same | apply Fcontainer_unmarshal_same | apply FlowQos_unmarshal_same | apply Fqcsid_unmarshal_same | apply Fqdn_unmarshal_same | apply Fteid_unmarshal_same | apply GlobalCnId_unmarshal_same | apply GroupId_unmarshal_same | apply Guti_unmarshal_same | apply HeaderCompressionConfiguration_unmarshal_same | apply HenbInfoReporting_unmarshal_same | apply HopCounter_unmarshal_same | apply Imsi_unmarshal_same | apply Indication_unmarshal_same | apply IntegerNumber_unmarshal_same | apply Ip4Cp_unmarshal_same | apply IpAddress_unmarshal_same | apply Ldn_unmarshal_same | apply MaxPacketLossRate_unmarshal_same | apply MbmsDistributionAck_unmarshal_same | apply MbmsFlags_unmarshal_same | apply MbmsFlowId_unmarshal_same | apply MbmsIpMulticastDistribution_unmarshal_same | apply MbmsServiceArea_unmarshal_same | apply MbmsSessionDuration_unmarshal_same | apply MbmsSessionId_unmarshal_same | apply MbmsTimeToDataTransfer_unmarshal_same | apply MdtConfiguration_unmarshal_same | apply Mei_unmarshal_same | apply Metric_unmarshal_same | apply MilliSecondTimeStamp_unmarshal_same | apply MmContextEpsSecurityContextQuadruplets_unmarshal_same | apply MmContextGsmKeyCipherQuintuplets_unmarshal_same | apply MmContextGsmKeyTriplets_unmarshal_same | apply MmContextUmtsKeyCipherQuintuplets_unmarshal_same | apply MmContextUmtsKeyQuadrupletsQuintuplets_unmarshal_same | apply MmContextUmtsKeyQuintuplets_unmarshal_same | apply MmContext_unmarshal_same | apply MonitoringEventExtensionInfo_unmarshal_same | apply MonitoringEventInformation_unmarshal_same | apply Msisdn_unmarshal_same | apply MappedUeUsageType_unmarshal_same | apply NodeFeatures_unmarshal_same | apply NodeIdentifier_unmarshal_same | apply NodeNumber_unmarshal_same | apply NodeType_unmarshal_same | apply PdnAddressAllocation_unmarshal_same | apply PacketFlowId_unmarshal_same | apply PagingServiceInfo_unmarshal_same | apply PC5QosFlow_unmarshal_same | apply Pco_unmarshal_same | apply PdnType_unmarshal_same | apply PduNumbers_unmarshal_same | apply PgwFqdn_unmarshal_same | apply PlmnId_unmarshal_same | apply PortNumber_unmarshal_same | apply PresenceReportingAreaAction_unmarshal_same | apply PresenceReportingAreaInformation_unmarshal_same | apply PrivateExtension_unmarshal_same | apply PSCellId_unmarshal_same | apply Pti_unmarshal_same | apply Ptmsi_unmarshal_same | apply PtmsiSignature_unmarshal_same | apply RabContext_unmarshal_same | apply RanNasCause_unmarshal_same | apply RatType_unmarshal_same | apply Recovery_unmarshal_same | apply RemoteUeIpInformation_unmarshal_same | apply RemoteUserId_unmarshal_same | apply RfspIndex_unmarshal_same | apply S103pdf_unmarshal_same | apply S1udf_unmarshal_same | apply SecondaryRatUsageDataReport_unmarshal_same | apply SelectionMode_unmarshal_same | apply ServiceIndicator_unmarshal_same | apply ServicesAuthorized_unmarshal_same | apply ServingNetwork_unmarshal_same | apply ServingPlmnRateControl_unmarshal_same | apply SgiPtpTunnelAddress_unmarshal_same | apply SourceIdentification_unmarshal_same | apply SpecialIEWithTypeExt_unmarshal_same | apply Spi_unmarshal_same | apply Sqn_unmarshal_same | apply SourceRncPdcpContextInfo_unmarshal_same | apply SrvccCause_unmarshal_same | apply StnSr_unmarshal_same | apply TrafficAggregateDescription_unmarshal_same | apply TargetIdentification_unmarshal_same | apply Throttling_unmarshal_same | apply Tmgi_unmarshal_same | apply Tmsi_unmarshal_same | apply TraceInformation_unmarshal_same | apply TraceReference_unmarshal_same | apply TransactionIdentifier_unmarshal_same | apply TwanId_unmarshal_same | apply TwanIdTimeStamp_unmarshal_same; exact H | apply Twmi_unmarshal_same; exact H | apply Uci_unmarshal_same; exact H | apply UeTimeZone_unmarshal_same; exact H | apply Uli_unmarshal_same; exact H | apply UliTimestamp_unmarshal_same; exact H | apply Unknown_unmarshal_same; exact H | apply UpFunctionSelectionIndicationFlags_unmarshal_same; exact H | apply UpSecurityPolicy_unmarshal_same; exact H | apply WlanOffloadIndication_unmarshal_same; exact H | apply GroupedIe_unmarshal_same; exact H | apply LoadControl_unmarshal_same; exact H | apply OverloadControlInfo_unmarshal_same; exact H | apply RemoteUeContext_unmarshal_same; exact H | apply PC5QosParameters_unmarshal_same; exact H | apply PgwChangeInfo_unmarshal_same; exact H | apply ScefPdnConnections_unmarshal_same; exact H | apply BearerContext_unmarshal_same; exact H | apply V2xInformation_unmarshal_same; exact H | apply PdnConnections_unmarshal_same; exact H].
Qed.
Lemma ie_loop_same one one' m : (forall s, refines (one s) (one' s)) -> forall fuel b, refines (ie_loop one Debug fuel b) (ie_loop one' m fuel b).
Proof.
  intros H. induction fuel as [|fuel IH]; intros [|x b]; cbn [ie_loop]; try apply refines_refl.
  apply refines_bind; [apply H|]. intros e. apply refines_bind; [apply ie_len_same|]. intros n.
  apply refines_bind; [apply IH|]. intros r. apply refines_refl.
Qed.
Lemma decode_ies_same m : forall depth b, refines (decode_ies depth Debug b) (decode_ies depth m b).
Proof.
  induction depth as [|d IH]; intros b; cbn [decode_ies]; [apply refines_refl|].
  apply ie_loop_same. intros s. apply decode_one_same. exact IH.
Qed.
Lemma decoder_same m b : refines (decoder Debug b) (decoder m b).
Proof. unfold decoder. apply decode_ies_same. Qed.
Lemma msg_same d m b : refines (msg_unmarshal d Debug b) (msg_unmarshal d m b).
Proof. unfold msg_unmarshal. same2. apply decoder_same. Qed.
