(* V2DeclFacts.v - a decoded information element keeps the declared length. *)
From Verif Require Import Base BaseFacts.
From Verif Require Export V2DecFacts.
Local Open Scope N_scope.

Definition post {A} (P : A -> Prop) (r : res A) : Prop := forall x, r = Ok x -> P x.
Lemma post_ok {A} (P : A -> Prop) x : P x -> post P (Ok x).
Proof. intros H y E. apply Ok_inj in E. subst. exact H. Qed.
Lemma post_err {A} (P : A -> Prop) e : post P (Err e).
Proof. intros y E. discriminate E. Qed.
Lemma post_panic {A} (P : A -> Prop) : post P Panic.
Proof. intros y E. discriminate E. Qed.
Lemma post_diverge {A} (P : A -> Prop) : post P Diverge.
Proof. intros y E. discriminate E. Qed.
Lemma post_bind {A B} (P : B -> Prop) (r : res A) f : (forall a, post P (f a)) -> post P (bind r f).
Proof. intros H y E. destruct r; try discriminate E. exact (H _ y E). Qed.
Lemma post_bind_with {A B} (Q : A -> Prop) (P : B -> Prop) (r : res A) f : post Q r -> (forall a, Q a -> post P (f a)) -> post P (bind r f).
Proof. intros HQ H y E. destruct r; try discriminate E. exact (H _ (HQ _ eq_refl) y E). Qed.
Lemma post_need {A} (P : A -> Prop) b n e k : post P k -> post P (need b n e k).
Proof. unfold need. intros H. destruct (_ <=? _)%nat; [exact H|apply post_err]. Qed.
Lemma post_hdr4 {A} (P : A -> Prop) b k : (forall ins, post P (k (declared b) ins)) -> post P (hdr4 b k).
Proof.
  intros H y E. unfold hdr4 in E. unfold at_ in E.
  destruct (nth_error b 1) as [x1|] eqn:E1; [|discriminate E]. destruct (nth_error b 2) as [x2|] eqn:E2; [|discriminate E].
  destruct (nth_error b 3) as [x3|] eqn:E3; [|discriminate E]. cbn in E.
  apply (H x3). unfold declared. rewrite (nth_error_nth _ _ 0 E1), (nth_error_nth _ _ 0 E2). exact E.
Qed.
Lemma post_checked {A} (P : A -> Prop) m len b e k : post P k -> post P (checked m len b e k).
Proof. unfold checked. intros H. apply post_bind. intros []; [exact H|apply post_err]. Qed.
Ltac po := lazymatch goal with
  | |- post _ (Ok _) => apply post_ok; reflexivity
  | |- post _ (Err _) => apply post_err
  | |- post _ Panic => apply post_panic
  | |- post _ Diverge => apply post_diverge
  | |- post _ (bind _ _) => apply post_bind; intros; cbv beta
  | |- post _ (need _ _ _ _) => apply post_need
  | |- post _ (hdr4 _ _) => apply post_hdr4; intros; cbv beta
  | |- post _ (checked _ _ _ _ _) => apply post_checked
  | |- post _ (match ?x with _ => _ end) => destruct x
  | |- post _ (let x := _ in _) => cbv zeta
  end.
Ltac declen := intros m b; match goal with |- forall x, ?r = Ok x -> _ => change (post (fun x => ie_length x = declared b) r) end;
  match goal with |- post _ (?f _ _) => unfold f end; repeat po.
Lemma Imsi_declared : forall m b x, Imsi_unmarshal m b = Ok x -> ie_length x = declared b.
Proof. declen. Qed.
Lemma Cause_declared : forall m b x, Cause_unmarshal m b = Ok x -> ie_length x = declared b.
Proof. declen. Qed.
Lemma Recovery_declared : forall m b x, Recovery_unmarshal m b = Ok x -> ie_length x = declared b.
Proof. declen. Qed.
Lemma StnSr_declared : forall m b x, StnSr_unmarshal m b = Ok x -> ie_length x = declared b.
Proof. declen. Qed.
Lemma SrvccCause_declared : forall m b x, SrvccCause_unmarshal m b = Ok x -> ie_length x = declared b.
Proof. declen. Qed.
Lemma Apn_declared : forall m b x, Apn_unmarshal m b = Ok x -> ie_length x = declared b.
Proof. declen. Qed.
Lemma Ambr_declared : forall m b x, Ambr_unmarshal m b = Ok x -> ie_length x = declared b.
Proof. declen. Qed.
Lemma Ebi_declared : forall m b x, Ebi_unmarshal m b = Ok x -> ie_length x = declared b.
Proof. declen. Qed.
Lemma IpAddress_declared : forall m b x, IpAddress_unmarshal m b = Ok x -> ie_length x = declared b.
Proof. declen. Qed.
Lemma Mei_declared : forall m b x, Mei_unmarshal m b = Ok x -> ie_length x = declared b.
Proof. declen. Qed.
Lemma Msisdn_declared : forall m b x, Msisdn_unmarshal m b = Ok x -> ie_length x = declared b.
Proof. declen. Qed.
Lemma Indication_declared : forall m b x, Indication_unmarshal m b = Ok x -> ie_length x = declared b.
Proof. declen. Qed.
Lemma Pco_declared : forall m b x, Pco_unmarshal m b = Ok x -> ie_length x = declared b.
Proof. declen. Qed.
Lemma PdnAddressAllocation_declared : forall m b x, PdnAddressAllocation_unmarshal m b = Ok x -> ie_length x = declared b.
Proof. declen. Qed.
Lemma BearerQos_declared : forall m b x, BearerQos_unmarshal m b = Ok x -> ie_length x = declared b.
Proof. declen. Qed.
Lemma FlowQos_declared : forall m b x, FlowQos_unmarshal m b = Ok x -> ie_length x = declared b.
Proof. declen. Qed.
Lemma RatType_declared : forall m b x, RatType_unmarshal m b = Ok x -> ie_length x = declared b.
Proof. declen. Qed.
Lemma ServingNetwork_declared : forall m b x, ServingNetwork_unmarshal m b = Ok x -> ie_length x = declared b.
Proof. declen. Qed.
Lemma BearerTft_declared : forall m b x, BearerTft_unmarshal m b = Ok x -> ie_length x = declared b.
Proof. declen. Qed.
Lemma TrafficAggregateDescription_declared : forall m b x, TrafficAggregateDescription_unmarshal m b = Ok x -> ie_length x = declared b.
Proof. declen. Qed.
Lemma Uli_declared : forall m b x, Uli_unmarshal m b = Ok x -> ie_length x = declared b.
Proof. declen. Qed.
Lemma Fteid_declared : forall m b x, Fteid_unmarshal m b = Ok x -> ie_length x = declared b.
Proof. declen. Qed.
Lemma Tmsi_declared : forall m b x, Tmsi_unmarshal m b = Ok x -> ie_length x = declared b.
Proof. declen. Qed.
Lemma GlobalCnId_declared : forall m b x, GlobalCnId_unmarshal m b = Ok x -> ie_length x = declared b.
Proof. declen. Qed.
Lemma S103pdf_declared : forall m b x, S103pdf_unmarshal m b = Ok x -> ie_length x = declared b.
Proof. declen. Qed.
Lemma S1udf_declared : forall m b x, S1udf_unmarshal m b = Ok x -> ie_length x = declared b.
Proof. declen. Qed.
Lemma DelayValue_declared : forall m b x, DelayValue_unmarshal m b = Ok x -> ie_length x = declared b.
Proof. declen. Qed.
Lemma ChargingId_declared : forall m b x, ChargingId_unmarshal m b = Ok x -> ie_length x = declared b.
Proof. declen. Qed.
Lemma ChargingCharacteristics_declared : forall m b x, ChargingCharacteristics_unmarshal m b = Ok x -> ie_length x = declared b.
Proof. declen. Qed.
Lemma TraceInformation_declared : forall m b x, TraceInformation_unmarshal m b = Ok x -> ie_length x = declared b.
Proof. declen. Qed.
Lemma BearerFlags_declared : forall m b x, BearerFlags_unmarshal m b = Ok x -> ie_length x = declared b.
Proof. declen. Qed.
Lemma PdnType_declared : forall m b x, PdnType_unmarshal m b = Ok x -> ie_length x = declared b.
Proof. declen. Qed.
Lemma Pti_declared : forall m b x, Pti_unmarshal m b = Ok x -> ie_length x = declared b.
Proof. declen. Qed.
Lemma PduNumbers_declared : forall m b x, PduNumbers_unmarshal m b = Ok x -> ie_length x = declared b.
Proof. declen. Qed.
Lemma Ptmsi_declared : forall m b x, Ptmsi_unmarshal m b = Ok x -> ie_length x = declared b.
Proof. declen. Qed.
Lemma PtmsiSignature_declared : forall m b x, PtmsiSignature_unmarshal m b = Ok x -> ie_length x = declared b.
Proof. declen. Qed.
Lemma HopCounter_declared : forall m b x, HopCounter_unmarshal m b = Ok x -> ie_length x = declared b.
Proof. declen. Qed.
Lemma UeTimeZone_declared : forall m b x, UeTimeZone_unmarshal m b = Ok x -> ie_length x = declared b.
Proof. declen. Qed.
Lemma TraceReference_declared : forall m b x, TraceReference_unmarshal m b = Ok x -> ie_length x = declared b.
Proof. declen. Qed.
Lemma CompleteRequestMessage_declared : forall m b x, CompleteRequestMessage_unmarshal m b = Ok x -> ie_length x = declared b.
Proof. declen. Qed.
Lemma Guti_declared : forall m b x, Guti_unmarshal m b = Ok x -> ie_length x = declared b.
Proof. declen. Qed.
Lemma Fcontainer_declared : forall m b x, Fcontainer_unmarshal m b = Ok x -> ie_length x = declared b.
Proof. declen. Qed.
Lemma Fcause_declared : forall m b x, Fcause_unmarshal m b = Ok x -> ie_length x = declared b.
Proof. declen. Qed.
Lemma PlmnId_declared : forall m b x, PlmnId_unmarshal m b = Ok x -> ie_length x = declared b.
Proof. declen. Qed.
Lemma TargetIdentification_declared : forall m b x, TargetIdentification_unmarshal m b = Ok x -> ie_length x = declared b.
Proof. declen. Qed.
Lemma PacketFlowId_declared : forall m b x, PacketFlowId_unmarshal m b = Ok x -> ie_length x = declared b.
Proof. declen. Qed.
Lemma RabContext_declared : forall m b x, RabContext_unmarshal m b = Ok x -> ie_length x = declared b.
Proof. declen. Qed.
Lemma SourceRncPdcpContextInfo_declared : forall m b x, SourceRncPdcpContextInfo_unmarshal m b = Ok x -> ie_length x = declared b.
Proof. declen. Qed.
Lemma PortNumber_declared : forall m b x, PortNumber_unmarshal m b = Ok x -> ie_length x = declared b.
Proof. declen. Qed.
Lemma ApnRestriction_declared : forall m b x, ApnRestriction_unmarshal m b = Ok x -> ie_length x = declared b.
Proof. declen. Qed.
Lemma SelectionMode_declared : forall m b x, SelectionMode_unmarshal m b = Ok x -> ie_length x = declared b.
Proof. declen. Qed.
Lemma SourceIdentification_declared : forall m b x, SourceIdentification_unmarshal m b = Ok x -> ie_length x = declared b.
Proof. declen. Qed.
Lemma ChangeReportingAction_declared : forall m b x, ChangeReportingAction_unmarshal m b = Ok x -> ie_length x = declared b.
Proof. declen. Qed.
Lemma Fqcsid_declared : forall m b x, Fqcsid_unmarshal m b = Ok x -> ie_length x = declared b.
Proof. declen. Qed.
Lemma ChannelNeeded_declared : forall m b x, ChannelNeeded_unmarshal m b = Ok x -> ie_length x = declared b.
Proof. declen. Qed.
Lemma EmlppPriority_declared : forall m b x, EmlppPriority_unmarshal m b = Ok x -> ie_length x = declared b.
Proof. declen. Qed.
Lemma NodeType_declared : forall m b x, NodeType_unmarshal m b = Ok x -> ie_length x = declared b.
Proof. declen. Qed.
Lemma Fqdn_declared : forall m b x, Fqdn_unmarshal m b = Ok x -> ie_length x = declared b.
Proof. declen. Qed.
Lemma TransactionIdentifier_declared : forall m b x, TransactionIdentifier_unmarshal m b = Ok x -> ie_length x = declared b.
Proof. declen. Qed.
Lemma MbmsServiceArea_declared : forall m b x, MbmsServiceArea_unmarshal m b = Ok x -> ie_length x = declared b.
Proof. declen. Qed.
Lemma MbmsSessionDuration_declared : forall m b x, MbmsSessionDuration_unmarshal m b = Ok x -> ie_length x = declared b.
Proof. declen. Qed.
Lemma MbmsSessionId_declared : forall m b x, MbmsSessionId_unmarshal m b = Ok x -> ie_length x = declared b.
Proof. declen. Qed.
Lemma MbmsFlowId_declared : forall m b x, MbmsFlowId_unmarshal m b = Ok x -> ie_length x = declared b.
Proof. declen. Qed.
Lemma MbmsIpMulticastDistribution_declared : forall m b x, MbmsIpMulticastDistribution_unmarshal m b = Ok x -> ie_length x = declared b.
Proof. declen. Qed.
Lemma MbmsDistributionAck_declared : forall m b x, MbmsDistributionAck_unmarshal m b = Ok x -> ie_length x = declared b.
Proof. declen. Qed.
Lemma RfspIndex_declared : forall m b x, RfspIndex_unmarshal m b = Ok x -> ie_length x = declared b.
Proof. declen. Qed.
Lemma Uci_declared : forall m b x, Uci_unmarshal m b = Ok x -> ie_length x = declared b.
Proof. declen. Qed.
Lemma CSGInformationReportingAction_declared : forall m b x, CSGInformationReportingAction_unmarshal m b = Ok x -> ie_length x = declared b.
Proof. declen. Qed.
Lemma CsgId_declared : forall m b x, CsgId_unmarshal m b = Ok x -> ie_length x = declared b.
Proof. declen. Qed.
Lemma CsgMembershipIndication_declared : forall m b x, CsgMembershipIndication_unmarshal m b = Ok x -> ie_length x = declared b.
Proof. declen. Qed.
Lemma ServiceIndicator_declared : forall m b x, ServiceIndicator_unmarshal m b = Ok x -> ie_length x = declared b.
Proof. declen. Qed.
Lemma DetachType_declared : forall m b x, DetachType_unmarshal m b = Ok x -> ie_length x = declared b.
Proof. declen. Qed.
Lemma Ldn_declared : forall m b x, Ldn_unmarshal m b = Ok x -> ie_length x = declared b.
Proof. declen. Qed.
Lemma NodeFeatures_declared : forall m b x, NodeFeatures_unmarshal m b = Ok x -> ie_length x = declared b.
Proof. declen. Qed.
Lemma MbmsTimeToDataTransfer_declared : forall m b x, MbmsTimeToDataTransfer_unmarshal m b = Ok x -> ie_length x = declared b.
Proof. declen. Qed.
Lemma Throttling_declared : forall m b x, Throttling_unmarshal m b = Ok x -> ie_length x = declared b.
Proof. declen. Qed.
Lemma Arp_declared : forall m b x, Arp_unmarshal m b = Ok x -> ie_length x = declared b.
Proof. declen. Qed.
Lemma EpcTimer_declared : forall m b x, EpcTimer_unmarshal m b = Ok x -> ie_length x = declared b.
Proof. declen. Qed.
Lemma Spi_declared : forall m b x, Spi_unmarshal m b = Ok x -> ie_length x = declared b.
Proof. declen. Qed.
Lemma Tmgi_declared : forall m b x, Tmgi_unmarshal m b = Ok x -> ie_length x = declared b.
Proof. declen. Qed.
Lemma AdditionalMmContextForSrvcc_declared : forall m b x, AdditionalMmContextForSrvcc_unmarshal m b = Ok x -> ie_length x = declared b.
Proof. declen. Qed.
Lemma AdditionalFlagsSrvcc_declared : forall m b x, AdditionalFlagsSrvcc_unmarshal m b = Ok x -> ie_length x = declared b.
Proof. declen. Qed.
Lemma MdtConfiguration_declared : forall m b x, MdtConfiguration_unmarshal m b = Ok x -> ie_length x = declared b.
Proof. declen. Qed.
Lemma Apco_declared : forall m b x, Apco_unmarshal m b = Ok x -> ie_length x = declared b.
Proof. declen. Qed.
Lemma AbsoluteTimeMbmsDataTransfer_declared : forall m b x, AbsoluteTimeMbmsDataTransfer_unmarshal m b = Ok x -> ie_length x = declared b.
Proof. declen. Qed.
Lemma HenbInfoReporting_declared : forall m b x, HenbInfoReporting_unmarshal m b = Ok x -> ie_length x = declared b.
Proof. declen. Qed.
Lemma Ip4Cp_declared : forall m b x, Ip4Cp_unmarshal m b = Ok x -> ie_length x = declared b.
Proof. declen. Qed.
Lemma ChangeToReportFlags_declared : forall m b x, ChangeToReportFlags_unmarshal m b = Ok x -> ie_length x = declared b.
Proof. declen. Qed.
Lemma ActionIndication_declared : forall m b x, ActionIndication_unmarshal m b = Ok x -> ie_length x = declared b.
Proof. declen. Qed.
Lemma TwanId_declared : forall m b x, TwanId_unmarshal m b = Ok x -> ie_length x = declared b.
Proof. declen. Qed.
Lemma UliTimestamp_declared : forall m b x, UliTimestamp_unmarshal m b = Ok x -> ie_length x = declared b.
Proof. declen. Qed.
Lemma MbmsFlags_declared : forall m b x, MbmsFlags_unmarshal m b = Ok x -> ie_length x = declared b.
Proof. declen. Qed.
Lemma RanNasCause_declared : forall m b x, RanNasCause_unmarshal m b = Ok x -> ie_length x = declared b.
Proof. declen. Qed.
Lemma CnOperatorSelectionEntity_declared : forall m b x, CnOperatorSelectionEntity_unmarshal m b = Ok x -> ie_length x = declared b.
Proof. declen. Qed.
Lemma Twmi_declared : forall m b x, Twmi_unmarshal m b = Ok x -> ie_length x = declared b.
Proof. declen. Qed.
Lemma NodeNumber_declared : forall m b x, NodeNumber_unmarshal m b = Ok x -> ie_length x = declared b.
Proof. declen. Qed.
Lemma NodeIdentifier_declared : forall m b x, NodeIdentifier_unmarshal m b = Ok x -> ie_length x = declared b.
Proof. declen. Qed.
Lemma PresenceReportingAreaAction_declared : forall m b x, PresenceReportingAreaAction_unmarshal m b = Ok x -> ie_length x = declared b.
Proof. declen. Qed.
Lemma PresenceReportingAreaInformation_declared : forall m b x, PresenceReportingAreaInformation_unmarshal m b = Ok x -> ie_length x = declared b.
Proof. declen. Qed.
Lemma TwanIdTimeStamp_declared : forall m b x, TwanIdTimeStamp_unmarshal m b = Ok x -> ie_length x = declared b.
Proof. declen. Qed.
Lemma Metric_declared : forall m b x, Metric_unmarshal m b = Ok x -> ie_length x = declared b.
Proof. declen. Qed.
Lemma Sqn_declared : forall m b x, Sqn_unmarshal m b = Ok x -> ie_length x = declared b.
Proof. declen. Qed.
Lemma ApnRelativeCapacity_declared : forall m b x, ApnRelativeCapacity_unmarshal m b = Ok x -> ie_length x = declared b.
Proof. declen. Qed.
Lemma WlanOffloadIndication_declared : forall m b x, WlanOffloadIndication_unmarshal m b = Ok x -> ie_length x = declared b.
Proof. declen. Qed.
Lemma PagingServiceInfo_declared : forall m b x, PagingServiceInfo_unmarshal m b = Ok x -> ie_length x = declared b.
Proof. declen. Qed.
Lemma IntegerNumber_declared : forall m b x, IntegerNumber_unmarshal m b = Ok x -> ie_length x = declared b.
Proof. declen. Qed.
Lemma MilliSecondTimeStamp_declared : forall m b x, MilliSecondTimeStamp_unmarshal m b = Ok x -> ie_length x = declared b.
Proof. declen. Qed.
Lemma MonitoringEventInformation_declared : forall m b x, MonitoringEventInformation_unmarshal m b = Ok x -> ie_length x = declared b.
Proof. declen. Qed.
Lemma EcgiList_declared : forall m b x, EcgiList_unmarshal m b = Ok x -> ie_length x = declared b.
Proof. declen. Qed.
Lemma RemoteUserId_declared : forall m b x, RemoteUserId_unmarshal m b = Ok x -> ie_length x = declared b.
Proof. declen. Qed.
Lemma RemoteUeIpInformation_declared : forall m b x, RemoteUeIpInformation_unmarshal m b = Ok x -> ie_length x = declared b.
Proof. declen. Qed.
Lemma CIoTOptimizationSupportIndication_declared : forall m b x, CIoTOptimizationSupportIndication_unmarshal m b = Ok x -> ie_length x = declared b.
Proof. declen. Qed.
Lemma HeaderCompressionConfiguration_declared : forall m b x, HeaderCompressionConfiguration_unmarshal m b = Ok x -> ie_length x = declared b.
Proof. declen. Qed.
Lemma Epco_declared : forall m b x, Epco_unmarshal m b = Ok x -> ie_length x = declared b.
Proof. declen. Qed.
Lemma ServingPlmnRateControl_declared : forall m b x, ServingPlmnRateControl_unmarshal m b = Ok x -> ie_length x = declared b.
Proof. declen. Qed.
Lemma Counter_declared : forall m b x, Counter_unmarshal m b = Ok x -> ie_length x = declared b.
Proof. declen. Qed.
Lemma MappedUeUsageType_declared : forall m b x, MappedUeUsageType_unmarshal m b = Ok x -> ie_length x = declared b.
Proof. declen. Qed.
Lemma SecondaryRatUsageDataReport_declared : forall m b x, SecondaryRatUsageDataReport_unmarshal m b = Ok x -> ie_length x = declared b.
Proof. declen. Qed.
Lemma UpFunctionSelectionIndicationFlags_declared : forall m b x, UpFunctionSelectionIndicationFlags_unmarshal m b = Ok x -> ie_length x = declared b.
Proof. declen. Qed.
Lemma MaxPacketLossRate_declared : forall m b x, MaxPacketLossRate_unmarshal m b = Ok x -> ie_length x = declared b.
Proof. declen. Qed.
Lemma ApnRateControlStatus_declared : forall m b x, ApnRateControlStatus_unmarshal m b = Ok x -> ie_length x = declared b.
Proof. declen. Qed.
Lemma ExtendedTraceInformation_declared : forall m b x, ExtendedTraceInformation_unmarshal m b = Ok x -> ie_length x = declared b.
Proof. declen. Qed.
Lemma MonitoringEventExtensionInfo_declared : forall m b x, MonitoringEventExtensionInfo_unmarshal m b = Ok x -> ie_length x = declared b.
Proof. declen. Qed.
Lemma AdditionalRrmPolicyIndex_declared : forall m b x, AdditionalRrmPolicyIndex_unmarshal m b = Ok x -> ie_length x = declared b.
Proof. declen. Qed.
Lemma ServicesAuthorized_declared : forall m b x, ServicesAuthorized_unmarshal m b = Ok x -> ie_length x = declared b.
Proof. declen. Qed.
Lemma BitRate_declared : forall m b x, BitRate_unmarshal m b = Ok x -> ie_length x = declared b.
Proof. declen. Qed.
Lemma PC5QosFlow_declared : forall m b x, PC5QosFlow_unmarshal m b = Ok x -> ie_length x = declared b.
Proof. declen. Qed.
Lemma SgiPtpTunnelAddress_declared : forall m b x, SgiPtpTunnelAddress_unmarshal m b = Ok x -> ie_length x = declared b.
Proof. declen. Qed.
Lemma PgwFqdn_declared : forall m b x, PgwFqdn_unmarshal m b = Ok x -> ie_length x = declared b.
Proof. declen. Qed.
Lemma GroupId_declared : forall m b x, GroupId_unmarshal m b = Ok x -> ie_length x = declared b.
Proof. declen. Qed.
Lemma PSCellId_declared : forall m b x, PSCellId_unmarshal m b = Ok x -> ie_length x = declared b.
Proof. declen. Qed.
Lemma UpSecurityPolicy_declared : forall m b x, UpSecurityPolicy_unmarshal m b = Ok x -> ie_length x = declared b.
Proof. declen. Qed.
Lemma AlternativeImsi_declared : forall m b x, AlternativeImsi_unmarshal m b = Ok x -> ie_length x = declared b.
Proof. declen. Qed.
Lemma SpecialIEWithTypeExt_declared : forall m b x, SpecialIEWithTypeExt_unmarshal m b = Ok x -> ie_length x = declared b.
Proof. declen. Qed.
Lemma PrivateExtension_declared : forall m b x, PrivateExtension_unmarshal m b = Ok x -> ie_length x = declared b.
Proof. declen. Qed.
Lemma Unknown_declared : forall m b x, Unknown_unmarshal m b = Ok x -> ie_length x = declared b.
Proof. declen. Qed.
