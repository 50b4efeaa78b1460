(* V2DecMore.v - further facts about the IE list decoder: framing, dispatch and declared lengths. *)
From Verif Require Import Base BaseFacts.
From Verif Require Export V2WireSpec V2HaltFacts.
Local Open Scope N_scope.

(* framing *)
Lemma mod_64k n : (n mod 65536 / 256) mod 256 = (n / 256) mod 256 /\ (n mod 65536) mod 256 = n mod 256.
Proof.
  rewrite (N.div_mod' n 65536) at 2 4. set (q := n / 65536). set (k := n mod 65536).
  replace (65536 * q + k) with (k + (256 * q) * 256) by lia. rewrite N.div_add, N.mod_add by lia.
  replace (k / 256 + 256 * q) with (k / 256 + q * 256) by lia. rewrite N.mod_add by lia. split; reflexivity.
Qed.
Lemma tliv_framed T len ins v : tliv T len ins v = framed T ins v.
Proof.
  unfold tliv, set_tliv_ie_length, framed. cbn [app enc16 set_nth].
  assert (E : nlen (T :: len / 256 mod 256 :: len mod 256 :: ins :: v) - 4 = nlen v) by (unfold nlen; cbn [length]; lia).
  unfold enc16. cbn [app set_nth]. rewrite E. destruct (mod_64k (nlen v)) as [-> ->]. reflexivity.
Qed.
Lemma ie_framed e : (match e with IE_TraceReference _ | IE_Unknown _ => False | IE_Uli i => ie_t i = 86 | _ => True end) ->
  exists code i v, has_code e code /\ ie_marshal e = framed code i v /\ (i = ie_instance e \/ exists x, e = IE_MonitoringEventInformation x /\ N.land i 15 = N.land (ie_instance e) 15).
Proof.
  intros H. destruct e as [x|x|x|x|x|x|x|x|x|x|x|x|x|x|x|x|x|x|x|x|x|x|x|x|x|x|x|x|x|x|x|x|x|x|x|x|x|x|x|x|x|x|x|x|x|x|x|x|x|x|x|x|x|x|x|x|x|x|x|x|x|x|x|x|x|x|x|x|x|x|x|x|x|x|x|x|x|x|x|x|x|x|x|x|x|x|x|x|x|x|x|x|x|x|x|x|x|x|x|x|x|x|x|x|x|x|x|x|x|x|x|x|x|x|x|x|x|x|x|x|x|x|x|x|x|x|x|x|x|x|x|x|x|x|x|x|x|x|x|x|x|x|x|x|x|x]; try contradiction; unfold ie_marshal, ie_instance.
  - eexists. eexists. eexists. split; [|split; [unfold Imsi_marshal, marshal_ie; apply tliv_framed|left; reflexivity]]. reflexivity.
  - eexists. eexists. eexists. split; [|split; [unfold Cause_marshal, marshal_ie; apply tliv_framed|left; reflexivity]]. reflexivity.
  - eexists. eexists. eexists. split; [|split; [unfold Recovery_marshal, marshal_ie; apply tliv_framed|left; reflexivity]]. reflexivity.
  - eexists. eexists. eexists. split; [|split; [unfold StnSr_marshal, marshal_ie; apply tliv_framed|left; reflexivity]]. reflexivity.
  - eexists. eexists. eexists. split; [|split; [unfold SrvccCause_marshal, marshal_ie; apply tliv_framed|left; reflexivity]]. reflexivity.
  - eexists. eexists. eexists. split; [|split; [unfold Apn_marshal, marshal_ie; apply tliv_framed|left; reflexivity]]. reflexivity.
  - eexists. eexists. eexists. split; [|split; [unfold Ambr_marshal, marshal_ie; apply tliv_framed|left; reflexivity]]. reflexivity.
  - eexists. eexists. eexists. split; [|split; [unfold Ebi_marshal, marshal_ie; apply tliv_framed|left; reflexivity]]. reflexivity.
  - eexists. eexists. eexists. split; [|split; [unfold IpAddress_marshal, marshal_ie; apply tliv_framed|left; reflexivity]]. reflexivity.
  - eexists. eexists. eexists. split; [|split; [unfold Mei_marshal, marshal_ie; apply tliv_framed|left; reflexivity]]. reflexivity.
  - eexists. eexists. eexists. split; [|split; [unfold Msisdn_marshal, marshal_ie; apply tliv_framed|left; reflexivity]]. reflexivity.
  - eexists. eexists. eexists. split; [|split; [unfold Indication_marshal, marshal_ie; apply tliv_framed|left; reflexivity]]. reflexivity.
  - eexists. eexists. eexists. split; [|split; [unfold Pco_marshal, marshal_ie; apply tliv_framed|left; reflexivity]]. reflexivity.
  - eexists. eexists. eexists. split; [|split; [unfold PdnAddressAllocation_marshal, marshal_ie; apply tliv_framed|left; reflexivity]]. reflexivity.
  - eexists. eexists. eexists. split; [|split; [unfold BearerQos_marshal, marshal_ie; apply tliv_framed|left; reflexivity]]. reflexivity.
  - eexists. eexists. eexists. split; [|split; [unfold FlowQos_marshal, marshal_ie; apply tliv_framed|left; reflexivity]]. reflexivity.
  - eexists. eexists. eexists. split; [|split; [unfold RatType_marshal, marshal_ie; apply tliv_framed|left; reflexivity]]. reflexivity.
  - eexists. eexists. eexists. split; [|split; [unfold ServingNetwork_marshal, marshal_ie; apply tliv_framed|left; reflexivity]]. reflexivity.
  - eexists. eexists. eexists. split; [|split; [unfold BearerTft_marshal, marshal_ie; apply tliv_framed|left; reflexivity]]. reflexivity.
  - eexists. eexists. eexists. split; [|split; [unfold TrafficAggregateDescription_marshal, marshal_ie; apply tliv_framed|left; reflexivity]]. reflexivity.
  - exists 86. eexists. eexists. split; [reflexivity|]. unfold Uli_marshal, marshal_ie. rewrite H. split; [apply tliv_framed|left; reflexivity].
  - eexists. eexists. eexists. split; [|split; [unfold Fteid_marshal, marshal_ie; apply tliv_framed|left; reflexivity]]. reflexivity.
  - eexists. eexists. eexists. split; [|split; [unfold Tmsi_marshal, marshal_ie; apply tliv_framed|left; reflexivity]]. reflexivity.
  - eexists. eexists. eexists. split; [|split; [unfold GlobalCnId_marshal, marshal_ie; apply tliv_framed|left; reflexivity]]. reflexivity.
  - eexists. eexists. eexists. split; [|split; [unfold S103pdf_marshal, marshal_ie; apply tliv_framed|left; reflexivity]]. reflexivity.
  - eexists. eexists. eexists. split; [|split; [unfold S1udf_marshal, marshal_ie; apply tliv_framed|left; reflexivity]]. reflexivity.
  - eexists. eexists. eexists. split; [|split; [unfold DelayValue_marshal, marshal_ie; apply tliv_framed|left; reflexivity]]. reflexivity.
  - eexists. eexists. eexists. split; [|split; [unfold BearerContext_marshal, marshal_ie; apply tliv_framed|left; reflexivity]]. reflexivity.
  - eexists. eexists. eexists. split; [|split; [unfold ChargingId_marshal, marshal_ie; apply tliv_framed|left; reflexivity]]. reflexivity.
  - eexists. eexists. eexists. split; [|split; [unfold ChargingCharacteristics_marshal, marshal_ie; apply tliv_framed|left; reflexivity]]. reflexivity.
  - eexists. eexists. eexists. split; [|split; [unfold TraceInformation_marshal, marshal_ie; apply tliv_framed|left; reflexivity]]. reflexivity.
  - eexists. eexists. eexists. split; [|split; [unfold BearerFlags_marshal, marshal_ie; apply tliv_framed|left; reflexivity]]. reflexivity.
  - eexists. eexists. eexists. split; [|split; [unfold PdnType_marshal, marshal_ie; apply tliv_framed|left; reflexivity]]. reflexivity.
  - eexists. eexists. eexists. split; [|split; [unfold Pti_marshal, marshal_ie; apply tliv_framed|left; reflexivity]]. reflexivity.
  - destruct x as [x|x|x|x|x|x]; eexists; eexists; eexists; (split; [|split; [unfold MmContext_marshal; match goal with |- ?f x = _ => unfold f, marshal_ie end; apply tliv_framed|left]]); reflexivity.
  - eexists. eexists. eexists. split; [|split; [unfold PdnConnections_marshal, marshal_ie; apply tliv_framed|left; reflexivity]]. reflexivity.
  - eexists. eexists. eexists. split; [|split; [unfold PduNumbers_marshal, marshal_ie; apply tliv_framed|left; reflexivity]]. reflexivity.
  - eexists. eexists. eexists. split; [|split; [unfold Ptmsi_marshal, marshal_ie; apply tliv_framed|left; reflexivity]]. reflexivity.
  - eexists. eexists. eexists. split; [|split; [unfold PtmsiSignature_marshal, marshal_ie; apply tliv_framed|left; reflexivity]]. reflexivity.
  - eexists. eexists. eexists. split; [|split; [unfold HopCounter_marshal, marshal_ie; apply tliv_framed|left; reflexivity]]. reflexivity.
  - eexists. eexists. eexists. split; [|split; [unfold UeTimeZone_marshal, marshal_ie; apply tliv_framed|left; reflexivity]]. reflexivity.
  - eexists. eexists. eexists. split; [|split; [unfold CompleteRequestMessage_marshal, marshal_ie; apply tliv_framed|left; reflexivity]]. reflexivity.
  - eexists. eexists. eexists. split; [|split; [unfold Guti_marshal, marshal_ie; apply tliv_framed|left; reflexivity]]. reflexivity.
  - eexists. eexists. eexists. split; [|split; [unfold Fcontainer_marshal, marshal_ie; apply tliv_framed|left; reflexivity]]. reflexivity.
  - eexists. eexists. eexists. split; [|split; [unfold Fcause_marshal, marshal_ie; apply tliv_framed|left; reflexivity]]. reflexivity.
  - eexists. eexists. eexists. split; [|split; [unfold PlmnId_marshal, marshal_ie; apply tliv_framed|left; reflexivity]]. reflexivity.
  - eexists. eexists. eexists. split; [|split; [unfold TargetIdentification_marshal, marshal_ie; apply tliv_framed|left; reflexivity]]. reflexivity.
  - eexists. eexists. eexists. split; [|split; [unfold PacketFlowId_marshal, marshal_ie; apply tliv_framed|left; reflexivity]]. reflexivity.
  - eexists. eexists. eexists. split; [|split; [unfold RabContext_marshal, marshal_ie; apply tliv_framed|left; reflexivity]]. reflexivity.
  - eexists. eexists. eexists. split; [|split; [unfold SourceRncPdcpContextInfo_marshal, marshal_ie; apply tliv_framed|left; reflexivity]]. reflexivity.
  - eexists. eexists. eexists. split; [|split; [unfold PortNumber_marshal, marshal_ie; apply tliv_framed|left; reflexivity]]. reflexivity.
  - eexists. eexists. eexists. split; [|split; [unfold ApnRestriction_marshal, marshal_ie; apply tliv_framed|left; reflexivity]]. reflexivity.
  - eexists. eexists. eexists. split; [|split; [unfold SelectionMode_marshal, marshal_ie; apply tliv_framed|left; reflexivity]]. reflexivity.
  - eexists. eexists. eexists. split; [|split; [unfold SourceIdentification_marshal, marshal_ie; apply tliv_framed|left; reflexivity]]. reflexivity.
  - eexists. eexists. eexists. split; [|split; [unfold ChangeReportingAction_marshal, marshal_ie; apply tliv_framed|left; reflexivity]]. reflexivity.
  - eexists. eexists. eexists. split; [|split; [unfold Fqcsid_marshal, marshal_ie; apply tliv_framed|left; reflexivity]]. reflexivity.
  - eexists. eexists. eexists. split; [|split; [unfold ChannelNeeded_marshal, marshal_ie; apply tliv_framed|left; reflexivity]]. reflexivity.
  - eexists. eexists. eexists. split; [|split; [unfold EmlppPriority_marshal, marshal_ie; apply tliv_framed|left; reflexivity]]. reflexivity.
  - eexists. eexists. eexists. split; [|split; [unfold NodeType_marshal, marshal_ie; apply tliv_framed|left; reflexivity]]. reflexivity.
  - eexists. eexists. eexists. split; [|split; [unfold Fqdn_marshal, marshal_ie; apply tliv_framed|left; reflexivity]]. reflexivity.
  - eexists. eexists. eexists. split; [|split; [unfold TransactionIdentifier_marshal, marshal_ie; apply tliv_framed|left; reflexivity]]. reflexivity.
  - eexists. eexists. eexists. split; [|split; [unfold MbmsServiceArea_marshal, marshal_ie; apply tliv_framed|left; reflexivity]]. reflexivity.
  - eexists. eexists. eexists. split; [|split; [unfold MbmsSessionDuration_marshal, marshal_ie; apply tliv_framed|left; reflexivity]]. reflexivity.
  - eexists. eexists. eexists. split; [|split; [unfold MbmsSessionId_marshal, marshal_ie; apply tliv_framed|left; reflexivity]]. reflexivity.
  - eexists. eexists. eexists. split; [|split; [unfold MbmsFlowId_marshal, marshal_ie; apply tliv_framed|left; reflexivity]]. reflexivity.
  - eexists. eexists. eexists. split; [|split; [unfold MbmsIpMulticastDistribution_marshal, marshal_ie; apply tliv_framed|left; reflexivity]]. reflexivity.
  - eexists. eexists. eexists. split; [|split; [unfold MbmsDistributionAck_marshal, marshal_ie; apply tliv_framed|left; reflexivity]]. reflexivity.
  - eexists. eexists. eexists. split; [|split; [unfold RfspIndex_marshal, marshal_ie; apply tliv_framed|left; reflexivity]]. reflexivity.
  - eexists. eexists. eexists. split; [|split; [unfold Uci_marshal, marshal_ie; apply tliv_framed|left; reflexivity]]. reflexivity.
  - eexists. eexists. eexists. split; [|split; [unfold CSGInformationReportingAction_marshal, marshal_ie; apply tliv_framed|left; reflexivity]]. reflexivity.
  - eexists. eexists. eexists. split; [|split; [unfold CsgId_marshal, marshal_ie; apply tliv_framed|left; reflexivity]]. reflexivity.
  - eexists. eexists. eexists. split; [|split; [unfold CsgMembershipIndication_marshal, marshal_ie; apply tliv_framed|left; reflexivity]]. reflexivity.
  - eexists. eexists. eexists. split; [|split; [unfold ServiceIndicator_marshal, marshal_ie; apply tliv_framed|left; reflexivity]]. reflexivity.
  - eexists. eexists. eexists. split; [|split; [unfold DetachType_marshal, marshal_ie; apply tliv_framed|left; reflexivity]]. reflexivity.
  - eexists. eexists. eexists. split; [|split; [unfold Ldn_marshal, marshal_ie; apply tliv_framed|left; reflexivity]]. reflexivity.
  - eexists. eexists. eexists. split; [|split; [unfold NodeFeatures_marshal, marshal_ie; apply tliv_framed|left; reflexivity]]. reflexivity.
  - eexists. eexists. eexists. split; [|split; [unfold MbmsTimeToDataTransfer_marshal, marshal_ie; apply tliv_framed|left; reflexivity]]. reflexivity.
  - eexists. eexists. eexists. split; [|split; [unfold Throttling_marshal, marshal_ie; apply tliv_framed|left; reflexivity]]. reflexivity.
  - eexists. eexists. eexists. split; [|split; [unfold Arp_marshal, marshal_ie; apply tliv_framed|left; reflexivity]]. reflexivity.
  - eexists. eexists. eexists. split; [|split; [unfold EpcTimer_marshal, marshal_ie; apply tliv_framed|left; reflexivity]]. reflexivity.
  - eexists. eexists. eexists. split; [|split; [unfold Spi_marshal, marshal_ie; apply tliv_framed|left; reflexivity]]. reflexivity.
  - eexists. eexists. eexists. split; [|split; [unfold Tmgi_marshal, marshal_ie; apply tliv_framed|left; reflexivity]]. reflexivity.
  - eexists. eexists. eexists. split; [|split; [unfold AdditionalMmContextForSrvcc_marshal, marshal_ie; apply tliv_framed|left; reflexivity]]. reflexivity.
  - eexists. eexists. eexists. split; [|split; [unfold AdditionalFlagsSrvcc_marshal, marshal_ie; apply tliv_framed|left; reflexivity]]. reflexivity.
  - eexists. eexists. eexists. split; [|split; [unfold MdtConfiguration_marshal, marshal_ie; apply tliv_framed|left; reflexivity]]. reflexivity.
  - eexists. eexists. eexists. split; [|split; [unfold Apco_marshal, marshal_ie; apply tliv_framed|left; reflexivity]]. reflexivity.
  - eexists. eexists. eexists. split; [|split; [unfold AbsoluteTimeMbmsDataTransfer_marshal, marshal_ie; apply tliv_framed|left; reflexivity]]. reflexivity.
  - eexists. eexists. eexists. split; [|split; [unfold HenbInfoReporting_marshal, marshal_ie; apply tliv_framed|left; reflexivity]]. reflexivity.
  - eexists. eexists. eexists. split; [|split; [unfold Ip4Cp_marshal, marshal_ie; apply tliv_framed|left; reflexivity]]. reflexivity.
  - eexists. eexists. eexists. split; [|split; [unfold ChangeToReportFlags_marshal, marshal_ie; apply tliv_framed|left; reflexivity]]. reflexivity.
  - eexists. eexists. eexists. split; [|split; [unfold ActionIndication_marshal, marshal_ie; apply tliv_framed|left; reflexivity]]. reflexivity.
  - eexists. eexists. eexists. split; [|split; [unfold TwanId_marshal, marshal_ie; apply tliv_framed|left; reflexivity]]. reflexivity.
  - eexists. eexists. eexists. split; [|split; [unfold UliTimestamp_marshal, marshal_ie; apply tliv_framed|left; reflexivity]]. reflexivity.
  - eexists. eexists. eexists. split; [|split; [unfold MbmsFlags_marshal, marshal_ie; apply tliv_framed|left; reflexivity]]. reflexivity.
  - eexists. eexists. eexists. split; [|split; [unfold RanNasCause_marshal, marshal_ie; apply tliv_framed|left; reflexivity]]. reflexivity.
  - eexists. eexists. eexists. split; [|split; [unfold CnOperatorSelectionEntity_marshal, marshal_ie; apply tliv_framed|left; reflexivity]]. reflexivity.
  - eexists. eexists. eexists. split; [|split; [unfold Twmi_marshal, marshal_ie; apply tliv_framed|left; reflexivity]]. reflexivity.
  - eexists. eexists. eexists. split; [|split; [unfold NodeNumber_marshal, marshal_ie; apply tliv_framed|left; reflexivity]]. reflexivity.
  - eexists. eexists. eexists. split; [|split; [unfold NodeIdentifier_marshal, marshal_ie; apply tliv_framed|left; reflexivity]]. reflexivity.
  - eexists. eexists. eexists. split; [|split; [unfold PresenceReportingAreaAction_marshal, marshal_ie; apply tliv_framed|left; reflexivity]]. reflexivity.
  - eexists. eexists. eexists. split; [|split; [unfold PresenceReportingAreaInformation_marshal, marshal_ie; apply tliv_framed|left; reflexivity]]. reflexivity.
  - eexists. eexists. eexists. split; [|split; [unfold TwanIdTimeStamp_marshal, marshal_ie; apply tliv_framed|left; reflexivity]]. reflexivity.
  - eexists. eexists. eexists. split; [|split; [unfold OverloadControlInfo_marshal, marshal_ie; apply tliv_framed|left; reflexivity]]. reflexivity.
  - eexists. eexists. eexists. split; [|split; [unfold LoadControl_marshal, marshal_ie; apply tliv_framed|left; reflexivity]]. reflexivity.
  - eexists. eexists. eexists. split; [|split; [unfold Metric_marshal, marshal_ie; apply tliv_framed|left; reflexivity]]. reflexivity.
  - eexists. eexists. eexists. split; [|split; [unfold Sqn_marshal, marshal_ie; apply tliv_framed|left; reflexivity]]. reflexivity.
  - eexists. eexists. eexists. split; [|split; [unfold ApnRelativeCapacity_marshal, marshal_ie; apply tliv_framed|left; reflexivity]]. reflexivity.
  - eexists. eexists. eexists. split; [|split; [unfold WlanOffloadIndication_marshal, marshal_ie; apply tliv_framed|left; reflexivity]]. reflexivity.
  - eexists. eexists. eexists. split; [|split; [unfold PagingServiceInfo_marshal, marshal_ie; apply tliv_framed|left; reflexivity]]. reflexivity.
  - eexists. eexists. eexists. split; [|split; [unfold IntegerNumber_marshal, marshal_ie; apply tliv_framed|left; reflexivity]]. reflexivity.
  - eexists. eexists. eexists. split; [|split; [unfold MilliSecondTimeStamp_marshal, marshal_ie; apply tliv_framed|left; reflexivity]]. reflexivity.
  - eexists. eexists. eexists. split; [reflexivity|]. unfold MonitoringEventInformation_marshal. split; [apply tliv_framed|right; exists x; split; [reflexivity|]].
    rewrite N.land_lor_distr_l, <- N.land_assoc. change (N.land 15 15) with 15. unfold mon_flags. destruct (is_some _), (mi_nscf _), (mi_nsui _), (mi_nsur _); reflexivity.
  - eexists. eexists. eexists. split; [|split; [unfold EcgiList_marshal, marshal_ie; apply tliv_framed|left; reflexivity]]. reflexivity.
  - eexists. eexists. eexists. split; [|split; [unfold RemoteUeContext_marshal, marshal_ie; apply tliv_framed|left; reflexivity]]. reflexivity.
  - eexists. eexists. eexists. split; [|split; [unfold RemoteUserId_marshal, marshal_ie; apply tliv_framed|left; reflexivity]]. reflexivity.
  - eexists. eexists. eexists. split; [|split; [unfold RemoteUeIpInformation_marshal, marshal_ie; apply tliv_framed|left; reflexivity]]. reflexivity.
  - eexists. eexists. eexists. split; [|split; [unfold CIoTOptimizationSupportIndication_marshal, marshal_ie; apply tliv_framed|left; reflexivity]]. reflexivity.
  - eexists. eexists. eexists. split; [|split; [unfold ScefPdnConnections_marshal, marshal_ie; apply tliv_framed|left; reflexivity]]. reflexivity.
  - eexists. eexists. eexists. split; [|split; [unfold HeaderCompressionConfiguration_marshal, marshal_ie; apply tliv_framed|left; reflexivity]]. reflexivity.
  - eexists. eexists. eexists. split; [|split; [unfold Epco_marshal, marshal_ie; apply tliv_framed|left; reflexivity]]. reflexivity.
  - eexists. eexists. eexists. split; [|split; [unfold ServingPlmnRateControl_marshal, marshal_ie; apply tliv_framed|left; reflexivity]]. reflexivity.
  - eexists. eexists. eexists. split; [|split; [unfold Counter_marshal, marshal_ie; apply tliv_framed|left; reflexivity]]. reflexivity.
  - eexists. eexists. eexists. split; [|split; [unfold MappedUeUsageType_marshal, marshal_ie; apply tliv_framed|left; reflexivity]]. reflexivity.
  - eexists. eexists. eexists. split; [|split; [unfold SecondaryRatUsageDataReport_marshal, marshal_ie; apply tliv_framed|left; reflexivity]]. reflexivity.
  - eexists. eexists. eexists. split; [|split; [unfold UpFunctionSelectionIndicationFlags_marshal, marshal_ie; apply tliv_framed|left; reflexivity]]. reflexivity.
  - eexists. eexists. eexists. split; [|split; [unfold MaxPacketLossRate_marshal, marshal_ie; apply tliv_framed|left; reflexivity]]. reflexivity.
  - eexists. eexists. eexists. split; [|split; [unfold ApnRateControlStatus_marshal, marshal_ie; apply tliv_framed|left; reflexivity]]. reflexivity.
  - eexists. eexists. eexists. split; [|split; [unfold ExtendedTraceInformation_marshal, marshal_ie; apply tliv_framed|left; reflexivity]]. reflexivity.
  - eexists. eexists. eexists. split; [|split; [unfold MonitoringEventExtensionInfo_marshal, marshal_ie; apply tliv_framed|left; reflexivity]]. reflexivity.
  - eexists. eexists. eexists. split; [|split; [unfold AdditionalRrmPolicyIndex_marshal, marshal_ie; apply tliv_framed|left; reflexivity]]. reflexivity.
  - eexists. eexists. eexists. split; [|split; [unfold V2xInformation_marshal, marshal_ie; apply tliv_framed|left; reflexivity]]. reflexivity.
  - eexists. eexists. eexists. split; [|split; [unfold PC5QosParameters_marshal, marshal_ie; apply tliv_framed|left; reflexivity]]. reflexivity.
  - eexists. eexists. eexists. split; [|split; [unfold ServicesAuthorized_marshal, marshal_ie; apply tliv_framed|left; reflexivity]]. reflexivity.
  - eexists. eexists. eexists. split; [|split; [unfold BitRate_marshal, marshal_ie; apply tliv_framed|left; reflexivity]]. reflexivity.
  - eexists. eexists. eexists. split; [|split; [unfold PC5QosFlow_marshal, marshal_ie; apply tliv_framed|left; reflexivity]]. reflexivity.
  - eexists. eexists. eexists. split; [|split; [unfold SgiPtpTunnelAddress_marshal, marshal_ie; apply tliv_framed|left; reflexivity]]. reflexivity.
  - eexists. eexists. eexists. split; [|split; [unfold PgwChangeInfo_marshal, marshal_ie; apply tliv_framed|left; reflexivity]]. reflexivity.
  - eexists. eexists. eexists. split; [|split; [unfold PgwFqdn_marshal, marshal_ie; apply tliv_framed|left; reflexivity]]. reflexivity.
  - eexists. eexists. eexists. split; [|split; [unfold GroupId_marshal, marshal_ie; apply tliv_framed|left; reflexivity]]. reflexivity.
  - eexists. eexists. eexists. split; [|split; [unfold PSCellId_marshal, marshal_ie; apply tliv_framed|left; reflexivity]]. reflexivity.
  - eexists. eexists. eexists. split; [|split; [unfold UpSecurityPolicy_marshal, marshal_ie; apply tliv_framed|left; reflexivity]]. reflexivity.
  - eexists. eexists. eexists. split; [|split; [unfold AlternativeImsi_marshal, marshal_ie; apply tliv_framed|left; reflexivity]]. reflexivity.
  - eexists. eexists. eexists. split; [|split; [unfold SpecialIEWithTypeExt_marshal, marshal_ie; apply tliv_framed|left; reflexivity]]. reflexivity.
  - eexists. eexists. eexists. split; [|split; [unfold PrivateExtension_marshal, marshal_ie; apply tliv_framed|left; reflexivity]]. reflexivity.
Qed.

(* declared lengths *)
Lemma GroupedIe_declared dec m b g : GroupedIe_unmarshal dec m b = Ok g -> ie_length g = declared b.
Proof.
  revert g. match goal with |- forall x, ?r = Ok x -> _ => change (post (fun x => ie_length x = declared b) r) end.
  unfold GroupedIe_unmarshal. repeat po.
Qed.
Lemma post_GroupedIe {A} (P : Tliv A -> Prop) dec m b k : (forall g, ie_length g = declared b -> post P (k g)) -> post P (bind (GroupedIe_unmarshal dec m b) k).
Proof. intros H. eapply post_bind_with; [|exact H]. intros g. apply GroupedIe_declared. Qed.
Ltac pd := lazymatch goal with
  | |- post _ (bind (GroupedIe_unmarshal _ _ _) _) => apply post_GroupedIe; intros; cbv zeta
  | |- post _ (Ok _) => apply post_ok; cbn [ie_length regroup]; assumption
  | _ => po end.
Lemma LoadControl_declared : forall dec m b x, LoadControl_unmarshal dec m b = Ok x -> ie_length x = declared b.
Proof.
  intros dec m b. match goal with |- forall x, ?r = Ok x -> _ => change (post (fun x => ie_length x = declared b) r) end. unfold LoadControl_unmarshal. repeat pd.
Qed.
Lemma OverloadControlInfo_declared : forall dec m b x, OverloadControlInfo_unmarshal dec m b = Ok x -> ie_length x = declared b.
Proof.
  intros dec m b. match goal with |- forall x, ?r = Ok x -> _ => change (post (fun x => ie_length x = declared b) r) end. unfold OverloadControlInfo_unmarshal. repeat pd.
Qed.
Lemma RemoteUeContext_declared : forall dec m b x, RemoteUeContext_unmarshal dec m b = Ok x -> ie_length x = declared b.
Proof.
  intros dec m b. match goal with |- forall x, ?r = Ok x -> _ => change (post (fun x => ie_length x = declared b) r) end. unfold RemoteUeContext_unmarshal. repeat pd.
Qed.
Lemma PC5QosParameters_declared : forall dec m b x, PC5QosParameters_unmarshal dec m b = Ok x -> ie_length x = declared b.
Proof.
  intros dec m b. match goal with |- forall x, ?r = Ok x -> _ => change (post (fun x => ie_length x = declared b) r) end. unfold PC5QosParameters_unmarshal. repeat pd.
Qed.
Lemma PgwChangeInfo_declared : forall dec m b x, PgwChangeInfo_unmarshal dec m b = Ok x -> ie_length x = declared b.
Proof.
  intros dec m b. match goal with |- forall x, ?r = Ok x -> _ => change (post (fun x => ie_length x = declared b) r) end. unfold PgwChangeInfo_unmarshal. repeat pd.
Qed.
Lemma ScefPdnConnections_declared : forall dec m b x, ScefPdnConnections_unmarshal dec m b = Ok x -> ie_length x = declared b.
Proof.
  intros dec m b. match goal with |- forall x, ?r = Ok x -> _ => change (post (fun x => ie_length x = declared b) r) end. unfold ScefPdnConnections_unmarshal. repeat pd.
Qed.
Lemma BearerContext_declared : forall dec m b x, BearerContext_unmarshal dec m b = Ok x -> ie_length x = declared b.
Proof.
  intros dec m b. match goal with |- forall x, ?r = Ok x -> _ => change (post (fun x => ie_length x = declared b) r) end. unfold BearerContext_unmarshal. repeat pd.
Qed.
Lemma V2xInformation_declared : forall dec m b x, V2xInformation_unmarshal dec m b = Ok x -> ie_length x = declared b.
Proof.
  intros dec m b. match goal with |- forall x, ?r = Ok x -> _ => change (post (fun x => ie_length x = declared b) r) end. unfold V2xInformation_unmarshal. repeat pd.
Qed.
Lemma PdnConnections_declared : forall dec m b x, PdnConnections_unmarshal dec m b = Ok x -> ie_length x = declared b.
Proof.
  intros dec m b. match goal with |- forall x, ?r = Ok x -> _ => change (post (fun x => ie_length x = declared b) r) end. unfold PdnConnections_unmarshal. repeat pd.
Qed.
Lemma MmContextEpsSecurityContextQuadruplets_declared : forall m b x, MmContextEpsSecurityContextQuadruplets_unmarshal m b = Ok x -> ie_length x = declared b.
Proof. declen. Qed.
Lemma MmContextUmtsKeyQuintuplets_declared : forall m b x, MmContextUmtsKeyQuintuplets_unmarshal m b = Ok x -> ie_length x = declared b.
Proof. declen. Qed.
Lemma MmContextUmtsKeyQuadrupletsQuintuplets_declared : forall m b x, MmContextUmtsKeyQuadrupletsQuintuplets_unmarshal m b = Ok x -> ie_length x = declared b.
Proof. declen. Qed.
Lemma MmContextUmtsKeyCipherQuintuplets_declared : forall m b x, MmContextUmtsKeyCipherQuintuplets_unmarshal m b = Ok x -> ie_length x = declared b.
Proof. declen. Qed.
Lemma MmContextGsmKeyTriplets_declared : forall m b x, MmContextGsmKeyTriplets_unmarshal m b = Ok x -> ie_length x = declared b.
Proof. declen. Qed.
Lemma MmContextGsmKeyCipherQuintuplets_declared : forall m b x, MmContextGsmKeyCipherQuintuplets_unmarshal m b = Ok x -> ie_length x = declared b.
Proof. declen. Qed.

(* what a successful decode of one IE tells: kind and length field *)
Definition decoded (b : list N) (t : N) (e : ie) : Prop := (t <> 169 -> has_code e t) /\ ie_lenfield e = declared b.
Lemma post_lift {A} b t (c : A -> ie) r : (forall x, r = Ok x -> decoded b t (c x)) -> post (decoded b t) (lift c r).
Proof. intros H. unfold lift. destruct r; cbn; intros y E; try discriminate E. apply Ok_inj in E. subst. apply H. reflexivity. Qed.
Lemma decode_one_post dec m b : post (decoded b (nth 0 b 0)) (decode_one dec m b).
Proof.
  unfold decode_one. destruct b as [|t b']; [apply post_panic|]. rewrite at_0. bk. set (b := t :: b'). cbn [nth].
  destruct (N.eqb_spec t 1) as [->|N1]; [apply post_lift; intros x E; split; [reflexivity|exact (Imsi_declared m _ _ E)]|].
  destruct (N.eqb_spec t 2) as [->|N2]; [apply post_lift; intros x E; split; [reflexivity|exact (Cause_declared m _ _ E)]|].
  destruct (N.eqb_spec t 3) as [->|N3]; [apply post_lift; intros x E; split; [reflexivity|exact (Recovery_declared m _ _ E)]|].
  destruct (N.eqb_spec t 51) as [->|N51]; [apply post_lift; intros x E; split; [reflexivity|exact (StnSr_declared m _ _ E)]|].
  destruct (N.eqb_spec t 56) as [->|N56]; [apply post_lift; intros x E; split; [reflexivity|exact (SrvccCause_declared m _ _ E)]|].
  destruct (N.eqb_spec t 71) as [->|N71]; [apply post_lift; intros x E; split; [reflexivity|exact (Apn_declared m _ _ E)]|].
  destruct (N.eqb_spec t 72) as [->|N72]; [apply post_lift; intros x E; split; [reflexivity|exact (Ambr_declared m _ _ E)]|].
  destruct (N.eqb_spec t 73) as [->|N73]; [apply post_lift; intros x E; split; [reflexivity|exact (Ebi_declared m _ _ E)]|].
  destruct (N.eqb_spec t 74) as [->|N74]; [apply post_lift; intros x E; split; [reflexivity|exact (IpAddress_declared m _ _ E)]|].
  destruct (N.eqb_spec t 75) as [->|N75]; [apply post_lift; intros x E; split; [reflexivity|exact (Mei_declared m _ _ E)]|].
  destruct (N.eqb_spec t 76) as [->|N76]; [apply post_lift; intros x E; split; [reflexivity|exact (Msisdn_declared m _ _ E)]|].
  destruct (N.eqb_spec t 77) as [->|N77]; [apply post_lift; intros x E; split; [reflexivity|exact (Indication_declared m _ _ E)]|].
  destruct (N.eqb_spec t 78) as [->|N78]; [apply post_lift; intros x E; split; [reflexivity|exact (Pco_declared m _ _ E)]|].
  destruct (N.eqb_spec t 79) as [->|N79]; [apply post_lift; intros x E; split; [reflexivity|exact (PdnAddressAllocation_declared m _ _ E)]|].
  destruct (N.eqb_spec t 80) as [->|N80]; [apply post_lift; intros x E; split; [reflexivity|exact (BearerQos_declared m _ _ E)]|].
  destruct (N.eqb_spec t 81) as [->|N81]; [apply post_lift; intros x E; split; [reflexivity|exact (FlowQos_declared m _ _ E)]|].
  destruct (N.eqb_spec t 82) as [->|N82]; [apply post_lift; intros x E; split; [reflexivity|exact (RatType_declared m _ _ E)]|].
  destruct (N.eqb_spec t 83) as [->|N83]; [apply post_lift; intros x E; split; [reflexivity|exact (ServingNetwork_declared m _ _ E)]|].
  destruct (N.eqb_spec t 84) as [->|N84]; [apply post_lift; intros x E; split; [reflexivity|exact (BearerTft_declared m _ _ E)]|].
  destruct (N.eqb_spec t 85) as [->|N85]; [apply post_lift; intros x E; split; [reflexivity|exact (TrafficAggregateDescription_declared m _ _ E)]|].
  destruct (N.eqb_spec t 86) as [->|N86]; [apply post_lift; intros x E; split; [reflexivity|exact (Uli_declared m _ _ E)]|].
  destruct (N.eqb_spec t 87) as [->|N87]; [apply post_lift; intros x E; split; [reflexivity|exact (Fteid_declared m _ _ E)]|].
  destruct (N.eqb_spec t 88) as [->|N88]; [apply post_lift; intros x E; split; [reflexivity|exact (Tmsi_declared m _ _ E)]|].
  destruct (N.eqb_spec t 89) as [->|N89]; [apply post_lift; intros x E; split; [reflexivity|exact (GlobalCnId_declared m _ _ E)]|].
  destruct (N.eqb_spec t 90) as [->|N90]; [apply post_lift; intros x E; split; [reflexivity|exact (S103pdf_declared m _ _ E)]|].
  destruct (N.eqb_spec t 91) as [->|N91]; [apply post_lift; intros x E; split; [reflexivity|exact (S1udf_declared m _ _ E)]|].
  destruct (N.eqb_spec t 92) as [->|N92]; [apply post_lift; intros x E; split; [reflexivity|exact (DelayValue_declared m _ _ E)]|].
  destruct (N.eqb_spec t 93) as [->|N93]; [apply post_lift; intros x E; split; [reflexivity|exact (BearerContext_declared dec m _ _ E)]|].
  destruct (N.eqb_spec t 94) as [->|N94]; [apply post_lift; intros x E; split; [reflexivity|exact (ChargingId_declared m _ _ E)]|].
  destruct (N.eqb_spec t 95) as [->|N95]; [apply post_lift; intros x E; split; [reflexivity|exact (ChargingCharacteristics_declared m _ _ E)]|].
  destruct (N.eqb_spec t 96) as [->|N96]; [apply post_lift; intros x E; split; [reflexivity|exact (TraceInformation_declared m _ _ E)]|].
  destruct (N.eqb_spec t 97) as [->|N97]; [apply post_lift; intros x E; split; [reflexivity|exact (BearerFlags_declared m _ _ E)]|].
  destruct (N.eqb_spec t 99) as [->|N99]; [apply post_lift; intros x E; split; [reflexivity|exact (PdnType_declared m _ _ E)]|].
  destruct (N.eqb_spec t 100) as [->|N100]; [apply post_lift; intros x E; split; [reflexivity|exact (Pti_declared m _ _ E)]|].
  destruct ((103 <=? t) && (t <=? 108)) eqn:NM; [apply post_lift; intros x E; split; unfold MmContext_unmarshal, b in E; rewrite at_0, bindOk in E; cbv beta in E|].
  { intros _. repeat match type of E with (if t =? ?k then _ else _) = _ => destruct (N.eqb_spec t k); [subst; match type of E with bind ?r _ = _ => destruct r; try discriminate E end; apply Ok_inj in E; subst; reflexivity|] end. discriminate E. }
  { repeat match type of E with (if t =? ?k then _ else _) = _ => destruct (N.eqb_spec t k); [subst; match type of E with bind ?r _ = _ => destruct r eqn:D; try discriminate E end; apply Ok_inj in E; subst; cbn [ie_lenfield MmContext_length];
      first [eapply MmContextEpsSecurityContextQuadruplets_declared; exact D|eapply MmContextUmtsKeyQuintuplets_declared; exact D|eapply MmContextUmtsKeyQuadrupletsQuintuplets_declared; exact D|eapply MmContextUmtsKeyCipherQuintuplets_declared; exact D|eapply MmContextGsmKeyTriplets_declared; exact D|eapply MmContextGsmKeyCipherQuintuplets_declared; exact D]|] end. discriminate E. }
  assert (N103 : t <> 103) by (intros ->; discriminate NM). assert (N104 : t <> 104) by (intros ->; discriminate NM). assert (N105 : t <> 105) by (intros ->; discriminate NM).
  assert (N106 : t <> 106) by (intros ->; discriminate NM). assert (N107 : t <> 107) by (intros ->; discriminate NM). assert (N108 : t <> 108) by (intros ->; discriminate NM).
  destruct (N.eqb_spec t 109) as [->|N109]; [apply post_lift; intros x E; split; [reflexivity|exact (PdnConnections_declared dec m _ _ E)]|].
  destruct (N.eqb_spec t 110) as [->|N110]; [apply post_lift; intros x E; split; [reflexivity|exact (PduNumbers_declared m _ _ E)]|].
  destruct (N.eqb_spec t 111) as [->|N111]; [apply post_lift; intros x E; split; [reflexivity|exact (Ptmsi_declared m _ _ E)]|].
  destruct (N.eqb_spec t 112) as [->|N112]; [apply post_lift; intros x E; split; [reflexivity|exact (PtmsiSignature_declared m _ _ E)]|].
  destruct (N.eqb_spec t 113) as [->|N113]; [apply post_lift; intros x E; split; [reflexivity|exact (HopCounter_declared m _ _ E)]|].
  destruct (N.eqb_spec t 114) as [->|N114]; [apply post_lift; intros x E; split; [reflexivity|exact (UeTimeZone_declared m _ _ E)]|].
  destruct (N.eqb_spec t 115) as [->|N115]; [apply post_lift; intros x E; split; [reflexivity|exact (TraceReference_declared m _ _ E)]|].
  destruct (N.eqb_spec t 116) as [->|N116]; [apply post_lift; intros x E; split; [reflexivity|exact (CompleteRequestMessage_declared m _ _ E)]|].
  destruct (N.eqb_spec t 117) as [->|N117]; [apply post_lift; intros x E; split; [reflexivity|exact (Guti_declared m _ _ E)]|].
  destruct (N.eqb_spec t 118) as [->|N118]; [apply post_lift; intros x E; split; [reflexivity|exact (Fcontainer_declared m _ _ E)]|].
  destruct (N.eqb_spec t 119) as [->|N119]; [apply post_lift; intros x E; split; [reflexivity|exact (Fcause_declared m _ _ E)]|].
  destruct (N.eqb_spec t 120) as [->|N120]; [apply post_lift; intros x E; split; [reflexivity|exact (PlmnId_declared m _ _ E)]|].
  destruct (N.eqb_spec t 121) as [->|N121]; [apply post_lift; intros x E; split; [reflexivity|exact (TargetIdentification_declared m _ _ E)]|].
  destruct (N.eqb_spec t 123) as [->|N123]; [apply post_lift; intros x E; split; [reflexivity|exact (PacketFlowId_declared m _ _ E)]|].
  destruct (N.eqb_spec t 124) as [->|N124]; [apply post_lift; intros x E; split; [reflexivity|exact (RabContext_declared m _ _ E)]|].
  destruct (N.eqb_spec t 125) as [->|N125]; [apply post_lift; intros x E; split; [reflexivity|exact (SourceRncPdcpContextInfo_declared m _ _ E)]|].
  destruct (N.eqb_spec t 126) as [->|N126]; [apply post_lift; intros x E; split; [reflexivity|exact (PortNumber_declared m _ _ E)]|].
  destruct (N.eqb_spec t 127) as [->|N127]; [apply post_lift; intros x E; split; [reflexivity|exact (ApnRestriction_declared m _ _ E)]|].
  destruct (N.eqb_spec t 128) as [->|N128]; [apply post_lift; intros x E; split; [reflexivity|exact (SelectionMode_declared m _ _ E)]|].
  destruct (N.eqb_spec t 129) as [->|N129]; [apply post_lift; intros x E; split; [reflexivity|exact (SourceIdentification_declared m _ _ E)]|].
  destruct (N.eqb_spec t 131) as [->|N131]; [apply post_lift; intros x E; split; [reflexivity|exact (ChangeReportingAction_declared m _ _ E)]|].
  destruct (N.eqb_spec t 132) as [->|N132]; [apply post_lift; intros x E; split; [reflexivity|exact (Fqcsid_declared m _ _ E)]|].
  destruct (N.eqb_spec t 133) as [->|N133]; [apply post_lift; intros x E; split; [reflexivity|exact (ChannelNeeded_declared m _ _ E)]|].
  destruct (N.eqb_spec t 134) as [->|N134]; [apply post_lift; intros x E; split; [reflexivity|exact (EmlppPriority_declared m _ _ E)]|].
  destruct (N.eqb_spec t 135) as [->|N135]; [apply post_lift; intros x E; split; [reflexivity|exact (NodeType_declared m _ _ E)]|].
  destruct (N.eqb_spec t 136) as [->|N136]; [apply post_lift; intros x E; split; [reflexivity|exact (Fqdn_declared m _ _ E)]|].
  destruct (N.eqb_spec t 137) as [->|N137]; [apply post_lift; intros x E; split; [reflexivity|exact (TransactionIdentifier_declared m _ _ E)]|].
  destruct (N.eqb_spec t 138) as [->|N138]; [apply post_lift; intros x E; split; [reflexivity|exact (MbmsSessionDuration_declared m _ _ E)]|].
  destruct (N.eqb_spec t 139) as [->|N139]; [apply post_lift; intros x E; split; [reflexivity|exact (MbmsServiceArea_declared m _ _ E)]|].
  destruct (N.eqb_spec t 140) as [->|N140]; [apply post_lift; intros x E; split; [reflexivity|exact (MbmsSessionId_declared m _ _ E)]|].
  destruct (N.eqb_spec t 141) as [->|N141]; [apply post_lift; intros x E; split; [reflexivity|exact (MbmsFlowId_declared m _ _ E)]|].
  destruct (N.eqb_spec t 142) as [->|N142]; [apply post_lift; intros x E; split; [reflexivity|exact (MbmsIpMulticastDistribution_declared m _ _ E)]|].
  destruct (N.eqb_spec t 143) as [->|N143]; [apply post_lift; intros x E; split; [reflexivity|exact (MbmsDistributionAck_declared m _ _ E)]|].
  destruct (N.eqb_spec t 144) as [->|N144]; [apply post_lift; intros x E; split; [reflexivity|exact (RfspIndex_declared m _ _ E)]|].
  destruct (N.eqb_spec t 145) as [->|N145]; [apply post_lift; intros x E; split; [reflexivity|exact (Uci_declared m _ _ E)]|].
  destruct (N.eqb_spec t 146) as [->|N146]; [apply post_lift; intros x E; split; [reflexivity|exact (CSGInformationReportingAction_declared m _ _ E)]|].
  destruct (N.eqb_spec t 147) as [->|N147]; [apply post_lift; intros x E; split; [reflexivity|exact (CsgId_declared m _ _ E)]|].
  destruct (N.eqb_spec t 148) as [->|N148]; [apply post_lift; intros x E; split; [reflexivity|exact (CsgMembershipIndication_declared m _ _ E)]|].
  destruct (N.eqb_spec t 149) as [->|N149]; [apply post_lift; intros x E; split; [reflexivity|exact (ServiceIndicator_declared m _ _ E)]|].
  destruct (N.eqb_spec t 150) as [->|N150]; [apply post_lift; intros x E; split; [reflexivity|exact (DetachType_declared m _ _ E)]|].
  destruct (N.eqb_spec t 151) as [->|N151]; [apply post_lift; intros x E; split; [reflexivity|exact (Ldn_declared m _ _ E)]|].
  destruct (N.eqb_spec t 152) as [->|N152]; [apply post_lift; intros x E; split; [reflexivity|exact (NodeFeatures_declared m _ _ E)]|].
  destruct (N.eqb_spec t 153) as [->|N153]; [apply post_lift; intros x E; split; [reflexivity|exact (MbmsTimeToDataTransfer_declared m _ _ E)]|].
  destruct (N.eqb_spec t 154) as [->|N154]; [apply post_lift; intros x E; split; [reflexivity|exact (Throttling_declared m _ _ E)]|].
  destruct (N.eqb_spec t 155) as [->|N155]; [apply post_lift; intros x E; split; [reflexivity|exact (Arp_declared m _ _ E)]|].
  destruct (N.eqb_spec t 156) as [->|N156]; [apply post_lift; intros x E; split; [reflexivity|exact (EpcTimer_declared m _ _ E)]|].
  destruct (N.eqb_spec t 157) as [->|N157]; [apply post_lift; intros x E; split; [reflexivity|exact (Spi_declared m _ _ E)]|].
  destruct (N.eqb_spec t 158) as [->|N158]; [apply post_lift; intros x E; split; [reflexivity|exact (Tmgi_declared m _ _ E)]|].
  destruct (N.eqb_spec t 159) as [->|N159]; [apply post_lift; intros x E; split; [reflexivity|exact (AdditionalMmContextForSrvcc_declared m _ _ E)]|].
  destruct (N.eqb_spec t 160) as [->|N160]; [apply post_lift; intros x E; split; [reflexivity|exact (AdditionalFlagsSrvcc_declared m _ _ E)]|].
  destruct (N.eqb_spec t 162) as [->|N162]; [apply post_lift; intros x E; split; [reflexivity|exact (MdtConfiguration_declared m _ _ E)]|].
  destruct (N.eqb_spec t 163) as [->|N163]; [apply post_lift; intros x E; split; [reflexivity|exact (Apco_declared m _ _ E)]|].
  destruct (N.eqb_spec t 164) as [->|N164]; [apply post_lift; intros x E; split; [reflexivity|exact (AbsoluteTimeMbmsDataTransfer_declared m _ _ E)]|].
  destruct (N.eqb_spec t 165) as [->|N165]; [apply post_lift; intros x E; split; [reflexivity|exact (HenbInfoReporting_declared m _ _ E)]|].
  destruct (N.eqb_spec t 166) as [->|N166]; [apply post_lift; intros x E; split; [reflexivity|exact (Ip4Cp_declared m _ _ E)]|].
  destruct (N.eqb_spec t 167) as [->|N167]; [apply post_lift; intros x E; split; [reflexivity|exact (ChangeToReportFlags_declared m _ _ E)]|].
  destruct (N.eqb_spec t 168) as [->|N168]; [apply post_lift; intros x E; split; [reflexivity|exact (ActionIndication_declared m _ _ E)]|].
  destruct (N.eqb_spec t 169) as [->|N169]; [apply post_lift; intros x E; split; [intros K; contradiction K; reflexivity|exact (ActionIndication_declared m _ _ E)]|].
  destruct (N.eqb_spec t 170) as [->|N170]; [apply post_lift; intros x E; split; [reflexivity|exact (UliTimestamp_declared m _ _ E)]|].
  destruct (N.eqb_spec t 171) as [->|N171]; [apply post_lift; intros x E; split; [reflexivity|exact (MbmsFlags_declared m _ _ E)]|].
  destruct (N.eqb_spec t 172) as [->|N172]; [apply post_lift; intros x E; split; [reflexivity|exact (RanNasCause_declared m _ _ E)]|].
  destruct (N.eqb_spec t 173) as [->|N173]; [apply post_lift; intros x E; split; [reflexivity|exact (CnOperatorSelectionEntity_declared m _ _ E)]|].
  destruct (N.eqb_spec t 174) as [->|N174]; [apply post_lift; intros x E; split; [reflexivity|exact (Twmi_declared m _ _ E)]|].
  destruct (N.eqb_spec t 175) as [->|N175]; [apply post_lift; intros x E; split; [reflexivity|exact (NodeNumber_declared m _ _ E)]|].
  destruct (N.eqb_spec t 176) as [->|N176]; [apply post_lift; intros x E; split; [reflexivity|exact (NodeIdentifier_declared m _ _ E)]|].
  destruct (N.eqb_spec t 177) as [->|N177]; [apply post_lift; intros x E; split; [reflexivity|exact (PresenceReportingAreaAction_declared m _ _ E)]|].
  destruct (N.eqb_spec t 178) as [->|N178]; [apply post_lift; intros x E; split; [reflexivity|exact (PresenceReportingAreaInformation_declared m _ _ E)]|].
  destruct (N.eqb_spec t 179) as [->|N179]; [apply post_lift; intros x E; split; [reflexivity|exact (TwanIdTimeStamp_declared m _ _ E)]|].
  destruct (N.eqb_spec t 180) as [->|N180]; [apply post_lift; intros x E; split; [reflexivity|exact (OverloadControlInfo_declared dec m _ _ E)]|].
  destruct (N.eqb_spec t 181) as [->|N181]; [apply post_lift; intros x E; split; [reflexivity|exact (LoadControl_declared dec m _ _ E)]|].
  destruct (N.eqb_spec t 182) as [->|N182]; [apply post_lift; intros x E; split; [reflexivity|exact (Metric_declared m _ _ E)]|].
  destruct (N.eqb_spec t 183) as [->|N183]; [apply post_lift; intros x E; split; [reflexivity|exact (Sqn_declared m _ _ E)]|].
  destruct (N.eqb_spec t 184) as [->|N184]; [apply post_lift; intros x E; split; [reflexivity|exact (ApnRelativeCapacity_declared m _ _ E)]|].
  destruct (N.eqb_spec t 185) as [->|N185]; [apply post_lift; intros x E; split; [reflexivity|exact (WlanOffloadIndication_declared m _ _ E)]|].
  destruct (N.eqb_spec t 186) as [->|N186]; [apply post_lift; intros x E; split; [reflexivity|exact (PagingServiceInfo_declared m _ _ E)]|].
  destruct (N.eqb_spec t 187) as [->|N187]; [apply post_lift; intros x E; split; [reflexivity|exact (IntegerNumber_declared m _ _ E)]|].
  destruct (N.eqb_spec t 188) as [->|N188]; [apply post_lift; intros x E; split; [reflexivity|exact (MilliSecondTimeStamp_declared m _ _ E)]|].
  destruct (N.eqb_spec t 189) as [->|N189]; [apply post_lift; intros x E; split; [reflexivity|exact (MonitoringEventInformation_declared m _ _ E)]|].
  destruct (N.eqb_spec t 190) as [->|N190]; [apply post_lift; intros x E; split; [reflexivity|exact (EcgiList_declared m _ _ E)]|].
  destruct (N.eqb_spec t 191) as [->|N191]; [apply post_lift; intros x E; split; [reflexivity|exact (RemoteUeContext_declared dec m _ _ E)]|].
  destruct (N.eqb_spec t 192) as [->|N192]; [apply post_lift; intros x E; split; [reflexivity|exact (RemoteUserId_declared m _ _ E)]|].
  destruct (N.eqb_spec t 193) as [->|N193]; [apply post_lift; intros x E; split; [reflexivity|exact (RemoteUeIpInformation_declared m _ _ E)]|].
  destruct (N.eqb_spec t 194) as [->|N194]; [apply post_lift; intros x E; split; [reflexivity|exact (CIoTOptimizationSupportIndication_declared m _ _ E)]|].
  destruct (N.eqb_spec t 195) as [->|N195]; [apply post_lift; intros x E; split; [reflexivity|exact (ScefPdnConnections_declared dec m _ _ E)]|].
  destruct (N.eqb_spec t 196) as [->|N196]; [apply post_lift; intros x E; split; [reflexivity|exact (HeaderCompressionConfiguration_declared m _ _ E)]|].
  destruct (N.eqb_spec t 197) as [->|N197]; [apply post_lift; intros x E; split; [reflexivity|exact (Epco_declared m _ _ E)]|].
  destruct (N.eqb_spec t 198) as [->|N198]; [apply post_lift; intros x E; split; [reflexivity|exact (ServingPlmnRateControl_declared m _ _ E)]|].
  destruct (N.eqb_spec t 199) as [->|N199]; [apply post_lift; intros x E; split; [reflexivity|exact (Counter_declared m _ _ E)]|].
  destruct (N.eqb_spec t 200) as [->|N200]; [apply post_lift; intros x E; split; [reflexivity|exact (MappedUeUsageType_declared m _ _ E)]|].
  destruct (N.eqb_spec t 201) as [->|N201]; [apply post_lift; intros x E; split; [reflexivity|exact (SecondaryRatUsageDataReport_declared m _ _ E)]|].
  destruct (N.eqb_spec t 202) as [->|N202]; [apply post_lift; intros x E; split; [reflexivity|exact (UpFunctionSelectionIndicationFlags_declared m _ _ E)]|].
  destruct (N.eqb_spec t 203) as [->|N203]; [apply post_lift; intros x E; split; [reflexivity|exact (MaxPacketLossRate_declared m _ _ E)]|].
  destruct (N.eqb_spec t 204) as [->|N204]; [apply post_lift; intros x E; split; [reflexivity|exact (ApnRateControlStatus_declared m _ _ E)]|].
  destruct (N.eqb_spec t 205) as [->|N205]; [apply post_lift; intros x E; split; [reflexivity|exact (ExtendedTraceInformation_declared m _ _ E)]|].
  destruct (N.eqb_spec t 206) as [->|N206]; [apply post_lift; intros x E; split; [reflexivity|exact (MonitoringEventExtensionInfo_declared m _ _ E)]|].
  destruct (N.eqb_spec t 207) as [->|N207]; [apply post_lift; intros x E; split; [reflexivity|exact (AdditionalRrmPolicyIndex_declared m _ _ E)]|].
  destruct (N.eqb_spec t 208) as [->|N208]; [apply post_lift; intros x E; split; [reflexivity|exact (V2xInformation_declared dec m _ _ E)]|].
  destruct (N.eqb_spec t 209) as [->|N209]; [apply post_lift; intros x E; split; [reflexivity|exact (PC5QosParameters_declared dec m _ _ E)]|].
  destruct (N.eqb_spec t 210) as [->|N210]; [apply post_lift; intros x E; split; [reflexivity|exact (ServicesAuthorized_declared m _ _ E)]|].
  destruct (N.eqb_spec t 211) as [->|N211]; [apply post_lift; intros x E; split; [reflexivity|exact (BitRate_declared m _ _ E)]|].
  destruct (N.eqb_spec t 212) as [->|N212]; [apply post_lift; intros x E; split; [reflexivity|exact (PC5QosFlow_declared m _ _ E)]|].
  destruct (N.eqb_spec t 213) as [->|N213]; [apply post_lift; intros x E; split; [reflexivity|exact (SgiPtpTunnelAddress_declared m _ _ E)]|].
  destruct (N.eqb_spec t 214) as [->|N214]; [apply post_lift; intros x E; split; [reflexivity|exact (PgwChangeInfo_declared dec m _ _ E)]|].
  destruct (N.eqb_spec t 215) as [->|N215]; [apply post_lift; intros x E; split; [reflexivity|exact (PgwFqdn_declared m _ _ E)]|].
  destruct (N.eqb_spec t 216) as [->|N216]; [apply post_lift; intros x E; split; [reflexivity|exact (GroupId_declared m _ _ E)]|].
  destruct (N.eqb_spec t 217) as [->|N217]; [apply post_lift; intros x E; split; [reflexivity|exact (PSCellId_declared m _ _ E)]|].
  destruct (N.eqb_spec t 218) as [->|N218]; [apply post_lift; intros x E; split; [reflexivity|exact (UpSecurityPolicy_declared m _ _ E)]|].
  destruct (N.eqb_spec t 219) as [->|N219]; [apply post_lift; intros x E; split; [reflexivity|exact (AlternativeImsi_declared m _ _ E)]|].
  destruct (N.eqb_spec t 254) as [->|N254]; [apply post_lift; intros x E; split; [reflexivity|exact (SpecialIEWithTypeExt_declared m _ _ E)]|].
  destruct (N.eqb_spec t 255) as [->|N255]; [apply post_lift; intros x E; split; [reflexivity|exact (PrivateExtension_declared m _ _ E)]|].
  apply post_lift. intros x E. split; [|apply Unknown_declared in E; exact E]. cbn [has_code In]. intros _. intros C. repeat (destruct C as [C|C]; [symmetry in C; contradiction|]). exact C.
Qed.
