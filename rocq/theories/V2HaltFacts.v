(* V2HaltFacts.v - the loops inside the IE decoders terminate on every input. *)
From Verif Require Import Base BaseFacts.
From Verif Require Export V2DeclFacts.
Local Open Scope N_scope.

Definition halts {A} (r : res A) : Prop := r <> Diverge.
Lemma halts_ok {A} (x : A) : halts (Ok x). Proof. discriminate. Qed.
Lemma halts_err {A} e : halts (@Err _ A e). Proof. discriminate. Qed.
Lemma halts_panic {A} : halts (@Panic _ A). Proof. discriminate. Qed.
Lemma halts_bind {A B} (r : res A) (f : A -> res B) : halts r -> (forall a, halts (f a)) -> halts (bind r f).
Proof. unfold halts. intros H K. destruct r; cbn; congruence. Qed.
Lemma halts_orelse {A} (r : res A) e : halts r -> halts (orelse r e).
Proof. unfold halts. destruct r; cbn; congruence. Qed.
Ltac ha0 stop := lazymatch goal with
  | |- halts (orelse _ _) => apply halts_orelse
  | |- halts (Ok _) => apply halts_ok
  | |- halts (Err _) => apply halts_err
  | |- halts Panic => apply halts_panic
  | |- halts (bind _ _) => apply halts_bind; [|intros ?; cbv beta]
  | |- halts (match ?x with _ => _ end) => destruct x
  | |- halts (let x := _ in _) => cbv zeta
  | |- halts _ => first [ stop | match goal with |- halts ?t => let rec hd t := lazymatch t with ?f _ => hd f | _ => t end in let h := hd t in unfold h end ]
  end.
Lemma halts_labels_loop fuel : forall b, (length b <= fuel)%nat -> halts (labels_loop fuel b).
Proof.
  induction fuel as [|f IH]; intros [|n r] H; cbn [labels_loop]; try apply halts_ok; [cbn in H; lia|].
  destruct (_ <=? _)%nat eqn:E; [|apply halts_panic]. apply halts_bind; [|intros; apply halts_ok].
  apply IH. rewrite skipn_length. cbn in H. lia.
Qed.
Lemma halts_plmns fuel b : forall c, (length b <= c + 3 * fuel)%nat -> halts (mdt_plmns_loop fuel b c).
Proof.
  induction fuel as [|f IH]; intros c H; cbn [mdt_plmns_loop].
  - destruct (Nat.ltb_spec c (length b)); [lia|apply halts_ok].
  - destruct (_ <? _)%nat; [|apply halts_ok]. unfold need. destruct (_ <=? _)%nat; [|apply halts_err].
    apply halts_bind; [unfold plmn_at; repeat ha0 fail|]. intros. apply halts_bind; [apply IH; lia|intros; apply halts_ok].
Qed.
Lemma halts_areas fuel b : forall c, (length b <= c + 4 * fuel)%nat -> halts (presence_areas_loop fuel b c).
Proof.
  induction fuel as [|f IH]; intros c H; cbn [presence_areas_loop].
  - destruct (Nat.ltb_spec (length b) (c + 4)); [apply halts_ok|lia].
  - destruct (_ <? _)%nat; [apply halts_ok|]. apply halts_bind; [repeat ha0 fail|]. intros. apply halts_bind; [repeat ha0 fail|]. intros.
    destruct (bit _ 4); [|apply halts_ok]. apply halts_bind; [apply IH; lia|intros; apply halts_ok].
Qed.
Lemma halts_rate b : halts (ApnRateControlStatusMM_dec b).
Proof. repeat ha0 fail. Qed.
Lemma rate_advances b x : ApnRateControlStatusMM_dec b = Ok x -> b <> [].
Proof. intros H E. subst. discriminate H. Qed.
Lemma halts_rates fuel b : forall c, (length b < c + fuel)%nat -> (c <= length b)%nat -> halts (rates_loop fuel b c).
Proof.
  induction fuel as [|f IH]; intros c H Hc; [lia|]. cbn [rates_loop]. unfold slice_from.
  destruct (_ <=? _)%nat eqn:E; [|apply halts_panic]. cbn [bind].
  pose proof (halts_rate (skipn c b)) as HR.
  destruct (ApnRateControlStatusMM_dec (skipn c b)) as [x| | |] eqn:D; [|apply halts_ok|apply halts_panic|contradiction HR; reflexivity].
  apply halts_bind; [|intros []; apply halts_ok].
  destruct (Nat.leb_spec (c + ApnRateControlStatusMM_size x) (length b)) as [L|L].
  - apply IH; [|exact L]. unfold ApnRateControlStatusMM_size. lia.
  - destruct f as [|f]; [apply rate_advances in D; contradiction D; apply skipn_all2; lia|]. cbn [rates_loop]. unfold slice_from.
    destruct (Nat.leb_spec (c + ApnRateControlStatusMM_size x) (length b)); [lia|]. apply halts_panic.
Qed.
Lemma halts_many {A} dec size : (forall b, halts (dec b)) -> forall n b c, halts (@many A dec size n b c).
Proof. intros H. induction n as [|n IH]; intros; cbn [many]; repeat ha0 ltac:(first [apply H|apply IH]). Qed.
Lemma halts_many_checked {A} dec s e : (forall b, halts (dec b)) -> forall n b c, halts (@many_checked A dec s e n b c).
Proof. intros H. induction n as [|n IH]; intros; cbn [many_checked]; repeat ha0 ltac:(first [apply H|apply IH]). Qed.
Ltac hb := ha0 ltac:(first
  [ apply halts_labels_loop; lia | apply halts_plmns; lia | apply halts_areas; lia | apply halts_many; intros | apply halts_many_checked; intros ]).
Lemma halts_loc order : forall b c, halts (loc_loop order b c).
Proof. induction order as [|k o IH]; intros; cbn [loc_loop]; repeat ha0 ltac:(apply IH). Qed.
Lemma halts_rates_at T b c : halts (rates_at T b c).
Proof.
  unfold rates_at. apply halts_bind; [repeat hb|]. intros l. destruct (l =? 0); [apply halts_ok|]. unfold need.
  destruct (Nat.leb_spec (c + 1 + N.to_nat l) (length b)); [|apply halts_err]. apply halts_bind; [apply halts_rates; lia|]. intros []. apply halts_ok.
Qed.
Ltac hc := ha0 ltac:(first
  [ apply halts_labels_loop; lia | apply halts_plmns; lia | apply halts_areas; lia | apply halts_many; intros | apply halts_many_checked; intros | apply halts_loc | apply halts_rates_at ]).
Lemma Imsi_halts : forall m b, halts (Imsi_unmarshal m b).
Proof. intros. repeat hc. Qed.
Lemma Cause_halts : forall m b, halts (Cause_unmarshal m b).
Proof. intros m b. pose proof (Cause_safe m b) as H. destruct (Cause_unmarshal m b); try discriminate; contradiction. Qed.
Lemma Recovery_halts : forall m b, halts (Recovery_unmarshal m b).
Proof. intros m b. pose proof (Recovery_safe m b) as H. destruct (Recovery_unmarshal m b); try discriminate; contradiction. Qed.
Lemma StnSr_halts : forall m b, halts (StnSr_unmarshal m b).
Proof. intros. repeat hc. Qed.
Lemma SrvccCause_halts : forall m b, halts (SrvccCause_unmarshal m b).
Proof. intros m b. pose proof (SrvccCause_safe m b) as H. destruct (SrvccCause_unmarshal m b); try discriminate; contradiction. Qed.
Lemma Apn_halts : forall m b, halts (Apn_unmarshal m b).
Proof. intros. repeat hc. Qed.
Lemma Ambr_halts : forall m b, halts (Ambr_unmarshal m b).
Proof. intros m b. pose proof (Ambr_safe m b) as H. destruct (Ambr_unmarshal m b); try discriminate; contradiction. Qed.
Lemma Ebi_halts : forall m b, halts (Ebi_unmarshal m b).
Proof. intros m b. pose proof (Ebi_safe m b) as H. destruct (Ebi_unmarshal m b); try discriminate; contradiction. Qed.
Lemma IpAddress_halts : forall m b, halts (IpAddress_unmarshal m b).
Proof. intros. repeat hc. Qed.
Lemma Mei_halts : forall m b, halts (Mei_unmarshal m b).
Proof. intros. repeat hc. Qed.
Lemma Msisdn_halts : forall m b, halts (Msisdn_unmarshal m b).
Proof. intros. repeat hc. Qed.
Lemma Indication_halts : forall m b, halts (Indication_unmarshal m b).
Proof. intros. repeat hc. Qed.
Lemma Pco_halts : forall m b, halts (Pco_unmarshal m b).
Proof. intros. repeat hc. Qed.
Lemma PdnAddressAllocation_halts : forall m b, halts (PdnAddressAllocation_unmarshal m b).
Proof. intros. repeat hc. Qed.
Lemma BearerQos_halts : forall m b, halts (BearerQos_unmarshal m b).
Proof. intros m b. pose proof (BearerQos_safe m b) as H. destruct (BearerQos_unmarshal m b); try discriminate; contradiction. Qed.
Lemma FlowQos_halts : forall m b, halts (FlowQos_unmarshal m b).
Proof. intros m b. pose proof (FlowQos_safe m b) as H. destruct (FlowQos_unmarshal m b); try discriminate; contradiction. Qed.
Lemma RatType_halts : forall m b, halts (RatType_unmarshal m b).
Proof. intros m b. pose proof (RatType_safe m b) as H. destruct (RatType_unmarshal m b); try discriminate; contradiction. Qed.
Lemma ServingNetwork_halts : forall m b, halts (ServingNetwork_unmarshal m b).
Proof. intros m b. pose proof (ServingNetwork_safe m b) as H. destruct (ServingNetwork_unmarshal m b); try discriminate; contradiction. Qed.
Lemma BearerTft_halts : forall m b, halts (BearerTft_unmarshal m b).
Proof. intros. repeat hc. Qed.
Lemma TrafficAggregateDescription_halts : forall m b, halts (TrafficAggregateDescription_unmarshal m b).
Proof. intros. repeat hc. Qed.
Lemma Uli_halts : forall m b, halts (Uli_unmarshal m b).
Proof. intros. repeat hc. Qed.
Lemma Fteid_halts : forall m b, halts (Fteid_unmarshal m b).
Proof. intros. repeat hc. Qed.
Lemma Tmsi_halts : forall m b, halts (Tmsi_unmarshal m b).
Proof. intros m b. pose proof (Tmsi_safe m b) as H. destruct (Tmsi_unmarshal m b); try discriminate; contradiction. Qed.
Lemma GlobalCnId_halts : forall m b, halts (GlobalCnId_unmarshal m b).
Proof. intros m b. pose proof (GlobalCnId_safe m b) as H. destruct (GlobalCnId_unmarshal m b); try discriminate; contradiction. Qed.
Lemma S103pdf_halts : forall m b, halts (S103pdf_unmarshal m b).
Proof. intros. repeat hc. Qed.
Lemma S1udf_halts : forall m b, halts (S1udf_unmarshal m b).
Proof. intros. repeat hc. Qed.
Lemma DelayValue_halts : forall m b, halts (DelayValue_unmarshal m b).
Proof. intros m b. pose proof (DelayValue_safe m b) as H. destruct (DelayValue_unmarshal m b); try discriminate; contradiction. Qed.
Lemma ChargingId_halts : forall m b, halts (ChargingId_unmarshal m b).
Proof. intros m b. pose proof (ChargingId_safe m b) as H. destruct (ChargingId_unmarshal m b); try discriminate; contradiction. Qed.
Lemma ChargingCharacteristics_halts : forall m b, halts (ChargingCharacteristics_unmarshal m b).
Proof. intros m b. pose proof (ChargingCharacteristics_safe m b) as H. destruct (ChargingCharacteristics_unmarshal m b); try discriminate; contradiction. Qed.
Lemma TraceInformation_halts : forall m b, halts (TraceInformation_unmarshal m b).
Proof. intros m b. pose proof (TraceInformation_safe m b) as H. destruct (TraceInformation_unmarshal m b); try discriminate; contradiction. Qed.
Lemma BearerFlags_halts : forall m b, halts (BearerFlags_unmarshal m b).
Proof. intros m b. pose proof (BearerFlags_safe m b) as H. destruct (BearerFlags_unmarshal m b); try discriminate; contradiction. Qed.
Lemma PdnType_halts : forall m b, halts (PdnType_unmarshal m b).
Proof. intros m b. pose proof (PdnType_safe m b) as H. destruct (PdnType_unmarshal m b); try discriminate; contradiction. Qed.
Lemma Pti_halts : forall m b, halts (Pti_unmarshal m b).
Proof. intros m b. pose proof (Pti_safe m b) as H. destruct (Pti_unmarshal m b); try discriminate; contradiction. Qed.
Lemma MmContext_halts : forall m b, halts (MmContext_unmarshal m b).
Proof. intros. repeat hc. Qed.
Lemma PduNumbers_halts : forall m b, halts (PduNumbers_unmarshal m b).
Proof. intros m b. pose proof (PduNumbers_safe m b) as H. destruct (PduNumbers_unmarshal m b); try discriminate; contradiction. Qed.
Lemma Ptmsi_halts : forall m b, halts (Ptmsi_unmarshal m b).
Proof. intros m b. pose proof (Ptmsi_safe m b) as H. destruct (Ptmsi_unmarshal m b); try discriminate; contradiction. Qed.
Lemma PtmsiSignature_halts : forall m b, halts (PtmsiSignature_unmarshal m b).
Proof. intros m b. pose proof (PtmsiSignature_safe m b) as H. destruct (PtmsiSignature_unmarshal m b); try discriminate; contradiction. Qed.
Lemma HopCounter_halts : forall m b, halts (HopCounter_unmarshal m b).
Proof. intros m b. pose proof (HopCounter_safe m b) as H. destruct (HopCounter_unmarshal m b); try discriminate; contradiction. Qed.
Lemma UeTimeZone_halts : forall m b, halts (UeTimeZone_unmarshal m b).
Proof. intros m b. pose proof (UeTimeZone_safe m b) as H. destruct (UeTimeZone_unmarshal m b); try discriminate; contradiction. Qed.
Lemma TraceReference_halts : forall m b, halts (TraceReference_unmarshal m b).
Proof. intros m b. pose proof (TraceReference_safe m b) as H. destruct (TraceReference_unmarshal m b); try discriminate; contradiction. Qed.
Lemma CompleteRequestMessage_halts : forall m b, halts (CompleteRequestMessage_unmarshal m b).
Proof. intros. repeat hc. Qed.
Lemma Guti_halts : forall m b, halts (Guti_unmarshal m b).
Proof. intros m b. pose proof (Guti_safe m b) as H. destruct (Guti_unmarshal m b); try discriminate; contradiction. Qed.
Lemma Fcontainer_halts : forall m b, halts (Fcontainer_unmarshal m b).
Proof. intros. repeat hc. Qed.
Lemma Fcause_halts : forall m b, halts (Fcause_unmarshal m b).
Proof. intros. repeat hc. Qed.
Lemma PlmnId_halts : forall m b, halts (PlmnId_unmarshal m b).
Proof. intros m b. pose proof (PlmnId_safe m b) as H. destruct (PlmnId_unmarshal m b); try discriminate; contradiction. Qed.
Lemma TargetIdentification_halts : forall m b, halts (TargetIdentification_unmarshal m b).
Proof. intros m b. pose proof (TargetIdentification_safe m b) as H. destruct (TargetIdentification_unmarshal m b); try discriminate; contradiction. Qed.
Lemma PacketFlowId_halts : forall m b, halts (PacketFlowId_unmarshal m b).
Proof. intros m b. pose proof (PacketFlowId_safe m b) as H. destruct (PacketFlowId_unmarshal m b); try discriminate; contradiction. Qed.
Lemma RabContext_halts : forall m b, halts (RabContext_unmarshal m b).
Proof. intros m b. pose proof (RabContext_safe m b) as H. destruct (RabContext_unmarshal m b); try discriminate; contradiction. Qed.
Lemma SourceRncPdcpContextInfo_halts : forall m b, halts (SourceRncPdcpContextInfo_unmarshal m b).
Proof. intros. repeat hc. Qed.
Lemma PortNumber_halts : forall m b, halts (PortNumber_unmarshal m b).
Proof. intros m b. pose proof (PortNumber_safe m b) as H. destruct (PortNumber_unmarshal m b); try discriminate; contradiction. Qed.
Lemma ApnRestriction_halts : forall m b, halts (ApnRestriction_unmarshal m b).
Proof. intros m b. pose proof (ApnRestriction_safe m b) as H. destruct (ApnRestriction_unmarshal m b); try discriminate; contradiction. Qed.
Lemma SelectionMode_halts : forall m b, halts (SelectionMode_unmarshal m b).
Proof. intros m b. pose proof (SelectionMode_safe m b) as H. destruct (SelectionMode_unmarshal m b); try discriminate; contradiction. Qed.
Lemma SourceIdentification_halts : forall m b, halts (SourceIdentification_unmarshal m b).
Proof. intros. repeat hc. Qed.
Lemma ChangeReportingAction_halts : forall m b, halts (ChangeReportingAction_unmarshal m b).
Proof. intros m b. pose proof (ChangeReportingAction_safe m b) as H. destruct (ChangeReportingAction_unmarshal m b); try discriminate; contradiction. Qed.
Lemma Fqcsid_halts : forall m b, halts (Fqcsid_unmarshal m b).
Proof. intros. repeat hc. Qed.
Lemma ChannelNeeded_halts : forall m b, halts (ChannelNeeded_unmarshal m b).
Proof. intros m b. pose proof (ChannelNeeded_safe m b) as H. destruct (ChannelNeeded_unmarshal m b); try discriminate; contradiction. Qed.
Lemma EmlppPriority_halts : forall m b, halts (EmlppPriority_unmarshal m b).
Proof. intros m b. pose proof (EmlppPriority_safe m b) as H. destruct (EmlppPriority_unmarshal m b); try discriminate; contradiction. Qed.
Lemma NodeType_halts : forall m b, halts (NodeType_unmarshal m b).
Proof. intros m b. pose proof (NodeType_safe m b) as H. destruct (NodeType_unmarshal m b); try discriminate; contradiction. Qed.
Lemma Fqdn_halts : forall m b, halts (Fqdn_unmarshal m b).
Proof. intros. repeat hc. Qed.
Lemma TransactionIdentifier_halts : forall m b, halts (TransactionIdentifier_unmarshal m b).
Proof. intros m b. pose proof (TransactionIdentifier_safe m b) as H. destruct (TransactionIdentifier_unmarshal m b); try discriminate; contradiction. Qed.
Lemma MbmsServiceArea_halts : forall m b, halts (MbmsServiceArea_unmarshal m b).
Proof. intros. repeat hc. Qed.
Lemma MbmsSessionDuration_halts : forall m b, halts (MbmsSessionDuration_unmarshal m b).
Proof. intros m b. pose proof (MbmsSessionDuration_safe m b) as H. destruct (MbmsSessionDuration_unmarshal m b); try discriminate; contradiction. Qed.
Lemma MbmsSessionId_halts : forall m b, halts (MbmsSessionId_unmarshal m b).
Proof. intros m b. pose proof (MbmsSessionId_safe m b) as H. destruct (MbmsSessionId_unmarshal m b); try discriminate; contradiction. Qed.
Lemma MbmsFlowId_halts : forall m b, halts (MbmsFlowId_unmarshal m b).
Proof. intros m b. pose proof (MbmsFlowId_safe m b) as H. destruct (MbmsFlowId_unmarshal m b); try discriminate; contradiction. Qed.
Lemma MbmsIpMulticastDistribution_halts : forall m b, halts (MbmsIpMulticastDistribution_unmarshal m b).
Proof. intros. repeat hc. Qed.
Lemma MbmsDistributionAck_halts : forall m b, halts (MbmsDistributionAck_unmarshal m b).
Proof. intros m b. pose proof (MbmsDistributionAck_safe m b) as H. destruct (MbmsDistributionAck_unmarshal m b); try discriminate; contradiction. Qed.
Lemma RfspIndex_halts : forall m b, halts (RfspIndex_unmarshal m b).
Proof. intros m b. pose proof (RfspIndex_safe m b) as H. destruct (RfspIndex_unmarshal m b); try discriminate; contradiction. Qed.
Lemma Uci_halts : forall m b, halts (Uci_unmarshal m b).
Proof. intros m b. pose proof (Uci_safe m b) as H. destruct (Uci_unmarshal m b); try discriminate; contradiction. Qed.
Lemma CSGInformationReportingAction_halts : forall m b, halts (CSGInformationReportingAction_unmarshal m b).
Proof. intros m b. pose proof (CSGInformationReportingAction_safe m b) as H. destruct (CSGInformationReportingAction_unmarshal m b); try discriminate; contradiction. Qed.
Lemma CsgId_halts : forall m b, halts (CsgId_unmarshal m b).
Proof. intros m b. pose proof (CsgId_safe m b) as H. destruct (CsgId_unmarshal m b); try discriminate; contradiction. Qed.
Lemma CsgMembershipIndication_halts : forall m b, halts (CsgMembershipIndication_unmarshal m b).
Proof. intros m b. pose proof (CsgMembershipIndication_safe m b) as H. destruct (CsgMembershipIndication_unmarshal m b); try discriminate; contradiction. Qed.
Lemma ServiceIndicator_halts : forall m b, halts (ServiceIndicator_unmarshal m b).
Proof. intros m b. pose proof (ServiceIndicator_safe m b) as H. destruct (ServiceIndicator_unmarshal m b); try discriminate; contradiction. Qed.
Lemma DetachType_halts : forall m b, halts (DetachType_unmarshal m b).
Proof. intros m b. pose proof (DetachType_safe m b) as H. destruct (DetachType_unmarshal m b); try discriminate; contradiction. Qed.
Lemma Ldn_halts : forall m b, halts (Ldn_unmarshal m b).
Proof. intros. repeat hc. Qed.
Lemma NodeFeatures_halts : forall m b, halts (NodeFeatures_unmarshal m b).
Proof. intros m b. pose proof (NodeFeatures_safe m b) as H. destruct (NodeFeatures_unmarshal m b); try discriminate; contradiction. Qed.
Lemma MbmsTimeToDataTransfer_halts : forall m b, halts (MbmsTimeToDataTransfer_unmarshal m b).
Proof. intros m b. pose proof (MbmsTimeToDataTransfer_safe m b) as H. destruct (MbmsTimeToDataTransfer_unmarshal m b); try discriminate; contradiction. Qed.
Lemma Throttling_halts : forall m b, halts (Throttling_unmarshal m b).
Proof. intros m b. pose proof (Throttling_safe m b) as H. destruct (Throttling_unmarshal m b); try discriminate; contradiction. Qed.
Lemma Arp_halts : forall m b, halts (Arp_unmarshal m b).
Proof. intros m b. pose proof (Arp_safe m b) as H. destruct (Arp_unmarshal m b); try discriminate; contradiction. Qed.
Lemma EpcTimer_halts : forall m b, halts (EpcTimer_unmarshal m b).
Proof. intros m b. pose proof (EpcTimer_safe m b) as H. destruct (EpcTimer_unmarshal m b); try discriminate; contradiction. Qed.
Lemma Spi_halts : forall m b, halts (Spi_unmarshal m b).
Proof. intros m b. pose proof (Spi_safe m b) as H. destruct (Spi_unmarshal m b); try discriminate; contradiction. Qed.
Lemma Tmgi_halts : forall m b, halts (Tmgi_unmarshal m b).
Proof. intros m b. pose proof (Tmgi_safe m b) as H. destruct (Tmgi_unmarshal m b); try discriminate; contradiction. Qed.
Lemma AdditionalMmContextForSrvcc_halts : forall m b, halts (AdditionalMmContextForSrvcc_unmarshal m b).
Proof. intros. repeat hc. Qed.
Lemma AdditionalFlagsSrvcc_halts : forall m b, halts (AdditionalFlagsSrvcc_unmarshal m b).
Proof. intros m b. pose proof (AdditionalFlagsSrvcc_safe m b) as H. destruct (AdditionalFlagsSrvcc_unmarshal m b); try discriminate; contradiction. Qed.
Lemma MdtConfiguration_halts : forall m b, halts (MdtConfiguration_unmarshal m b).
Proof. intros. repeat hc. Qed.
Lemma Apco_halts : forall m b, halts (Apco_unmarshal m b).
Proof. intros. repeat hc. Qed.
Lemma AbsoluteTimeMbmsDataTransfer_halts : forall m b, halts (AbsoluteTimeMbmsDataTransfer_unmarshal m b).
Proof. intros m b. pose proof (AbsoluteTimeMbmsDataTransfer_safe m b) as H. destruct (AbsoluteTimeMbmsDataTransfer_unmarshal m b); try discriminate; contradiction. Qed.
Lemma HenbInfoReporting_halts : forall m b, halts (HenbInfoReporting_unmarshal m b).
Proof. intros m b. pose proof (HenbInfoReporting_safe m b) as H. destruct (HenbInfoReporting_unmarshal m b); try discriminate; contradiction. Qed.
Lemma Ip4Cp_halts : forall m b, halts (Ip4Cp_unmarshal m b).
Proof. intros m b. pose proof (Ip4Cp_safe m b) as H. destruct (Ip4Cp_unmarshal m b); try discriminate; contradiction. Qed.
Lemma ChangeToReportFlags_halts : forall m b, halts (ChangeToReportFlags_unmarshal m b).
Proof. intros m b. pose proof (ChangeToReportFlags_safe m b) as H. destruct (ChangeToReportFlags_unmarshal m b); try discriminate; contradiction. Qed.
Lemma ActionIndication_halts : forall m b, halts (ActionIndication_unmarshal m b).
Proof. intros m b. pose proof (ActionIndication_safe m b) as H. destruct (ActionIndication_unmarshal m b); try discriminate; contradiction. Qed.
Lemma TwanId_halts : forall m b, halts (TwanId_unmarshal m b).
Proof. intros. repeat hc. Qed.
Lemma UliTimestamp_halts : forall m b, halts (UliTimestamp_unmarshal m b).
Proof. intros m b. pose proof (UliTimestamp_safe m b) as H. destruct (UliTimestamp_unmarshal m b); try discriminate; contradiction. Qed.
Lemma MbmsFlags_halts : forall m b, halts (MbmsFlags_unmarshal m b).
Proof. intros m b. pose proof (MbmsFlags_safe m b) as H. destruct (MbmsFlags_unmarshal m b); try discriminate; contradiction. Qed.
Lemma RanNasCause_halts : forall m b, halts (RanNasCause_unmarshal m b).
Proof. intros. repeat hc. Qed.
Lemma CnOperatorSelectionEntity_halts : forall m b, halts (CnOperatorSelectionEntity_unmarshal m b).
Proof. intros m b. pose proof (CnOperatorSelectionEntity_safe m b) as H. destruct (CnOperatorSelectionEntity_unmarshal m b); try discriminate; contradiction. Qed.
Lemma Twmi_halts : forall m b, halts (Twmi_unmarshal m b).
Proof. intros m b. pose proof (Twmi_safe m b) as H. destruct (Twmi_unmarshal m b); try discriminate; contradiction. Qed.
Lemma NodeNumber_halts : forall m b, halts (NodeNumber_unmarshal m b).
Proof. intros. repeat hc. Qed.
Lemma NodeIdentifier_halts : forall m b, halts (NodeIdentifier_unmarshal m b).
Proof. intros. repeat hc. Qed.
Lemma PresenceReportingAreaAction_halts : forall m b, halts (PresenceReportingAreaAction_unmarshal m b).
Proof. intros. repeat hc. Qed.
Lemma PresenceReportingAreaInformation_halts : forall m b, halts (PresenceReportingAreaInformation_unmarshal m b).
Proof. intros m b. pose proof (PresenceReportingAreaInformation_safe m b) as H. destruct (PresenceReportingAreaInformation_unmarshal m b); try discriminate; contradiction. Qed.
Lemma TwanIdTimeStamp_halts : forall m b, halts (TwanIdTimeStamp_unmarshal m b).
Proof. intros m b. pose proof (TwanIdTimeStamp_safe m b) as H. destruct (TwanIdTimeStamp_unmarshal m b); try discriminate; contradiction. Qed.
Lemma Metric_halts : forall m b, halts (Metric_unmarshal m b).
Proof. intros m b. pose proof (Metric_safe m b) as H. destruct (Metric_unmarshal m b); try discriminate; contradiction. Qed.
Lemma Sqn_halts : forall m b, halts (Sqn_unmarshal m b).
Proof. intros m b. pose proof (Sqn_safe m b) as H. destruct (Sqn_unmarshal m b); try discriminate; contradiction. Qed.
Lemma ApnRelativeCapacity_halts : forall m b, halts (ApnRelativeCapacity_unmarshal m b).
Proof. intros. repeat hc. Qed.
Lemma WlanOffloadIndication_halts : forall m b, halts (WlanOffloadIndication_unmarshal m b).
Proof. intros m b. pose proof (WlanOffloadIndication_safe m b) as H. destruct (WlanOffloadIndication_unmarshal m b); try discriminate; contradiction. Qed.
Lemma PagingServiceInfo_halts : forall m b, halts (PagingServiceInfo_unmarshal m b).
Proof. intros. repeat hc. Qed.
Lemma IntegerNumber_halts : forall m b, halts (IntegerNumber_unmarshal m b).
Proof. intros. repeat hc. Qed.
Lemma MilliSecondTimeStamp_halts : forall m b, halts (MilliSecondTimeStamp_unmarshal m b).
Proof. intros m b. pose proof (MilliSecondTimeStamp_safe m b) as H. destruct (MilliSecondTimeStamp_unmarshal m b); try discriminate; contradiction. Qed.
Lemma MonitoringEventInformation_halts : forall m b, halts (MonitoringEventInformation_unmarshal m b).
Proof. intros m b. pose proof (MonitoringEventInformation_safe m b) as H. destruct (MonitoringEventInformation_unmarshal m b); try discriminate; contradiction. Qed.
Lemma EcgiList_halts : forall m b, halts (EcgiList_unmarshal m b).
Proof. intros m b. pose proof (EcgiList_safe m b) as H. destruct (EcgiList_unmarshal m b); try discriminate; contradiction. Qed.
Lemma RemoteUserId_halts : forall m b, halts (RemoteUserId_unmarshal m b).
Proof. intros. repeat hc. Qed.
Lemma RemoteUeIpInformation_halts : forall m b, halts (RemoteUeIpInformation_unmarshal m b).
Proof. intros. repeat hc. Qed.
Lemma CIoTOptimizationSupportIndication_halts : forall m b, halts (CIoTOptimizationSupportIndication_unmarshal m b).
Proof. intros m b. pose proof (CIoTOptimizationSupportIndication_safe m b) as H. destruct (CIoTOptimizationSupportIndication_unmarshal m b); try discriminate; contradiction. Qed.
Lemma HeaderCompressionConfiguration_halts : forall m b, halts (HeaderCompressionConfiguration_unmarshal m b).
Proof. intros m b. pose proof (HeaderCompressionConfiguration_safe m b) as H. destruct (HeaderCompressionConfiguration_unmarshal m b); try discriminate; contradiction. Qed.
Lemma Epco_halts : forall m b, halts (Epco_unmarshal m b).
Proof. intros. repeat hc. Qed.
Lemma ServingPlmnRateControl_halts : forall m b, halts (ServingPlmnRateControl_unmarshal m b).
Proof. intros m b. pose proof (ServingPlmnRateControl_safe m b) as H. destruct (ServingPlmnRateControl_unmarshal m b); try discriminate; contradiction. Qed.
Lemma Counter_halts : forall m b, halts (Counter_unmarshal m b).
Proof. intros m b. pose proof (Counter_safe m b) as H. destruct (Counter_unmarshal m b); try discriminate; contradiction. Qed.
Lemma MappedUeUsageType_halts : forall m b, halts (MappedUeUsageType_unmarshal m b).
Proof. intros m b. pose proof (MappedUeUsageType_safe m b) as H. destruct (MappedUeUsageType_unmarshal m b); try discriminate; contradiction. Qed.
Lemma SecondaryRatUsageDataReport_halts : forall m b, halts (SecondaryRatUsageDataReport_unmarshal m b).
Proof. intros m b. pose proof (SecondaryRatUsageDataReport_safe m b) as H. destruct (SecondaryRatUsageDataReport_unmarshal m b); try discriminate; contradiction. Qed.
Lemma UpFunctionSelectionIndicationFlags_halts : forall m b, halts (UpFunctionSelectionIndicationFlags_unmarshal m b).
Proof. intros m b. pose proof (UpFunctionSelectionIndicationFlags_safe m b) as H. destruct (UpFunctionSelectionIndicationFlags_unmarshal m b); try discriminate; contradiction. Qed.
Lemma MaxPacketLossRate_halts : forall m b, halts (MaxPacketLossRate_unmarshal m b).
Proof. intros m b. pose proof (MaxPacketLossRate_safe m b) as H. destruct (MaxPacketLossRate_unmarshal m b); try discriminate; contradiction. Qed.
Lemma ApnRateControlStatus_halts : forall m b, halts (ApnRateControlStatus_unmarshal m b).
Proof. intros m b. pose proof (ApnRateControlStatus_safe m b) as H. destruct (ApnRateControlStatus_unmarshal m b); try discriminate; contradiction. Qed.
Lemma ExtendedTraceInformation_halts : forall m b, halts (ExtendedTraceInformation_unmarshal m b).
Proof. intros. repeat hc. Qed.
Lemma MonitoringEventExtensionInfo_halts : forall m b, halts (MonitoringEventExtensionInfo_unmarshal m b).
Proof. intros. repeat hc. Qed.
Lemma AdditionalRrmPolicyIndex_halts : forall m b, halts (AdditionalRrmPolicyIndex_unmarshal m b).
Proof. intros m b. pose proof (AdditionalRrmPolicyIndex_safe m b) as H. destruct (AdditionalRrmPolicyIndex_unmarshal m b); try discriminate; contradiction. Qed.
Lemma ServicesAuthorized_halts : forall m b, halts (ServicesAuthorized_unmarshal m b).
Proof. intros m b. pose proof (ServicesAuthorized_safe m b) as H. destruct (ServicesAuthorized_unmarshal m b); try discriminate; contradiction. Qed.
Lemma BitRate_halts : forall m b, halts (BitRate_unmarshal m b).
Proof. intros m b. pose proof (BitRate_safe m b) as H. destruct (BitRate_unmarshal m b); try discriminate; contradiction. Qed.
Lemma PC5QosFlow_halts : forall m b, halts (PC5QosFlow_unmarshal m b).
Proof. intros. repeat hc. Qed.
Lemma SgiPtpTunnelAddress_halts : forall m b, halts (SgiPtpTunnelAddress_unmarshal m b).
Proof. intros. repeat hc. Qed.
Lemma PgwFqdn_halts : forall m b, halts (PgwFqdn_unmarshal m b).
Proof. intros. repeat hc. Qed.
Lemma GroupId_halts : forall m b, halts (GroupId_unmarshal m b).
Proof. intros. repeat hc. Qed.
Lemma PSCellId_halts : forall m b, halts (PSCellId_unmarshal m b).
Proof. intros m b. pose proof (PSCellId_safe m b) as H. destruct (PSCellId_unmarshal m b); try discriminate; contradiction. Qed.
Lemma UpSecurityPolicy_halts : forall m b, halts (UpSecurityPolicy_unmarshal m b).
Proof. intros m b. pose proof (UpSecurityPolicy_safe m b) as H. destruct (UpSecurityPolicy_unmarshal m b); try discriminate; contradiction. Qed.
Lemma AlternativeImsi_halts : forall m b, halts (AlternativeImsi_unmarshal m b).
Proof. intros. repeat hc. Qed.
Lemma SpecialIEWithTypeExt_halts : forall m b, halts (SpecialIEWithTypeExt_unmarshal m b).
Proof. intros. repeat hc. Qed.
Lemma PrivateExtension_halts : forall m b, halts (PrivateExtension_unmarshal m b).
Proof. intros. repeat hc. Qed.
Lemma Unknown_halts : forall m b, halts (Unknown_unmarshal m b).
Proof. intros. repeat hc. Qed.
