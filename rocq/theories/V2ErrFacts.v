(* V2ErrFacts.v - the errors of the GTPv2-C decoders against V2ErrSpec.v *)
From Verif Require Import BaseFacts V2Base V2Decoder V2ReadSpec V2ReadFacts V2ListSpec V2ListFacts V2ErrSpec.
Import ListNotations.
Local Open Scope N_scope.
Definition errs {A} (l : list GTPV2Error) (r : res A) : Prop := forall e, r = Err e -> In e l.
Lemma errs_ok {A} l (x : A) : errs l (Ok x). Proof. intros e H. discriminate. Qed.
Lemma errs_panic {A} l : @errs A l Panic. Proof. intros e H. discriminate. Qed.
Lemma errs_div {A} l : @errs A l Diverge. Proof. intros e H. discriminate. Qed.
Lemma errs_err {A} l e : In e l -> @errs A l (Err e). Proof. intros I e' H. injection H as <-. exact I. Qed.
Lemma errs_bind {A B} l (r : res A) (f : A -> res B) : errs l r -> (forall x, errs l (f x)) -> errs l (bind r f).
Proof. intros H K e. destruct r; cbn [bind]; intros Q; try discriminate; [exact (K _ _ Q)|]. injection Q as <-. exact (H _ eq_refl). Qed.
Lemma errs_at l b k : errs l (at_ b k). Proof. unfold at_. intros e. destruct (nth_error b k); discriminate. Qed.
Lemma errs_slice l b i j : errs l (slice b i j). Proof. unfold slice. intros e. destruct (_ && _)%bool; intros H; discriminate H. Qed.
Lemma errs_ov l m w v : errs l (ov m w v). Proof. unfold ov. intros e. destruct m; try destruct (_ <? _); intros H; discriminate H. Qed.
Lemma errs_orelse {A} l (r : res A) e : In e l -> errs l (orelse r e).
Proof. intros I. unfold orelse. destruct r; [apply errs_ok|apply errs_err; exact I|apply errs_panic|apply errs_div]. Qed.
Lemma errs_mcc l b : errs l (mcc_mnc_decode b).
Proof. intros e H. unfold mcc_mnc_decode in H. repeat (match type of H with bind ?r _ = _ => unfold at_ in H; destruct (nth_error b _); cbn [bind] in H; try discriminate | match ?c with _ => _ end = _ => destruct c; try discriminate end); discriminate. Qed.
Lemma errs_labels l b : errs l (labels_decode b).
Proof. unfold labels_decode. apply errs_bind; [|intros; apply errs_ok]. generalize (length b) as f. intros f. revert b. induction f as [|f IH]; intros [|x b]; cbn [labels_loop]; try apply errs_ok; try apply errs_div. destruct (_ <=? _)%nat; [|apply errs_panic]. apply errs_bind; [apply IH|]. intros. apply errs_ok. Qed.
Lemma errs_many {A} l (dec : list N -> res A) size n : (forall t, errs l (dec t)) -> forall b c, errs l (many dec size n b c).
Proof.
  intros H. induction n as [|n IH]; intros b c; cbn [many]; [apply errs_ok|].
  apply errs_bind; [unfold slice_from; destruct (_ <=? _)%nat; [apply errs_ok|apply errs_panic]|]. intros t.
  apply errs_bind; [apply H|]. intros x. apply errs_bind; [apply IH|]. intros [xs c']. apply errs_ok.
Qed.
Lemma errs_many_checked {A} l (dec : list N -> res A) s e n : In e l -> forall b c, errs l (many_checked dec s e n b c).
Proof.
  intros H. induction n as [|n IH]; intros b c; cbn [many_checked]; [apply errs_ok|]. unfold need. destruct (_ <=? _)%nat; [|apply errs_err; exact H].
  apply errs_bind; [unfold slice_from; destruct (_ <=? _)%nat; [apply errs_ok|apply errs_panic]|]. intros t.
  apply errs_bind; [apply errs_orelse; exact H|]. intros x. apply errs_bind; [apply IH|]. intros [xs c']. apply errs_ok.
Qed.
Ltac leaf := solve [cbn [In]; tauto | eauto]. 
Ltac hd r := match r with ?f _ => hd f | ?f => f end.
Ltac errs0_ := repeat (intros; match goal with
  | |- errs _ (Ok _) => apply errs_ok
  | |- errs _ Panic => apply errs_panic
  | |- errs _ Diverge => apply errs_div
  | |- errs _ (Err _) => apply errs_err; leaf
  | |- errs _ (bind _ _) => apply errs_bind
  | |- errs _ (at_ _ _) => apply errs_at
  | |- errs _ (slice _ _ _) => apply errs_slice
  | |- errs _ (ov _ _ _) => apply errs_ov
  | |- errs _ (mcc_mnc_decode _) => apply errs_mcc
  | |- errs _ (labels_decode _) => apply errs_labels
  | |- errs _ (orelse _ _) => apply errs_orelse; leaf
  | |- errs _ (many_checked _ _ _ _ _ _) => apply errs_many_checked; leaf
  | |- errs _ (many _ _ _ _ _) => apply errs_many
  | |- errs _ (let x := _ in _) => cbv zeta
  | |- errs _ (match ?c with _ => _ end) => destruct c
  | |- errs _ ?r => lazymatch r with rates_loop _ _ _ => fail | mdt_plmns_loop _ _ _ => fail | loc_loop _ _ _ => fail | presence_areas_loop _ _ _ => fail | _ => let h := hd r in unfold h end
  end); intros.
Lemma errs_rates l f : forall b c, errs l (rates_loop f b c).
Proof. induction f as [|f IH]; intros b c; cbn [rates_loop]; errs0_. apply IH. Qed.
Lemma errs_areas l f : forall b c, errs l (presence_areas_loop f b c).
Proof. induction f as [|f IH]; intros b c; cbn [presence_areas_loop]; errs0_. apply IH. Qed.
Lemma errs_mdt l f : In (IEInvalidLength 162) l -> forall b c, errs l (mdt_plmns_loop f b c).
Proof. intros H. induction f as [|f IH]; intros b c; cbn [mdt_plmns_loop]; errs0_. all: first [exact (IH _ _) | apply errs_err; exact H]. Qed.
Lemma errs_loc l f : In (IEIncorrect 0) l -> forall b c, errs l (loc_loop f b c).
Proof. intros H. induction f as [|k f IH]; intros b c; cbn [loc_loop]; errs0_. all: first [exact (IH _ _) | apply errs_err; exact H]. Qed.
Ltac errs_ := repeat (progress (errs0_; try match goal with
  | |- errs _ (loc_loop _ _ _) => apply errs_loc; leaf
  | |- errs _ (mdt_plmns_loop _ _ _) => apply errs_mdt; leaf
  | |- errs _ (rates_loop _ _ _) => apply errs_rates
  | |- errs _ (presence_areas_loop _ _ _) => apply errs_areas
  end)).

Lemma MmContextEpsSecurityContextQuadruplets_errs m b : errs [IEInvalidLength 107; IEIncorrect 107] (MmContextEpsSecurityContextQuadruplets_unmarshal m b).
Proof. unfold MmContextEpsSecurityContextQuadruplets_unmarshal. errs_. Qed.
Lemma MmContextUmtsKeyQuintuplets_errs m b : errs [IEInvalidLength 106; IEIncorrect 106] (MmContextUmtsKeyQuintuplets_unmarshal m b).
Proof. unfold MmContextUmtsKeyQuintuplets_unmarshal. errs_. Qed.
Lemma MmContextUmtsKeyQuadrupletsQuintuplets_errs m b : errs [IEInvalidLength 108; IEIncorrect 108] (MmContextUmtsKeyQuadrupletsQuintuplets_unmarshal m b).
Proof. unfold MmContextUmtsKeyQuadrupletsQuintuplets_unmarshal. errs_. Qed.
Lemma MmContextUmtsKeyCipherQuintuplets_errs m b : errs [IEInvalidLength 104; IEIncorrect 104] (MmContextUmtsKeyCipherQuintuplets_unmarshal m b).
Proof. unfold MmContextUmtsKeyCipherQuintuplets_unmarshal. errs_. Qed.
Lemma MmContextGsmKeyTriplets_errs m b : errs [IEInvalidLength 103; IEIncorrect 103] (MmContextGsmKeyTriplets_unmarshal m b).
Proof. unfold MmContextGsmKeyTriplets_unmarshal. errs_. Qed.
Lemma MmContextGsmKeyCipherQuintuplets_errs m b : errs [IEInvalidLength 105; IEIncorrect 105] (MmContextGsmKeyCipherQuintuplets_unmarshal m b).
Proof. unfold MmContextGsmKeyCipherQuintuplets_unmarshal. errs_. Qed.
Lemma Imsi_errs m b : errs [IEInvalidLength 1; IEIncorrect 1] (Imsi_unmarshal m b).
Proof. unfold Imsi_unmarshal. errs_. Qed.
Lemma Cause_errs m b : errs [IEInvalidLength 2; IEIncorrect 2] (Cause_unmarshal m b).
Proof. unfold Cause_unmarshal. errs_. Qed.
Lemma Recovery_errs m b : errs [IEInvalidLength 3; IEIncorrect 3] (Recovery_unmarshal m b).
Proof. unfold Recovery_unmarshal. errs_. Qed.
Lemma StnSr_errs m b : errs [IEInvalidLength 51; IEIncorrect 51] (StnSr_unmarshal m b).
Proof. unfold StnSr_unmarshal. errs_. Qed.
Lemma SrvccCause_errs m b : errs [IEInvalidLength 56; IEIncorrect 56] (SrvccCause_unmarshal m b).
Proof. unfold SrvccCause_unmarshal. errs_. Qed.
Lemma Apn_errs m b : errs [IEInvalidLength 71; IEIncorrect 71] (Apn_unmarshal m b).
Proof. unfold Apn_unmarshal. errs_. Qed.
Lemma Ambr_errs m b : errs [IEInvalidLength 72; IEIncorrect 72] (Ambr_unmarshal m b).
Proof. unfold Ambr_unmarshal. errs_. Qed.
Lemma Ebi_errs m b : errs [IEInvalidLength 73; IEIncorrect 73] (Ebi_unmarshal m b).
Proof. unfold Ebi_unmarshal. errs_. Qed.
Lemma IpAddress_errs m b : errs [IEInvalidLength 74; IEIncorrect 74] (IpAddress_unmarshal m b).
Proof. unfold IpAddress_unmarshal. errs_. Qed.
Lemma Mei_errs m b : errs [IEInvalidLength 75; IEIncorrect 75] (Mei_unmarshal m b).
Proof. unfold Mei_unmarshal. errs_. Qed.
Lemma Msisdn_errs m b : errs [IEInvalidLength 76; IEIncorrect 76] (Msisdn_unmarshal m b).
Proof. unfold Msisdn_unmarshal. errs_. Qed.
Lemma Indication_errs m b : errs [IEInvalidLength 77; IEIncorrect 77] (Indication_unmarshal m b).
Proof. unfold Indication_unmarshal. errs_. Qed.
Lemma Pco_errs m b : errs [IEInvalidLength 78; IEIncorrect 78] (Pco_unmarshal m b).
Proof. unfold Pco_unmarshal. errs_. Qed.
Lemma PdnAddressAllocation_errs m b : errs [IEInvalidLength 79; IEIncorrect 79] (PdnAddressAllocation_unmarshal m b).
Proof. unfold PdnAddressAllocation_unmarshal. errs_. Qed.
Lemma BearerQos_errs m b : errs [IEInvalidLength 80; IEIncorrect 80] (BearerQos_unmarshal m b).
Proof. unfold BearerQos_unmarshal. errs_. Qed.
Lemma FlowQos_errs m b : errs [IEInvalidLength 81; IEIncorrect 81] (FlowQos_unmarshal m b).
Proof. unfold FlowQos_unmarshal. errs_. Qed.
Lemma RatType_errs m b : errs [IEInvalidLength 82; IEIncorrect 82] (RatType_unmarshal m b).
Proof. unfold RatType_unmarshal. errs_. Qed.
Lemma ServingNetwork_errs m b : errs [IEInvalidLength 83; IEIncorrect 83] (ServingNetwork_unmarshal m b).
Proof. unfold ServingNetwork_unmarshal. errs_. Qed.
Lemma BearerTft_errs m b : errs [IEInvalidLength 84; IEIncorrect 84] (BearerTft_unmarshal m b).
Proof. unfold BearerTft_unmarshal. errs_. Qed.
Lemma TrafficAggregateDescription_errs m b : errs [IEInvalidLength 85; IEIncorrect 85] (TrafficAggregateDescription_unmarshal m b).
Proof. unfold TrafficAggregateDescription_unmarshal. errs_. Qed.
Lemma Uli_errs m b : errs [IEInvalidLength 86; IEIncorrect 86; IEIncorrect 0] (Uli_unmarshal m b).
Proof. unfold Uli_unmarshal. errs_. Qed.
Lemma Fteid_errs m b : errs [IEInvalidLength 87; IEIncorrect 87] (Fteid_unmarshal m b).
Proof. unfold Fteid_unmarshal. errs_. Qed.
Lemma Tmsi_errs m b : errs [IEInvalidLength 88; IEIncorrect 88] (Tmsi_unmarshal m b).
Proof. unfold Tmsi_unmarshal. errs_. Qed.
Lemma GlobalCnId_errs m b : errs [IEInvalidLength 89; IEIncorrect 89] (GlobalCnId_unmarshal m b).
Proof. unfold GlobalCnId_unmarshal. errs_. Qed.
Lemma S103pdf_errs m b : errs [IEInvalidLength 90; IEIncorrect 90] (S103pdf_unmarshal m b).
Proof. unfold S103pdf_unmarshal. errs_. Qed.
Lemma S1udf_errs m b : errs [IEInvalidLength 91; IEIncorrect 91] (S1udf_unmarshal m b).
Proof. unfold S1udf_unmarshal. errs_. Qed.
Lemma DelayValue_errs m b : errs [IEInvalidLength 92; IEIncorrect 92] (DelayValue_unmarshal m b).
Proof. unfold DelayValue_unmarshal. errs_. Qed.
Lemma ChargingId_errs m b : errs [IEInvalidLength 94; IEIncorrect 94] (ChargingId_unmarshal m b).
Proof. unfold ChargingId_unmarshal. errs_. Qed.
Lemma ChargingCharacteristics_errs m b : errs [IEInvalidLength 95; IEIncorrect 95] (ChargingCharacteristics_unmarshal m b).
Proof. unfold ChargingCharacteristics_unmarshal. errs_. Qed.
Lemma TraceInformation_errs m b : errs [IEInvalidLength 96; IEIncorrect 96] (TraceInformation_unmarshal m b).
Proof. unfold TraceInformation_unmarshal. errs_. Qed.
Lemma BearerFlags_errs m b : errs [IEInvalidLength 97; IEIncorrect 97] (BearerFlags_unmarshal m b).
Proof. unfold BearerFlags_unmarshal. errs_. Qed.
Lemma PdnType_errs m b : errs [IEInvalidLength 99; IEIncorrect 99] (PdnType_unmarshal m b).
Proof. unfold PdnType_unmarshal. errs_. Qed.
Lemma Pti_errs m b : errs [IEInvalidLength 100; IEIncorrect 100] (Pti_unmarshal m b).
Proof. unfold Pti_unmarshal. errs_. Qed.
Lemma PduNumbers_errs m b : errs [IEInvalidLength 110; IEIncorrect 110] (PduNumbers_unmarshal m b).
Proof. unfold PduNumbers_unmarshal. errs_. Qed.
Lemma Ptmsi_errs m b : errs [IEInvalidLength 111; IEIncorrect 111] (Ptmsi_unmarshal m b).
Proof. unfold Ptmsi_unmarshal. errs_. Qed.
Lemma PtmsiSignature_errs m b : errs [IEInvalidLength 112; IEIncorrect 112] (PtmsiSignature_unmarshal m b).
Proof. unfold PtmsiSignature_unmarshal. errs_. Qed.
Lemma HopCounter_errs m b : errs [IEInvalidLength 113; IEIncorrect 113] (HopCounter_unmarshal m b).
Proof. unfold HopCounter_unmarshal. errs_. Qed.
Lemma UeTimeZone_errs m b : errs [IEInvalidLength 114; IEIncorrect 114] (UeTimeZone_unmarshal m b).
Proof. unfold UeTimeZone_unmarshal. errs_. Qed.
Lemma TraceReference_errs m b : errs [IEInvalidLength 83] (TraceReference_unmarshal m b).
Proof. unfold TraceReference_unmarshal. errs_. Qed.
Lemma CompleteRequestMessage_errs m b : errs [IEInvalidLength 116; IEIncorrect 116] (CompleteRequestMessage_unmarshal m b).
Proof. unfold CompleteRequestMessage_unmarshal. errs_. Qed.
Lemma Guti_errs m b : errs [IEInvalidLength 117; IEIncorrect 117] (Guti_unmarshal m b).
Proof. unfold Guti_unmarshal. errs_. Qed.
Lemma Fcontainer_errs m b : errs [IEInvalidLength 118; IEIncorrect 118] (Fcontainer_unmarshal m b).
Proof. unfold Fcontainer_unmarshal. errs_. Qed.
Lemma Fcause_errs m b : errs [IEInvalidLength 119; IEIncorrect 119] (Fcause_unmarshal m b).
Proof. unfold Fcause_unmarshal. errs_. Qed.
Lemma PlmnId_errs m b : errs [IEInvalidLength 120; IEIncorrect 120] (PlmnId_unmarshal m b).
Proof. unfold PlmnId_unmarshal. errs_. Qed.
Lemma TargetIdentification_errs m b : errs [IEInvalidLength 121; IEIncorrect 121] (TargetIdentification_unmarshal m b).
Proof. unfold TargetIdentification_unmarshal. errs_. Qed.
Lemma PacketFlowId_errs m b : errs [IEInvalidLength 123; IEIncorrect 123] (PacketFlowId_unmarshal m b).
Proof. unfold PacketFlowId_unmarshal. errs_. Qed.
Lemma RabContext_errs m b : errs [IEInvalidLength 124; IEIncorrect 124] (RabContext_unmarshal m b).
Proof. unfold RabContext_unmarshal. errs_. Qed.
Lemma SourceRncPdcpContextInfo_errs m b : errs [IEInvalidLength 125; IEIncorrect 125] (SourceRncPdcpContextInfo_unmarshal m b).
Proof. unfold SourceRncPdcpContextInfo_unmarshal. errs_. Qed.
Lemma PortNumber_errs m b : errs [IEInvalidLength 126; IEIncorrect 126] (PortNumber_unmarshal m b).
Proof. unfold PortNumber_unmarshal. errs_. Qed.
Lemma ApnRestriction_errs m b : errs [IEInvalidLength 127; IEIncorrect 127] (ApnRestriction_unmarshal m b).
Proof. unfold ApnRestriction_unmarshal. errs_. Qed.
Lemma SelectionMode_errs m b : errs [IEInvalidLength 128; IEIncorrect 128] (SelectionMode_unmarshal m b).
Proof. unfold SelectionMode_unmarshal. errs_. Qed.
Lemma SourceIdentification_errs m b : errs [IEInvalidLength 129; IEIncorrect 129] (SourceIdentification_unmarshal m b).
Proof. unfold SourceIdentification_unmarshal. errs_. Qed.
Lemma ChangeReportingAction_errs m b : errs [IEInvalidLength 131; IEIncorrect 131] (ChangeReportingAction_unmarshal m b).
Proof. unfold ChangeReportingAction_unmarshal. errs_. Qed.
Lemma Fqcsid_errs m b : errs [IEInvalidLength 132; IEIncorrect 132] (Fqcsid_unmarshal m b).
Proof. unfold Fqcsid_unmarshal. errs_. Qed.
Lemma ChannelNeeded_errs m b : errs [IEInvalidLength 133; IEIncorrect 133] (ChannelNeeded_unmarshal m b).
Proof. unfold ChannelNeeded_unmarshal. errs_. Qed.
Lemma EmlppPriority_errs m b : errs [IEInvalidLength 134; IEIncorrect 134] (EmlppPriority_unmarshal m b).
Proof. unfold EmlppPriority_unmarshal. errs_. Qed.
Lemma NodeType_errs m b : errs [IEInvalidLength 135; IEIncorrect 135] (NodeType_unmarshal m b).
Proof. unfold NodeType_unmarshal. errs_. Qed.
Lemma Fqdn_errs m b : errs [IEInvalidLength 136; IEIncorrect 136] (Fqdn_unmarshal m b).
Proof. unfold Fqdn_unmarshal. errs_. Qed.
Lemma TransactionIdentifier_errs m b : errs [IEInvalidLength 137; IEIncorrect 137] (TransactionIdentifier_unmarshal m b).
Proof. unfold TransactionIdentifier_unmarshal. errs_. Qed.
Lemma MbmsSessionDuration_errs m b : errs [IEInvalidLength 138; IEIncorrect 138] (MbmsSessionDuration_unmarshal m b).
Proof. unfold MbmsSessionDuration_unmarshal. errs_. Qed.
Lemma MbmsServiceArea_errs m b : errs [IEInvalidLength 139; IEIncorrect 139] (MbmsServiceArea_unmarshal m b).
Proof. unfold MbmsServiceArea_unmarshal. errs_. Qed.
Lemma MbmsSessionId_errs m b : errs [IEInvalidLength 140; IEIncorrect 140] (MbmsSessionId_unmarshal m b).
Proof. unfold MbmsSessionId_unmarshal. errs_. Qed.
Lemma MbmsFlowId_errs m b : errs [IEInvalidLength 141; IEIncorrect 141] (MbmsFlowId_unmarshal m b).
Proof. unfold MbmsFlowId_unmarshal. errs_. Qed.
Lemma MbmsIpMulticastDistribution_errs m b : errs [IEInvalidLength 142; IEIncorrect 142] (MbmsIpMulticastDistribution_unmarshal m b).
Proof. unfold MbmsIpMulticastDistribution_unmarshal. errs_. Qed.
Lemma MbmsDistributionAck_errs m b : errs [IEInvalidLength 143; IEIncorrect 143] (MbmsDistributionAck_unmarshal m b).
Proof. unfold MbmsDistributionAck_unmarshal. errs_. Qed.
Lemma RfspIndex_errs m b : errs [IEInvalidLength 144; IEIncorrect 144] (RfspIndex_unmarshal m b).
Proof. unfold RfspIndex_unmarshal. errs_. Qed.
Lemma Uci_errs m b : errs [IEInvalidLength 145; IEIncorrect 145] (Uci_unmarshal m b).
Proof. unfold Uci_unmarshal. errs_. Qed.
Lemma CSGInformationReportingAction_errs m b : errs [IEInvalidLength 146; IEIncorrect 146] (CSGInformationReportingAction_unmarshal m b).
Proof. unfold CSGInformationReportingAction_unmarshal. errs_. Qed.
Lemma CsgId_errs m b : errs [IEInvalidLength 147; IEIncorrect 147] (CsgId_unmarshal m b).
Proof. unfold CsgId_unmarshal. errs_. Qed.
Lemma CsgMembershipIndication_errs m b : errs [IEInvalidLength 148; IEIncorrect 148] (CsgMembershipIndication_unmarshal m b).
Proof. unfold CsgMembershipIndication_unmarshal. errs_. Qed.
Lemma ServiceIndicator_errs m b : errs [IEInvalidLength 149; IEIncorrect 149] (ServiceIndicator_unmarshal m b).
Proof. unfold ServiceIndicator_unmarshal. errs_. Qed.
Lemma DetachType_errs m b : errs [IEInvalidLength 150; IEIncorrect 150] (DetachType_unmarshal m b).
Proof. unfold DetachType_unmarshal. errs_. Qed.
Lemma Ldn_errs m b : errs [IEInvalidLength 151; IEIncorrect 151] (Ldn_unmarshal m b).
Proof. unfold Ldn_unmarshal. errs_. Qed.
Lemma NodeFeatures_errs m b : errs [IEInvalidLength 152; IEIncorrect 152] (NodeFeatures_unmarshal m b).
Proof. unfold NodeFeatures_unmarshal. errs_. Qed.
Lemma MbmsTimeToDataTransfer_errs m b : errs [IEInvalidLength 153; IEIncorrect 153] (MbmsTimeToDataTransfer_unmarshal m b).
Proof. unfold MbmsTimeToDataTransfer_unmarshal. errs_. Qed.
Lemma Throttling_errs m b : errs [IEInvalidLength 154; IEIncorrect 154] (Throttling_unmarshal m b).
Proof. unfold Throttling_unmarshal. errs_. Qed.
Lemma Arp_errs m b : errs [IEInvalidLength 155; IEIncorrect 155] (Arp_unmarshal m b).
Proof. unfold Arp_unmarshal. errs_. Qed.
Lemma EpcTimer_errs m b : errs [IEInvalidLength 156; IEIncorrect 156] (EpcTimer_unmarshal m b).
Proof. unfold EpcTimer_unmarshal. errs_. Qed.
Lemma Spi_errs m b : errs [IEInvalidLength 157; IEIncorrect 157] (Spi_unmarshal m b).
Proof. unfold Spi_unmarshal. errs_. Qed.
Lemma Tmgi_errs m b : errs [IEInvalidLength 158; IEIncorrect 158] (Tmgi_unmarshal m b).
Proof. unfold Tmgi_unmarshal. errs_. Qed.
Lemma AdditionalMmContextForSrvcc_errs m b : errs [IEInvalidLength 159; IEIncorrect 159] (AdditionalMmContextForSrvcc_unmarshal m b).
Proof. unfold AdditionalMmContextForSrvcc_unmarshal. errs_. Qed.
Lemma AdditionalFlagsSrvcc_errs m b : errs [IEInvalidLength 160; IEIncorrect 160] (AdditionalFlagsSrvcc_unmarshal m b).
Proof. unfold AdditionalFlagsSrvcc_unmarshal. errs_. Qed.
Lemma MdtConfiguration_errs m b : errs [IEInvalidLength 162; IEIncorrect 162] (MdtConfiguration_unmarshal m b).
Proof. unfold MdtConfiguration_unmarshal. errs_. Qed.
Lemma Apco_errs m b : errs [IEInvalidLength 163; IEIncorrect 163] (Apco_unmarshal m b).
Proof. unfold Apco_unmarshal. errs_. Qed.
Lemma AbsoluteTimeMbmsDataTransfer_errs m b : errs [IEInvalidLength 164; IEIncorrect 164] (AbsoluteTimeMbmsDataTransfer_unmarshal m b).
Proof. unfold AbsoluteTimeMbmsDataTransfer_unmarshal. errs_. Qed.
Lemma HenbInfoReporting_errs m b : errs [IEInvalidLength 165; IEIncorrect 165] (HenbInfoReporting_unmarshal m b).
Proof. unfold HenbInfoReporting_unmarshal. errs_. Qed.
Lemma Ip4Cp_errs m b : errs [IEInvalidLength 166; IEIncorrect 166] (Ip4Cp_unmarshal m b).
Proof. unfold Ip4Cp_unmarshal. errs_. Qed.
Lemma ChangeToReportFlags_errs m b : errs [IEInvalidLength 167; IEIncorrect 167] (ChangeToReportFlags_unmarshal m b).
Proof. unfold ChangeToReportFlags_unmarshal. errs_. Qed.
Lemma ActionIndication_errs m b : errs [IEInvalidLength 168; IEIncorrect 168] (ActionIndication_unmarshal m b).
Proof. unfold ActionIndication_unmarshal. errs_. Qed.
Lemma UliTimestamp_errs m b : errs [IEInvalidLength 170; IEIncorrect 170] (UliTimestamp_unmarshal m b).
Proof. unfold UliTimestamp_unmarshal. errs_. Qed.
Lemma MbmsFlags_errs m b : errs [IEInvalidLength 171; IEIncorrect 171] (MbmsFlags_unmarshal m b).
Proof. unfold MbmsFlags_unmarshal. errs_. Qed.
Lemma RanNasCause_errs m b : errs [IEInvalidLength 172; IEIncorrect 172] (RanNasCause_unmarshal m b).
Proof. unfold RanNasCause_unmarshal. errs_. Qed.
Lemma CnOperatorSelectionEntity_errs m b : errs [IEInvalidLength 173; IEIncorrect 173] (CnOperatorSelectionEntity_unmarshal m b).
Proof. unfold CnOperatorSelectionEntity_unmarshal. errs_. Qed.
Lemma Twmi_errs m b : errs [IEInvalidLength 174; IEIncorrect 174] (Twmi_unmarshal m b).
Proof. unfold Twmi_unmarshal. errs_. Qed.
Lemma NodeNumber_errs m b : errs [IEInvalidLength 175; IEIncorrect 175] (NodeNumber_unmarshal m b).
Proof. unfold NodeNumber_unmarshal. errs_. Qed.
Lemma NodeIdentifier_errs m b : errs [IEInvalidLength 176; IEIncorrect 176] (NodeIdentifier_unmarshal m b).
Proof. unfold NodeIdentifier_unmarshal. errs_. Qed.
Lemma PresenceReportingAreaAction_errs m b : errs [IEInvalidLength 177; IEIncorrect 177] (PresenceReportingAreaAction_unmarshal m b).
Proof. unfold PresenceReportingAreaAction_unmarshal. errs_. Qed.
Lemma PresenceReportingAreaInformation_errs m b : errs [IEInvalidLength 178; IEIncorrect 178] (PresenceReportingAreaInformation_unmarshal m b).
Proof. unfold PresenceReportingAreaInformation_unmarshal. errs_. Qed.
Lemma TwanIdTimeStamp_errs m b : errs [IEInvalidLength 179; IEIncorrect 179] (TwanIdTimeStamp_unmarshal m b).
Proof. unfold TwanIdTimeStamp_unmarshal. errs_. Qed.
Lemma Metric_errs m b : errs [IEInvalidLength 182; IEIncorrect 182] (Metric_unmarshal m b).
Proof. unfold Metric_unmarshal. errs_. Qed.
Lemma Sqn_errs m b : errs [IEInvalidLength 183; IEIncorrect 183] (Sqn_unmarshal m b).
Proof. unfold Sqn_unmarshal. errs_. Qed.
Lemma ApnRelativeCapacity_errs m b : errs [IEInvalidLength 184; IEIncorrect 184] (ApnRelativeCapacity_unmarshal m b).
Proof. unfold ApnRelativeCapacity_unmarshal. errs_. Qed.
Lemma WlanOffloadIndication_errs m b : errs [IEInvalidLength 185; IEIncorrect 185] (WlanOffloadIndication_unmarshal m b).
Proof. unfold WlanOffloadIndication_unmarshal. errs_. Qed.
Lemma PagingServiceInfo_errs m b : errs [IEInvalidLength 186; IEIncorrect 186] (PagingServiceInfo_unmarshal m b).
Proof. unfold PagingServiceInfo_unmarshal. errs_. Qed.
Lemma IntegerNumber_errs m b : errs [IEInvalidLength 187; IEIncorrect 187] (IntegerNumber_unmarshal m b).
Proof. unfold IntegerNumber_unmarshal. errs_. Qed.
Lemma MilliSecondTimeStamp_errs m b : errs [IEInvalidLength 188; IEIncorrect 188] (MilliSecondTimeStamp_unmarshal m b).
Proof. unfold MilliSecondTimeStamp_unmarshal. errs_. Qed.
Lemma MonitoringEventInformation_errs m b : errs [IEInvalidLength 189; IEIncorrect 189] (MonitoringEventInformation_unmarshal m b).
Proof. unfold MonitoringEventInformation_unmarshal. errs_. Qed.
Lemma EcgiList_errs m b : errs [IEInvalidLength 190; IEIncorrect 190] (EcgiList_unmarshal m b).
Proof. unfold EcgiList_unmarshal. errs_. Qed.
Lemma RemoteUserId_errs m b : errs [IEInvalidLength 192; IEIncorrect 192] (RemoteUserId_unmarshal m b).
Proof. unfold RemoteUserId_unmarshal. errs_. Qed.
Lemma RemoteUeIpInformation_errs m b : errs [IEInvalidLength 193; IEIncorrect 193] (RemoteUeIpInformation_unmarshal m b).
Proof. unfold RemoteUeIpInformation_unmarshal. errs_. Qed.
Lemma CIoTOptimizationSupportIndication_errs m b : errs [IEInvalidLength 194; IEIncorrect 194] (CIoTOptimizationSupportIndication_unmarshal m b).
Proof. unfold CIoTOptimizationSupportIndication_unmarshal. errs_. Qed.
Lemma HeaderCompressionConfiguration_errs m b : errs [IEInvalidLength 196; IEIncorrect 196] (HeaderCompressionConfiguration_unmarshal m b).
Proof. unfold HeaderCompressionConfiguration_unmarshal. errs_. Qed.
Lemma Epco_errs m b : errs [IEInvalidLength 197; IEIncorrect 197] (Epco_unmarshal m b).
Proof. unfold Epco_unmarshal. errs_. Qed.
Lemma ServingPlmnRateControl_errs m b : errs [IEInvalidLength 198; IEIncorrect 198] (ServingPlmnRateControl_unmarshal m b).
Proof. unfold ServingPlmnRateControl_unmarshal. errs_. Qed.
Lemma Counter_errs m b : errs [IEInvalidLength 199; IEIncorrect 199] (Counter_unmarshal m b).
Proof. unfold Counter_unmarshal. errs_. Qed.
Lemma MappedUeUsageType_errs m b : errs [IEInvalidLength 200; IEIncorrect 200] (MappedUeUsageType_unmarshal m b).
Proof. unfold MappedUeUsageType_unmarshal. errs_. Qed.
Lemma SecondaryRatUsageDataReport_errs m b : errs [IEInvalidLength 201; IEIncorrect 201] (SecondaryRatUsageDataReport_unmarshal m b).
Proof. unfold SecondaryRatUsageDataReport_unmarshal. errs_. Qed.
Lemma UpFunctionSelectionIndicationFlags_errs m b : errs [IEInvalidLength 202; IEIncorrect 202] (UpFunctionSelectionIndicationFlags_unmarshal m b).
Proof. unfold UpFunctionSelectionIndicationFlags_unmarshal. errs_. Qed.
Lemma MaxPacketLossRate_errs m b : errs [IEInvalidLength 203; IEIncorrect 203] (MaxPacketLossRate_unmarshal m b).
Proof. unfold MaxPacketLossRate_unmarshal. errs_. Qed.
Lemma ApnRateControlStatus_errs m b : errs [IEInvalidLength 204; IEIncorrect 204] (ApnRateControlStatus_unmarshal m b).
Proof. unfold ApnRateControlStatus_unmarshal. errs_. Qed.
Lemma ExtendedTraceInformation_errs m b : errs [IEInvalidLength 205; IEIncorrect 205] (ExtendedTraceInformation_unmarshal m b).
Proof. unfold ExtendedTraceInformation_unmarshal. errs_. Qed.
Lemma MonitoringEventExtensionInfo_errs m b : errs [IEInvalidLength 206; IEIncorrect 206] (MonitoringEventExtensionInfo_unmarshal m b).
Proof. unfold MonitoringEventExtensionInfo_unmarshal. errs_. Qed.
Lemma AdditionalRrmPolicyIndex_errs m b : errs [IEInvalidLength 207; IEIncorrect 207] (AdditionalRrmPolicyIndex_unmarshal m b).
Proof. unfold AdditionalRrmPolicyIndex_unmarshal. errs_. Qed.
Lemma ServicesAuthorized_errs m b : errs [IEInvalidLength 210; IEIncorrect 210] (ServicesAuthorized_unmarshal m b).
Proof. unfold ServicesAuthorized_unmarshal. errs_. Qed.
Lemma BitRate_errs m b : errs [IEInvalidLength 211; IEIncorrect 211] (BitRate_unmarshal m b).
Proof. unfold BitRate_unmarshal. errs_. Qed.
Lemma PC5QosFlow_errs m b : errs [IEInvalidLength 212; IEIncorrect 212] (PC5QosFlow_unmarshal m b).
Proof. unfold PC5QosFlow_unmarshal. errs_. Qed.
Lemma SgiPtpTunnelAddress_errs m b : errs [IEInvalidLength 213; IEIncorrect 213] (SgiPtpTunnelAddress_unmarshal m b).
Proof. unfold SgiPtpTunnelAddress_unmarshal. errs_. Qed.
Lemma PgwFqdn_errs m b : errs [IEInvalidLength 215; IEIncorrect 215] (PgwFqdn_unmarshal m b).
Proof. unfold PgwFqdn_unmarshal. errs_. Qed.
Lemma GroupId_errs m b : errs [IEInvalidLength 216; IEIncorrect 216] (GroupId_unmarshal m b).
Proof. unfold GroupId_unmarshal. errs_. Qed.
Lemma PSCellId_errs m b : errs [IEInvalidLength 217; IEIncorrect 217] (PSCellId_unmarshal m b).
Proof. unfold PSCellId_unmarshal. errs_. Qed.
Lemma UpSecurityPolicy_errs m b : errs [IEInvalidLength 218; IEIncorrect 218] (UpSecurityPolicy_unmarshal m b).
Proof. unfold UpSecurityPolicy_unmarshal. errs_. Qed.
Lemma AlternativeImsi_errs m b : errs [IEInvalidLength 219; IEIncorrect 219] (AlternativeImsi_unmarshal m b).
Proof. unfold AlternativeImsi_unmarshal. errs_. Qed.
Lemma SpecialIEWithTypeExt_errs m b : errs [IEInvalidLength 254; IEIncorrect 254] (SpecialIEWithTypeExt_unmarshal m b).
Proof. unfold SpecialIEWithTypeExt_unmarshal. errs_. Qed.
Lemma PrivateExtension_errs m b : errs [IEInvalidLength 255; IEIncorrect 255] (PrivateExtension_unmarshal m b).
Proof. unfold PrivateExtension_unmarshal. errs_. Qed.

Lemma Unknown_errs m t q e : Unknown_unmarshal m (t :: q) = Err e -> e = IEInvalidLength t \/ e = IEInvalidLength 0.
Proof.
  intros H. assert (E : errs [IEInvalidLength t; IEInvalidLength 0] (Unknown_unmarshal m (t :: q))).
  { unfold Unknown_unmarshal. destruct (_ <=? _)%nat; [errs_|]. apply errs_err. left. reflexivity. }
  destruct (E e) as [<-|[<-|[]]]; [exact H|left; reflexivity|right; reflexivity].
Qed.

(* the errors of a list *)
Lemma two {A} T (r : res A) e : errs [IEInvalidLength T; IEIncorrect T] r -> r = Err e -> names T e.
Proof. intros H E. destruct (H e E) as [<-|[<-|[]]]; [left|right]; reflexivity. Qed.
Lemma two' {A} T (r : res A) e : errs [IEInvalidLength T; IEIncorrect T] r -> r = Err e -> names T e \/ unknown_type T /\ e = IEInvalidLength 0.
Proof. intros H E. left. exact (two T r e H E). Qed.
Lemma lift_errs {A} (c : A -> ie) l r : errs l r -> errs l (lift c r).
Proof. intros H. unfold lift. apply errs_bind; [exact H|]. intros x. apply errs_ok. Qed.

(* grouped elements *)
Definition member_error (dec : list N -> res (list ie)) (q : list N) (e : GTPV2Error) : Prop :=
  exists a b c q', q = a :: b :: c :: q' /\ fits (256 * a + b) q' = true /\ dec (firstn (N.to_nat (256 * a + b)) q') = Err e.
Lemma grouped_err dec t q e : GroupedIe_unmarshal dec Debug (t :: q) = Err e -> e = IEInvalidLength t \/ member_error dec q e.
Proof.
  pose proof (Grouped_eq dec (t :: q)) as G. intros H. rewrite H in G. cbn [got] in G.
  destruct q as [|a [|b [|c q]]]; try (left; injection H as <-; reflexivity).
  destruct (fits (256 * a + b) q) eqn:F.
  - right. exists a, b, c, q. split; [reflexivity|]. split; [exact F|].
    unfold GroupedIe_unmarshal in H. change (MIN_IE_SIZE <=? length (t :: a :: b :: c :: q))%nat with true in H. cbv iota in H. unfold at_, hdr4, at_ in H. cbn [nth_error bind] in H.
    change (be16 a b) with (256 * a + b) in H || rewrite ?be16_eq in H.
    unfold checked, check_tliv_ie_buffer in H. pose proof F as F'. unfold fits in F'. apply andb_prop in F' as [F1 F3]. apply andb_prop in F1 as [F1 F2].
    apply N.leb_le in F1, F2, F3. rewrite (proj2 (N.eqb_neq (256 * a + b) 0)) in H by lia. unfold add16, ov in H.
    rewrite (proj2 (N.ltb_lt (256 * a + b + 4) 65536)) in H by lia. cbn [bind] in H. unfold nlen in F3.
    assert (Hle : (N.to_nat (256 * a + b + 4) <=? length (t :: a :: b :: c :: q))%nat = true) by (apply Nat.leb_le; cbn [length]; lia).
    rewrite Hle in H. unfold end16, add16, ov in H. rewrite (proj2 (N.ltb_lt (256 * a + b + 4) 65536)) in H by lia. cbn [bind] in H.
    unfold slice in H. assert (Hs : ((4 <=? N.to_nat (256 * a + b + 4)) && (N.to_nat (256 * a + b + 4) <=? length (t :: a :: b :: c :: q)))%nat = true).
    { apply andb_true_intro. split; [apply Nat.leb_le; lia|exact Hle]. }
    rewrite Hs in H. cbn [bind] in H. cbn [skipn] in H. replace (N.to_nat (256 * a + b + 4) - 4)%nat with (N.to_nat (256 * a + b)) in H by lia.
    destruct (dec _) as [x|e'| |]; cbn [bind] in H; try discriminate. injection H as <-. reflexivity.
  - left. unfold GroupedIe_unmarshal in H. change (MIN_IE_SIZE <=? length (t :: a :: b :: c :: q))%nat with true in H. cbv iota in H. unfold at_, hdr4, at_ in H. cbn [nth_error bind] in H.
    unfold checked in H. destruct (check_tliv_ie_buffer Debug _ _) as [ok|e'| |] eqn:C; cbn [bind] in H; try discriminate.
    + destruct ok; [|injection H as <-; reflexivity]. exfalso. unfold check_tliv_ie_buffer in C. destruct (be16 a b =? 0) eqn:Z; [discriminate|].
      apply N.eqb_neq in Z. unfold add16, ov in C. destruct (be16 a b + 4 <? 65536) eqn:L; cbn [bind] in C; [|discriminate]. apply Ok_inj in C.
      apply N.ltb_lt in L. apply Nat.leb_le in C. cbn [length] in C. unfold be16 in *. unfold fits in F. unfold nlen in F.
      apply andb_false_iff in F as [F|F]; [apply andb_false_iff in F as [F|F]|]; apply N.leb_gt in F; lia.
    + exfalso. unfold check_tliv_ie_buffer in C. destruct (_ =? 0); [discriminate|]. unfold add16, ov in C. destruct (_ <? _); cbn [bind] in C; discriminate.
Qed.
Lemma group_err {A} dec (k : Tliv (list ie) -> res A) (c : A -> ie) t q e : (forall g, errs [IEIncorrect t] (k g)) ->
  lift c (let? g := GroupedIe_unmarshal dec Debug (t :: q) in k g) = Err e -> names t e \/ member_error dec q e.
Proof.
  intros K H. unfold lift in H. destruct (GroupedIe_unmarshal dec Debug (t :: q)) as [g|e'| |] eqn:G; cbn [bind] in H; try discriminate.
  - destruct (k g) as [x|e'| |] eqn:E; cbn [bind] in H; try discriminate. injection H as <-. destruct (K g e' E) as [<-|[]]. left. right. reflexivity.
  - injection H as <-. apply grouped_err in G as [->|G]; [left; left; reflexivity|right; exact G].
Qed.

Lemma mm_err t q e : (103 <=? t) && (t <=? 108) = true -> lift IE_MmContext (MmContext_unmarshal Debug (t :: q)) = Err e -> reported t e.
Proof.
  intros E6. unfold MmContext_unmarshal. change (@at_ GTPV2Error (t :: q) 0) with (@Ok GTPV2Error _ t). cbn [bind]. unfold lift.
  assert (V : forall A (r : res A) (f : A -> MmContext), bind (bind r (fun i => Ok (f i))) (fun i => Ok (IE_MmContext i)) = Err e -> r = Err e).
  { intros A r f H. destruct r; cbn [bind] in H; try discriminate. injection H as <-. reflexivity. }
  destruct (N.eqb_spec t 107) as [E|E1]; [subst t; intros H; apply V in H; exact (two' _ _ _ (MmContextEpsSecurityContextQuadruplets_errs _ _) H)|].
  destruct (N.eqb_spec t 106) as [E|E2]; [subst t; intros H; apply V in H; exact (two' _ _ _ (MmContextUmtsKeyQuintuplets_errs _ _) H)|].
  destruct (N.eqb_spec t 108) as [E|E3]; [subst t; intros H; apply V in H; exact (two' _ _ _ (MmContextUmtsKeyQuadrupletsQuintuplets_errs _ _) H)|].
  destruct (N.eqb_spec t 104) as [E|E4]; [subst t; intros H; apply V in H; exact (two' _ _ _ (MmContextUmtsKeyCipherQuintuplets_errs _ _) H)|].
  destruct (N.eqb_spec t 103) as [E|E5]; [subst t; intros H; apply V in H; exact (two' _ _ _ (MmContextGsmKeyTriplets_errs _ _) H)|].
  destruct (N.eqb_spec t 105) as [E|E7]; [subst t; intros H; apply V in H; exact (two' _ _ _ (MmContextGsmKeyCipherQuintuplets_errs _ _) H)|].
  exfalso. apply andb_prop in E6 as [E6 E8]. apply N.leb_le in E6, E8. lia.
Qed.
(* one element of the sequence *)
Definition one_error (dec : list N -> res (list ie)) (t : N) (q : list N) (e : GTPV2Error) : Prop :=
  reported t e \/ (exists x f, kind_of_code t = (x, Group f)) /\ member_error dec q e.
Lemma one_err dec t q e : decode_one dec Debug (t :: q) = Err e -> one_error dec t q e.
Proof.
  unfold decode_one. change (@at_ GTPV2Error (t :: q) 0) with (@Ok GTPV2Error _ t). cbn [bind].
  destruct (N.eqb_spec t 1) as [E1|E1]; [subst t; intros H; left; exact (two' _ _ e (lift_errs _ _ _ (Imsi_errs _ _)) H)|].
  destruct (N.eqb_spec t 2) as [E2|E2]; [subst t; intros H; left; exact (two' _ _ e (lift_errs _ _ _ (Cause_errs _ _)) H)|].
  destruct (N.eqb_spec t 3) as [E3|E3]; [subst t; intros H; left; exact (two' _ _ e (lift_errs _ _ _ (Recovery_errs _ _)) H)|].
  destruct (N.eqb_spec t 51) as [E51|E51]; [subst t; intros H; left; exact (two' _ _ e (lift_errs _ _ _ (StnSr_errs _ _)) H)|].
  destruct (N.eqb_spec t 56) as [E56|E56]; [subst t; intros H; left; exact (two' _ _ e (lift_errs _ _ _ (SrvccCause_errs _ _)) H)|].
  destruct (N.eqb_spec t 71) as [E71|E71]; [subst t; intros H; left; exact (two' _ _ e (lift_errs _ _ _ (Apn_errs _ _)) H)|].
  destruct (N.eqb_spec t 72) as [E72|E72]; [subst t; intros H; left; exact (two' _ _ e (lift_errs _ _ _ (Ambr_errs _ _)) H)|].
  destruct (N.eqb_spec t 73) as [E73|E73]; [subst t; intros H; left; exact (two' _ _ e (lift_errs _ _ _ (Ebi_errs _ _)) H)|].
  destruct (N.eqb_spec t 74) as [E74|E74]; [subst t; intros H; left; exact (two' _ _ e (lift_errs _ _ _ (IpAddress_errs _ _)) H)|].
  destruct (N.eqb_spec t 75) as [E75|E75]; [subst t; intros H; left; exact (two' _ _ e (lift_errs _ _ _ (Mei_errs _ _)) H)|].
  destruct (N.eqb_spec t 76) as [E76|E76]; [subst t; intros H; left; exact (two' _ _ e (lift_errs _ _ _ (Msisdn_errs _ _)) H)|].
  destruct (N.eqb_spec t 77) as [E77|E77]; [subst t; intros H; left; exact (two' _ _ e (lift_errs _ _ _ (Indication_errs _ _)) H)|].
  destruct (N.eqb_spec t 78) as [E78|E78]; [subst t; intros H; left; exact (two' _ _ e (lift_errs _ _ _ (Pco_errs _ _)) H)|].
  destruct (N.eqb_spec t 79) as [E79|E79]; [subst t; intros H; left; exact (two' _ _ e (lift_errs _ _ _ (PdnAddressAllocation_errs _ _)) H)|].
  destruct (N.eqb_spec t 80) as [E80|E80]; [subst t; intros H; left; exact (two' _ _ e (lift_errs _ _ _ (BearerQos_errs _ _)) H)|].
  destruct (N.eqb_spec t 81) as [E81|E81]; [subst t; intros H; left; exact (two' _ _ e (lift_errs _ _ _ (FlowQos_errs _ _)) H)|].
  destruct (N.eqb_spec t 82) as [E82|E82]; [subst t; intros H; left; exact (two' _ _ e (lift_errs _ _ _ (RatType_errs _ _)) H)|].
  destruct (N.eqb_spec t 83) as [E83|E83]; [subst t; intros H; left; exact (two' _ _ e (lift_errs _ _ _ (ServingNetwork_errs _ _)) H)|].
  destruct (N.eqb_spec t 84) as [E84|E84]; [subst t; intros H; left; exact (two' _ _ e (lift_errs _ _ _ (BearerTft_errs _ _)) H)|].
  destruct (N.eqb_spec t 85) as [E85|E85]; [subst t; intros H; left; exact (two' _ _ e (lift_errs _ _ _ (TrafficAggregateDescription_errs _ _)) H)|].
  destruct (N.eqb_spec t 86) as [E86|E86]; [subst t; intros H; left; apply (lift_errs _ _ _ (Uli_errs _ _)) in H; destruct H as [<-|[<-|[<-|[]]]]; [left; left|left; right|right]; reflexivity|].
  destruct (N.eqb_spec t 87) as [E87|E87]; [subst t; intros H; left; exact (two' _ _ e (lift_errs _ _ _ (Fteid_errs _ _)) H)|].
  destruct (N.eqb_spec t 88) as [E88|E88]; [subst t; intros H; left; exact (two' _ _ e (lift_errs _ _ _ (Tmsi_errs _ _)) H)|].
  destruct (N.eqb_spec t 89) as [E89|E89]; [subst t; intros H; left; exact (two' _ _ e (lift_errs _ _ _ (GlobalCnId_errs _ _)) H)|].
  destruct (N.eqb_spec t 90) as [E90|E90]; [subst t; intros H; left; exact (two' _ _ e (lift_errs _ _ _ (S103pdf_errs _ _)) H)|].
  destruct (N.eqb_spec t 91) as [E91|E91]; [subst t; intros H; left; exact (two' _ _ e (lift_errs _ _ _ (S1udf_errs _ _)) H)|].
  destruct (N.eqb_spec t 92) as [E92|E92]; [subst t; intros H; left; exact (two' _ _ e (lift_errs _ _ _ (DelayValue_errs _ _)) H)|].
  destruct (N.eqb_spec t 93) as [E93|E93]; [subst t; intros H; unfold BearerContext_unmarshal in H; apply group_err in H; [destruct H as [H|H]; [left; left; exact H|right; split; [eexists; eexists; reflexivity|exact H]]|intros g; errs_]|].
  destruct (N.eqb_spec t 94) as [E94|E94]; [subst t; intros H; left; exact (two' _ _ e (lift_errs _ _ _ (ChargingId_errs _ _)) H)|].
  destruct (N.eqb_spec t 95) as [E95|E95]; [subst t; intros H; left; exact (two' _ _ e (lift_errs _ _ _ (ChargingCharacteristics_errs _ _)) H)|].
  destruct (N.eqb_spec t 96) as [E96|E96]; [subst t; intros H; left; exact (two' _ _ e (lift_errs _ _ _ (TraceInformation_errs _ _)) H)|].
  destruct (N.eqb_spec t 97) as [E97|E97]; [subst t; intros H; left; exact (two' _ _ e (lift_errs _ _ _ (BearerFlags_errs _ _)) H)|].
  destruct (N.eqb_spec t 99) as [E99|E99]; [subst t; intros H; left; exact (two' _ _ e (lift_errs _ _ _ (PdnType_errs _ _)) H)|].
  destruct (N.eqb_spec t 100) as [E100|E100]; [subst t; intros H; left; exact (two' _ _ e (lift_errs _ _ _ (Pti_errs _ _)) H)|].
  destruct ((103 <=? t) && (t <=? 108)) eqn:E6; [intros H; left; exact (mm_err t q e E6 H)|].
  destruct (N.eqb_spec t 109) as [E109|E109]; [subst t; intros H; unfold PdnConnections_unmarshal in H; apply group_err in H; [destruct H as [H|H]; [left; left; exact H|right; split; [eexists; eexists; reflexivity|exact H]]|intros g; errs_]|].
  destruct (N.eqb_spec t 110) as [E110|E110]; [subst t; intros H; left; exact (two' _ _ e (lift_errs _ _ _ (PduNumbers_errs _ _)) H)|].
  destruct (N.eqb_spec t 111) as [E111|E111]; [subst t; intros H; left; exact (two' _ _ e (lift_errs _ _ _ (Ptmsi_errs _ _)) H)|].
  destruct (N.eqb_spec t 112) as [E112|E112]; [subst t; intros H; left; exact (two' _ _ e (lift_errs _ _ _ (PtmsiSignature_errs _ _)) H)|].
  destruct (N.eqb_spec t 113) as [E113|E113]; [subst t; intros H; left; exact (two' _ _ e (lift_errs _ _ _ (HopCounter_errs _ _)) H)|].
  destruct (N.eqb_spec t 114) as [E114|E114]; [subst t; intros H; left; exact (two' _ _ e (lift_errs _ _ _ (UeTimeZone_errs _ _)) H)|].
  destruct (N.eqb_spec t 115) as [E115|E115]; [subst t; intros H; left; apply (lift_errs _ _ _ (TraceReference_errs _ _)) in H; destruct H as [<-|[]]; reflexivity|].
  destruct (N.eqb_spec t 116) as [E116|E116]; [subst t; intros H; left; exact (two' _ _ e (lift_errs _ _ _ (CompleteRequestMessage_errs _ _)) H)|].
  destruct (N.eqb_spec t 117) as [E117|E117]; [subst t; intros H; left; exact (two' _ _ e (lift_errs _ _ _ (Guti_errs _ _)) H)|].
  destruct (N.eqb_spec t 118) as [E118|E118]; [subst t; intros H; left; exact (two' _ _ e (lift_errs _ _ _ (Fcontainer_errs _ _)) H)|].
  destruct (N.eqb_spec t 119) as [E119|E119]; [subst t; intros H; left; exact (two' _ _ e (lift_errs _ _ _ (Fcause_errs _ _)) H)|].
  destruct (N.eqb_spec t 120) as [E120|E120]; [subst t; intros H; left; exact (two' _ _ e (lift_errs _ _ _ (PlmnId_errs _ _)) H)|].
  destruct (N.eqb_spec t 121) as [E121|E121]; [subst t; intros H; left; exact (two' _ _ e (lift_errs _ _ _ (TargetIdentification_errs _ _)) H)|].
  destruct (N.eqb_spec t 123) as [E123|E123]; [subst t; intros H; left; exact (two' _ _ e (lift_errs _ _ _ (PacketFlowId_errs _ _)) H)|].
  destruct (N.eqb_spec t 124) as [E124|E124]; [subst t; intros H; left; exact (two' _ _ e (lift_errs _ _ _ (RabContext_errs _ _)) H)|].
  destruct (N.eqb_spec t 125) as [E125|E125]; [subst t; intros H; left; exact (two' _ _ e (lift_errs _ _ _ (SourceRncPdcpContextInfo_errs _ _)) H)|].
  destruct (N.eqb_spec t 126) as [E126|E126]; [subst t; intros H; left; exact (two' _ _ e (lift_errs _ _ _ (PortNumber_errs _ _)) H)|].
  destruct (N.eqb_spec t 127) as [E127|E127]; [subst t; intros H; left; exact (two' _ _ e (lift_errs _ _ _ (ApnRestriction_errs _ _)) H)|].
  destruct (N.eqb_spec t 128) as [E128|E128]; [subst t; intros H; left; exact (two' _ _ e (lift_errs _ _ _ (SelectionMode_errs _ _)) H)|].
  destruct (N.eqb_spec t 129) as [E129|E129]; [subst t; intros H; left; exact (two' _ _ e (lift_errs _ _ _ (SourceIdentification_errs _ _)) H)|].
  destruct (N.eqb_spec t 131) as [E131|E131]; [subst t; intros H; left; exact (two' _ _ e (lift_errs _ _ _ (ChangeReportingAction_errs _ _)) H)|].
  destruct (N.eqb_spec t 132) as [E132|E132]; [subst t; intros H; left; exact (two' _ _ e (lift_errs _ _ _ (Fqcsid_errs _ _)) H)|].
  destruct (N.eqb_spec t 133) as [E133|E133]; [subst t; intros H; left; exact (two' _ _ e (lift_errs _ _ _ (ChannelNeeded_errs _ _)) H)|].
  destruct (N.eqb_spec t 134) as [E134|E134]; [subst t; intros H; left; exact (two' _ _ e (lift_errs _ _ _ (EmlppPriority_errs _ _)) H)|].
  destruct (N.eqb_spec t 135) as [E135|E135]; [subst t; intros H; left; exact (two' _ _ e (lift_errs _ _ _ (NodeType_errs _ _)) H)|].
  destruct (N.eqb_spec t 136) as [E136|E136]; [subst t; intros H; left; exact (two' _ _ e (lift_errs _ _ _ (Fqdn_errs _ _)) H)|].
  destruct (N.eqb_spec t 137) as [E137|E137]; [subst t; intros H; left; exact (two' _ _ e (lift_errs _ _ _ (TransactionIdentifier_errs _ _)) H)|].
  destruct (N.eqb_spec t 138) as [E138|E138]; [subst t; intros H; left; exact (two' _ _ e (lift_errs _ _ _ (MbmsSessionDuration_errs _ _)) H)|].
  destruct (N.eqb_spec t 139) as [E139|E139]; [subst t; intros H; left; exact (two' _ _ e (lift_errs _ _ _ (MbmsServiceArea_errs _ _)) H)|].
  destruct (N.eqb_spec t 140) as [E140|E140]; [subst t; intros H; left; exact (two' _ _ e (lift_errs _ _ _ (MbmsSessionId_errs _ _)) H)|].
  destruct (N.eqb_spec t 141) as [E141|E141]; [subst t; intros H; left; exact (two' _ _ e (lift_errs _ _ _ (MbmsFlowId_errs _ _)) H)|].
  destruct (N.eqb_spec t 142) as [E142|E142]; [subst t; intros H; left; exact (two' _ _ e (lift_errs _ _ _ (MbmsIpMulticastDistribution_errs _ _)) H)|].
  destruct (N.eqb_spec t 143) as [E143|E143]; [subst t; intros H; left; exact (two' _ _ e (lift_errs _ _ _ (MbmsDistributionAck_errs _ _)) H)|].
  destruct (N.eqb_spec t 144) as [E144|E144]; [subst t; intros H; left; exact (two' _ _ e (lift_errs _ _ _ (RfspIndex_errs _ _)) H)|].
  destruct (N.eqb_spec t 145) as [E145|E145]; [subst t; intros H; left; exact (two' _ _ e (lift_errs _ _ _ (Uci_errs _ _)) H)|].
  destruct (N.eqb_spec t 146) as [E146|E146]; [subst t; intros H; left; exact (two' _ _ e (lift_errs _ _ _ (CSGInformationReportingAction_errs _ _)) H)|].
  destruct (N.eqb_spec t 147) as [E147|E147]; [subst t; intros H; left; exact (two' _ _ e (lift_errs _ _ _ (CsgId_errs _ _)) H)|].
  destruct (N.eqb_spec t 148) as [E148|E148]; [subst t; intros H; left; exact (two' _ _ e (lift_errs _ _ _ (CsgMembershipIndication_errs _ _)) H)|].
  destruct (N.eqb_spec t 149) as [E149|E149]; [subst t; intros H; left; exact (two' _ _ e (lift_errs _ _ _ (ServiceIndicator_errs _ _)) H)|].
  destruct (N.eqb_spec t 150) as [E150|E150]; [subst t; intros H; left; exact (two' _ _ e (lift_errs _ _ _ (DetachType_errs _ _)) H)|].
  destruct (N.eqb_spec t 151) as [E151|E151]; [subst t; intros H; left; exact (two' _ _ e (lift_errs _ _ _ (Ldn_errs _ _)) H)|].
  destruct (N.eqb_spec t 152) as [E152|E152]; [subst t; intros H; left; exact (two' _ _ e (lift_errs _ _ _ (NodeFeatures_errs _ _)) H)|].
  destruct (N.eqb_spec t 153) as [E153|E153]; [subst t; intros H; left; exact (two' _ _ e (lift_errs _ _ _ (MbmsTimeToDataTransfer_errs _ _)) H)|].
  destruct (N.eqb_spec t 154) as [E154|E154]; [subst t; intros H; left; exact (two' _ _ e (lift_errs _ _ _ (Throttling_errs _ _)) H)|].
  destruct (N.eqb_spec t 155) as [E155|E155]; [subst t; intros H; left; exact (two' _ _ e (lift_errs _ _ _ (Arp_errs _ _)) H)|].
  destruct (N.eqb_spec t 156) as [E156|E156]; [subst t; intros H; left; exact (two' _ _ e (lift_errs _ _ _ (EpcTimer_errs _ _)) H)|].
  destruct (N.eqb_spec t 157) as [E157|E157]; [subst t; intros H; left; exact (two' _ _ e (lift_errs _ _ _ (Spi_errs _ _)) H)|].
  destruct (N.eqb_spec t 158) as [E158|E158]; [subst t; intros H; left; exact (two' _ _ e (lift_errs _ _ _ (Tmgi_errs _ _)) H)|].
  destruct (N.eqb_spec t 159) as [E159|E159]; [subst t; intros H; left; exact (two' _ _ e (lift_errs _ _ _ (AdditionalMmContextForSrvcc_errs _ _)) H)|].
  destruct (N.eqb_spec t 160) as [E160|E160]; [subst t; intros H; left; exact (two' _ _ e (lift_errs _ _ _ (AdditionalFlagsSrvcc_errs _ _)) H)|].
  destruct (N.eqb_spec t 162) as [E162|E162]; [subst t; intros H; left; exact (two' _ _ e (lift_errs _ _ _ (MdtConfiguration_errs _ _)) H)|].
  destruct (N.eqb_spec t 163) as [E163|E163]; [subst t; intros H; left; exact (two' _ _ e (lift_errs _ _ _ (Apco_errs _ _)) H)|].
  destruct (N.eqb_spec t 164) as [E164|E164]; [subst t; intros H; left; exact (two' _ _ e (lift_errs _ _ _ (AbsoluteTimeMbmsDataTransfer_errs _ _)) H)|].
  destruct (N.eqb_spec t 165) as [E165|E165]; [subst t; intros H; left; exact (two' _ _ e (lift_errs _ _ _ (HenbInfoReporting_errs _ _)) H)|].
  destruct (N.eqb_spec t 166) as [E166|E166]; [subst t; intros H; left; exact (two' _ _ e (lift_errs _ _ _ (Ip4Cp_errs _ _)) H)|].
  destruct (N.eqb_spec t 167) as [E167|E167]; [subst t; intros H; left; exact (two' _ _ e (lift_errs _ _ _ (ChangeToReportFlags_errs _ _)) H)|].
  destruct (N.eqb_spec t 168) as [E168|E168]; [subst t; intros H; left; exact (two' _ _ e (lift_errs _ _ _ (ActionIndication_errs _ _)) H)|].
  destruct (N.eqb_spec t 169) as [E169|E169]; [subst t; intros H; left; exact (two _ _ e (lift_errs _ _ _ (ActionIndication_errs _ _)) H)|].
  destruct (N.eqb_spec t 170) as [E170|E170]; [subst t; intros H; left; exact (two' _ _ e (lift_errs _ _ _ (UliTimestamp_errs _ _)) H)|].
  destruct (N.eqb_spec t 171) as [E171|E171]; [subst t; intros H; left; exact (two' _ _ e (lift_errs _ _ _ (MbmsFlags_errs _ _)) H)|].
  destruct (N.eqb_spec t 172) as [E172|E172]; [subst t; intros H; left; exact (two' _ _ e (lift_errs _ _ _ (RanNasCause_errs _ _)) H)|].
  destruct (N.eqb_spec t 173) as [E173|E173]; [subst t; intros H; left; exact (two' _ _ e (lift_errs _ _ _ (CnOperatorSelectionEntity_errs _ _)) H)|].
  destruct (N.eqb_spec t 174) as [E174|E174]; [subst t; intros H; left; exact (two' _ _ e (lift_errs _ _ _ (Twmi_errs _ _)) H)|].
  destruct (N.eqb_spec t 175) as [E175|E175]; [subst t; intros H; left; exact (two' _ _ e (lift_errs _ _ _ (NodeNumber_errs _ _)) H)|].
  destruct (N.eqb_spec t 176) as [E176|E176]; [subst t; intros H; left; exact (two' _ _ e (lift_errs _ _ _ (NodeIdentifier_errs _ _)) H)|].
  destruct (N.eqb_spec t 177) as [E177|E177]; [subst t; intros H; left; exact (two' _ _ e (lift_errs _ _ _ (PresenceReportingAreaAction_errs _ _)) H)|].
  destruct (N.eqb_spec t 178) as [E178|E178]; [subst t; intros H; left; exact (two' _ _ e (lift_errs _ _ _ (PresenceReportingAreaInformation_errs _ _)) H)|].
  destruct (N.eqb_spec t 179) as [E179|E179]; [subst t; intros H; left; exact (two' _ _ e (lift_errs _ _ _ (TwanIdTimeStamp_errs _ _)) H)|].
  destruct (N.eqb_spec t 180) as [E180|E180]; [subst t; intros H; unfold OverloadControlInfo_unmarshal in H; apply group_err in H; [destruct H as [H|H]; [left; left; exact H|right; split; [eexists; eexists; reflexivity|exact H]]|intros g; errs_]|].
  destruct (N.eqb_spec t 181) as [E181|E181]; [subst t; intros H; unfold LoadControl_unmarshal in H; apply group_err in H; [destruct H as [H|H]; [left; left; exact H|right; split; [eexists; eexists; reflexivity|exact H]]|intros g; errs_]|].
  destruct (N.eqb_spec t 182) as [E182|E182]; [subst t; intros H; left; exact (two' _ _ e (lift_errs _ _ _ (Metric_errs _ _)) H)|].
  destruct (N.eqb_spec t 183) as [E183|E183]; [subst t; intros H; left; exact (two' _ _ e (lift_errs _ _ _ (Sqn_errs _ _)) H)|].
  destruct (N.eqb_spec t 184) as [E184|E184]; [subst t; intros H; left; exact (two' _ _ e (lift_errs _ _ _ (ApnRelativeCapacity_errs _ _)) H)|].
  destruct (N.eqb_spec t 185) as [E185|E185]; [subst t; intros H; left; exact (two' _ _ e (lift_errs _ _ _ (WlanOffloadIndication_errs _ _)) H)|].
  destruct (N.eqb_spec t 186) as [E186|E186]; [subst t; intros H; left; exact (two' _ _ e (lift_errs _ _ _ (PagingServiceInfo_errs _ _)) H)|].
  destruct (N.eqb_spec t 187) as [E187|E187]; [subst t; intros H; left; exact (two' _ _ e (lift_errs _ _ _ (IntegerNumber_errs _ _)) H)|].
  destruct (N.eqb_spec t 188) as [E188|E188]; [subst t; intros H; left; exact (two' _ _ e (lift_errs _ _ _ (MilliSecondTimeStamp_errs _ _)) H)|].
  destruct (N.eqb_spec t 189) as [E189|E189]; [subst t; intros H; left; exact (two' _ _ e (lift_errs _ _ _ (MonitoringEventInformation_errs _ _)) H)|].
  destruct (N.eqb_spec t 190) as [E190|E190]; [subst t; intros H; left; exact (two' _ _ e (lift_errs _ _ _ (EcgiList_errs _ _)) H)|].
  destruct (N.eqb_spec t 191) as [E191|E191]; [subst t; intros H; unfold RemoteUeContext_unmarshal in H; apply group_err in H; [destruct H as [H|H]; [left; left; exact H|right; split; [eexists; eexists; reflexivity|exact H]]|intros g; errs_]|].
  destruct (N.eqb_spec t 192) as [E192|E192]; [subst t; intros H; left; exact (two' _ _ e (lift_errs _ _ _ (RemoteUserId_errs _ _)) H)|].
  destruct (N.eqb_spec t 193) as [E193|E193]; [subst t; intros H; left; exact (two' _ _ e (lift_errs _ _ _ (RemoteUeIpInformation_errs _ _)) H)|].
  destruct (N.eqb_spec t 194) as [E194|E194]; [subst t; intros H; left; exact (two' _ _ e (lift_errs _ _ _ (CIoTOptimizationSupportIndication_errs _ _)) H)|].
  destruct (N.eqb_spec t 195) as [E195|E195]; [subst t; intros H; unfold ScefPdnConnections_unmarshal in H; apply group_err in H; [destruct H as [H|H]; [left; left; exact H|right; split; [eexists; eexists; reflexivity|exact H]]|intros g; errs_]|].
  destruct (N.eqb_spec t 196) as [E196|E196]; [subst t; intros H; left; exact (two' _ _ e (lift_errs _ _ _ (HeaderCompressionConfiguration_errs _ _)) H)|].
  destruct (N.eqb_spec t 197) as [E197|E197]; [subst t; intros H; left; exact (two' _ _ e (lift_errs _ _ _ (Epco_errs _ _)) H)|].
  destruct (N.eqb_spec t 198) as [E198|E198]; [subst t; intros H; left; exact (two' _ _ e (lift_errs _ _ _ (ServingPlmnRateControl_errs _ _)) H)|].
  destruct (N.eqb_spec t 199) as [E199|E199]; [subst t; intros H; left; exact (two' _ _ e (lift_errs _ _ _ (Counter_errs _ _)) H)|].
  destruct (N.eqb_spec t 200) as [E200|E200]; [subst t; intros H; left; exact (two' _ _ e (lift_errs _ _ _ (MappedUeUsageType_errs _ _)) H)|].
  destruct (N.eqb_spec t 201) as [E201|E201]; [subst t; intros H; left; exact (two' _ _ e (lift_errs _ _ _ (SecondaryRatUsageDataReport_errs _ _)) H)|].
  destruct (N.eqb_spec t 202) as [E202|E202]; [subst t; intros H; left; exact (two' _ _ e (lift_errs _ _ _ (UpFunctionSelectionIndicationFlags_errs _ _)) H)|].
  destruct (N.eqb_spec t 203) as [E203|E203]; [subst t; intros H; left; exact (two' _ _ e (lift_errs _ _ _ (MaxPacketLossRate_errs _ _)) H)|].
  destruct (N.eqb_spec t 204) as [E204|E204]; [subst t; intros H; left; exact (two' _ _ e (lift_errs _ _ _ (ApnRateControlStatus_errs _ _)) H)|].
  destruct (N.eqb_spec t 205) as [E205|E205]; [subst t; intros H; left; exact (two' _ _ e (lift_errs _ _ _ (ExtendedTraceInformation_errs _ _)) H)|].
  destruct (N.eqb_spec t 206) as [E206|E206]; [subst t; intros H; left; exact (two' _ _ e (lift_errs _ _ _ (MonitoringEventExtensionInfo_errs _ _)) H)|].
  destruct (N.eqb_spec t 207) as [E207|E207]; [subst t; intros H; left; exact (two' _ _ e (lift_errs _ _ _ (AdditionalRrmPolicyIndex_errs _ _)) H)|].
  destruct (N.eqb_spec t 208) as [E208|E208]; [subst t; intros H; unfold V2xInformation_unmarshal in H; apply group_err in H; [destruct H as [H|H]; [left; left; exact H|right; split; [eexists; eexists; reflexivity|exact H]]|intros g; errs_]|].
  destruct (N.eqb_spec t 209) as [E209|E209]; [subst t; intros H; unfold PC5QosParameters_unmarshal in H; apply group_err in H; [destruct H as [H|H]; [left; left; exact H|right; split; [eexists; eexists; reflexivity|exact H]]|intros g; errs_]|].
  destruct (N.eqb_spec t 210) as [E210|E210]; [subst t; intros H; left; exact (two' _ _ e (lift_errs _ _ _ (ServicesAuthorized_errs _ _)) H)|].
  destruct (N.eqb_spec t 211) as [E211|E211]; [subst t; intros H; left; exact (two' _ _ e (lift_errs _ _ _ (BitRate_errs _ _)) H)|].
  destruct (N.eqb_spec t 212) as [E212|E212]; [subst t; intros H; left; exact (two' _ _ e (lift_errs _ _ _ (PC5QosFlow_errs _ _)) H)|].
  destruct (N.eqb_spec t 213) as [E213|E213]; [subst t; intros H; left; exact (two' _ _ e (lift_errs _ _ _ (SgiPtpTunnelAddress_errs _ _)) H)|].
  destruct (N.eqb_spec t 214) as [E214|E214]; [subst t; intros H; unfold PgwChangeInfo_unmarshal in H; apply group_err in H; [destruct H as [H|H]; [left; left; exact H|right; split; [eexists; eexists; reflexivity|exact H]]|intros g; errs_]|].
  destruct (N.eqb_spec t 215) as [E215|E215]; [subst t; intros H; left; exact (two' _ _ e (lift_errs _ _ _ (PgwFqdn_errs _ _)) H)|].
  destruct (N.eqb_spec t 216) as [E216|E216]; [subst t; intros H; left; exact (two' _ _ e (lift_errs _ _ _ (GroupId_errs _ _)) H)|].
  destruct (N.eqb_spec t 217) as [E217|E217]; [subst t; intros H; left; exact (two' _ _ e (lift_errs _ _ _ (PSCellId_errs _ _)) H)|].
  destruct (N.eqb_spec t 218) as [E218|E218]; [subst t; intros H; left; exact (two' _ _ e (lift_errs _ _ _ (UpSecurityPolicy_errs _ _)) H)|].
  destruct (N.eqb_spec t 219) as [E219|E219]; [subst t; intros H; left; exact (two' _ _ e (lift_errs _ _ _ (AlternativeImsi_errs _ _)) H)|].
  destruct (N.eqb_spec t 254) as [E254|E254]; [subst t; intros H; left; exact (two' _ _ e (lift_errs _ _ _ (SpecialIEWithTypeExt_errs _ _)) H)|].
  destruct (N.eqb_spec t 255) as [E255|E255]; [subst t; intros H; left; exact (two' _ _ e (lift_errs _ _ _ (PrivateExtension_errs _ _)) H)|].
  intros H. left. unfold lift in H. destruct (Unknown_unmarshal Debug (t :: q)) as [x|e'| |] eqn:E; cbn [bind] in H; try discriminate. injection H as <-.
  unfold reported. rewrite !(proj2 (N.eqb_neq t _)) by assumption. apply Unknown_errs in E as [->| ->]; [left; left; reflexivity|]. right. split; [|reflexivity].
  unfold unknown_type, catalogue. cbn [map fst In]. intros I. apply andb_false_iff in E6. rewrite !N.leb_gt in E6.
  repeat (destruct I as [I|I]; [first [symmetry in I; contradiction | lia]|]). exact I.
Qed.
