(* V2Report.v - what an element tells about itself: get_type, get_ins, is_empty and len of the trait IEs
   (src/gtpv2/messages/ies/commons.rs), and the facts about them for decoded elements. *)
From Verif Require Import Base BaseFacts V2DeclFacts V2DecMore V2Defaults.
Local Open Scope N_scope.

(* get_type of all element files of ies/*.rs: [self.t]; for MmContext that of the variant. *)
Definition get_type (e : ie) : N := type_field e.
(* get_ins of all element files: [self.ins]; for MmContext that of the variant. *)
Definition get_ins (e : ie) : N := ie_instance e.
(* is_empty of all element files: [self.length == 0], for MmContext that of the variant (mm_context.rs); only
   specialiewithtypeext.rs 78-80 is different: [(self.ie_type_ext == 0) || (self.length == 0)]. The contents are not
   looked at. *)
Definition is_empty (e : ie) : bool :=
  match e with
  | IE_SpecialIEWithTypeExt i => (sp_ext (ie_v i) =? 0) || (ie_length i =? 0)
  | _ => ie_lenfield e =? 0
  end.

(* --- facts ----------------------------------------------------------------------------------------------------------- *)
(* The codes decoded by decoders that keep the whole instance octet. *)
Definition keeps_spare (t : N) : bool := existsb (N.eqb t) [93; 109; 111; 121; 129; 135; 142; 148; 153; 158; 180; 181; 191; 195; 205; 208; 209; 214].
Definition assigned_code (t : N) : bool := existsb (N.eqb t)
  [1; 2; 3; 51; 56; 71; 72; 73; 74; 75; 76; 77; 78; 79; 80; 81; 82; 83; 84; 85; 86; 87; 88; 89; 90; 91; 92; 93; 94; 95; 96; 97; 99; 100; 103; 104; 105; 106; 107; 108; 109; 110; 111; 112; 113; 114; 115; 116; 117; 118; 119; 120; 121; 123; 124; 125; 126; 127; 128; 129; 131; 132; 133; 134; 135; 136; 137; 138; 139; 140; 141; 142; 143; 144; 145; 146; 147; 148; 149; 150; 151; 152; 153; 154; 155; 156; 157; 158; 159; 160; 162; 163; 164; 165; 166; 167; 168; 169; 170; 171; 172; 173; 174; 175; 176; 177; 178; 179; 180; 181; 182; 183; 184; 185; 186; 187; 188; 189; 190; 191; 192; 193; 194; 195; 196; 197; 198; 199; 200; 201; 202; 203; 204; 205; 206; 207; 208; 209; 210; 211; 212; 213; 214; 215; 216; 217; 218; 219; 254; 255].
Definition told_type (t : N) : N := if t =? 115 then 83 else if t =? 169 then 168 else if assigned_code t then t else 0.
Definition told_ins (t o : N) : N := if assigned_code t && negb (keeps_spare t) then N.land o 15 else o.
Definition reports (b : list N) (e : ie) : Prop :=
  type_field e = told_type (nth 0 b 0) /\ ie_instance e = told_ins (nth 0 b 0) (nth 3 b 0).

Lemma post_hdr4i {A} (P : A -> Prop) b k : post P (k (declared b) (nth 3 b 0)) -> post P (hdr4 b k).
Proof.
  intros H y E. unfold hdr4 in E. unfold at_ in E.
  destruct (nth_error b 1) as [x1|] eqn:E1; [|discriminate E]. destruct (nth_error b 2) as [x2|] eqn:E2; [|discriminate E].
  destruct (nth_error b 3) as [x3|] eqn:E3; [|discriminate E]. cbn in E.
  apply H. unfold declared. rewrite (nth_error_nth _ _ 0 E1), (nth_error_nth _ _ 0 E2), (nth_error_nth _ _ 0 E3). exact E.
Qed.
Ltac pr := lazymatch goal with
  | |- post _ (Ok _) => apply post_ok; split; reflexivity
  | |- post _ (Err _) => apply post_err
  | |- post _ Panic => apply post_panic
  | |- post _ Diverge => apply post_diverge
  | |- post _ (bind _ _) => apply post_bind; intros; cbv beta
  | |- post _ (need _ _ _ _) => apply post_need
  | |- post _ (hdr4 _ _) => apply post_hdr4i; cbv beta
  | |- post _ (checked _ _ _ _ _) => apply post_checked
  | |- post _ (match ?x with _ => _ end) => destruct x
  | |- post _ (let x := _ in _) => cbv zeta
  end.
Lemma GroupedIe_says dec m b g : GroupedIe_unmarshal dec m b = Ok g -> ie_t g = nth 0 b 0 /\ ie_ins g = nth 3 b 0.
Proof.
  intros E. unfold GroupedIe_unmarshal in E. destruct (MIN_IE_SIZE <=? length b)%nat; [|destruct (at_ b 0); discriminate E].
  destruct b as [|t b]; [discriminate E|]. rewrite at_0 in E. cbn [bind] in E. revert g E.
  match goal with |- forall x, ?r = Ok x -> @?P x => change (post P r) end. repeat pr.
Qed.
Lemma post_GroupedIei {A} (P : Tliv A -> Prop) dec m b k :
  (forall g, ie_t g = nth 0 b 0 /\ ie_ins g = nth 3 b 0 -> post P (k g)) -> post P (bind (GroupedIe_unmarshal dec m b) k).
Proof. intros H. eapply post_bind_with; [|exact H]. intros g. apply GroupedIe_says. Qed.
Ltac prg := lazymatch goal with
  | |- post _ (bind (GroupedIe_unmarshal _ _ _) _) => apply post_GroupedIei; intros; cbv zeta
  | |- post _ (Ok _) => apply post_ok; cbn [ie_t ie_ins regroup]; assumption
  | _ => pr end.
Ltac says := intros m b;
  match goal with |- forall x, ?r = Ok x -> @?P x => change (post P r) end;
  match goal with |- post _ (?f _ _) => unfold f end; repeat pr.
Ltac saysg := intros dec m b;
  match goal with |- forall x, ?r = Ok x -> @?P x => change (post P r) end;
  match goal with |- post _ (?f _ _ _) => unfold f end; repeat prg.
Lemma Imsi_says : forall m b x, Imsi_unmarshal m b = Ok x -> ie_t x = 1 /\ ie_ins x = N.land (nth 3 b 0) 15.
Proof. says. Qed.
Lemma Cause_says : forall m b x, Cause_unmarshal m b = Ok x -> ie_t x = 2 /\ ie_ins x = N.land (nth 3 b 0) 15.
Proof. says. Qed.
Lemma Recovery_says : forall m b x, Recovery_unmarshal m b = Ok x -> ie_t x = 3 /\ ie_ins x = N.land (nth 3 b 0) 15.
Proof. says. Qed.
Lemma StnSr_says : forall m b x, StnSr_unmarshal m b = Ok x -> ie_t x = 51 /\ ie_ins x = N.land (nth 3 b 0) 15.
Proof. says. Qed.
Lemma SrvccCause_says : forall m b x, SrvccCause_unmarshal m b = Ok x -> ie_t x = 56 /\ ie_ins x = N.land (nth 3 b 0) 15.
Proof. says. Qed.
Lemma Apn_says : forall m b x, Apn_unmarshal m b = Ok x -> ie_t x = 71 /\ ie_ins x = N.land (nth 3 b 0) 15.
Proof. says. Qed.
Lemma Ambr_says : forall m b x, Ambr_unmarshal m b = Ok x -> ie_t x = 72 /\ ie_ins x = N.land (nth 3 b 0) 15.
Proof. says. Qed.
Lemma Ebi_says : forall m b x, Ebi_unmarshal m b = Ok x -> ie_t x = 73 /\ ie_ins x = N.land (nth 3 b 0) 15.
Proof. says. Qed.
Lemma IpAddress_says : forall m b x, IpAddress_unmarshal m b = Ok x -> ie_t x = 74 /\ ie_ins x = N.land (nth 3 b 0) 15.
Proof. says. Qed.
Lemma Mei_says : forall m b x, Mei_unmarshal m b = Ok x -> ie_t x = 75 /\ ie_ins x = N.land (nth 3 b 0) 15.
Proof. says. Qed.
Lemma Msisdn_says : forall m b x, Msisdn_unmarshal m b = Ok x -> ie_t x = 76 /\ ie_ins x = N.land (nth 3 b 0) 15.
Proof. says. Qed.
Lemma Indication_says : forall m b x, Indication_unmarshal m b = Ok x -> ie_t x = 77 /\ ie_ins x = N.land (nth 3 b 0) 15.
Proof. says. Qed.
Lemma Pco_says : forall m b x, Pco_unmarshal m b = Ok x -> ie_t x = 78 /\ ie_ins x = N.land (nth 3 b 0) 15.
Proof. says. Qed.
Lemma PdnAddressAllocation_says : forall m b x, PdnAddressAllocation_unmarshal m b = Ok x -> ie_t x = 79 /\ ie_ins x = N.land (nth 3 b 0) 15.
Proof. says. Qed.
Lemma BearerQos_says : forall m b x, BearerQos_unmarshal m b = Ok x -> ie_t x = 80 /\ ie_ins x = N.land (nth 3 b 0) 15.
Proof. says. Qed.
Lemma FlowQos_says : forall m b x, FlowQos_unmarshal m b = Ok x -> ie_t x = 81 /\ ie_ins x = N.land (nth 3 b 0) 15.
Proof. says. Qed.
Lemma RatType_says : forall m b x, RatType_unmarshal m b = Ok x -> ie_t x = 82 /\ ie_ins x = N.land (nth 3 b 0) 15.
Proof. says. Qed.
Lemma ServingNetwork_says : forall m b x, ServingNetwork_unmarshal m b = Ok x -> ie_t x = 83 /\ ie_ins x = N.land (nth 3 b 0) 15.
Proof. says. Qed.
Lemma BearerTft_says : forall m b x, BearerTft_unmarshal m b = Ok x -> ie_t x = 84 /\ ie_ins x = N.land (nth 3 b 0) 15.
Proof. says. Qed.
Lemma TrafficAggregateDescription_says : forall m b x, TrafficAggregateDescription_unmarshal m b = Ok x -> ie_t x = 85 /\ ie_ins x = N.land (nth 3 b 0) 15.
Proof. says. Qed.
Lemma Uli_says : forall m b x, Uli_unmarshal m b = Ok x -> ie_t x = 86 /\ ie_ins x = N.land (nth 3 b 0) 15.
Proof. says. Qed.
Lemma Fteid_says : forall m b x, Fteid_unmarshal m b = Ok x -> ie_t x = 87 /\ ie_ins x = N.land (nth 3 b 0) 15.
Proof. says. Qed.
Lemma Tmsi_says : forall m b x, Tmsi_unmarshal m b = Ok x -> ie_t x = 88 /\ ie_ins x = N.land (nth 3 b 0) 15.
Proof. says. Qed.
Lemma GlobalCnId_says : forall m b x, GlobalCnId_unmarshal m b = Ok x -> ie_t x = 89 /\ ie_ins x = N.land (nth 3 b 0) 15.
Proof. says. Qed.
Lemma S103pdf_says : forall m b x, S103pdf_unmarshal m b = Ok x -> ie_t x = 90 /\ ie_ins x = N.land (nth 3 b 0) 15.
Proof. says. Qed.
Lemma S1udf_says : forall m b x, S1udf_unmarshal m b = Ok x -> ie_t x = 91 /\ ie_ins x = N.land (nth 3 b 0) 15.
Proof. says. Qed.
Lemma DelayValue_says : forall m b x, DelayValue_unmarshal m b = Ok x -> ie_t x = 92 /\ ie_ins x = N.land (nth 3 b 0) 15.
Proof. says. Qed.
Lemma BearerContext_says : forall dec m b x, BearerContext_unmarshal dec m b = Ok x -> ie_t x = nth 0 b 0 /\ ie_ins x = nth 3 b 0.
Proof. saysg. Qed.
Lemma ChargingId_says : forall m b x, ChargingId_unmarshal m b = Ok x -> ie_t x = 94 /\ ie_ins x = N.land (nth 3 b 0) 15.
Proof. says. Qed.
Lemma ChargingCharacteristics_says : forall m b x, ChargingCharacteristics_unmarshal m b = Ok x -> ie_t x = 95 /\ ie_ins x = N.land (nth 3 b 0) 15.
Proof. says. Qed.
Lemma TraceInformation_says : forall m b x, TraceInformation_unmarshal m b = Ok x -> ie_t x = 96 /\ ie_ins x = N.land (nth 3 b 0) 15.
Proof. says. Qed.
Lemma BearerFlags_says : forall m b x, BearerFlags_unmarshal m b = Ok x -> ie_t x = 97 /\ ie_ins x = N.land (nth 3 b 0) 15.
Proof. says. Qed.
Lemma PdnType_says : forall m b x, PdnType_unmarshal m b = Ok x -> ie_t x = 99 /\ ie_ins x = N.land (nth 3 b 0) 15.
Proof. says. Qed.
Lemma Pti_says : forall m b x, Pti_unmarshal m b = Ok x -> ie_t x = 100 /\ ie_ins x = N.land (nth 3 b 0) 15.
Proof. says. Qed.
Lemma PdnConnections_says : forall dec m b x, PdnConnections_unmarshal dec m b = Ok x -> ie_t x = nth 0 b 0 /\ ie_ins x = nth 3 b 0.
Proof. saysg. Qed.
Lemma PduNumbers_says : forall m b x, PduNumbers_unmarshal m b = Ok x -> ie_t x = 110 /\ ie_ins x = N.land (nth 3 b 0) 15.
Proof. says. Qed.
Lemma Ptmsi_says : forall m b x, Ptmsi_unmarshal m b = Ok x -> ie_t x = 111 /\ ie_ins x = nth 3 b 0.
Proof. says. Qed.
Lemma PtmsiSignature_says : forall m b x, PtmsiSignature_unmarshal m b = Ok x -> ie_t x = 112 /\ ie_ins x = N.land (nth 3 b 0) 15.
Proof. says. Qed.
Lemma HopCounter_says : forall m b x, HopCounter_unmarshal m b = Ok x -> ie_t x = 113 /\ ie_ins x = N.land (nth 3 b 0) 15.
Proof. says. Qed.
Lemma UeTimeZone_says : forall m b x, UeTimeZone_unmarshal m b = Ok x -> ie_t x = 114 /\ ie_ins x = N.land (nth 3 b 0) 15.
Proof. says. Qed.
Lemma TraceReference_says : forall m b x, TraceReference_unmarshal m b = Ok x -> ie_t x = 83 /\ ie_ins x = N.land (nth 3 b 0) 15.
Proof. says. Qed.
Lemma CompleteRequestMessage_says : forall m b x, CompleteRequestMessage_unmarshal m b = Ok x -> ie_t x = 116 /\ ie_ins x = N.land (nth 3 b 0) 15.
Proof. says. Qed.
Lemma Guti_says : forall m b x, Guti_unmarshal m b = Ok x -> ie_t x = 117 /\ ie_ins x = N.land (nth 3 b 0) 15.
Proof. says. Qed.
Lemma Fcontainer_says : forall m b x, Fcontainer_unmarshal m b = Ok x -> ie_t x = 118 /\ ie_ins x = N.land (nth 3 b 0) 15.
Proof. says. Qed.
Lemma Fcause_says : forall m b x, Fcause_unmarshal m b = Ok x -> ie_t x = 119 /\ ie_ins x = N.land (nth 3 b 0) 15.
Proof. says. Qed.
Lemma PlmnId_says : forall m b x, PlmnId_unmarshal m b = Ok x -> ie_t x = 120 /\ ie_ins x = N.land (nth 3 b 0) 15.
Proof. says. Qed.
Lemma TargetIdentification_says : forall m b x, TargetIdentification_unmarshal m b = Ok x -> ie_t x = 121 /\ ie_ins x = nth 3 b 0.
Proof. says. Qed.
Lemma PacketFlowId_says : forall m b x, PacketFlowId_unmarshal m b = Ok x -> ie_t x = 123 /\ ie_ins x = N.land (nth 3 b 0) 15.
Proof. says. Qed.
Lemma RabContext_says : forall m b x, RabContext_unmarshal m b = Ok x -> ie_t x = 124 /\ ie_ins x = N.land (nth 3 b 0) 15.
Proof. says. Qed.
Lemma SourceRncPdcpContextInfo_says : forall m b x, SourceRncPdcpContextInfo_unmarshal m b = Ok x -> ie_t x = 125 /\ ie_ins x = N.land (nth 3 b 0) 15.
Proof. says. Qed.
Lemma PortNumber_says : forall m b x, PortNumber_unmarshal m b = Ok x -> ie_t x = 126 /\ ie_ins x = N.land (nth 3 b 0) 15.
Proof. says. Qed.
Lemma ApnRestriction_says : forall m b x, ApnRestriction_unmarshal m b = Ok x -> ie_t x = 127 /\ ie_ins x = N.land (nth 3 b 0) 15.
Proof. says. Qed.
Lemma SelectionMode_says : forall m b x, SelectionMode_unmarshal m b = Ok x -> ie_t x = 128 /\ ie_ins x = N.land (nth 3 b 0) 15.
Proof. says. Qed.
Lemma SourceIdentification_says : forall m b x, SourceIdentification_unmarshal m b = Ok x -> ie_t x = 129 /\ ie_ins x = nth 3 b 0.
Proof. says. Qed.
Lemma ChangeReportingAction_says : forall m b x, ChangeReportingAction_unmarshal m b = Ok x -> ie_t x = 131 /\ ie_ins x = N.land (nth 3 b 0) 15.
Proof. says. Qed.
Lemma Fqcsid_says : forall m b x, Fqcsid_unmarshal m b = Ok x -> ie_t x = 132 /\ ie_ins x = N.land (nth 3 b 0) 15.
Proof. says. Qed.
Lemma ChannelNeeded_says : forall m b x, ChannelNeeded_unmarshal m b = Ok x -> ie_t x = 133 /\ ie_ins x = N.land (nth 3 b 0) 15.
Proof. says. Qed.
Lemma EmlppPriority_says : forall m b x, EmlppPriority_unmarshal m b = Ok x -> ie_t x = 134 /\ ie_ins x = N.land (nth 3 b 0) 15.
Proof. says. Qed.
Lemma NodeType_says : forall m b x, NodeType_unmarshal m b = Ok x -> ie_t x = 135 /\ ie_ins x = nth 3 b 0.
Proof. says. Qed.
Lemma Fqdn_says : forall m b x, Fqdn_unmarshal m b = Ok x -> ie_t x = 136 /\ ie_ins x = N.land (nth 3 b 0) 15.
Proof. says. Qed.
Lemma TransactionIdentifier_says : forall m b x, TransactionIdentifier_unmarshal m b = Ok x -> ie_t x = 137 /\ ie_ins x = N.land (nth 3 b 0) 15.
Proof. says. Qed.
Lemma MbmsSessionDuration_says : forall m b x, MbmsSessionDuration_unmarshal m b = Ok x -> ie_t x = 138 /\ ie_ins x = N.land (nth 3 b 0) 15.
Proof. says. Qed.
Lemma MbmsServiceArea_says : forall m b x, MbmsServiceArea_unmarshal m b = Ok x -> ie_t x = 139 /\ ie_ins x = N.land (nth 3 b 0) 15.
Proof. says. Qed.
Lemma MbmsSessionId_says : forall m b x, MbmsSessionId_unmarshal m b = Ok x -> ie_t x = 140 /\ ie_ins x = N.land (nth 3 b 0) 15.
Proof. says. Qed.
Lemma MbmsFlowId_says : forall m b x, MbmsFlowId_unmarshal m b = Ok x -> ie_t x = 141 /\ ie_ins x = N.land (nth 3 b 0) 15.
Proof. says. Qed.
Lemma MbmsIpMulticastDistribution_says : forall m b x, MbmsIpMulticastDistribution_unmarshal m b = Ok x -> ie_t x = 142 /\ ie_ins x = nth 3 b 0.
Proof. says. Qed.
Lemma MbmsDistributionAck_says : forall m b x, MbmsDistributionAck_unmarshal m b = Ok x -> ie_t x = 143 /\ ie_ins x = N.land (nth 3 b 0) 15.
Proof. says. Qed.
Lemma RfspIndex_says : forall m b x, RfspIndex_unmarshal m b = Ok x -> ie_t x = 144 /\ ie_ins x = N.land (nth 3 b 0) 15.
Proof. says. Qed.
Lemma Uci_says : forall m b x, Uci_unmarshal m b = Ok x -> ie_t x = 145 /\ ie_ins x = N.land (nth 3 b 0) 15.
Proof. says. Qed.
Lemma CSGInformationReportingAction_says : forall m b x, CSGInformationReportingAction_unmarshal m b = Ok x -> ie_t x = 146 /\ ie_ins x = N.land (nth 3 b 0) 15.
Proof. says. Qed.
Lemma CsgId_says : forall m b x, CsgId_unmarshal m b = Ok x -> ie_t x = 147 /\ ie_ins x = N.land (nth 3 b 0) 15.
Proof. says. Qed.
Lemma CsgMembershipIndication_says : forall m b x, CsgMembershipIndication_unmarshal m b = Ok x -> ie_t x = 148 /\ ie_ins x = nth 3 b 0.
Proof. says. Qed.
Lemma ServiceIndicator_says : forall m b x, ServiceIndicator_unmarshal m b = Ok x -> ie_t x = 149 /\ ie_ins x = N.land (nth 3 b 0) 15.
Proof. says. Qed.
Lemma DetachType_says : forall m b x, DetachType_unmarshal m b = Ok x -> ie_t x = 150 /\ ie_ins x = N.land (nth 3 b 0) 15.
Proof. says. Qed.
Lemma Ldn_says : forall m b x, Ldn_unmarshal m b = Ok x -> ie_t x = 151 /\ ie_ins x = N.land (nth 3 b 0) 15.
Proof. says. Qed.
Lemma NodeFeatures_says : forall m b x, NodeFeatures_unmarshal m b = Ok x -> ie_t x = 152 /\ ie_ins x = N.land (nth 3 b 0) 15.
Proof. says. Qed.
Lemma MbmsTimeToDataTransfer_says : forall m b x, MbmsTimeToDataTransfer_unmarshal m b = Ok x -> ie_t x = 153 /\ ie_ins x = nth 3 b 0.
Proof. says. Qed.
Lemma Throttling_says : forall m b x, Throttling_unmarshal m b = Ok x -> ie_t x = 154 /\ ie_ins x = N.land (nth 3 b 0) 15.
Proof. says. Qed.
Lemma Arp_says : forall m b x, Arp_unmarshal m b = Ok x -> ie_t x = 155 /\ ie_ins x = N.land (nth 3 b 0) 15.
Proof. says. Qed.
Lemma EpcTimer_says : forall m b x, EpcTimer_unmarshal m b = Ok x -> ie_t x = 156 /\ ie_ins x = N.land (nth 3 b 0) 15.
Proof. says. Qed.
Lemma Spi_says : forall m b x, Spi_unmarshal m b = Ok x -> ie_t x = 157 /\ ie_ins x = N.land (nth 3 b 0) 15.
Proof. says. Qed.
Lemma Tmgi_says : forall m b x, Tmgi_unmarshal m b = Ok x -> ie_t x = 158 /\ ie_ins x = nth 3 b 0.
Proof. says. Qed.
Lemma AdditionalMmContextForSrvcc_says : forall m b x, AdditionalMmContextForSrvcc_unmarshal m b = Ok x -> ie_t x = 159 /\ ie_ins x = N.land (nth 3 b 0) 15.
Proof. says. Qed.
Lemma AdditionalFlagsSrvcc_says : forall m b x, AdditionalFlagsSrvcc_unmarshal m b = Ok x -> ie_t x = 160 /\ ie_ins x = N.land (nth 3 b 0) 15.
Proof. says. Qed.
Lemma MdtConfiguration_says : forall m b x, MdtConfiguration_unmarshal m b = Ok x -> ie_t x = 162 /\ ie_ins x = N.land (nth 3 b 0) 15.
Proof. says. Qed.
Lemma Apco_says : forall m b x, Apco_unmarshal m b = Ok x -> ie_t x = 163 /\ ie_ins x = N.land (nth 3 b 0) 15.
Proof. says. Qed.
Lemma AbsoluteTimeMbmsDataTransfer_says : forall m b x, AbsoluteTimeMbmsDataTransfer_unmarshal m b = Ok x -> ie_t x = 164 /\ ie_ins x = N.land (nth 3 b 0) 15.
Proof. says. Qed.
Lemma HenbInfoReporting_says : forall m b x, HenbInfoReporting_unmarshal m b = Ok x -> ie_t x = 165 /\ ie_ins x = N.land (nth 3 b 0) 15.
Proof. says. Qed.
Lemma Ip4Cp_says : forall m b x, Ip4Cp_unmarshal m b = Ok x -> ie_t x = 166 /\ ie_ins x = N.land (nth 3 b 0) 15.
Proof. says. Qed.
Lemma ChangeToReportFlags_says : forall m b x, ChangeToReportFlags_unmarshal m b = Ok x -> ie_t x = 167 /\ ie_ins x = N.land (nth 3 b 0) 15.
Proof. says. Qed.
Lemma ActionIndication_says : forall m b x, ActionIndication_unmarshal m b = Ok x -> ie_t x = 168 /\ ie_ins x = N.land (nth 3 b 0) 15.
Proof. says. Qed.
Lemma UliTimestamp_says : forall m b x, UliTimestamp_unmarshal m b = Ok x -> ie_t x = 170 /\ ie_ins x = N.land (nth 3 b 0) 15.
Proof. says. Qed.
Lemma MbmsFlags_says : forall m b x, MbmsFlags_unmarshal m b = Ok x -> ie_t x = 171 /\ ie_ins x = N.land (nth 3 b 0) 15.
Proof. says. Qed.
Lemma RanNasCause_says : forall m b x, RanNasCause_unmarshal m b = Ok x -> ie_t x = 172 /\ ie_ins x = N.land (nth 3 b 0) 15.
Proof. says. Qed.
Lemma CnOperatorSelectionEntity_says : forall m b x, CnOperatorSelectionEntity_unmarshal m b = Ok x -> ie_t x = 173 /\ ie_ins x = N.land (nth 3 b 0) 15.
Proof. says. Qed.
Lemma Twmi_says : forall m b x, Twmi_unmarshal m b = Ok x -> ie_t x = 174 /\ ie_ins x = N.land (nth 3 b 0) 15.
Proof. says. Qed.
Lemma NodeNumber_says : forall m b x, NodeNumber_unmarshal m b = Ok x -> ie_t x = 175 /\ ie_ins x = N.land (nth 3 b 0) 15.
Proof. says. Qed.
Lemma NodeIdentifier_says : forall m b x, NodeIdentifier_unmarshal m b = Ok x -> ie_t x = 176 /\ ie_ins x = N.land (nth 3 b 0) 15.
Proof. says. Qed.
Lemma PresenceReportingAreaAction_says : forall m b x, PresenceReportingAreaAction_unmarshal m b = Ok x -> ie_t x = 177 /\ ie_ins x = N.land (nth 3 b 0) 15.
Proof. says. Qed.
Lemma PresenceReportingAreaInformation_says : forall m b x, PresenceReportingAreaInformation_unmarshal m b = Ok x -> ie_t x = 178 /\ ie_ins x = N.land (nth 3 b 0) 15.
Proof. says. Qed.
Lemma TwanIdTimeStamp_says : forall m b x, TwanIdTimeStamp_unmarshal m b = Ok x -> ie_t x = 179 /\ ie_ins x = N.land (nth 3 b 0) 15.
Proof. says. Qed.
Lemma OverloadControlInfo_says : forall dec m b x, OverloadControlInfo_unmarshal dec m b = Ok x -> ie_t x = nth 0 b 0 /\ ie_ins x = nth 3 b 0.
Proof. saysg. Qed.
Lemma LoadControl_says : forall dec m b x, LoadControl_unmarshal dec m b = Ok x -> ie_t x = nth 0 b 0 /\ ie_ins x = nth 3 b 0.
Proof. saysg. Qed.
Lemma Metric_says : forall m b x, Metric_unmarshal m b = Ok x -> ie_t x = 182 /\ ie_ins x = N.land (nth 3 b 0) 15.
Proof. says. Qed.
Lemma Sqn_says : forall m b x, Sqn_unmarshal m b = Ok x -> ie_t x = 183 /\ ie_ins x = N.land (nth 3 b 0) 15.
Proof. says. Qed.
Lemma ApnRelativeCapacity_says : forall m b x, ApnRelativeCapacity_unmarshal m b = Ok x -> ie_t x = 184 /\ ie_ins x = N.land (nth 3 b 0) 15.
Proof. says. Qed.
Lemma WlanOffloadIndication_says : forall m b x, WlanOffloadIndication_unmarshal m b = Ok x -> ie_t x = 185 /\ ie_ins x = N.land (nth 3 b 0) 15.
Proof. says. Qed.
Lemma PagingServiceInfo_says : forall m b x, PagingServiceInfo_unmarshal m b = Ok x -> ie_t x = 186 /\ ie_ins x = N.land (nth 3 b 0) 15.
Proof. says. Qed.
Lemma IntegerNumber_says : forall m b x, IntegerNumber_unmarshal m b = Ok x -> ie_t x = 187 /\ ie_ins x = N.land (nth 3 b 0) 15.
Proof. says. Qed.
Lemma MilliSecondTimeStamp_says : forall m b x, MilliSecondTimeStamp_unmarshal m b = Ok x -> ie_t x = 188 /\ ie_ins x = N.land (nth 3 b 0) 15.
Proof. says. Qed.
Lemma MonitoringEventInformation_says : forall m b x, MonitoringEventInformation_unmarshal m b = Ok x -> ie_t x = 189 /\ ie_ins x = N.land (nth 3 b 0) 15.
Proof. says. Qed.
Lemma EcgiList_says : forall m b x, EcgiList_unmarshal m b = Ok x -> ie_t x = 190 /\ ie_ins x = N.land (nth 3 b 0) 15.
Proof. says. Qed.
Lemma RemoteUeContext_says : forall dec m b x, RemoteUeContext_unmarshal dec m b = Ok x -> ie_t x = nth 0 b 0 /\ ie_ins x = nth 3 b 0.
Proof. saysg. Qed.
Lemma RemoteUserId_says : forall m b x, RemoteUserId_unmarshal m b = Ok x -> ie_t x = 192 /\ ie_ins x = N.land (nth 3 b 0) 15.
Proof. says. Qed.
Lemma RemoteUeIpInformation_says : forall m b x, RemoteUeIpInformation_unmarshal m b = Ok x -> ie_t x = 193 /\ ie_ins x = N.land (nth 3 b 0) 15.
Proof. says. Qed.
Lemma CIoTOptimizationSupportIndication_says : forall m b x, CIoTOptimizationSupportIndication_unmarshal m b = Ok x -> ie_t x = 194 /\ ie_ins x = N.land (nth 3 b 0) 15.
Proof. says. Qed.
Lemma ScefPdnConnections_says : forall dec m b x, ScefPdnConnections_unmarshal dec m b = Ok x -> ie_t x = nth 0 b 0 /\ ie_ins x = nth 3 b 0.
Proof. saysg. Qed.
Lemma HeaderCompressionConfiguration_says : forall m b x, HeaderCompressionConfiguration_unmarshal m b = Ok x -> ie_t x = 196 /\ ie_ins x = N.land (nth 3 b 0) 15.
Proof. says. Qed.
Lemma Epco_says : forall m b x, Epco_unmarshal m b = Ok x -> ie_t x = 197 /\ ie_ins x = N.land (nth 3 b 0) 15.
Proof. says. Qed.
Lemma ServingPlmnRateControl_says : forall m b x, ServingPlmnRateControl_unmarshal m b = Ok x -> ie_t x = 198 /\ ie_ins x = N.land (nth 3 b 0) 15.
Proof. says. Qed.
Lemma Counter_says : forall m b x, Counter_unmarshal m b = Ok x -> ie_t x = 199 /\ ie_ins x = N.land (nth 3 b 0) 15.
Proof. says. Qed.
Lemma MappedUeUsageType_says : forall m b x, MappedUeUsageType_unmarshal m b = Ok x -> ie_t x = 200 /\ ie_ins x = N.land (nth 3 b 0) 15.
Proof. says. Qed.
Lemma SecondaryRatUsageDataReport_says : forall m b x, SecondaryRatUsageDataReport_unmarshal m b = Ok x -> ie_t x = 201 /\ ie_ins x = N.land (nth 3 b 0) 15.
Proof. says. Qed.
Lemma UpFunctionSelectionIndicationFlags_says : forall m b x, UpFunctionSelectionIndicationFlags_unmarshal m b = Ok x -> ie_t x = 202 /\ ie_ins x = N.land (nth 3 b 0) 15.
Proof. says. Qed.
Lemma MaxPacketLossRate_says : forall m b x, MaxPacketLossRate_unmarshal m b = Ok x -> ie_t x = 203 /\ ie_ins x = N.land (nth 3 b 0) 15.
Proof. says. Qed.
Lemma ApnRateControlStatus_says : forall m b x, ApnRateControlStatus_unmarshal m b = Ok x -> ie_t x = 204 /\ ie_ins x = N.land (nth 3 b 0) 15.
Proof. says. Qed.
Lemma ExtendedTraceInformation_says : forall m b x, ExtendedTraceInformation_unmarshal m b = Ok x -> ie_t x = 205 /\ ie_ins x = nth 3 b 0.
Proof. says. Qed.
Lemma MonitoringEventExtensionInfo_says : forall m b x, MonitoringEventExtensionInfo_unmarshal m b = Ok x -> ie_t x = 206 /\ ie_ins x = N.land (nth 3 b 0) 15.
Proof. says. Qed.
Lemma AdditionalRrmPolicyIndex_says : forall m b x, AdditionalRrmPolicyIndex_unmarshal m b = Ok x -> ie_t x = 207 /\ ie_ins x = N.land (nth 3 b 0) 15.
Proof. says. Qed.
Lemma V2xInformation_says : forall dec m b x, V2xInformation_unmarshal dec m b = Ok x -> ie_t x = nth 0 b 0 /\ ie_ins x = nth 3 b 0.
Proof. saysg. Qed.
Lemma PC5QosParameters_says : forall dec m b x, PC5QosParameters_unmarshal dec m b = Ok x -> ie_t x = nth 0 b 0 /\ ie_ins x = nth 3 b 0.
Proof. saysg. Qed.
Lemma ServicesAuthorized_says : forall m b x, ServicesAuthorized_unmarshal m b = Ok x -> ie_t x = 210 /\ ie_ins x = N.land (nth 3 b 0) 15.
Proof. says. Qed.
Lemma BitRate_says : forall m b x, BitRate_unmarshal m b = Ok x -> ie_t x = 211 /\ ie_ins x = N.land (nth 3 b 0) 15.
Proof. says. Qed.
Lemma PC5QosFlow_says : forall m b x, PC5QosFlow_unmarshal m b = Ok x -> ie_t x = 212 /\ ie_ins x = N.land (nth 3 b 0) 15.
Proof. says. Qed.
Lemma SgiPtpTunnelAddress_says : forall m b x, SgiPtpTunnelAddress_unmarshal m b = Ok x -> ie_t x = 213 /\ ie_ins x = N.land (nth 3 b 0) 15.
Proof. says. Qed.
Lemma PgwChangeInfo_says : forall dec m b x, PgwChangeInfo_unmarshal dec m b = Ok x -> ie_t x = nth 0 b 0 /\ ie_ins x = nth 3 b 0.
Proof. saysg. Qed.
Lemma PgwFqdn_says : forall m b x, PgwFqdn_unmarshal m b = Ok x -> ie_t x = 215 /\ ie_ins x = N.land (nth 3 b 0) 15.
Proof. says. Qed.
Lemma GroupId_says : forall m b x, GroupId_unmarshal m b = Ok x -> ie_t x = 216 /\ ie_ins x = N.land (nth 3 b 0) 15.
Proof. says. Qed.
Lemma PSCellId_says : forall m b x, PSCellId_unmarshal m b = Ok x -> ie_t x = 217 /\ ie_ins x = N.land (nth 3 b 0) 15.
Proof. says. Qed.
Lemma UpSecurityPolicy_says : forall m b x, UpSecurityPolicy_unmarshal m b = Ok x -> ie_t x = 218 /\ ie_ins x = N.land (nth 3 b 0) 15.
Proof. says. Qed.
Lemma AlternativeImsi_says : forall m b x, AlternativeImsi_unmarshal m b = Ok x -> ie_t x = 219 /\ ie_ins x = N.land (nth 3 b 0) 15.
Proof. says. Qed.
Lemma SpecialIEWithTypeExt_says : forall m b x, SpecialIEWithTypeExt_unmarshal m b = Ok x -> ie_t x = 254 /\ ie_ins x = N.land (nth 3 b 0) 15.
Proof. says. Qed.
Lemma PrivateExtension_says : forall m b x, PrivateExtension_unmarshal m b = Ok x -> ie_t x = 255 /\ ie_ins x = N.land (nth 3 b 0) 15.
Proof. says. Qed.
Lemma MmContextGsmKeyTriplets_says : forall m b x, MmContextGsmKeyTriplets_unmarshal m b = Ok x -> ie_t x = 103 /\ ie_ins x = N.land (nth 3 b 0) 15.
Proof. says. Qed.
Lemma MmContextUmtsKeyCipherQuintuplets_says : forall m b x, MmContextUmtsKeyCipherQuintuplets_unmarshal m b = Ok x -> ie_t x = 104 /\ ie_ins x = N.land (nth 3 b 0) 15.
Proof. says. Qed.
Lemma MmContextGsmKeyCipherQuintuplets_says : forall m b x, MmContextGsmKeyCipherQuintuplets_unmarshal m b = Ok x -> ie_t x = 105 /\ ie_ins x = N.land (nth 3 b 0) 15.
Proof. says. Qed.
Lemma MmContextUmtsKeyQuintuplets_says : forall m b x, MmContextUmtsKeyQuintuplets_unmarshal m b = Ok x -> ie_t x = 106 /\ ie_ins x = N.land (nth 3 b 0) 15.
Proof. says. Qed.
Lemma MmContextEpsSecurityContextQuadruplets_says : forall m b x, MmContextEpsSecurityContextQuadruplets_unmarshal m b = Ok x -> ie_t x = 107 /\ ie_ins x = N.land (nth 3 b 0) 15.
Proof. says. Qed.
Lemma MmContextUmtsKeyQuadrupletsQuintuplets_says : forall m b x, MmContextUmtsKeyQuadrupletsQuintuplets_unmarshal m b = Ok x -> ie_t x = 108 /\ ie_ins x = N.land (nth 3 b 0) 15.
Proof. says. Qed.
Lemma Unknown_says : forall m b x, Unknown_unmarshal m b = Ok x -> ie_t x = 0 /\ ie_ins x = nth 3 b 0.
Proof. says. Qed.

Lemma post_lifti {A} b (c : A -> ie) r : (forall x, r = Ok x -> reports b (c x)) -> post (reports b) (lift c r).
Proof. intros H. unfold lift. destruct r; cbn; intros y E; try discriminate E. apply Ok_inj in E. subst. apply H. reflexivity. Qed.
Lemma decode_one_reports dec m b : post (reports b) (decode_one dec m b).
Proof.
  unfold decode_one. destruct b as [|t b']; [apply post_panic|]. rewrite at_0. bk. set (b := t :: b').
  destruct (N.eqb_spec t 1) as [->|N1]; [apply post_lifti; intros x E; exact (Imsi_says m _ _ E)|].
  destruct (N.eqb_spec t 2) as [->|N2]; [apply post_lifti; intros x E; exact (Cause_says m _ _ E)|].
  destruct (N.eqb_spec t 3) as [->|N3]; [apply post_lifti; intros x E; exact (Recovery_says m _ _ E)|].
  destruct (N.eqb_spec t 51) as [->|N51]; [apply post_lifti; intros x E; exact (StnSr_says m _ _ E)|].
  destruct (N.eqb_spec t 56) as [->|N56]; [apply post_lifti; intros x E; exact (SrvccCause_says m _ _ E)|].
  destruct (N.eqb_spec t 71) as [->|N71]; [apply post_lifti; intros x E; exact (Apn_says m _ _ E)|].
  destruct (N.eqb_spec t 72) as [->|N72]; [apply post_lifti; intros x E; exact (Ambr_says m _ _ E)|].
  destruct (N.eqb_spec t 73) as [->|N73]; [apply post_lifti; intros x E; exact (Ebi_says m _ _ E)|].
  destruct (N.eqb_spec t 74) as [->|N74]; [apply post_lifti; intros x E; exact (IpAddress_says m _ _ E)|].
  destruct (N.eqb_spec t 75) as [->|N75]; [apply post_lifti; intros x E; exact (Mei_says m _ _ E)|].
  destruct (N.eqb_spec t 76) as [->|N76]; [apply post_lifti; intros x E; exact (Msisdn_says m _ _ E)|].
  destruct (N.eqb_spec t 77) as [->|N77]; [apply post_lifti; intros x E; exact (Indication_says m _ _ E)|].
  destruct (N.eqb_spec t 78) as [->|N78]; [apply post_lifti; intros x E; exact (Pco_says m _ _ E)|].
  destruct (N.eqb_spec t 79) as [->|N79]; [apply post_lifti; intros x E; exact (PdnAddressAllocation_says m _ _ E)|].
  destruct (N.eqb_spec t 80) as [->|N80]; [apply post_lifti; intros x E; exact (BearerQos_says m _ _ E)|].
  destruct (N.eqb_spec t 81) as [->|N81]; [apply post_lifti; intros x E; exact (FlowQos_says m _ _ E)|].
  destruct (N.eqb_spec t 82) as [->|N82]; [apply post_lifti; intros x E; exact (RatType_says m _ _ E)|].
  destruct (N.eqb_spec t 83) as [->|N83]; [apply post_lifti; intros x E; exact (ServingNetwork_says m _ _ E)|].
  destruct (N.eqb_spec t 84) as [->|N84]; [apply post_lifti; intros x E; exact (BearerTft_says m _ _ E)|].
  destruct (N.eqb_spec t 85) as [->|N85]; [apply post_lifti; intros x E; exact (TrafficAggregateDescription_says m _ _ E)|].
  destruct (N.eqb_spec t 86) as [->|N86]; [apply post_lifti; intros x E; exact (Uli_says m _ _ E)|].
  destruct (N.eqb_spec t 87) as [->|N87]; [apply post_lifti; intros x E; exact (Fteid_says m _ _ E)|].
  destruct (N.eqb_spec t 88) as [->|N88]; [apply post_lifti; intros x E; exact (Tmsi_says m _ _ E)|].
  destruct (N.eqb_spec t 89) as [->|N89]; [apply post_lifti; intros x E; exact (GlobalCnId_says m _ _ E)|].
  destruct (N.eqb_spec t 90) as [->|N90]; [apply post_lifti; intros x E; exact (S103pdf_says m _ _ E)|].
  destruct (N.eqb_spec t 91) as [->|N91]; [apply post_lifti; intros x E; exact (S1udf_says m _ _ E)|].
  destruct (N.eqb_spec t 92) as [->|N92]; [apply post_lifti; intros x E; exact (DelayValue_says m _ _ E)|].
  destruct (N.eqb_spec t 93) as [->|N93]; [apply post_lifti; intros x E; exact (BearerContext_says dec m _ _ E)|].
  destruct (N.eqb_spec t 94) as [->|N94]; [apply post_lifti; intros x E; exact (ChargingId_says m _ _ E)|].
  destruct (N.eqb_spec t 95) as [->|N95]; [apply post_lifti; intros x E; exact (ChargingCharacteristics_says m _ _ E)|].
  destruct (N.eqb_spec t 96) as [->|N96]; [apply post_lifti; intros x E; exact (TraceInformation_says m _ _ E)|].
  destruct (N.eqb_spec t 97) as [->|N97]; [apply post_lifti; intros x E; exact (BearerFlags_says m _ _ E)|].
  destruct (N.eqb_spec t 99) as [->|N99]; [apply post_lifti; intros x E; exact (PdnType_says m _ _ E)|].
  destruct (N.eqb_spec t 100) as [->|N100]; [apply post_lifti; intros x E; exact (Pti_says m _ _ E)|].
  destruct ((103 <=? t) && (t <=? 108)) eqn:NM; [apply post_lifti; intros x E; unfold MmContext_unmarshal, b in E; rewrite at_0, bindOk in E; cbv beta in E|].
  { repeat match type of E with (if t =? ?k then _ else _) = _ => destruct (N.eqb_spec t k); [subst; match type of E with bind ?r _ = _ => destruct r eqn:D; try discriminate E end; apply Ok_inj in E; subst;
      first [exact (MmContextEpsSecurityContextQuadruplets_says _ _ _ D)|exact (MmContextUmtsKeyQuintuplets_says _ _ _ D)|exact (MmContextUmtsKeyQuadrupletsQuintuplets_says _ _ _ D)|exact (MmContextUmtsKeyCipherQuintuplets_says _ _ _ D)|exact (MmContextGsmKeyTriplets_says _ _ _ D)|exact (MmContextGsmKeyCipherQuintuplets_says _ _ _ D)]|] end. discriminate E. }
  assert (N103 : t <> 103) by (intros ->; discriminate NM). assert (N104 : t <> 104) by (intros ->; discriminate NM). assert (N105 : t <> 105) by (intros ->; discriminate NM).
  assert (N106 : t <> 106) by (intros ->; discriminate NM). assert (N107 : t <> 107) by (intros ->; discriminate NM). assert (N108 : t <> 108) by (intros ->; discriminate NM).
  destruct (N.eqb_spec t 109) as [->|N109]; [apply post_lifti; intros x E; exact (PdnConnections_says dec m _ _ E)|].
  destruct (N.eqb_spec t 110) as [->|N110]; [apply post_lifti; intros x E; exact (PduNumbers_says m _ _ E)|].
  destruct (N.eqb_spec t 111) as [->|N111]; [apply post_lifti; intros x E; exact (Ptmsi_says m _ _ E)|].
  destruct (N.eqb_spec t 112) as [->|N112]; [apply post_lifti; intros x E; exact (PtmsiSignature_says m _ _ E)|].
  destruct (N.eqb_spec t 113) as [->|N113]; [apply post_lifti; intros x E; exact (HopCounter_says m _ _ E)|].
  destruct (N.eqb_spec t 114) as [->|N114]; [apply post_lifti; intros x E; exact (UeTimeZone_says m _ _ E)|].
  destruct (N.eqb_spec t 115) as [->|N115]; [apply post_lifti; intros x E; exact (TraceReference_says m _ _ E)|].
  destruct (N.eqb_spec t 116) as [->|N116]; [apply post_lifti; intros x E; exact (CompleteRequestMessage_says m _ _ E)|].
  destruct (N.eqb_spec t 117) as [->|N117]; [apply post_lifti; intros x E; exact (Guti_says m _ _ E)|].
  destruct (N.eqb_spec t 118) as [->|N118]; [apply post_lifti; intros x E; exact (Fcontainer_says m _ _ E)|].
  destruct (N.eqb_spec t 119) as [->|N119]; [apply post_lifti; intros x E; exact (Fcause_says m _ _ E)|].
  destruct (N.eqb_spec t 120) as [->|N120]; [apply post_lifti; intros x E; exact (PlmnId_says m _ _ E)|].
  destruct (N.eqb_spec t 121) as [->|N121]; [apply post_lifti; intros x E; exact (TargetIdentification_says m _ _ E)|].
  destruct (N.eqb_spec t 123) as [->|N123]; [apply post_lifti; intros x E; exact (PacketFlowId_says m _ _ E)|].
  destruct (N.eqb_spec t 124) as [->|N124]; [apply post_lifti; intros x E; exact (RabContext_says m _ _ E)|].
  destruct (N.eqb_spec t 125) as [->|N125]; [apply post_lifti; intros x E; exact (SourceRncPdcpContextInfo_says m _ _ E)|].
  destruct (N.eqb_spec t 126) as [->|N126]; [apply post_lifti; intros x E; exact (PortNumber_says m _ _ E)|].
  destruct (N.eqb_spec t 127) as [->|N127]; [apply post_lifti; intros x E; exact (ApnRestriction_says m _ _ E)|].
  destruct (N.eqb_spec t 128) as [->|N128]; [apply post_lifti; intros x E; exact (SelectionMode_says m _ _ E)|].
  destruct (N.eqb_spec t 129) as [->|N129]; [apply post_lifti; intros x E; exact (SourceIdentification_says m _ _ E)|].
  destruct (N.eqb_spec t 131) as [->|N131]; [apply post_lifti; intros x E; exact (ChangeReportingAction_says m _ _ E)|].
  destruct (N.eqb_spec t 132) as [->|N132]; [apply post_lifti; intros x E; exact (Fqcsid_says m _ _ E)|].
  destruct (N.eqb_spec t 133) as [->|N133]; [apply post_lifti; intros x E; exact (ChannelNeeded_says m _ _ E)|].
  destruct (N.eqb_spec t 134) as [->|N134]; [apply post_lifti; intros x E; exact (EmlppPriority_says m _ _ E)|].
  destruct (N.eqb_spec t 135) as [->|N135]; [apply post_lifti; intros x E; exact (NodeType_says m _ _ E)|].
  destruct (N.eqb_spec t 136) as [->|N136]; [apply post_lifti; intros x E; exact (Fqdn_says m _ _ E)|].
  destruct (N.eqb_spec t 137) as [->|N137]; [apply post_lifti; intros x E; exact (TransactionIdentifier_says m _ _ E)|].
  destruct (N.eqb_spec t 138) as [->|N138]; [apply post_lifti; intros x E; exact (MbmsSessionDuration_says m _ _ E)|].
  destruct (N.eqb_spec t 139) as [->|N139]; [apply post_lifti; intros x E; exact (MbmsServiceArea_says m _ _ E)|].
  destruct (N.eqb_spec t 140) as [->|N140]; [apply post_lifti; intros x E; exact (MbmsSessionId_says m _ _ E)|].
  destruct (N.eqb_spec t 141) as [->|N141]; [apply post_lifti; intros x E; exact (MbmsFlowId_says m _ _ E)|].
  destruct (N.eqb_spec t 142) as [->|N142]; [apply post_lifti; intros x E; exact (MbmsIpMulticastDistribution_says m _ _ E)|].
  destruct (N.eqb_spec t 143) as [->|N143]; [apply post_lifti; intros x E; exact (MbmsDistributionAck_says m _ _ E)|].
  destruct (N.eqb_spec t 144) as [->|N144]; [apply post_lifti; intros x E; exact (RfspIndex_says m _ _ E)|].
  destruct (N.eqb_spec t 145) as [->|N145]; [apply post_lifti; intros x E; exact (Uci_says m _ _ E)|].
  destruct (N.eqb_spec t 146) as [->|N146]; [apply post_lifti; intros x E; exact (CSGInformationReportingAction_says m _ _ E)|].
  destruct (N.eqb_spec t 147) as [->|N147]; [apply post_lifti; intros x E; exact (CsgId_says m _ _ E)|].
  destruct (N.eqb_spec t 148) as [->|N148]; [apply post_lifti; intros x E; exact (CsgMembershipIndication_says m _ _ E)|].
  destruct (N.eqb_spec t 149) as [->|N149]; [apply post_lifti; intros x E; exact (ServiceIndicator_says m _ _ E)|].
  destruct (N.eqb_spec t 150) as [->|N150]; [apply post_lifti; intros x E; exact (DetachType_says m _ _ E)|].
  destruct (N.eqb_spec t 151) as [->|N151]; [apply post_lifti; intros x E; exact (Ldn_says m _ _ E)|].
  destruct (N.eqb_spec t 152) as [->|N152]; [apply post_lifti; intros x E; exact (NodeFeatures_says m _ _ E)|].
  destruct (N.eqb_spec t 153) as [->|N153]; [apply post_lifti; intros x E; exact (MbmsTimeToDataTransfer_says m _ _ E)|].
  destruct (N.eqb_spec t 154) as [->|N154]; [apply post_lifti; intros x E; exact (Throttling_says m _ _ E)|].
  destruct (N.eqb_spec t 155) as [->|N155]; [apply post_lifti; intros x E; exact (Arp_says m _ _ E)|].
  destruct (N.eqb_spec t 156) as [->|N156]; [apply post_lifti; intros x E; exact (EpcTimer_says m _ _ E)|].
  destruct (N.eqb_spec t 157) as [->|N157]; [apply post_lifti; intros x E; exact (Spi_says m _ _ E)|].
  destruct (N.eqb_spec t 158) as [->|N158]; [apply post_lifti; intros x E; exact (Tmgi_says m _ _ E)|].
  destruct (N.eqb_spec t 159) as [->|N159]; [apply post_lifti; intros x E; exact (AdditionalMmContextForSrvcc_says m _ _ E)|].
  destruct (N.eqb_spec t 160) as [->|N160]; [apply post_lifti; intros x E; exact (AdditionalFlagsSrvcc_says m _ _ E)|].
  destruct (N.eqb_spec t 162) as [->|N162]; [apply post_lifti; intros x E; exact (MdtConfiguration_says m _ _ E)|].
  destruct (N.eqb_spec t 163) as [->|N163]; [apply post_lifti; intros x E; exact (Apco_says m _ _ E)|].
  destruct (N.eqb_spec t 164) as [->|N164]; [apply post_lifti; intros x E; exact (AbsoluteTimeMbmsDataTransfer_says m _ _ E)|].
  destruct (N.eqb_spec t 165) as [->|N165]; [apply post_lifti; intros x E; exact (HenbInfoReporting_says m _ _ E)|].
  destruct (N.eqb_spec t 166) as [->|N166]; [apply post_lifti; intros x E; exact (Ip4Cp_says m _ _ E)|].
  destruct (N.eqb_spec t 167) as [->|N167]; [apply post_lifti; intros x E; exact (ChangeToReportFlags_says m _ _ E)|].
  destruct (N.eqb_spec t 168) as [->|N168]; [apply post_lifti; intros x E; exact (ActionIndication_says m _ _ E)|].
  destruct (N.eqb_spec t 169) as [->|N169]; [apply post_lifti; intros x E; exact (ActionIndication_says m _ _ E)|].
  destruct (N.eqb_spec t 170) as [->|N170]; [apply post_lifti; intros x E; exact (UliTimestamp_says m _ _ E)|].
  destruct (N.eqb_spec t 171) as [->|N171]; [apply post_lifti; intros x E; exact (MbmsFlags_says m _ _ E)|].
  destruct (N.eqb_spec t 172) as [->|N172]; [apply post_lifti; intros x E; exact (RanNasCause_says m _ _ E)|].
  destruct (N.eqb_spec t 173) as [->|N173]; [apply post_lifti; intros x E; exact (CnOperatorSelectionEntity_says m _ _ E)|].
  destruct (N.eqb_spec t 174) as [->|N174]; [apply post_lifti; intros x E; exact (Twmi_says m _ _ E)|].
  destruct (N.eqb_spec t 175) as [->|N175]; [apply post_lifti; intros x E; exact (NodeNumber_says m _ _ E)|].
  destruct (N.eqb_spec t 176) as [->|N176]; [apply post_lifti; intros x E; exact (NodeIdentifier_says m _ _ E)|].
  destruct (N.eqb_spec t 177) as [->|N177]; [apply post_lifti; intros x E; exact (PresenceReportingAreaAction_says m _ _ E)|].
  destruct (N.eqb_spec t 178) as [->|N178]; [apply post_lifti; intros x E; exact (PresenceReportingAreaInformation_says m _ _ E)|].
  destruct (N.eqb_spec t 179) as [->|N179]; [apply post_lifti; intros x E; exact (TwanIdTimeStamp_says m _ _ E)|].
  destruct (N.eqb_spec t 180) as [->|N180]; [apply post_lifti; intros x E; exact (OverloadControlInfo_says dec m _ _ E)|].
  destruct (N.eqb_spec t 181) as [->|N181]; [apply post_lifti; intros x E; exact (LoadControl_says dec m _ _ E)|].
  destruct (N.eqb_spec t 182) as [->|N182]; [apply post_lifti; intros x E; exact (Metric_says m _ _ E)|].
  destruct (N.eqb_spec t 183) as [->|N183]; [apply post_lifti; intros x E; exact (Sqn_says m _ _ E)|].
  destruct (N.eqb_spec t 184) as [->|N184]; [apply post_lifti; intros x E; exact (ApnRelativeCapacity_says m _ _ E)|].
  destruct (N.eqb_spec t 185) as [->|N185]; [apply post_lifti; intros x E; exact (WlanOffloadIndication_says m _ _ E)|].
  destruct (N.eqb_spec t 186) as [->|N186]; [apply post_lifti; intros x E; exact (PagingServiceInfo_says m _ _ E)|].
  destruct (N.eqb_spec t 187) as [->|N187]; [apply post_lifti; intros x E; exact (IntegerNumber_says m _ _ E)|].
  destruct (N.eqb_spec t 188) as [->|N188]; [apply post_lifti; intros x E; exact (MilliSecondTimeStamp_says m _ _ E)|].
  destruct (N.eqb_spec t 189) as [->|N189]; [apply post_lifti; intros x E; exact (MonitoringEventInformation_says m _ _ E)|].
  destruct (N.eqb_spec t 190) as [->|N190]; [apply post_lifti; intros x E; exact (EcgiList_says m _ _ E)|].
  destruct (N.eqb_spec t 191) as [->|N191]; [apply post_lifti; intros x E; exact (RemoteUeContext_says dec m _ _ E)|].
  destruct (N.eqb_spec t 192) as [->|N192]; [apply post_lifti; intros x E; exact (RemoteUserId_says m _ _ E)|].
  destruct (N.eqb_spec t 193) as [->|N193]; [apply post_lifti; intros x E; exact (RemoteUeIpInformation_says m _ _ E)|].
  destruct (N.eqb_spec t 194) as [->|N194]; [apply post_lifti; intros x E; exact (CIoTOptimizationSupportIndication_says m _ _ E)|].
  destruct (N.eqb_spec t 195) as [->|N195]; [apply post_lifti; intros x E; exact (ScefPdnConnections_says dec m _ _ E)|].
  destruct (N.eqb_spec t 196) as [->|N196]; [apply post_lifti; intros x E; exact (HeaderCompressionConfiguration_says m _ _ E)|].
  destruct (N.eqb_spec t 197) as [->|N197]; [apply post_lifti; intros x E; exact (Epco_says m _ _ E)|].
  destruct (N.eqb_spec t 198) as [->|N198]; [apply post_lifti; intros x E; exact (ServingPlmnRateControl_says m _ _ E)|].
  destruct (N.eqb_spec t 199) as [->|N199]; [apply post_lifti; intros x E; exact (Counter_says m _ _ E)|].
  destruct (N.eqb_spec t 200) as [->|N200]; [apply post_lifti; intros x E; exact (MappedUeUsageType_says m _ _ E)|].
  destruct (N.eqb_spec t 201) as [->|N201]; [apply post_lifti; intros x E; exact (SecondaryRatUsageDataReport_says m _ _ E)|].
  destruct (N.eqb_spec t 202) as [->|N202]; [apply post_lifti; intros x E; exact (UpFunctionSelectionIndicationFlags_says m _ _ E)|].
  destruct (N.eqb_spec t 203) as [->|N203]; [apply post_lifti; intros x E; exact (MaxPacketLossRate_says m _ _ E)|].
  destruct (N.eqb_spec t 204) as [->|N204]; [apply post_lifti; intros x E; exact (ApnRateControlStatus_says m _ _ E)|].
  destruct (N.eqb_spec t 205) as [->|N205]; [apply post_lifti; intros x E; exact (ExtendedTraceInformation_says m _ _ E)|].
  destruct (N.eqb_spec t 206) as [->|N206]; [apply post_lifti; intros x E; exact (MonitoringEventExtensionInfo_says m _ _ E)|].
  destruct (N.eqb_spec t 207) as [->|N207]; [apply post_lifti; intros x E; exact (AdditionalRrmPolicyIndex_says m _ _ E)|].
  destruct (N.eqb_spec t 208) as [->|N208]; [apply post_lifti; intros x E; exact (V2xInformation_says dec m _ _ E)|].
  destruct (N.eqb_spec t 209) as [->|N209]; [apply post_lifti; intros x E; exact (PC5QosParameters_says dec m _ _ E)|].
  destruct (N.eqb_spec t 210) as [->|N210]; [apply post_lifti; intros x E; exact (ServicesAuthorized_says m _ _ E)|].
  destruct (N.eqb_spec t 211) as [->|N211]; [apply post_lifti; intros x E; exact (BitRate_says m _ _ E)|].
  destruct (N.eqb_spec t 212) as [->|N212]; [apply post_lifti; intros x E; exact (PC5QosFlow_says m _ _ E)|].
  destruct (N.eqb_spec t 213) as [->|N213]; [apply post_lifti; intros x E; exact (SgiPtpTunnelAddress_says m _ _ E)|].
  destruct (N.eqb_spec t 214) as [->|N214]; [apply post_lifti; intros x E; exact (PgwChangeInfo_says dec m _ _ E)|].
  destruct (N.eqb_spec t 215) as [->|N215]; [apply post_lifti; intros x E; exact (PgwFqdn_says m _ _ E)|].
  destruct (N.eqb_spec t 216) as [->|N216]; [apply post_lifti; intros x E; exact (GroupId_says m _ _ E)|].
  destruct (N.eqb_spec t 217) as [->|N217]; [apply post_lifti; intros x E; exact (PSCellId_says m _ _ E)|].
  destruct (N.eqb_spec t 218) as [->|N218]; [apply post_lifti; intros x E; exact (UpSecurityPolicy_says m _ _ E)|].
  destruct (N.eqb_spec t 219) as [->|N219]; [apply post_lifti; intros x E; exact (AlternativeImsi_says m _ _ E)|].
  destruct (N.eqb_spec t 254) as [->|N254]; [apply post_lifti; intros x E; exact (SpecialIEWithTypeExt_says m _ _ E)|].
  destruct (N.eqb_spec t 255) as [->|N255]; [apply post_lifti; intros x E; exact (PrivateExtension_says m _ _ E)|].
  apply post_lifti. intros x E. destruct (Unknown_says m _ _ E) as [A B].
  assert (U : assigned_code t = false).
  { destruct (assigned_code t) eqn:C; [exfalso|reflexivity]. unfold assigned_code in C. rewrite existsb_exists in C. destruct C as (c & C & X). apply N.eqb_eq in X. subst c.
    cbn [In] in C. repeat (destruct C as [C|C]; [symmetry in C; contradiction|]). exact C. }
  unfold reports, told_type, told_ins. change (nth 0 b 0) with t. rewrite U. cbn [andb].
  destruct (N.eqb_spec t 115); [contradiction|]. destruct (N.eqb_spec t 169); [contradiction|]. split; assumption.
Qed.
