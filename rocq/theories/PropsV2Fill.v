(* PropsV2Fill.v - C100 for GTPv2-C: the length and type fields that a program puts into an element, and the length in the
   header, do not change what is sent. *)
From Verif Require Import Base BaseFacts V2Base V2Decoder V2Msg V2DecFacts.
From Verif Require Import PropsV2Report.
Local Open Scope N_scope.

(* The element with another type in its type field; [with_length] of PropsV2Report.v changes the length field. *)
Definition put_type {A} (t : N) (i : Tliv A) : Tliv A := mkIe t (ie_length i) (ie_ins i) (ie_v i).
Definition with_type (t : N) (e : ie) : ie :=
  match e with
  | IE_Imsi i => IE_Imsi (put_type t i)
  | IE_Cause i => IE_Cause (put_type t i)
  | IE_Recovery i => IE_Recovery (put_type t i)
  | IE_StnSr i => IE_StnSr (put_type t i)
  | IE_SrvccCause i => IE_SrvccCause (put_type t i)
  | IE_Apn i => IE_Apn (put_type t i)
  | IE_ApnAmbr i => IE_ApnAmbr (put_type t i)
  | IE_Ebi i => IE_Ebi (put_type t i)
  | IE_IpAddress i => IE_IpAddress (put_type t i)
  | IE_Mei i => IE_Mei (put_type t i)
  | IE_Msisdn i => IE_Msisdn (put_type t i)
  | IE_Indication i => IE_Indication (put_type t i)
  | IE_Pco i => IE_Pco (put_type t i)
  | IE_PdnAddressAllocation i => IE_PdnAddressAllocation (put_type t i)
  | IE_BearerQos i => IE_BearerQos (put_type t i)
  | IE_FlowQos i => IE_FlowQos (put_type t i)
  | IE_RatType i => IE_RatType (put_type t i)
  | IE_ServingNetwork i => IE_ServingNetwork (put_type t i)
  | IE_BearerTft i => IE_BearerTft (put_type t i)
  | IE_TrafficAggregateDescription i => IE_TrafficAggregateDescription (put_type t i)
  | IE_Uli i => IE_Uli (put_type t i)
  | IE_Fteid i => IE_Fteid (put_type t i)
  | IE_Tmsi i => IE_Tmsi (put_type t i)
  | IE_GlobalCnId i => IE_GlobalCnId (put_type t i)
  | IE_S103pdf i => IE_S103pdf (put_type t i)
  | IE_S1udf i => IE_S1udf (put_type t i)
  | IE_DelayValue i => IE_DelayValue (put_type t i)
  | IE_BearerContext i => IE_BearerContext (put_type t i)
  | IE_ChargingId i => IE_ChargingId (put_type t i)
  | IE_ChargingCharacteristics i => IE_ChargingCharacteristics (put_type t i)
  | IE_TraceInformation i => IE_TraceInformation (put_type t i)
  | IE_BearerFlags i => IE_BearerFlags (put_type t i)
  | IE_PdnType i => IE_PdnType (put_type t i)
  | IE_Pti i => IE_Pti (put_type t i)
  | IE_MmContext i => IE_MmContext (match i with
      | MmEps i => MmEps (put_type t i) | MmUmtsQ i => MmUmtsQ (put_type t i) | MmUmtsQq i => MmUmtsQq (put_type t i)
      | MmUmtsCq i => MmUmtsCq (put_type t i) | MmGsmT i => MmGsmT (put_type t i) | MmGsmCq i => MmGsmCq (put_type t i) end)
  | IE_PdnConnections i => IE_PdnConnections (put_type t i)
  | IE_PduNumbers i => IE_PduNumbers (put_type t i)
  | IE_Ptmsi i => IE_Ptmsi (put_type t i)
  | IE_PtmsiSignature i => IE_PtmsiSignature (put_type t i)
  | IE_HopCounter i => IE_HopCounter (put_type t i)
  | IE_UeTimeZone i => IE_UeTimeZone (put_type t i)
  | IE_TraceReference i => IE_TraceReference (put_type t i)
  | IE_CompleteRequestMessage i => IE_CompleteRequestMessage (put_type t i)
  | IE_Guti i => IE_Guti (put_type t i)
  | IE_Fcontainer i => IE_Fcontainer (put_type t i)
  | IE_Fcause i => IE_Fcause (put_type t i)
  | IE_PlmnId i => IE_PlmnId (put_type t i)
  | IE_TargetIdentification i => IE_TargetIdentification (put_type t i)
  | IE_PacketFlowId i => IE_PacketFlowId (put_type t i)
  | IE_RabContext i => IE_RabContext (put_type t i)
  | IE_SrcRncPdcpCtxInfo i => IE_SrcRncPdcpCtxInfo (put_type t i)
  | IE_PortNumber i => IE_PortNumber (put_type t i)
  | IE_ApnRestriction i => IE_ApnRestriction (put_type t i)
  | IE_SelectionMode i => IE_SelectionMode (put_type t i)
  | IE_SourceIdentification i => IE_SourceIdentification (put_type t i)
  | IE_ChangeReportingAction i => IE_ChangeReportingAction (put_type t i)
  | IE_Fqcsid i => IE_Fqcsid (put_type t i)
  | IE_ChannelNeeded i => IE_ChannelNeeded (put_type t i)
  | IE_EmlppPriority i => IE_EmlppPriority (put_type t i)
  | IE_NodeType i => IE_NodeType (put_type t i)
  | IE_Fqdn i => IE_Fqdn (put_type t i)
  | IE_TransactionIdentifier i => IE_TransactionIdentifier (put_type t i)
  | IE_MbmsSa i => IE_MbmsSa (put_type t i)
  | IE_MbmsSd i => IE_MbmsSd (put_type t i)
  | IE_MbmsSessionId i => IE_MbmsSessionId (put_type t i)
  | IE_MbmsFlowId i => IE_MbmsFlowId (put_type t i)
  | IE_MbmsIpMulticastDistribution i => IE_MbmsIpMulticastDistribution (put_type t i)
  | IE_MbmsDistributionAck i => IE_MbmsDistributionAck (put_type t i)
  | IE_RfspIndex i => IE_RfspIndex (put_type t i)
  | IE_Uci i => IE_Uci (put_type t i)
  | IE_CSGInformationReportingAction i => IE_CSGInformationReportingAction (put_type t i)
  | IE_CsgId i => IE_CsgId (put_type t i)
  | IE_CsgMembershipIndication i => IE_CsgMembershipIndication (put_type t i)
  | IE_ServiceIndicator i => IE_ServiceIndicator (put_type t i)
  | IE_DetachType i => IE_DetachType (put_type t i)
  | IE_Ldn i => IE_Ldn (put_type t i)
  | IE_NodeFeatures i => IE_NodeFeatures (put_type t i)
  | IE_MbmsTimeToDataTransfer i => IE_MbmsTimeToDataTransfer (put_type t i)
  | IE_Throttling i => IE_Throttling (put_type t i)
  | IE_Arp i => IE_Arp (put_type t i)
  | IE_EpcTimer i => IE_EpcTimer (put_type t i)
  | IE_Spi i => IE_Spi (put_type t i)
  | IE_Tmgi i => IE_Tmgi (put_type t i)
  | IE_AdditionalMmContextForSrvcc i => IE_AdditionalMmContextForSrvcc (put_type t i)
  | IE_AdditionalFlagsSrvcc i => IE_AdditionalFlagsSrvcc (put_type t i)
  | IE_MdtConfiguration i => IE_MdtConfiguration (put_type t i)
  | IE_Apco i => IE_Apco (put_type t i)
  | IE_AbsoluteTimeMbmsDataTransfer i => IE_AbsoluteTimeMbmsDataTransfer (put_type t i)
  | IE_HenbInfoReporting i => IE_HenbInfoReporting (put_type t i)
  | IE_Ip4Cp i => IE_Ip4Cp (put_type t i)
  | IE_ChangeToReportFlags i => IE_ChangeToReportFlags (put_type t i)
  | IE_ActionIndication i => IE_ActionIndication (put_type t i)
  | IE_TwanId i => IE_TwanId (put_type t i)
  | IE_UliTimestamp i => IE_UliTimestamp (put_type t i)
  | IE_MbmsFlags i => IE_MbmsFlags (put_type t i)
  | IE_RanNasCause i => IE_RanNasCause (put_type t i)
  | IE_CnOperatorSelectionEntity i => IE_CnOperatorSelectionEntity (put_type t i)
  | IE_Twmi i => IE_Twmi (put_type t i)
  | IE_NodeNumber i => IE_NodeNumber (put_type t i)
  | IE_NodeIdentifier i => IE_NodeIdentifier (put_type t i)
  | IE_PresenceReportingAreaAction i => IE_PresenceReportingAreaAction (put_type t i)
  | IE_PresenceReportingAreaInformation i => IE_PresenceReportingAreaInformation (put_type t i)
  | IE_TwanIdTimeStamp i => IE_TwanIdTimeStamp (put_type t i)
  | IE_OverloadControlInfo i => IE_OverloadControlInfo (put_type t i)
  | IE_LoadControlInfo i => IE_LoadControlInfo (put_type t i)
  | IE_Metric i => IE_Metric (put_type t i)
  | IE_Sqn i => IE_Sqn (put_type t i)
  | IE_ApnRelativeCapacity i => IE_ApnRelativeCapacity (put_type t i)
  | IE_WlanOffloadIndication i => IE_WlanOffloadIndication (put_type t i)
  | IE_PagingServiceInfo i => IE_PagingServiceInfo (put_type t i)
  | IE_IntegerNumber i => IE_IntegerNumber (put_type t i)
  | IE_MilliSecondTimeStamp i => IE_MilliSecondTimeStamp (put_type t i)
  | IE_MonitoringEventInformation i => IE_MonitoringEventInformation (put_type t i)
  | IE_EcgiList i => IE_EcgiList (put_type t i)
  | IE_RemoteUeContext i => IE_RemoteUeContext (put_type t i)
  | IE_RemoteUserId i => IE_RemoteUserId (put_type t i)
  | IE_RemoteUeIpInformation i => IE_RemoteUeIpInformation (put_type t i)
  | IE_CIoTOptimizationSupportIndication i => IE_CIoTOptimizationSupportIndication (put_type t i)
  | IE_ScefPdnConnections i => IE_ScefPdnConnections (put_type t i)
  | IE_HeaderCompressionConfiguration i => IE_HeaderCompressionConfiguration (put_type t i)
  | IE_Epco i => IE_Epco (put_type t i)
  | IE_ServingPlmnRateControl i => IE_ServingPlmnRateControl (put_type t i)
  | IE_Counter i => IE_Counter (put_type t i)
  | IE_MappedUeUsageType i => IE_MappedUeUsageType (put_type t i)
  | IE_SecondaryRatUsageDataReport i => IE_SecondaryRatUsageDataReport (put_type t i)
  | IE_UpFunctionSelectionIndicationFlags i => IE_UpFunctionSelectionIndicationFlags (put_type t i)
  | IE_MaxPacketLossRate i => IE_MaxPacketLossRate (put_type t i)
  | IE_ApnRateControlStatus i => IE_ApnRateControlStatus (put_type t i)
  | IE_ExtendedTraceInformation i => IE_ExtendedTraceInformation (put_type t i)
  | IE_MonitoringEventExtensionInfo i => IE_MonitoringEventExtensionInfo (put_type t i)
  | IE_AdditionalRrmPolicyIndex i => IE_AdditionalRrmPolicyIndex (put_type t i)
  | IE_V2xInformation i => IE_V2xInformation (put_type t i)
  | IE_PC5QosParameters i => IE_PC5QosParameters (put_type t i)
  | IE_ServicesAuthorized i => IE_ServicesAuthorized (put_type t i)
  | IE_BitRate i => IE_BitRate (put_type t i)
  | IE_PC5QosFlow i => IE_PC5QosFlow (put_type t i)
  | IE_SgiPtpTunnelAddress i => IE_SgiPtpTunnelAddress (put_type t i)
  | IE_PgwChangeInfo i => IE_PgwChangeInfo (put_type t i)
  | IE_PgwFqdn i => IE_PgwFqdn (put_type t i)
  | IE_GroupId i => IE_GroupId (put_type t i)
  | IE_PSCellId i => IE_PSCellId (put_type t i)
  | IE_UpSecurityPolicy i => IE_UpSecurityPolicy (put_type t i)
  | IE_AlternativeImsi i => IE_AlternativeImsi (put_type t i)
  | IE_SpecialIEWithTypeExt i => IE_SpecialIEWithTypeExt (put_type t i)
  | IE_PrivateExtension i => IE_PrivateExtension (put_type t i)
  | IE_Unknown i => IE_Unknown (put_type t i)
  end.

(* The kinds sent with the type in their type field: a user location and an element of a type the library does not know. *)
Definition sends_its_type (e : ie) : Prop := match e with IE_Uli _ | IE_Unknown _ => True | _ => False end.
(* The same octets but the first, which is [t]. *)
Definition first_replaced (t : N) (b b' : list N) : Prop := exists o r, b = o :: r /\ b' = t :: r.
(* A grouped element of code [k] and instance [i], and the elements sent inside it, in order. *)
Inductive inside : ie -> N -> N -> list ie -> Prop :=
| inside_LoadControlInfo x : inside (IE_LoadControlInfo x) 181 (ie_ins x) (LoadControl_members (ie_v x))
| inside_OverloadControlInfo x : inside (IE_OverloadControlInfo x) 180 (ie_ins x) (OverloadControlInfo_members (ie_v x))
| inside_RemoteUeContext x : inside (IE_RemoteUeContext x) 191 (ie_ins x) (RemoteUeContext_members (ie_v x))
| inside_PC5QosParameters x : inside (IE_PC5QosParameters x) 209 (ie_ins x) (PC5QosParameters_members (ie_v x))
| inside_PgwChangeInfo x : inside (IE_PgwChangeInfo x) 214 (ie_ins x) (PgwChangeInfo_members (ie_v x))
| inside_ScefPdnConnections x : inside (IE_ScefPdnConnections x) 195 (ie_ins x) (ScefPdnConnections_members (ie_v x))
| inside_BearerContext x : inside (IE_BearerContext x) 93 (ie_ins x) (BearerContext_members (ie_v x))
| inside_V2xInformation x : inside (IE_V2xInformation x) 208 (ie_ins x) (V2xInformation_members (ie_v x))
| inside_PdnConnections x : inside (IE_PdnConnections x) 109 (ie_ins x) (PdnConnections_members (ie_v x)).
(* Two elements that differ at most in their length fields and in those of the elements inside them, at any depth (and, if they
   are grouped, in what is not sent). *)
Inductive but_length : ie -> ie -> Prop :=
| bl_field e n : but_length e (with_length n e)
| bl_inside e e' k i l l' : inside e k i l -> inside e' k i l' -> all_but_length l l' -> but_length e e'
with all_but_length : list ie -> list ie -> Prop :=
| bl_nil : all_but_length [] []
| bl_cons e e' l l' : but_length e e' -> all_but_length l l' -> all_but_length (e :: l) (e' :: l').
(* Two messages that differ at most in those and in the length in the header. *)
Definition but_lengths (x x' : message) : Prop :=
  (exists n, msg_header x' = mkHdr2 (h2_msgtype (msg_header x)) (h2_piggyback (msg_header x)) (h2_prio (msg_header x)) n
                               (h2_teid (msg_header x)) (h2_sqn (msg_header x))) /\
  Forall2 (Forall2 but_length) (msg_fields x) (msg_fields x').

(* --- facts ------------------------------------------------------------------------------------------------------------ *)
Lemma fill_tliv t l l' ins v : tliv t l ins v = tliv t l' ins v.
Proof. reflexivity. Qed.
Lemma fill_ie {A} T (value : A -> list N) n x : marshal_ie T value (put_length n x) = marshal_ie T value x.
Proof. destruct x. apply fill_tliv. Qed.
Lemma fill_ie_t {A} T (value : A -> list N) t x : marshal_ie T value (put_type t x) = marshal_ie T value x.
Proof. destruct x. reflexivity. Qed.

Theorem C100_element_length : forall n e, ie_marshal (with_length n e) = ie_marshal e.
Proof.
  intros n e. destruct e as []. all: cbn [with_length ie_marshal]; try apply fill_ie; try reflexivity.
  all: match goal with |- context [match ?i with MmEps _ => _ | _ => _ end] => destruct i end; apply fill_ie.
Qed.
Print Assumptions C100_element_length.

Theorem C100_element_type : forall t e, ~ sends_its_type e -> ie_marshal (with_type t e) = ie_marshal e.
Proof.
  intros t e H. destruct e as []. all: cbn [with_type ie_marshal]; try apply fill_ie_t; try reflexivity.
  all: try (exfalso; apply H; exact I).
  all: match goal with |- context [match ?i with MmEps _ => _ | _ => _ end] => destruct i end; apply fill_ie_t.
Qed.
Print Assumptions C100_element_type.

Theorem C100_element_type_sent : forall t e, sends_its_type e -> first_replaced t (ie_marshal e) (ie_marshal (with_type t e)).
Proof.
  intros t e H. destruct e as []. all: try (exfalso; exact H).
  all: cbn [with_type ie_marshal]; unfold Uli_marshal, Unknown_marshal, marshal_ie, tliv, set_tliv_ie_length, nlen.
  all: match goal with |- context [put_type _ ?x] => destruct x as [a l i v] end.
  all: cbn [put_type ie_t ie_length ie_ins ie_v app length enc16 set_nth]; eexists; eexists; split; reflexivity.
Qed.
Print Assumptions C100_element_type_sent.

Lemma inside_octets e k i l : inside e k i l -> ie_marshal e = tliv k 0 i (encoder l).
Proof.
  intros []; rewrite ?LoadControl_members_value, ?OverloadControlInfo_members_value, ?RemoteUeContext_members_value,
    ?PC5QosParameters_members_value, ?PgwChangeInfo_members_value, ?ScefPdnConnections_members_value, ?BearerContext_members_value,
    ?V2xInformation_members_value, ?PdnConnections_members_value; reflexivity.
Qed.
Scheme but_length_min := Minimality for but_length Sort Prop
  with all_but_length_min := Minimality for all_but_length Sort Prop.

Theorem C100_element : forall e e', but_length e e' -> ie_marshal e' = ie_marshal e.
Proof.
  apply (but_length_min (fun e e' => ie_marshal e' = ie_marshal e) (fun l l' => encoder l' = encoder l)).
  - intros e n. apply C100_element_length.
  - intros e e' k i l l' H H' _ IH. rewrite (inside_octets _ _ _ _ H), (inside_octets _ _ _ _ H'), IH. reflexivity.
  - reflexivity.
  - intros e e' l l' _ H _ IH. unfold encoder in *. cbn [map concat]. rewrite H, IH. reflexivity.
Qed.
Print Assumptions C100_element.

Lemma but_length_octets l l' : Forall2 but_length l l' -> encoder l' = encoder l.
Proof.
  induction 1 as [|e e' l l' H _ IH]; [reflexivity|]. unfold encoder in *. cbn [map concat].
  rewrite (C100_element _ _ H), IH. reflexivity.
Qed.
Lemma but_length_nth x x' i : Forall2 (Forall2 but_length) x x' -> Forall2 but_length (nth i x []) (nth i x' []).
Proof. intros H. revert i. induction H; intros [|i]; cbn [nth]; auto. Qed.
Lemma but_length_tovec d x x' : Forall2 (Forall2 but_length) x x' -> Forall2 but_length (tovec d x) (tovec d x').
Proof.
  intros H. unfold tovec. induction (md_tovec d) as [|i r IH]; cbn [map concat]; [constructor|].
  apply Forall2_app; [apply but_length_nth, H|exact IH].
Qed.

Theorem C100_message : forall d x x', but_lengths x x' -> msg_marshal d x' [] = msg_marshal d x [].
Proof.
  intros d [h f] [h' f'] [[n E] F]. cbn [msg_header msg_fields] in *. subst h'. unfold msg_marshal. cbn [msg_header msg_fields].
  rewrite (but_length_octets _ _ (but_length_tovec d _ _ F)). reflexivity.
Qed.
Print Assumptions C100_message.

(* A restart counter of 17 and an element of unknown type, with any numbers in their length and type fields. *)
Example C100_case : forall n t,
  ie_marshal (with_type t (with_length n (IE_Recovery (mkIe 3 1 0 17)))) = [3; 0; 1; 0; 17] /\
  first_replaced t [250; 0; 2; 1; 8; 9] (ie_marshal (with_type t (with_length n (IE_Unknown (mkIe 250 2 1 [8; 9]))))).
Proof.
  intros n t. split; [reflexivity|]. exists 250, [0; 2; 1; 8; 9]. split; reflexivity.
Qed.

(* An echo request with a restart counter, with any lengths in the header and in the element. *)
Example C100_message_case : forall d n k, md_tovec d = [0%nat] ->
  msg_marshal d (mkMsg (mkHdr2 1 false None k None 9) [[IE_Recovery (mkIe 3 n 0 17)]]) [] =
    [64; 1; 0; 9; 0; 0; 9; 0; 3; 0; 1; 0; 17] /\
  but_lengths (mkMsg (mkHdr2 1 false None 9 None 9) [[IE_Recovery (mkIe 3 1 0 17)]])
              (mkMsg (mkHdr2 1 false None k None 9) [[IE_Recovery (mkIe 3 n 0 17)]]).
Proof.
  intros d n k H. split.
  - unfold msg_marshal, tovec. rewrite H. reflexivity.
  - split; [exists k; reflexivity|]. repeat constructor. exact (bl_field (IE_Recovery (mkIe 3 1 0 17)) n).
Qed.

(* A load control with any length of its own and in the two elements inside it. *)
Example C100_inside_case : forall n k j, let x n k j := IE_LoadControlInfo (mkIe 181 n 0 (mkLoadControl (mkIe 183 k 0 77) (mkIe 182 j 0 50) None)) in
  but_length (x 13 4 1) (x n k j) /\ ie_marshal (x n k j) = [181; 0; 13; 0; 183; 0; 4; 0; 0; 0; 0; 77; 182; 0; 1; 0; 50].
Proof.
  intros n k j x. split; [|reflexivity].
  eapply bl_inside; [apply (inside_LoadControlInfo (mkIe 181 13 0 _))|apply (inside_LoadControlInfo (mkIe 181 n 0 _))|].
  constructor; [exact (bl_field (IE_Sqn (mkIe 183 4 0 77)) k)|].
  constructor; [exact (bl_field (IE_Metric (mkIe 182 1 0 50)) j)|constructor].
Qed.
