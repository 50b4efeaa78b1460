(* PropsV2Report.v - C78: what a GTPv2-C element tells about itself. *)
From Verif Require Import Base BaseFacts V2Decoder V2WireSpec V2DecFacts V2DecMore V2Defaults V2Report V2DecLoop.
Local Open Scope N_scope.

(* --- specification --------------------------------------------------------------------------------------------------- *)
(* An element starts with an octet with its type, two with its length and one with its instance in the low four bits. *)
Definition type_octet (b : list N) : N := nth 0 b 0.
Definition length_octets (b : list N) : N := 256 * nth 1 b 0 + nth 2 b 0.
Definition instance_octet (b : list N) : N := nth 3 b 0.
(* the two octets after the header *)
Definition type_extension (b : list N) : N := 256 * nth 4 b 0 + nth 5 b 0.
(* A code that is not that of a kind of element the library knows (C21, C22). *)
Definition unknown_type (t : N) : Prop := forall x, has_code (IE_Unknown x) t.
(* REMARK: the kinds whose decoders keep the four spare bits of the instance octet: Bearer Context, PDN Connection, P-TMSI,
   Target Identification, Source Identification, Node Type, MBMS IP Multicast Distribution, CMI, MBMS Time to Data Transfer,
   TMGI, Overload Control Information, Load Control Information, Remote UE Context, SCEF PDN Connection, Extended Trace
   Information, V2X Information, PC5 QoS Parameters, PGW Change Info *)
Definition spare_bits_kept : list N := [93; 109; 111; 121; 129; 135; 142; 148; 153; 158; 180; 181; 191; 195; 205; 208; 209; 214].

(* The element with another number in its length field. *)
Definition put_length {A} (n : N) (i : Tliv A) : Tliv A := mkIe (ie_t i) n (ie_ins i) (ie_v i).
Definition with_length (n : N) (e : ie) : ie :=
  match e with
  | IE_Imsi i => IE_Imsi (put_length n i)
  | IE_Cause i => IE_Cause (put_length n i)
  | IE_Recovery i => IE_Recovery (put_length n i)
  | IE_StnSr i => IE_StnSr (put_length n i)
  | IE_SrvccCause i => IE_SrvccCause (put_length n i)
  | IE_Apn i => IE_Apn (put_length n i)
  | IE_ApnAmbr i => IE_ApnAmbr (put_length n i)
  | IE_Ebi i => IE_Ebi (put_length n i)
  | IE_IpAddress i => IE_IpAddress (put_length n i)
  | IE_Mei i => IE_Mei (put_length n i)
  | IE_Msisdn i => IE_Msisdn (put_length n i)
  | IE_Indication i => IE_Indication (put_length n i)
  | IE_Pco i => IE_Pco (put_length n i)
  | IE_PdnAddressAllocation i => IE_PdnAddressAllocation (put_length n i)
  | IE_BearerQos i => IE_BearerQos (put_length n i)
  | IE_FlowQos i => IE_FlowQos (put_length n i)
  | IE_RatType i => IE_RatType (put_length n i)
  | IE_ServingNetwork i => IE_ServingNetwork (put_length n i)
  | IE_BearerTft i => IE_BearerTft (put_length n i)
  | IE_TrafficAggregateDescription i => IE_TrafficAggregateDescription (put_length n i)
  | IE_Uli i => IE_Uli (put_length n i)
  | IE_Fteid i => IE_Fteid (put_length n i)
  | IE_Tmsi i => IE_Tmsi (put_length n i)
  | IE_GlobalCnId i => IE_GlobalCnId (put_length n i)
  | IE_S103pdf i => IE_S103pdf (put_length n i)
  | IE_S1udf i => IE_S1udf (put_length n i)
  | IE_DelayValue i => IE_DelayValue (put_length n i)
  | IE_BearerContext i => IE_BearerContext (put_length n i)
  | IE_ChargingId i => IE_ChargingId (put_length n i)
  | IE_ChargingCharacteristics i => IE_ChargingCharacteristics (put_length n i)
  | IE_TraceInformation i => IE_TraceInformation (put_length n i)
  | IE_BearerFlags i => IE_BearerFlags (put_length n i)
  | IE_PdnType i => IE_PdnType (put_length n i)
  | IE_Pti i => IE_Pti (put_length n i)
  | IE_MmContext i => IE_MmContext (match i with
      | MmEps i => MmEps (put_length n i) | MmUmtsQ i => MmUmtsQ (put_length n i) | MmUmtsQq i => MmUmtsQq (put_length n i)
      | MmUmtsCq i => MmUmtsCq (put_length n i) | MmGsmT i => MmGsmT (put_length n i) | MmGsmCq i => MmGsmCq (put_length n i) end)
  | IE_PdnConnections i => IE_PdnConnections (put_length n i)
  | IE_PduNumbers i => IE_PduNumbers (put_length n i)
  | IE_Ptmsi i => IE_Ptmsi (put_length n i)
  | IE_PtmsiSignature i => IE_PtmsiSignature (put_length n i)
  | IE_HopCounter i => IE_HopCounter (put_length n i)
  | IE_UeTimeZone i => IE_UeTimeZone (put_length n i)
  | IE_TraceReference i => IE_TraceReference (put_length n i)
  | IE_CompleteRequestMessage i => IE_CompleteRequestMessage (put_length n i)
  | IE_Guti i => IE_Guti (put_length n i)
  | IE_Fcontainer i => IE_Fcontainer (put_length n i)
  | IE_Fcause i => IE_Fcause (put_length n i)
  | IE_PlmnId i => IE_PlmnId (put_length n i)
  | IE_TargetIdentification i => IE_TargetIdentification (put_length n i)
  | IE_PacketFlowId i => IE_PacketFlowId (put_length n i)
  | IE_RabContext i => IE_RabContext (put_length n i)
  | IE_SrcRncPdcpCtxInfo i => IE_SrcRncPdcpCtxInfo (put_length n i)
  | IE_PortNumber i => IE_PortNumber (put_length n i)
  | IE_ApnRestriction i => IE_ApnRestriction (put_length n i)
  | IE_SelectionMode i => IE_SelectionMode (put_length n i)
  | IE_SourceIdentification i => IE_SourceIdentification (put_length n i)
  | IE_ChangeReportingAction i => IE_ChangeReportingAction (put_length n i)
  | IE_Fqcsid i => IE_Fqcsid (put_length n i)
  | IE_ChannelNeeded i => IE_ChannelNeeded (put_length n i)
  | IE_EmlppPriority i => IE_EmlppPriority (put_length n i)
  | IE_NodeType i => IE_NodeType (put_length n i)
  | IE_Fqdn i => IE_Fqdn (put_length n i)
  | IE_TransactionIdentifier i => IE_TransactionIdentifier (put_length n i)
  | IE_MbmsSa i => IE_MbmsSa (put_length n i)
  | IE_MbmsSd i => IE_MbmsSd (put_length n i)
  | IE_MbmsSessionId i => IE_MbmsSessionId (put_length n i)
  | IE_MbmsFlowId i => IE_MbmsFlowId (put_length n i)
  | IE_MbmsIpMulticastDistribution i => IE_MbmsIpMulticastDistribution (put_length n i)
  | IE_MbmsDistributionAck i => IE_MbmsDistributionAck (put_length n i)
  | IE_RfspIndex i => IE_RfspIndex (put_length n i)
  | IE_Uci i => IE_Uci (put_length n i)
  | IE_CSGInformationReportingAction i => IE_CSGInformationReportingAction (put_length n i)
  | IE_CsgId i => IE_CsgId (put_length n i)
  | IE_CsgMembershipIndication i => IE_CsgMembershipIndication (put_length n i)
  | IE_ServiceIndicator i => IE_ServiceIndicator (put_length n i)
  | IE_DetachType i => IE_DetachType (put_length n i)
  | IE_Ldn i => IE_Ldn (put_length n i)
  | IE_NodeFeatures i => IE_NodeFeatures (put_length n i)
  | IE_MbmsTimeToDataTransfer i => IE_MbmsTimeToDataTransfer (put_length n i)
  | IE_Throttling i => IE_Throttling (put_length n i)
  | IE_Arp i => IE_Arp (put_length n i)
  | IE_EpcTimer i => IE_EpcTimer (put_length n i)
  | IE_Spi i => IE_Spi (put_length n i)
  | IE_Tmgi i => IE_Tmgi (put_length n i)
  | IE_AdditionalMmContextForSrvcc i => IE_AdditionalMmContextForSrvcc (put_length n i)
  | IE_AdditionalFlagsSrvcc i => IE_AdditionalFlagsSrvcc (put_length n i)
  | IE_MdtConfiguration i => IE_MdtConfiguration (put_length n i)
  | IE_Apco i => IE_Apco (put_length n i)
  | IE_AbsoluteTimeMbmsDataTransfer i => IE_AbsoluteTimeMbmsDataTransfer (put_length n i)
  | IE_HenbInfoReporting i => IE_HenbInfoReporting (put_length n i)
  | IE_Ip4Cp i => IE_Ip4Cp (put_length n i)
  | IE_ChangeToReportFlags i => IE_ChangeToReportFlags (put_length n i)
  | IE_ActionIndication i => IE_ActionIndication (put_length n i)
  | IE_TwanId i => IE_TwanId (put_length n i)
  | IE_UliTimestamp i => IE_UliTimestamp (put_length n i)
  | IE_MbmsFlags i => IE_MbmsFlags (put_length n i)
  | IE_RanNasCause i => IE_RanNasCause (put_length n i)
  | IE_CnOperatorSelectionEntity i => IE_CnOperatorSelectionEntity (put_length n i)
  | IE_Twmi i => IE_Twmi (put_length n i)
  | IE_NodeNumber i => IE_NodeNumber (put_length n i)
  | IE_NodeIdentifier i => IE_NodeIdentifier (put_length n i)
  | IE_PresenceReportingAreaAction i => IE_PresenceReportingAreaAction (put_length n i)
  | IE_PresenceReportingAreaInformation i => IE_PresenceReportingAreaInformation (put_length n i)
  | IE_TwanIdTimeStamp i => IE_TwanIdTimeStamp (put_length n i)
  | IE_OverloadControlInfo i => IE_OverloadControlInfo (put_length n i)
  | IE_LoadControlInfo i => IE_LoadControlInfo (put_length n i)
  | IE_Metric i => IE_Metric (put_length n i)
  | IE_Sqn i => IE_Sqn (put_length n i)
  | IE_ApnRelativeCapacity i => IE_ApnRelativeCapacity (put_length n i)
  | IE_WlanOffloadIndication i => IE_WlanOffloadIndication (put_length n i)
  | IE_PagingServiceInfo i => IE_PagingServiceInfo (put_length n i)
  | IE_IntegerNumber i => IE_IntegerNumber (put_length n i)
  | IE_MilliSecondTimeStamp i => IE_MilliSecondTimeStamp (put_length n i)
  | IE_MonitoringEventInformation i => IE_MonitoringEventInformation (put_length n i)
  | IE_EcgiList i => IE_EcgiList (put_length n i)
  | IE_RemoteUeContext i => IE_RemoteUeContext (put_length n i)
  | IE_RemoteUserId i => IE_RemoteUserId (put_length n i)
  | IE_RemoteUeIpInformation i => IE_RemoteUeIpInformation (put_length n i)
  | IE_CIoTOptimizationSupportIndication i => IE_CIoTOptimizationSupportIndication (put_length n i)
  | IE_ScefPdnConnections i => IE_ScefPdnConnections (put_length n i)
  | IE_HeaderCompressionConfiguration i => IE_HeaderCompressionConfiguration (put_length n i)
  | IE_Epco i => IE_Epco (put_length n i)
  | IE_ServingPlmnRateControl i => IE_ServingPlmnRateControl (put_length n i)
  | IE_Counter i => IE_Counter (put_length n i)
  | IE_MappedUeUsageType i => IE_MappedUeUsageType (put_length n i)
  | IE_SecondaryRatUsageDataReport i => IE_SecondaryRatUsageDataReport (put_length n i)
  | IE_UpFunctionSelectionIndicationFlags i => IE_UpFunctionSelectionIndicationFlags (put_length n i)
  | IE_MaxPacketLossRate i => IE_MaxPacketLossRate (put_length n i)
  | IE_ApnRateControlStatus i => IE_ApnRateControlStatus (put_length n i)
  | IE_ExtendedTraceInformation i => IE_ExtendedTraceInformation (put_length n i)
  | IE_MonitoringEventExtensionInfo i => IE_MonitoringEventExtensionInfo (put_length n i)
  | IE_AdditionalRrmPolicyIndex i => IE_AdditionalRrmPolicyIndex (put_length n i)
  | IE_V2xInformation i => IE_V2xInformation (put_length n i)
  | IE_PC5QosParameters i => IE_PC5QosParameters (put_length n i)
  | IE_ServicesAuthorized i => IE_ServicesAuthorized (put_length n i)
  | IE_BitRate i => IE_BitRate (put_length n i)
  | IE_PC5QosFlow i => IE_PC5QosFlow (put_length n i)
  | IE_SgiPtpTunnelAddress i => IE_SgiPtpTunnelAddress (put_length n i)
  | IE_PgwChangeInfo i => IE_PgwChangeInfo (put_length n i)
  | IE_PgwFqdn i => IE_PgwFqdn (put_length n i)
  | IE_GroupId i => IE_GroupId (put_length n i)
  | IE_PSCellId i => IE_PSCellId (put_length n i)
  | IE_UpSecurityPolicy i => IE_UpSecurityPolicy (put_length n i)
  | IE_AlternativeImsi i => IE_AlternativeImsi (put_length n i)
  | IE_SpecialIEWithTypeExt i => IE_SpecialIEWithTypeExt (put_length n i)
  | IE_PrivateExtension i => IE_PrivateExtension (put_length n i)
  | IE_Unknown i => IE_Unknown (put_length n i)
  end.

(* --- proofs ---------------------------------------------------------------------------------------------------------- *)
Lemma assigned_spec t : assigned_code t = false <-> unknown_type t.
Proof.
  assert (Q : assigned_code t = true <-> ~ unknown_type t).
  { unfold unknown_type, assigned_code. rewrite existsb_exists. cbn [has_code]. split.
    - intros (c & I & X) H. apply N.eqb_eq in X. subst c. exact (H (mkIe 0 0 0 []) I).
    - intros H. match goal with |- exists x, In x ?l /\ _ => destruct (in_dec N.eq_dec t l) as [I|I] end.
      + exists t. split; [exact I|apply N.eqb_refl].
      + exfalso. apply H. intros _ J. exact (I J). }
  destruct (assigned_code t) eqn:E.
  - split; [discriminate|]. intros U. exfalso. exact (proj1 Q eq_refl U).
  - split; [|reflexivity]. intros _ x. cbn [has_code]. intros I. assert (A : assigned_code t = true); [|congruence].
    unfold assigned_code. rewrite existsb_exists. exists t. split; [exact I|apply N.eqb_refl].
Qed.
Lemma kept_spec t : keeps_spare t = true <-> In t spare_bits_kept.
Proof.
  unfold keeps_spare. rewrite existsb_exists. split; [intros (c & I & X); apply N.eqb_eq in X; subst c; exact I|].
  intros I. exists t. split; [exact I|apply N.eqb_refl].
Qed.
Lemma land15 o : N.land o 15 = o mod 16.
Proof. exact (N.land_ones o 4). Qed.
Lemma special_ext m b x : SpecialIEWithTypeExt_unmarshal m b = Ok x -> sp_ext (ie_v x) = type_extension b.
Proof.
  revert x. match goal with |- forall x, ?r = Ok x -> @?P x => change (post P r) end. unfold SpecialIEWithTypeExt_unmarshal.
  apply post_need, post_hdr4i. cbv beta. eapply (post_bind_with (fun e => e = type_extension b)).
  - intros e E. unfold type_extension, be_at in *. do 6 (destruct b as [|? b]; [discriminate E|]).
    unfold slice in E. cbn [length Nat.leb Nat.add] in E. cbn [Nat.sub skipn firstn bind be_list] in E. apply Ok_inj in E. subst e. cbn [nth be_list]. lia.
  - intros e ->. apply post_checked, post_bind. intros d. apply post_ok. reflexivity.
Qed.

(* --- theorems -------------------------------------------------------------------------------------------------------- *)
(* get_type returns the type octet ... *)
Theorem C78_type_partial : forall m b e, decode_one (decoder m) m b = Ok e ->
  ~ unknown_type (type_octet b) -> type_octet b <> 115 -> type_octet b <> 169 -> get_type e = type_octet b.
Proof.
  intros m b e E U N1 N2. destruct (decode_one_reports _ _ _ e E) as [T _]. unfold get_type. rewrite T. unfold told_type. fold (type_octet b).
  rewrite (proj2 (N.eqb_neq _ _) N1), (proj2 (N.eqb_neq _ _) N2). destruct (assigned_code (type_octet b)) eqn:A; [reflexivity|].
  exfalso. apply U, assigned_spec, A.
Qed.
(* ... but not that of a Trace Reference, a TWAN Identifier or an element of unknown type. *)
Theorem C78_type_refuted : forall m b e, decode_one (decoder m) m b = Ok e ->
  (type_octet b = 115 -> get_type e = 83) /\ (type_octet b = 169 -> get_type e = 168) /\ (unknown_type (type_octet b) -> get_type e = 0).
Proof.
  intros m b e E. destruct (decode_one_reports _ _ _ e E) as [T _]. unfold get_type. rewrite T. unfold told_type. fold (type_octet b).
  split; [intros ->; reflexivity|split; [intros ->; reflexivity|]]. intros U. rewrite <- assigned_spec in U.
  destruct (N.eqb_spec (type_octet b) 115) as [X|_]; [rewrite X in U; discriminate U|].
  destruct (N.eqb_spec (type_octet b) 169) as [X|_]; [rewrite X in U; discriminate U|]. rewrite U. reflexivity.
Qed.
(* get_ins returns the instance, a number below 16 ... *)
Theorem C78_instance_partial : forall m b e, decode_one (decoder m) m b = Ok e ->
  ~ unknown_type (type_octet b) -> ~ In (type_octet b) spare_bits_kept -> get_ins e = instance_octet b mod 16.
Proof.
  intros m b e E U K. destruct (decode_one_reports _ _ _ e E) as [_ I]. unfold get_ins. rewrite I. unfold told_ins. fold (type_octet b).
  destruct (assigned_code (type_octet b)) eqn:A; [|exfalso; apply U, assigned_spec, A].
  destruct (keeps_spare (type_octet b)) eqn:S; [exfalso; apply K, kept_spec, S|]. apply land15.
Qed.
(* ... but for the kinds listed above and for unknown types the whole octet, spare bits included. *)
Theorem C78_instance_refuted : forall m b e, decode_one (decoder m) m b = Ok e ->
  unknown_type (type_octet b) \/ In (type_octet b) spare_bits_kept -> get_ins e = instance_octet b.
Proof.
  intros m b e E U. destruct (decode_one_reports _ _ _ e E) as [_ I]. unfold get_ins. rewrite I. unfold told_ins. fold (type_octet b).
  destruct U as [U|K]; [rewrite (proj2 (assigned_spec _) U); reflexivity|]. rewrite (proj2 (kept_spec _) K), andb_false_r. reflexivity.
Qed.
(* is_empty of a received element tells whether its length octets are zero; in an element with extended type also
   whether the extension is. *)
Theorem C78_empty : forall m b e, decode_one (decoder m) m b = Ok e ->
  (is_empty e = true <-> length_octets b = 0 \/ type_octet b = 254 /\ type_extension b = 0).
Proof.
  intros m b e E. destruct (decode_one_post (decoder m) m b e E) as [K L].
  assert (D : declared b = length_octets b) by (unfold declared, length_octets, be16; lia). rewrite D in L. clear D.
  destruct (N.eq_dec (type_octet b) 254) as [T|T].
  - unfold type_octet in T. destruct b as [|t b]; [discriminate T|]. cbn [nth] in T. subst t.
    rewrite disp_254 in E by reflexivity. destruct (SpecialIEWithTypeExt_unmarshal m (254 :: b)) as [x| | |] eqn:X; try discriminate E.
    apply Ok_inj in E. subst e. cbn [ie_lenfield] in L. cbn [is_empty]. rewrite (special_ext m _ x X), L, orb_true_iff, !N.eqb_eq. unfold type_octet. cbn [nth]. tauto.
  - assert (Z : is_empty e = (ie_lenfield e =? 0)).
    { destruct e; try reflexivity. exfalso. apply T. destruct (N.eq_dec (type_octet b) 169) as [Y|Y].
      - destruct (decode_one_reports _ _ _ _ E) as [Q _]. exfalso. unfold type_octet in *. rewrite Y in Q.
        destruct b as [|t b]; [discriminate Y|]. cbn [nth] in Y. subst t. rewrite disp_169 in E by reflexivity. unfold lift in E.
        destruct (ActionIndication_unmarshal m (169 :: b)); discriminate E.
      - exact (K Y). }
    rewrite Z, L, N.eqb_eq. tauto.
Qed.
(* The same for each of the elements of a list that was received: they come from some place in the octets. *)
Theorem C78_list : forall m b l e, decoder m b = Ok l -> In e l -> exists p q, b = p ++ q /\ decode_one (decoder m) m q = Ok e.
Proof.
  intros m b l e E I. rewrite decoder_eq in E. revert E. generalize (length b). intros f. revert b l I.
  induction f as [|f IH]; intros b l I E; (destruct b as [|t b]; [apply Ok_inj in E; subst l; destruct I|]); [discriminate E|].
  cbn [ie_loop] in E. destruct (decode_one (decoder m) m (t :: b)) as [a| | |] eqn:A; try discriminate E. cbn [bind] in E.
  destruct (ie_len m a) as [n| | |]; try discriminate E. cbn [bind] in E.
  destruct (ie_loop (decode_one (decoder m) m) m f (skipn n (t :: b))) as [r| | |] eqn:R; try discriminate E. cbn [bind] in E.
  apply Ok_inj in E. subst l. destruct I as [->|I].
  - exists [], (t :: b). split; [reflexivity|exact A].
  - destruct (IH _ _ I R) as (p & q & X & Y). exists (firstn n (t :: b) ++ p), q. split; [|exact Y].
    rewrite <- app_assoc, <- X. symmetry. apply firstn_skipn.
Qed.
(* That an element is empty does not mean that it has no contents: an EPS Bearer ID that declares no octets takes its value
   from the octet that follows, reports itself empty, and is sent on with one octet of contents ... *)
Theorem C78_empty_refuted : forall m i v r, byte i -> byte v -> exists e, decode_one (decoder m) m ([73; 0; 0; i; v] ++ r) = Ok e /\
  is_empty e = true /\ ie_marshal e = [73; 0; 1; i mod 16; v mod 16].
Proof.
  intros m i v r Hi Hv. exists (IE_Ebi (mkIe 73 0 (N.land i 15) (N.land v 15))). rewrite disp_73 by reflexivity.
  split; [|split; [reflexivity|]].
  - destruct m; reflexivity.
  - rewrite !land15. reflexivity.
Qed.
(* ... and so does every element whose length field was left at zero, whatever its contents: what is sent does not depend on
   the length field. *)
Theorem C78_empty_built_refuted : forall e, is_empty (with_length 0 e) = true /\ forall n, ie_marshal (with_length n e) = ie_marshal e.
Proof.
  intros e. split.
  - destruct e; try reflexivity; [destruct i; reflexivity|]. cbn. apply orb_true_r.
  - intros n. destruct e; try reflexivity. destruct i; reflexivity.
Qed.

(* --- witnesses ------------------------------------------------------------------------------------------------------- *)
Example C78_witness : exists e, decode_one (decoder Debug) Debug [73; 0; 1; 250; 5; 3; 0; 1; 0; 9] = Ok e /\ get_type e = 73 /\ get_ins e = 10 /\ is_empty e = false
  /\ ~ unknown_type 73 /\ ~ In 73 spare_bits_kept.
Proof.
  eexists. split; [reflexivity|]. split; [reflexivity|]. split; [reflexivity|]. split; [reflexivity|]. split.
  - rewrite <- assigned_spec. discriminate.
  - rewrite <- kept_spec. discriminate.
Qed.
Example C78_witness_spare : exists e, decode_one (decoder Debug) Debug [135; 0; 1; 250; 1] = Ok e /\ get_ins e = 250 /\ In 135 spare_bits_kept.
Proof. eexists. split; [reflexivity|]. split; [reflexivity|]. cbn. tauto. Qed.
Example C78_witness_unknown : unknown_type 7 /\ exists e, decode_one (decoder Debug) Debug [7; 0; 1; 250; 1] = Ok e /\ get_type e = 0 /\ get_ins e = 250.
Proof. split; [apply assigned_spec; reflexivity|]. eexists. split; [reflexivity|]. split; reflexivity. Qed.
Print Assumptions C78_type_partial.
Print Assumptions C78_type_refuted.
Print Assumptions C78_instance_partial.
Print Assumptions C78_instance_refuted.
Print Assumptions C78_empty.
Print Assumptions C78_list.
Print Assumptions C78_empty_refuted.
Print Assumptions C78_empty_built_refuted.
