(* V2WireSpec.v - how an information element looks on the wire, stated without reference to the
   encoders and decoders of the model. *)
From Verif Require Import Base.
From Verif Require Export V2DecSpec.
Local Open Scope N_scope.

(* 3GPP TS 29.274, 8.2.1: type, length of the value, spare and instance, value. *)
Definition framed (code ins : N) (value : list N) : list N :=
  [code; (nlen value / 256) mod 256; nlen value mod 256; ins] ++ value.
(* the value octets of the IE at the head of a buffer *)
Definition value_of (b : list N) : list N := firstn (N.to_nat (declared b)) (skipn 4 b).

(* 3GPP TS 29.274, table 8.1-1: the type codes of each kind of IE. *)
Definition has_code (e : ie) (t : N) : Prop :=
  match e with
  | IE_Imsi _ => t = 1
  | IE_Cause _ => t = 2
  | IE_Recovery _ => t = 3
  | IE_StnSr _ => t = 51
  | IE_SrvccCause _ => t = 56
  | IE_Apn _ => t = 71
  | IE_ApnAmbr _ => t = 72
  | IE_Ebi _ => t = 73
  | IE_IpAddress _ => t = 74
  | IE_Mei _ => t = 75
  | IE_Msisdn _ => t = 76
  | IE_Indication _ => t = 77
  | IE_Pco _ => t = 78
  | IE_PdnAddressAllocation _ => t = 79
  | IE_BearerQos _ => t = 80
  | IE_FlowQos _ => t = 81
  | IE_RatType _ => t = 82
  | IE_ServingNetwork _ => t = 83
  | IE_BearerTft _ => t = 84
  | IE_TrafficAggregateDescription _ => t = 85
  | IE_Uli _ => t = 86
  | IE_Fteid _ => t = 87
  | IE_Tmsi _ => t = 88
  | IE_GlobalCnId _ => t = 89
  | IE_S103pdf _ => t = 90
  | IE_S1udf _ => t = 91
  | IE_DelayValue _ => t = 92
  | IE_BearerContext _ => t = 93
  | IE_ChargingId _ => t = 94
  | IE_ChargingCharacteristics _ => t = 95
  | IE_TraceInformation _ => t = 96
  | IE_BearerFlags _ => t = 97
  | IE_PdnType _ => t = 99
  | IE_Pti _ => t = 100
  | IE_MmContext i =>
      t = match i with MmGsmT _ => 103 | MmUmtsCq _ => 104 | MmGsmCq _ => 105 | MmUmtsQ _ => 106 | MmEps _ => 107 | MmUmtsQq _ => 108 end
  | IE_PdnConnections _ => t = 109
  | IE_PduNumbers _ => t = 110
  | IE_Ptmsi _ => t = 111
  | IE_PtmsiSignature _ => t = 112
  | IE_HopCounter _ => t = 113
  | IE_UeTimeZone _ => t = 114
  | IE_TraceReference _ => t = 115
  | IE_CompleteRequestMessage _ => t = 116
  | IE_Guti _ => t = 117
  | IE_Fcontainer _ => t = 118
  | IE_Fcause _ => t = 119
  | IE_PlmnId _ => t = 120
  | IE_TargetIdentification _ => t = 121
  | IE_PacketFlowId _ => t = 123
  | IE_RabContext _ => t = 124
  | IE_SrcRncPdcpCtxInfo _ => t = 125
  | IE_PortNumber _ => t = 126
  | IE_ApnRestriction _ => t = 127
  | IE_SelectionMode _ => t = 128
  | IE_SourceIdentification _ => t = 129
  | IE_ChangeReportingAction _ => t = 131
  | IE_Fqcsid _ => t = 132
  | IE_ChannelNeeded _ => t = 133
  | IE_EmlppPriority _ => t = 134
  | IE_NodeType _ => t = 135
  | IE_Fqdn _ => t = 136
  | IE_TransactionIdentifier _ => t = 137
  | IE_MbmsSa _ => t = 139
  | IE_MbmsSd _ => t = 138
  | IE_MbmsSessionId _ => t = 140
  | IE_MbmsFlowId _ => t = 141
  | IE_MbmsIpMulticastDistribution _ => t = 142
  | IE_MbmsDistributionAck _ => t = 143
  | IE_RfspIndex _ => t = 144
  | IE_Uci _ => t = 145
  | IE_CSGInformationReportingAction _ => t = 146
  | IE_CsgId _ => t = 147
  | IE_CsgMembershipIndication _ => t = 148
  | IE_ServiceIndicator _ => t = 149
  | IE_DetachType _ => t = 150
  | IE_Ldn _ => t = 151
  | IE_NodeFeatures _ => t = 152
  | IE_MbmsTimeToDataTransfer _ => t = 153
  | IE_Throttling _ => t = 154
  | IE_Arp _ => t = 155
  | IE_EpcTimer _ => t = 156
  | IE_Spi _ => t = 157
  | IE_Tmgi _ => t = 158
  | IE_AdditionalMmContextForSrvcc _ => t = 159
  | IE_AdditionalFlagsSrvcc _ => t = 160
  | IE_MdtConfiguration _ => t = 162
  | IE_Apco _ => t = 163
  | IE_AbsoluteTimeMbmsDataTransfer _ => t = 164
  | IE_HenbInfoReporting _ => t = 165
  | IE_Ip4Cp _ => t = 166
  | IE_ChangeToReportFlags _ => t = 167
  | IE_ActionIndication _ => t = 168
  | IE_TwanId _ => t = 169
  | IE_UliTimestamp _ => t = 170
  | IE_MbmsFlags _ => t = 171
  | IE_RanNasCause _ => t = 172
  | IE_CnOperatorSelectionEntity _ => t = 173
  | IE_Twmi _ => t = 174
  | IE_NodeNumber _ => t = 175
  | IE_NodeIdentifier _ => t = 176
  | IE_PresenceReportingAreaAction _ => t = 177
  | IE_PresenceReportingAreaInformation _ => t = 178
  | IE_TwanIdTimeStamp _ => t = 179
  | IE_OverloadControlInfo _ => t = 180
  | IE_LoadControlInfo _ => t = 181
  | IE_Metric _ => t = 182
  | IE_Sqn _ => t = 183
  | IE_ApnRelativeCapacity _ => t = 184
  | IE_WlanOffloadIndication _ => t = 185
  | IE_PagingServiceInfo _ => t = 186
  | IE_IntegerNumber _ => t = 187
  | IE_MilliSecondTimeStamp _ => t = 188
  | IE_MonitoringEventInformation _ => t = 189
  | IE_EcgiList _ => t = 190
  | IE_RemoteUeContext _ => t = 191
  | IE_RemoteUserId _ => t = 192
  | IE_RemoteUeIpInformation _ => t = 193
  | IE_CIoTOptimizationSupportIndication _ => t = 194
  | IE_ScefPdnConnections _ => t = 195
  | IE_HeaderCompressionConfiguration _ => t = 196
  | IE_Epco _ => t = 197
  | IE_ServingPlmnRateControl _ => t = 198
  | IE_Counter _ => t = 199
  | IE_MappedUeUsageType _ => t = 200
  | IE_SecondaryRatUsageDataReport _ => t = 201
  | IE_UpFunctionSelectionIndicationFlags _ => t = 202
  | IE_MaxPacketLossRate _ => t = 203
  | IE_ApnRateControlStatus _ => t = 204
  | IE_ExtendedTraceInformation _ => t = 205
  | IE_MonitoringEventExtensionInfo _ => t = 206
  | IE_AdditionalRrmPolicyIndex _ => t = 207
  | IE_V2xInformation _ => t = 208
  | IE_PC5QosParameters _ => t = 209
  | IE_ServicesAuthorized _ => t = 210
  | IE_BitRate _ => t = 211
  | IE_PC5QosFlow _ => t = 212
  | IE_SgiPtpTunnelAddress _ => t = 213
  | IE_PgwChangeInfo _ => t = 214
  | IE_PgwFqdn _ => t = 215
  | IE_GroupId _ => t = 216
  | IE_PSCellId _ => t = 217
  | IE_UpSecurityPolicy _ => t = 218
  | IE_AlternativeImsi _ => t = 219
  | IE_SpecialIEWithTypeExt _ => t = 254
  | IE_PrivateExtension _ => t = 255
  | IE_Unknown _ => ~ In t [1; 2; 3; 51; 56; 71; 72; 73; 74; 75; 76; 77; 78; 79; 80; 81; 82; 83; 84; 85; 86; 87; 88; 89; 90; 91; 92; 93; 94; 95; 96; 97; 99; 100; 103; 104; 105; 106; 107; 108; 109; 110; 111; 112; 113; 114; 115; 116; 117; 118; 119; 120; 121; 123; 124; 125; 126; 127; 128; 129; 131; 132; 133; 134; 135; 136; 137; 138; 139; 140; 141; 142; 143; 144; 145; 146; 147; 148; 149; 150; 151; 152; 153; 154; 155; 156; 157; 158; 159; 160; 162; 163; 164; 165; 166; 167; 168; 169; 170; 171; 172; 173; 174; 175; 176; 177; 178; 179; 180; 181; 182; 183; 184; 185; 186; 187; 188; 189; 190; 191; 192; 193; 194; 195; 196; 197; 198; 199; 200; 201; 202; 203; 204; 205; 206; 207; 208; 209; 210; 211; 212; 213; 214; 215; 216; 217; 218; 219; 254; 255]
  end.

(* The length field kept in the struct. *)
Definition MmContext_length (x : MmContext) : N :=
  match x with
  | MmEps i => ie_length i | MmUmtsQ i => ie_length i | MmUmtsQq i => ie_length i
  | MmUmtsCq i => ie_length i | MmGsmT i => ie_length i | MmGsmCq i => ie_length i
  end.
Definition ie_lenfield (e : ie) : N :=
  match e with
  | IE_Imsi i => ie_length i
  | IE_Cause i => ie_length i
  | IE_Recovery i => ie_length i
  | IE_StnSr i => ie_length i
  | IE_SrvccCause i => ie_length i
  | IE_Apn i => ie_length i
  | IE_ApnAmbr i => ie_length i
  | IE_Ebi i => ie_length i
  | IE_IpAddress i => ie_length i
  | IE_Mei i => ie_length i
  | IE_Msisdn i => ie_length i
  | IE_Indication i => ie_length i
  | IE_Pco i => ie_length i
  | IE_PdnAddressAllocation i => ie_length i
  | IE_BearerQos i => ie_length i
  | IE_FlowQos i => ie_length i
  | IE_RatType i => ie_length i
  | IE_ServingNetwork i => ie_length i
  | IE_BearerTft i => ie_length i
  | IE_TrafficAggregateDescription i => ie_length i
  | IE_Uli i => ie_length i
  | IE_Fteid i => ie_length i
  | IE_Tmsi i => ie_length i
  | IE_GlobalCnId i => ie_length i
  | IE_S103pdf i => ie_length i
  | IE_S1udf i => ie_length i
  | IE_DelayValue i => ie_length i
  | IE_BearerContext i => ie_length i
  | IE_ChargingId i => ie_length i
  | IE_ChargingCharacteristics i => ie_length i
  | IE_TraceInformation i => ie_length i
  | IE_BearerFlags i => ie_length i
  | IE_PdnType i => ie_length i
  | IE_Pti i => ie_length i
  | IE_MmContext i => MmContext_length i
  | IE_PdnConnections i => ie_length i
  | IE_PduNumbers i => ie_length i
  | IE_Ptmsi i => ie_length i
  | IE_PtmsiSignature i => ie_length i
  | IE_HopCounter i => ie_length i
  | IE_UeTimeZone i => ie_length i
  | IE_TraceReference i => ie_length i
  | IE_CompleteRequestMessage i => ie_length i
  | IE_Guti i => ie_length i
  | IE_Fcontainer i => ie_length i
  | IE_Fcause i => ie_length i
  | IE_PlmnId i => ie_length i
  | IE_TargetIdentification i => ie_length i
  | IE_PacketFlowId i => ie_length i
  | IE_RabContext i => ie_length i
  | IE_SrcRncPdcpCtxInfo i => ie_length i
  | IE_PortNumber i => ie_length i
  | IE_ApnRestriction i => ie_length i
  | IE_SelectionMode i => ie_length i
  | IE_SourceIdentification i => ie_length i
  | IE_ChangeReportingAction i => ie_length i
  | IE_Fqcsid i => ie_length i
  | IE_ChannelNeeded i => ie_length i
  | IE_EmlppPriority i => ie_length i
  | IE_NodeType i => ie_length i
  | IE_Fqdn i => ie_length i
  | IE_TransactionIdentifier i => ie_length i
  | IE_MbmsSa i => ie_length i
  | IE_MbmsSd i => ie_length i
  | IE_MbmsSessionId i => ie_length i
  | IE_MbmsFlowId i => ie_length i
  | IE_MbmsIpMulticastDistribution i => ie_length i
  | IE_MbmsDistributionAck i => ie_length i
  | IE_RfspIndex i => ie_length i
  | IE_Uci i => ie_length i
  | IE_CSGInformationReportingAction i => ie_length i
  | IE_CsgId i => ie_length i
  | IE_CsgMembershipIndication i => ie_length i
  | IE_ServiceIndicator i => ie_length i
  | IE_DetachType i => ie_length i
  | IE_Ldn i => ie_length i
  | IE_NodeFeatures i => ie_length i
  | IE_MbmsTimeToDataTransfer i => ie_length i
  | IE_Throttling i => ie_length i
  | IE_Arp i => ie_length i
  | IE_EpcTimer i => ie_length i
  | IE_Spi i => ie_length i
  | IE_Tmgi i => ie_length i
  | IE_AdditionalMmContextForSrvcc i => ie_length i
  | IE_AdditionalFlagsSrvcc i => ie_length i
  | IE_MdtConfiguration i => ie_length i
  | IE_Apco i => ie_length i
  | IE_AbsoluteTimeMbmsDataTransfer i => ie_length i
  | IE_HenbInfoReporting i => ie_length i
  | IE_Ip4Cp i => ie_length i
  | IE_ChangeToReportFlags i => ie_length i
  | IE_ActionIndication i => ie_length i
  | IE_TwanId i => ie_length i
  | IE_UliTimestamp i => ie_length i
  | IE_MbmsFlags i => ie_length i
  | IE_RanNasCause i => ie_length i
  | IE_CnOperatorSelectionEntity i => ie_length i
  | IE_Twmi i => ie_length i
  | IE_NodeNumber i => ie_length i
  | IE_NodeIdentifier i => ie_length i
  | IE_PresenceReportingAreaAction i => ie_length i
  | IE_PresenceReportingAreaInformation i => ie_length i
  | IE_TwanIdTimeStamp i => ie_length i
  | IE_OverloadControlInfo i => ie_length i
  | IE_LoadControlInfo i => ie_length i
  | IE_Metric i => ie_length i
  | IE_Sqn i => ie_length i
  | IE_ApnRelativeCapacity i => ie_length i
  | IE_WlanOffloadIndication i => ie_length i
  | IE_PagingServiceInfo i => ie_length i
  | IE_IntegerNumber i => ie_length i
  | IE_MilliSecondTimeStamp i => ie_length i
  | IE_MonitoringEventInformation i => ie_length i
  | IE_EcgiList i => ie_length i
  | IE_RemoteUeContext i => ie_length i
  | IE_RemoteUserId i => ie_length i
  | IE_RemoteUeIpInformation i => ie_length i
  | IE_CIoTOptimizationSupportIndication i => ie_length i
  | IE_ScefPdnConnections i => ie_length i
  | IE_HeaderCompressionConfiguration i => ie_length i
  | IE_Epco i => ie_length i
  | IE_ServingPlmnRateControl i => ie_length i
  | IE_Counter i => ie_length i
  | IE_MappedUeUsageType i => ie_length i
  | IE_SecondaryRatUsageDataReport i => ie_length i
  | IE_UpFunctionSelectionIndicationFlags i => ie_length i
  | IE_MaxPacketLossRate i => ie_length i
  | IE_ApnRateControlStatus i => ie_length i
  | IE_ExtendedTraceInformation i => ie_length i
  | IE_MonitoringEventExtensionInfo i => ie_length i
  | IE_AdditionalRrmPolicyIndex i => ie_length i
  | IE_V2xInformation i => ie_length i
  | IE_PC5QosParameters i => ie_length i
  | IE_ServicesAuthorized i => ie_length i
  | IE_BitRate i => ie_length i
  | IE_PC5QosFlow i => ie_length i
  | IE_SgiPtpTunnelAddress i => ie_length i
  | IE_PgwChangeInfo i => ie_length i
  | IE_PgwFqdn i => ie_length i
  | IE_GroupId i => ie_length i
  | IE_PSCellId i => ie_length i
  | IE_UpSecurityPolicy i => ie_length i
  | IE_AlternativeImsi i => ie_length i
  | IE_SpecialIEWithTypeExt i => ie_length i
  | IE_PrivateExtension i => ie_length i
  | IE_Unknown i => ie_length i
  end.

(* The kinds whose size on the wire the code computes from the length field ... *)
Definition sized_by_length (e : ie) : Prop :=
  match e with
  | IE_Imsi _ | IE_Cause _ | IE_StnSr _ | IE_Apn _ | IE_IpAddress _ | IE_Msisdn _ | IE_Indication _ | IE_Pco _ | IE_PdnAddressAllocation _ | IE_BearerTft _ | IE_TrafficAggregateDescription _ | IE_Uli _ | IE_Fteid _ | IE_Tmsi _ | IE_S103pdf _ | IE_S1udf _ | IE_BearerContext _ | IE_BearerFlags _ | IE_MmContext _ | IE_PdnConnections _ | IE_PduNumbers _ | IE_HopCounter _ | IE_CompleteRequestMessage _ | IE_Fcontainer _ | IE_Fcause _ | IE_SrcRncPdcpCtxInfo _ | IE_Fqcsid _ | IE_Fqdn _ | IE_TransactionIdentifier _ | IE_MbmsSa _ | IE_MbmsIpMulticastDistribution _ | IE_Ldn _ | IE_Arp _ | IE_AdditionalMmContextForSrvcc _ | IE_MdtConfiguration _ | IE_Apco _ | IE_ActionIndication _ | IE_TwanId _ | IE_RanNasCause _ | IE_NodeNumber _ | IE_NodeIdentifier _ | IE_PresenceReportingAreaAction _ | IE_OverloadControlInfo _ | IE_LoadControlInfo _ | IE_ApnRelativeCapacity _ | IE_IntegerNumber _ | IE_MonitoringEventInformation _ | IE_RemoteUeContext _ | IE_RemoteUserId _ | IE_RemoteUeIpInformation _ | IE_ScefPdnConnections _ | IE_Epco _ | IE_SecondaryRatUsageDataReport _ | IE_MaxPacketLossRate _ | IE_ApnRateControlStatus _ | IE_ExtendedTraceInformation _ | IE_MonitoringEventExtensionInfo _ | IE_V2xInformation _ | IE_PC5QosParameters _ | IE_PC5QosFlow _ | IE_SgiPtpTunnelAddress _ | IE_PgwChangeInfo _ | IE_PgwFqdn _ | IE_GroupId _ | IE_AlternativeImsi _ | IE_SpecialIEWithTypeExt _ | IE_PrivateExtension _ | IE_Unknown _ => True
  | _ => False
  end.
(* ... and those for which it is a constant. *)
Definition fixed_size (e : ie) : option nat :=
  match e with
  | IE_Recovery _ => Some 5%nat
  | IE_SrvccCause _ => Some 5%nat
  | IE_ApnAmbr _ => Some 12%nat
  | IE_Ebi _ => Some 5%nat
  | IE_Mei _ => Some 12%nat
  | IE_BearerQos _ => Some 26%nat
  | IE_FlowQos _ => Some 25%nat
  | IE_RatType _ => Some 5%nat
  | IE_ServingNetwork _ => Some 7%nat
  | IE_GlobalCnId _ => Some 9%nat
  | IE_DelayValue _ => Some 5%nat
  | IE_ChargingId _ => Some 8%nat
  | IE_ChargingCharacteristics _ => Some 6%nat
  | IE_TraceInformation _ => Some 38%nat
  | IE_PdnType _ => Some 5%nat
  | IE_Pti _ => Some 5%nat
  | IE_Ptmsi _ => Some 8%nat
  | IE_PtmsiSignature _ => Some 8%nat
  | IE_UeTimeZone _ => Some 6%nat
  | IE_TraceReference _ => Some 10%nat
  | IE_Guti _ => Some 14%nat
  | IE_PlmnId _ => Some 7%nat
  | IE_PacketFlowId _ => Some 9%nat
  | IE_RabContext _ => Some 13%nat
  | IE_PortNumber _ => Some 6%nat
  | IE_ApnRestriction _ => Some 5%nat
  | IE_SelectionMode _ => Some 5%nat
  | IE_ChangeReportingAction _ => Some 5%nat
  | IE_ChannelNeeded _ => Some 5%nat
  | IE_EmlppPriority _ => Some 5%nat
  | IE_NodeType _ => Some 5%nat
  | IE_MbmsSd _ => Some 7%nat
  | IE_MbmsSessionId _ => Some 5%nat
  | IE_MbmsFlowId _ => Some 6%nat
  | IE_MbmsDistributionAck _ => Some 5%nat
  | IE_RfspIndex _ => Some 6%nat
  | IE_Uci _ => Some 12%nat
  | IE_CSGInformationReportingAction _ => Some 5%nat
  | IE_CsgId _ => Some 8%nat
  | IE_CsgMembershipIndication _ => Some 5%nat
  | IE_ServiceIndicator _ => Some 5%nat
  | IE_DetachType _ => Some 5%nat
  | IE_NodeFeatures _ => Some 5%nat
  | IE_MbmsTimeToDataTransfer _ => Some 5%nat
  | IE_Throttling _ => Some 6%nat
  | IE_EpcTimer _ => Some 5%nat
  | IE_Spi _ => Some 5%nat
  | IE_Tmgi _ => Some 10%nat
  | IE_AdditionalFlagsSrvcc _ => Some 5%nat
  | IE_AbsoluteTimeMbmsDataTransfer _ => Some 12%nat
  | IE_HenbInfoReporting _ => Some 5%nat
  | IE_Ip4Cp _ => Some 9%nat
  | IE_ChangeToReportFlags _ => Some 5%nat
  | IE_UliTimestamp _ => Some 8%nat
  | IE_MbmsFlags _ => Some 5%nat
  | IE_CnOperatorSelectionEntity _ => Some 5%nat
  | IE_Twmi _ => Some 5%nat
  | IE_PresenceReportingAreaInformation _ => Some 12%nat
  | IE_TwanIdTimeStamp _ => Some 8%nat
  | IE_Metric _ => Some 5%nat
  | IE_Sqn _ => Some 8%nat
  | IE_WlanOffloadIndication _ => Some 5%nat
  | IE_MilliSecondTimeStamp _ => Some 10%nat
  | IE_CIoTOptimizationSupportIndication _ => Some 5%nat
  | IE_HeaderCompressionConfiguration _ => Some 8%nat
  | IE_ServingPlmnRateControl _ => Some 8%nat
  | IE_Counter _ => Some 9%nat
  | IE_MappedUeUsageType _ => Some 6%nat
  | IE_UpFunctionSelectionIndicationFlags _ => Some 5%nat
  | IE_AdditionalRrmPolicyIndex _ => Some 8%nat
  | IE_ServicesAuthorized _ => Some 6%nat
  | IE_BitRate _ => Some 8%nat
  | IE_PSCellId _ => Some 12%nat
  | IE_UpSecurityPolicy _ => Some 5%nat
  | _ => None
  end.

(* A label sequence that ends exactly at the end of the octets. *)
Definition labels_fit (v : list N) : Prop := exists ws, v = concat (map (fun w => nlen w :: w) ws).

(* The type codes of the grouped IEs. *)
Definition grouped_codes : list N := [93; 109; 180; 181; 191; 195; 208; 209; 214].

(* The buffer positions at which an IE is read while [b] is decoded: the start; what follows the IE at
   the head; and, for a grouped IE, the positions inside its value. *)
Inductive visits (m : mode) : list N -> list N -> Prop :=
| visit_here b : b <> [] -> visits m b b
| visit_next b e n s : decode_one (decoder m) m b = Ok e -> ie_len m e = Ok n -> visits m (skipn n b) s -> visits m b s
| visit_inside b s : In (nth 0 b 0) grouped_codes -> visits m (value_of b) s -> visits m b s.

(* Octets at which every decoder returns. The declared length leaves room for the 16-bit arithmetic;
   an IE whose decoder trusts an inner length or flag carries the octets announced there; the eleven kinds
   with deeper structure of that sort are not covered. *)
Definition oct (s : list N) (i : nat) : N := nth i s 0.
Definition tame (s : list N) : Prop :=
  let t := oct s 0 in
  let v := value_of s in
  declared s <= 65531 /\
  (* APN, FQDN, PGW FQDN, APN and Relative Capacity *)
  (In t [71; 136; 215] -> labels_fit v) /\
  (t = 184 -> labels_fit (skipn 1 v)) /\
  (* Indication: the flags are there *)
  (t = 77 -> (4 + N.to_nat (declared s) <= length s)%nat) /\
  (* ULI: 55 octets, or no location flag *)
  (t = 86 -> (55 <= length s)%nat \/ oct s 4 = 0) /\
  (* F-TEID: the announced addresses are there *)
  (t = 87 -> (9 + (if N.testbit (oct s 4) 7 then 4 else 0) + (if N.testbit (oct s 4) 6 then 16 else 0) <= length s)%nat) /\
  (* S103 and S1-U data forwarding info: the announced address and what follows is there *)
  (t = 90 -> (14 <= length s)%nat /\ (oct s 4 = 16 -> (26 + N.to_nat (oct s 25) <= length s)%nat)) /\
  (t = 91 -> (14 <= length s)%nat /\ (oct s 5 = 16 -> (26 <= length s)%nat)) /\
  (* Node Number: one octet of number at least, and all announced octets *)
  (t = 175 -> 1 <= oct s 4 /\ (5 + N.to_nat (oct s 4) <= length s)%nat) /\
  (* Paging and Service Information *)
  (t = 186 -> oct s 5 = 1 -> (7 <= length s)%nat) /\
  (* PC5 QoS Flow: range included *)
  (t = 212 -> (15 <= length s)%nat) /\
  (* Special IE type and Private Extension: the two octets of the inner type or enterprise *)
  (t = 254 -> (6 <= length s)%nat /\ 2 <= declared s) /\
  (t = 255 -> 2 <= declared s) /\
  ~ In t [103; 104; 105; 106; 107; 108; 129; 142; 159; 162; 177; 192; 205; 206].
