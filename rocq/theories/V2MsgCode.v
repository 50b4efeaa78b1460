(* V2MsgCode.v - the IE type code of each kind of IE that has exactly one, as a function. *)
From Verif Require Import Base.
From Verif Require Export V2Kind V2WireSpec.
Local Open Scope N_scope.

Definition kind_code (k : kind) : option N :=
  match k with
  | K_Imsi => Some 1
  | K_Cause => Some 2
  | K_Recovery => Some 3
  | K_StnSr => Some 51
  | K_SrvccCause => Some 56
  | K_Apn => Some 71
  | K_ApnAmbr => Some 72
  | K_Ebi => Some 73
  | K_IpAddress => Some 74
  | K_Mei => Some 75
  | K_Msisdn => Some 76
  | K_Indication => Some 77
  | K_Pco => Some 78
  | K_PdnAddressAllocation => Some 79
  | K_BearerQos => Some 80
  | K_FlowQos => Some 81
  | K_RatType => Some 82
  | K_ServingNetwork => Some 83
  | K_BearerTft => Some 84
  | K_TrafficAggregateDescription => Some 85
  | K_Uli => Some 86
  | K_Fteid => Some 87
  | K_Tmsi => Some 88
  | K_GlobalCnId => Some 89
  | K_S103pdf => Some 90
  | K_S1udf => Some 91
  | K_DelayValue => Some 92
  | K_BearerContext => Some 93
  | K_ChargingId => Some 94
  | K_ChargingCharacteristics => Some 95
  | K_TraceInformation => Some 96
  | K_BearerFlags => Some 97
  | K_PdnType => Some 99
  | K_Pti => Some 100
  | K_PdnConnections => Some 109
  | K_PduNumbers => Some 110
  | K_Ptmsi => Some 111
  | K_PtmsiSignature => Some 112
  | K_HopCounter => Some 113
  | K_UeTimeZone => Some 114
  | K_TraceReference => Some 115
  | K_CompleteRequestMessage => Some 116
  | K_Guti => Some 117
  | K_Fcontainer => Some 118
  | K_Fcause => Some 119
  | K_PlmnId => Some 120
  | K_TargetIdentification => Some 121
  | K_PacketFlowId => Some 123
  | K_RabContext => Some 124
  | K_SrcRncPdcpCtxInfo => Some 125
  | K_PortNumber => Some 126
  | K_ApnRestriction => Some 127
  | K_SelectionMode => Some 128
  | K_SourceIdentification => Some 129
  | K_ChangeReportingAction => Some 131
  | K_Fqcsid => Some 132
  | K_ChannelNeeded => Some 133
  | K_EmlppPriority => Some 134
  | K_NodeType => Some 135
  | K_Fqdn => Some 136
  | K_TransactionIdentifier => Some 137
  | K_MbmsSa => Some 139
  | K_MbmsSd => Some 138
  | K_MbmsSessionId => Some 140
  | K_MbmsFlowId => Some 141
  | K_MbmsIpMulticastDistribution => Some 142
  | K_MbmsDistributionAck => Some 143
  | K_RfspIndex => Some 144
  | K_Uci => Some 145
  | K_CSGInformationReportingAction => Some 146
  | K_CsgId => Some 147
  | K_CsgMembershipIndication => Some 148
  | K_ServiceIndicator => Some 149
  | K_DetachType => Some 150
  | K_Ldn => Some 151
  | K_NodeFeatures => Some 152
  | K_MbmsTimeToDataTransfer => Some 153
  | K_Throttling => Some 154
  | K_Arp => Some 155
  | K_EpcTimer => Some 156
  | K_Spi => Some 157
  | K_Tmgi => Some 158
  | K_AdditionalMmContextForSrvcc => Some 159
  | K_AdditionalFlagsSrvcc => Some 160
  | K_MdtConfiguration => Some 162
  | K_Apco => Some 163
  | K_AbsoluteTimeMbmsDataTransfer => Some 164
  | K_HenbInfoReporting => Some 165
  | K_Ip4Cp => Some 166
  | K_ChangeToReportFlags => Some 167
  | K_ActionIndication => Some 168
  | K_TwanId => Some 169
  | K_UliTimestamp => Some 170
  | K_MbmsFlags => Some 171
  | K_RanNasCause => Some 172
  | K_CnOperatorSelectionEntity => Some 173
  | K_Twmi => Some 174
  | K_NodeNumber => Some 175
  | K_NodeIdentifier => Some 176
  | K_PresenceReportingAreaAction => Some 177
  | K_PresenceReportingAreaInformation => Some 178
  | K_TwanIdTimeStamp => Some 179
  | K_OverloadControlInfo => Some 180
  | K_LoadControlInfo => Some 181
  | K_Metric => Some 182
  | K_Sqn => Some 183
  | K_ApnRelativeCapacity => Some 184
  | K_WlanOffloadIndication => Some 185
  | K_PagingServiceInfo => Some 186
  | K_IntegerNumber => Some 187
  | K_MilliSecondTimeStamp => Some 188
  | K_MonitoringEventInformation => Some 189
  | K_EcgiList => Some 190
  | K_RemoteUeContext => Some 191
  | K_RemoteUserId => Some 192
  | K_RemoteUeIpInformation => Some 193
  | K_CIoTOptimizationSupportIndication => Some 194
  | K_ScefPdnConnections => Some 195
  | K_HeaderCompressionConfiguration => Some 196
  | K_Epco => Some 197
  | K_ServingPlmnRateControl => Some 198
  | K_Counter => Some 199
  | K_MappedUeUsageType => Some 200
  | K_SecondaryRatUsageDataReport => Some 201
  | K_UpFunctionSelectionIndicationFlags => Some 202
  | K_MaxPacketLossRate => Some 203
  | K_ApnRateControlStatus => Some 204
  | K_ExtendedTraceInformation => Some 205
  | K_MonitoringEventExtensionInfo => Some 206
  | K_AdditionalRrmPolicyIndex => Some 207
  | K_V2xInformation => Some 208
  | K_PC5QosParameters => Some 209
  | K_ServicesAuthorized => Some 210
  | K_BitRate => Some 211
  | K_PC5QosFlow => Some 212
  | K_SgiPtpTunnelAddress => Some 213
  | K_PgwChangeInfo => Some 214
  | K_PgwFqdn => Some 215
  | K_GroupId => Some 216
  | K_PSCellId => Some 217
  | K_UpSecurityPolicy => Some 218
  | K_AlternativeImsi => Some 219
  | K_SpecialIEWithTypeExt => Some 254
  | K_PrivateExtension => Some 255
  | _ => None
  end.

Lemma kind_code_ok e c : kind_code (kind_of e) = Some c -> has_code e c.
Proof. destruct e; cbn [kind_of kind_code has_code]; try discriminate; intros [= <-]; reflexivity. Qed.
