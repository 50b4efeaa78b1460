(* V2Defaults.v - the Default values of the GTPv2-C structs, which is what a field has that is not given in
   [X { field: value, ..X::default() }]: the header, every kind of element and every message. *)
From Coq Require Import String.
From Verif Require Import Base.
From Verif Require Export V2MsgLayouts.
Local Open Scope N_scope.

(* header.rs 23-34 *)
Definition header_default : Gtpv2Header := mkHdr2 0 false None 8 None 0.

(* mmctxepssecurityctxquadruplets.rs 50-86; AccessRestrictionMM::default() is derived, commons.rs 1080-1090 *)
Definition MmEps_default : mm_eps :=
  mkMmEps SecurityMode_EpsSecurityContextAndQuadruplets 0 NasIntegrityProtectionValues_NoIntegrity NasCipherValues_NoChiper 0 0
    (repeat 0 32) None None None None None None None None None None
    (mkAccessRestriction false false false false false false false false) None None None None None None None None None None.

(* The default() of each element struct. Texts are lists of octets: the text "0" is [48]. *)
Definition default_of (k : kind) : ie :=
  match k with
  | K_Imsi => (* imsi.rs 23-32 *) IE_Imsi (mkIe 1 0 0 [])
  | K_Cause => (* cause.rs 29-42 *) IE_Cause (mkIe 2 2 0 (mkCause 0 false false false None))
  | K_Recovery => (* recovery.rs 23-32 *) IE_Recovery (mkIe 3 1 0 0)
  | K_StnSr => (* stnsr.rs 24-34 *) IE_StnSr (mkIe 51 0 0 (mkStnSr 0 [48]))
  | K_SrvccCause => (* srvcccause.rs 95-104; 32-36 *) IE_SrvccCause (mkIe 56 1 0 SrvccCauseValues_Unspecified)
  | K_Apn => (* apn.rs 23-32 *) IE_Apn (mkIe 71 0 0 [])
  | K_ApnAmbr => (* ambr.rs 25-35 *) IE_ApnAmbr (mkIe 72 8 0 (mkAmbr 0 0))
  | K_Ebi => (* ebi.rs 23-32 *) IE_Ebi (mkIe 73 1 0 0)
  | K_IpAddress => (* ipaddress.rs 24-33 *) IE_IpAddress (mkIe 74 0 0 (IpV4 [0; 0; 0; 0]))
  | K_Mei => (* mei.rs 24-33 *) IE_Mei (mkIe 75 8 0 [48])
  | K_Msisdn => (* msisdn.rs 23-32 *) IE_Msisdn (mkIe 76 0 0 [48])
  | K_Indication => (* indication.rs 97-180 *) IE_Indication (mkIe 77 10 0 (mkIndication false false false false false false false false false false false false false false false false false false false false false false false false false false false false false false false false false false false false false false false false false false false false false false false false false false false false false false false false false false false false false false false false false false false false false false false false false false false))
  | K_Pco => (* pco.rs 23-32 *) IE_Pco (mkIe 78 0 0 [])
  | K_PdnAddressAllocation => (* paa.rs 35-44 *) IE_PdnAddressAllocation (mkIe 79 0 0 (Paa_V4 [0; 0; 0; 0]))
  | K_BearerQos => (* bearerqos.rs 31-47 *) IE_BearerQos (mkIe 80 22 0 (mkBearerQos 0 0 0 9 0 0 0 0))
  | K_FlowQos => (* flowqos.rs 27-40 *) IE_FlowQos (mkIe 81 21 0 (mkFlowQos 9 0 0 0 0))
  | K_RatType => (* rattype.rs 143-152 *) IE_RatType (mkIe 82 1 0 Rat_Eutran)
  | K_ServingNetwork => (* servingnetwork.rs 26-37 *) IE_ServingNetwork (mkIe 83 3 0 (mkPlmn 0 0 false))
  | K_BearerTft => (* bearertft.rs 23-32 *) IE_BearerTft (mkIe 84 0 0 [])
  | K_TrafficAggregateDescription => (* tad.rs 23-32 *) IE_TrafficAggregateDescription (mkIe 85 0 0 [])
  | K_Uli => (* uli.rs 36-45 *) IE_Uli (mkIe 86 0 0 [])
  | K_Fteid => (* fteid.rs 70-82 *) IE_Fteid (mkIe 87 9 0 (mkFteid 0 0 (Some [0; 0; 0; 0]) None))
  | K_Tmsi => (* tmsi.rs 24-33 *) IE_Tmsi (mkIe 88 4 0 0)
  | K_GlobalCnId => (* globalcnid.rs 27-39 *) IE_GlobalCnId (mkIe 89 5 0 (mkGlobalCn (mkPlmn 0 0 false) 0))
  | K_S103pdf => (* s103pdf.rs 26-37 *) IE_S103pdf (mkIe 90 0 0 (mkS103 (IpV4 [0; 0; 0; 0]) 0 []))
  | K_S1udf => (* s1udf.rs 26-37 *) IE_S1udf (mkIe 91 0 0 (mkS1udf 0 (IpV4 [0; 0; 0; 0]) 0))
  | K_DelayValue => (* delayvalue.rs 24-33 *) IE_DelayValue (mkIe 92 1 0 0)
  | K_BearerContext => (* bearercontext.rs 30-52 *) IE_BearerContext (mkIe 93 0 0 (mkBearerContext Ebi_default None None [] None None None None None None None None None None))
  | K_ChargingId => (* chargingid.rs 24-33 *) IE_ChargingId (mkIe 94 4 0 0)
  | K_ChargingCharacteristics => (* chargingchar.rs 24-33 *) IE_ChargingCharacteristics (mkIe 95 2 0 0)
  | K_TraceInformation => (* traceinfo.rs 33-50 *) IE_TraceInformation (mkIe 96 34 0 (mkTraceInfo (mkPlmn 0 0 false) 0 [] 0 0 [] [0; 0; 0; 0]))
  | K_BearerFlags => (* bearerflags.rs 27-39 *) IE_BearerFlags (mkIe 97 1 0 (mkBearerFlags false false false false))
  | K_PdnType => (* pdntype.rs 62-71 *) IE_PdnType (mkIe 99 1 0 Pdn_Ipv4)
  | K_Pti => (* pti.rs 24-33 *) IE_Pti (mkIe 100 1 0 0)
  | K_MmContext => (* mmctx.rs 17-21 *) IE_MmContext (MmEps (mkIe 107 0 0 MmEps_default))
  | K_PdnConnections => (* pdnconnections.rs 41-74 *) IE_PdnConnections (mkIe 109 0 0 (mkPdnConnections Apn_default None None None None Ebi_default Fteid_default None [] Ambr_default None None None None None None None None None None [] None None None None))
  | K_PduNumbers => (* pdunumbers.rs 28-41 *) IE_PduNumbers (mkIe 110 9 0 (mkPduNumbers 0 0 0 0 0))
  | K_Ptmsi => (* ptmsi.rs 24-33 *) IE_Ptmsi (mkIe 111 4 0 0)
  | K_PtmsiSignature => (* ptmsisignature.rs 24-33 *) IE_PtmsiSignature (mkIe 112 4 0 0)
  | K_HopCounter => (* hopcounter.rs 24-33 *) IE_HopCounter (mkIe 113 1 0 0)
  | K_UeTimeZone => (* uetimezone.rs 25-35 *) IE_UeTimeZone (mkIe 114 2 0 (mkUeTimeZone 0 0))
  | K_TraceReference => (* tracereference.rs 27-39 *) IE_TraceReference (mkIe 83 6 0 (mkTraceRef (mkPlmn 0 0 false) 0))
  | K_CompleteRequestMessage => (* completereqmessage.rs 31-40 *) IE_CompleteRequestMessage (mkIe 116 0 0 ReqSpare)
  | K_Guti => (* guti.rs 29-43 *) IE_Guti (mkIe 117 10 0 (mkGuti (mkPlmn 0 0 false) 0 0 0))
  | K_Fcontainer => (* fcontainer.rs 36-45 *) IE_Fcontainer (mkIe 118 0 0 FcReserved)
  | K_Fcause => (* fcause.rs 62-72 *) IE_Fcause (mkIe 119 0 0 (mkFcause CauseType_RadioNetworkLayer []))
  | K_PlmnId => (* plmnid.rs 26-37 *) IE_PlmnId (mkIe 120 3 0 (mkPlmn 0 0 false))
  | K_TargetIdentification => (* targetid.rs 668-677; derived default 485-498 *) IE_TargetIdentification (mkIe 121 0 0 Tt_Spare)
  | K_PacketFlowId => (* packetflowid.rs 25-35 *) IE_PacketFlowId (mkIe 123 5 0 (mkPacketFlow 0 0))
  | K_RabContext => (* rabcontext.rs 28-41 *) IE_RabContext (mkIe 124 9 0 (mkRabCtx 0 0 0 0 0))
  | K_SrcRncPdcpCtxInfo => (* srcrncpdcpctxinfo.rs 23-32 *) IE_SrcRncPdcpCtxInfo (mkIe 125 0 0 [])
  | K_PortNumber => (* portnumber.rs 24-33 *) IE_PortNumber (mkIe 126 2 0 0)
  | K_ApnRestriction => (* apnrestriction.rs 61-70 *) IE_ApnRestriction (mkIe 127 1 0 Restriction_NoApnRestriction)
  | K_SelectionMode => (* selectionmode.rs 24-33 *) IE_SelectionMode (mkIe 128 1 0 0)
  | K_SourceIdentification => (* sourceid.rs 178-188; derived defaults 86-92 and targetid.rs 176-184 *) IE_SourceIdentification (mkIe 129 0 0 (mkSourceId (mkCellId (mkPlmn 0 0 false) 0 0 0) St_Spare))
  | K_ChangeReportingAction => (* changereportingaction.rs 36-45 *) IE_ChangeReportingAction (mkIe 131 1 0 0)
  | K_Fqcsid => (* fqcsid.rs 52-62 *) IE_Fqcsid (mkIe 132 6 0 (mkFqcsid (NodeV4 [0; 0; 0; 0]) [0]))
  | K_ChannelNeeded => (* channelneeded.rs 24-33 *) IE_ChannelNeeded (mkIe 133 1 0 0)
  | K_EmlppPriority => (* emlppprio.rs 23-32 *) IE_EmlppPriority (mkIe 134 1 0 0)
  | K_NodeType => (* nodetype.rs 51-60 *) IE_NodeType (mkIe 135 1 0 Node_Mme)
  | K_Fqdn => (* fqdn.rs 23-32 *) IE_Fqdn (mkIe 136 1 0 [])
  | K_TransactionIdentifier => (* transactionid.rs 31-40 *) IE_TransactionIdentifier (mkIe 137 0 0 (mkTransactionId false 0))
  | K_MbmsSa => (* mbmssa.rs 23-32 *) IE_MbmsSa (mkIe 139 0 0 [0])
  | K_MbmsSd => (* mbmssd.rs 25-35 *) IE_MbmsSd (mkIe 138 3 0 (mkMbmsSd 0 0))
  | K_MbmsSessionId => (* mbmssessionid.rs 24-33 *) IE_MbmsSessionId (mkIe 140 1 0 0)
  | K_MbmsFlowId => (* mbmsflowid.rs 24-33 *) IE_MbmsFlowId (mkIe 141 2 0 0)
  | K_MbmsIpMulticastDistribution => (* mbmsipmulticastdistribution.rs 35-47 *) IE_MbmsIpMulticastDistribution (mkIe 142 0 0 (mkMulticast 0 (IpV4 [0; 0; 0; 0]) (IpV4 [0; 0; 0; 0]) MbmsHc_UncompressedHeader))
  | K_MbmsDistributionAck => (* mbmsdistributionack.rs 24-33 *) IE_MbmsDistributionAck (mkIe 143 1 0 0)
  | K_RfspIndex => (* rfspindex.rs 24-33 *) IE_RfspIndex (mkIe 144 2 0 0)
  | K_Uci => (* uci.rs 87-102 *) IE_Uci (mkIe 145 8 0 (mkUci (mkPlmn 0 0 false) 0 AccessMode_ClosedMode false Cmi_CsgMembership))
  | K_CSGInformationReportingAction => (* csginforeporting.rs 27-36 *) IE_CSGInformationReportingAction (mkIe 146 1 0 0)
  | K_CsgId => (* csgid.rs 24-33 *) IE_CsgId (mkIe 147 4 0 0)
  | K_CsgMembershipIndication => (* cmi.rs 51-60 *) IE_CsgMembershipIndication (mkIe 148 1 0 CsgMembership_NonCsgMembership)
  | K_ServiceIndicator => (* serviceindicator.rs 58-67; 22-26 *) IE_ServiceIndicator (mkIe 149 1 0 ServiceIndication_CsCallIndicator)
  | K_DetachType => (* detachtype.rs 61-70; 22-26 *) IE_DetachType (mkIe 150 1 0 DetachTypeValue_PsDetach)
  | K_Ldn => (* ldn.rs 23-32 *) IE_Ldn (mkIe 151 0 0 [])
  | K_NodeFeatures => (* nodefeatures.rs 31-47 *) IE_NodeFeatures (mkIe 152 1 0 (mkNodeFeatures false false false false false false false false))
  | K_MbmsTimeToDataTransfer => (* mbmstimetodatatransfer.rs 24-33 *) IE_MbmsTimeToDataTransfer (mkIe 153 1 0 0)
  | K_Throttling => (* throttling.rs 39-50 *) IE_Throttling (mkIe 154 2 0 (mkThrottle 0 0 0))
  | K_Arp => (* arp.rs 26-37 *) IE_Arp (mkIe 155 1 0 (mkArp false 0 false))
  | K_EpcTimer => (* epctimer.rs 25-35 *) IE_EpcTimer (mkIe 156 1 0 (mkEpcTimer 0 0))
  | K_Spi => (* spi.rs 24-33 *) IE_Spi (mkIe 157 1 0 false)
  | K_Tmgi => (* tmgi.rs 24-33 *) IE_Tmgi (mkIe 158 6 0 [0; 0; 0; 0; 0; 0])
  | K_AdditionalMmContextForSrvcc => (* additionalmmctxsrvcc.rs 25-36 *) IE_AdditionalMmContextForSrvcc (mkIe 159 0 0 (mkAddMm None None None))
  | K_AdditionalFlagsSrvcc => (* addflagssrvcc.rs 25-35 *) IE_AdditionalFlagsSrvcc (mkIe 160 1 0 (mkAddFlags false false))
  | K_MdtConfiguration => (* mdtconfiguration.rs 85-105; 14-17 *) IE_MdtConfiguration (mkIe 162 0 0 (mkMdt MdtJobType_ImmediateMdtonly [0; 0; 0; 0] 0 0 0 0 0 None None None None None))
  | K_Apco => (* apco.rs 24-33 *) IE_Apco (mkIe 163 0 0 [])
  | K_AbsoluteTimeMbmsDataTransfer => (* abstimembmsdatatransfer.rs 24-33 *) IE_AbsoluteTimeMbmsDataTransfer (mkIe 164 8 0 0)
  | K_HenbInfoReporting => (* henbinforeporting.rs 28-37 *) IE_HenbInfoReporting (mkIe 165 1 0 false)
  | K_Ip4Cp => (* ip4cp.rs 26-36 *) IE_Ip4Cp (mkIe 166 5 0 (mkIp4Cp 0 [0; 0; 0; 0]))
  | K_ChangeToReportFlags => (* changetoreportflags.rs 28-38 *) IE_ChangeToReportFlags (mkIe 167 1 0 (mkCtrFlags false false))
  | K_ActionIndication => (* actionindication.rs 66-75 *) IE_ActionIndication (mkIe 168 1 0 IndicationValues_NoAction)
  | K_TwanId => (* twanid.rs 31-46 *) IE_TwanId (mkIe 169 1 0 (mkTwanId [] None None None None None None))
  | K_UliTimestamp => (* ulitimestamp.rs 24-33 *) IE_UliTimestamp (mkIe 170 4 0 0)
  | K_MbmsFlags => (* mbmsflags.rs 25-35 *) IE_MbmsFlags (mkIe 171 1 0 (mkMbmsFlags false false))
  | K_RanNasCause => (* rannascause.rs 70-79 *) IE_RanNasCause (mkIe 172 0 0 Rn_Spare)
  | K_CnOperatorSelectionEntity => (* cnose.rs 31-40 *) IE_CnOperatorSelectionEntity (mkIe 173 1 0 ServingNetworkSelectedbyUE)
  | K_Twmi => (* twmi.rs 25-35 *) IE_Twmi (mkIe 174 1 0 (mkTwmi false false))
  | K_NodeNumber => (* nodenumber.rs 23-32 *) IE_NodeNumber (mkIe 175 0 0 [])
  | K_NodeIdentifier => (* nodeidentifier.rs 24-34 *) IE_NodeIdentifier (mkIe 176 0 0 (mkNodeIdentifier [] []))
  | K_PresenceReportingAreaAction => (* praa.rs 38-57 *) IE_PresenceReportingAreaAction (mkIe 177 0 0 (mkPraa false 0 0 [] [] [] [] [] [] [] []))
  | K_PresenceReportingAreaInformation => (* prai.rs 66-76 *) IE_PresenceReportingAreaInformation (mkIe 178 8 0 (mkPrai (Inapra 0) None))
  | K_TwanIdTimeStamp => (* twanidtimestamp.rs 24-33 *) IE_TwanIdTimeStamp (mkIe 179 4 0 0)
  | K_OverloadControlInfo => (* overloadcontrolinfo.rs 20-32 *) IE_OverloadControlInfo (mkIe 180 17 0 (mkOverloadControlInfo Sqn_default Metric_default EpcTimer_default None))
  | K_LoadControlInfo => (* loadcontrolinfo.rs 19-30 *) IE_LoadControlInfo (mkIe 181 0 0 (mkLoadControl Sqn_default Metric_default None))
  | K_Metric => (* metric.rs 24-33 *) IE_Metric (mkIe 182 1 0 0)
  | K_Sqn => (* sqn.rs 24-33 *) IE_Sqn (mkIe 183 4 0 0)
  | K_ApnRelativeCapacity => (* apnrelativecapacity.rs 24-34 *) IE_ApnRelativeCapacity (mkIe 184 0 0 (mkApnRelCap 0 []))
  | K_WlanOffloadIndication => (* wlanoffloadindication.rs 30-40 *) IE_WlanOffloadIndication (mkIe 185 1 0 (mkWlanOffload false false))
  | K_PagingServiceInfo => (* pagingserviceinfo.rs 25-35 *) IE_PagingServiceInfo (mkIe 186 2 0 (mkPagingInfo 0 None))
  | K_IntegerNumber => (* integernumber.rs 23-32 *) IE_IntegerNumber (mkIe 187 0 0 [])
  | K_MilliSecondTimeStamp => (* millisecondtimestamp.rs 24-33 *) IE_MilliSecondTimeStamp (mkIe 188 6 0 0)
  | K_MonitoringEventInformation => (* monitoringeventinfo.rs 29-44 *) IE_MonitoringEventInformation (mkIe 189 0 0 (mkMonInfo false false false 0 [] 0 None))
  | K_EcgiList => (* ecgilist.rs 23-32 *) IE_EcgiList (mkIe 190 0 0 None)
  | K_RemoteUeContext => (* remoteuecontext.rs 18-28 *) IE_RemoteUeContext (mkIe 191 5 0 (mkRemoteUeContext RemoteUserId_default None))
  | K_RemoteUserId => (* remoteuserid.rs 25-36 *) IE_RemoteUserId (mkIe 192 0 0 (mkRemoteUser [] None None))
  | K_RemoteUeIpInformation => (* remoteueip.rs 33-42 *) IE_RemoteUeIpInformation (mkIe 193 0 0 (Rip_V4 [0; 0; 0; 0]))
  | K_CIoTOptimizationSupportIndication => (* ciotoptimizationssupport.rs 27-39 *) IE_CIoTOptimizationSupportIndication (mkIe 194 1 0 (mkCiot false false false false))
  | K_ScefPdnConnections => (* scefpdnconnections.rs 19-30 *) IE_ScefPdnConnections (mkIe 195 0 0 (mkScefPdnConnections Apn_default Ebi_default NodeIdentifier_default))
  | K_HeaderCompressionConfiguration => (* hdrcomprconfig.rs 25-35 *) IE_HeaderCompressionConfiguration (mkIe 196 4 0 (mkHdrCompr [0] 0))
  | K_Epco => (* epco.rs 24-33 *) IE_Epco (mkIe 197 0 0 [])
  | K_ServingPlmnRateControl => (* servingplmnratecontrol.rs 25-35 *) IE_ServingPlmnRateControl (mkIe 198 4 0 (mkPlmnRate 0 0))
  | K_Counter => (* counter.rs 25-35 *) IE_Counter (mkIe 199 5 0 (mkCounter 0 0))
  | K_MappedUeUsageType => (* mueut.rs 25-34 *) IE_MappedUeUsageType (mkIe 200 2 0 0)
  | K_SecondaryRatUsageDataReport => (* secondaryratudr.rs 36-53 *) IE_SecondaryRatUsageDataReport (mkIe 201 27 0 (mkRatReport false false 0 0 0 0 0 0 None))
  | K_UpFunctionSelectionIndicationFlags => (* upfsif.rs 24-33 *) IE_UpFunctionSelectionIndicationFlags (mkIe 202 1 0 false)
  | K_MaxPacketLossRate => (* maxpacketlossrate.rs 26-36 *) IE_MaxPacketLossRate (mkIe 203 0 0 (mkMaxLoss None None))
  | K_ApnRateControlStatus => (* apnratecontrolstatus.rs 23-35 *) IE_ApnRateControlStatus (mkIe 204 20 0 (mkApnRate 0 0 0 0))
  | K_ExtendedTraceInformation => (* extendedtraceinfo.rs 32-49 *) IE_ExtendedTraceInformation (mkIe 205 0 0 (mkExtTrace (mkPlmn 0 0 false) 0 [] [] 0 [] (IpV4 [0; 0; 0; 0])))
  | K_MonitoringEventExtensionInfo => (* monitoringeventextinfo.rs 26-38 *) IE_MonitoringEventExtensionInfo (mkIe 206 6 0 (mkMonExt 0 [] None None))
  | K_AdditionalRrmPolicyIndex => (* arpi.rs 24-33 *) IE_AdditionalRrmPolicyIndex (mkIe 207 4 0 0)
  | K_V2xInformation => (* v2xinformation.rs 19-30 *) IE_V2xInformation (mkIe 208 0 0 (mkV2xInformation [] [] None))
  | K_PC5QosParameters => (* pc5qosparameters.rs 18-28 *) IE_PC5QosParameters (mkIe 209 0 0 (mkPC5QosParameters [] None))
  | K_ServicesAuthorized => (* servicesauthorized.rs 25-35 *) IE_ServicesAuthorized (mkIe 210 2 0 (mkServicesAuth false false))
  | K_BitRate => (* bitrate.rs 24-33 *) IE_BitRate (mkIe 211 4 0 0)
  | K_PC5QosFlow => (* pc5qosflow.rs 22-34 *) IE_PC5QosFlow (mkIe 212 0 0 (mkPc5Flow 0 0 0 None))
  | K_SgiPtpTunnelAddress => (* sgiptptunneladdress.rs 25-35 *) IE_SgiPtpTunnelAddress (mkIe 213 0 0 (mkSgiTunnel (IpV4 [0; 0; 0; 0]) None))
  | K_PgwChangeInfo => (* pgwchangeinfo.rs 20-32 *) IE_PgwChangeInfo (mkIe 214 0 0 (mkPgwChangeInfo [] [] [] []))
  | K_PgwFqdn => (* pgwfqdn.rs 23-32 *) IE_PgwFqdn (mkIe 215 0 0 [])
  | K_GroupId => (* groupid.rs 23-32 *) IE_GroupId (mkIe 216 0 0 [])
  | K_PSCellId => (* pscellid.rs 27-39 *) IE_PSCellId (mkIe 217 8 0 (mkPscell (mkPlmn 0 0 false) [0; 0; 0; 0; 0]))
  | K_UpSecurityPolicy => (* upsp.rs 57-66 *) IE_UpSecurityPolicy (mkIe 218 1 0 UpIpPolicy_NotNeeded)
  | K_AlternativeImsi => (* alternativeimsi.rs 23-32 *) IE_AlternativeImsi (mkIe 219 0 0 [])
  | K_SpecialIEWithTypeExt => (* specialiewithtypeext.rs 24-34 *) IE_SpecialIEWithTypeExt (mkIe 254 0 0 (mkSpecialIe 0 []))
  | K_PrivateExtension => (* privateextension.rs 24-34 *) IE_PrivateExtension (mkIe 255 0 0 (mkPrivateExt 0 []))
  | K_Unknown => (* unknown.rs 11-17, derived *) IE_Unknown (mkIe 0 0 0 [])
  end.

(* The value of a field of a message struct in default(): X::default() for a plain field, None for an Option,
   vec![] for a Vec. In every message file this is so for every field; lines in the table below. *)
Definition field_default (f : field_spec) : list ie :=
  match f_arity f with One => [default_of (f_kind f)] | Opt => [] | Many => [] end.

(* Gtpv2Header { msgtype: .., teid: .., ..Default::default() } of the message's default() *)
Definition message_header_default (d : message_def) : Gtpv2Header :=
  mkHdr2 (md_type d) false None 8
    (if existsb (String.eqb (md_name d)) ["EchoRequest"; "EchoResponse"; "VersionNotSupported"]%string then None else Some 0) 0.

(* The default() of a message, d with the fields L. Lines of the impl Default blocks in src/gtpv2/messages:
   alertmmeacknowledge 21-34, alertmmenotification 20-32, bearerresourcecommand 38-68,
   bearerresourcefailureind 27-46, changenotificationreq 32-56, changenotificationresp 26-44,
   contextacknowledge 26-44, contextreq 39-70, contextresp 47-86, createbearerreq 36-63, createbearerresp 40-72,
   createforwardingtunnelreq 21-33, createforwardingtunnelresp 22-35, createindirectdatafwtunnelreq 26-43,
   createindirectdatafwtunnelresp 24-39, createsessionreq 79-150, createsessionresp 55-102,
   cspagingindication 28-48, deletebearercommand 28-49, deletebearerfailureind 25-42, deletebearerreq 36-64,
   deletebearerresp 43-78, deleteindirectdatafwtunnelreq 20-31, deleteindirectdatafwtunnelresp 22-35,
   deletepdnconnectionsetreq 25-42, deletepdnconnectionsetresp 22-35, deletesessionreq 41-74,
   deletesessionresp 28-48, detachacknowledge 22-35, detachnotification 22-35, downlinkdatanotification 30-52,
   downlinkdatanotificationacknowledge 27-45, downlinkdatanotificationfailureindication 23-38, echoreq 22-35,
   echoresp 22-35, forwardaccesscontextacknowledge 21-34, forwardaccesscontextnotification 24-39,
   forwardrelocationcompleteacknowledge 23-38, forwardrelocationcompletenotification 21-34,
   forwardrelocationreq 58-108, forwardrelocationresp 32-56, identificationreq 29-50, identificationresp 28-48,
   isrstatusindication 21-33, mbmssessionstartreq 34-60, mbmssessionstartresp 25-42, mbmssessionstopreq 23-38,
   mbmssessionstopresp 22-36, mbmssessionupdatereq 30-52, mbmssessionupdateresp 24-40,
   modifyaccessbearersreq 27-46, modifyaccessbearersresp 26-44, modifybearercommand 24-40,
   modifybearerfailureind 24-40, modifybearerreq 52-96, modifybearerresp 42-76,
   pgwdownlinktriggeringacknowledge 23-37, pgwdownlinktriggeringnotification 23-37, pgwrestartnotification 23-37,
   pgwrestartnotificationacknowledge 21-33, raninformationrelay 22-35, releaseaccessbearersreq 25-42,
   releaseaccessbearersresp 25-42, relocationcancelreq 24-39, relocationcancelresp 21-34,
   remoteuereportacknowledge 21-33, remoteuereportnotification 22-36, resumeacknowledge 21-34,
   resumenotification 24-40, stoppagingindication 21-34, suspendacknowledge 21-34, suspendnotification 29-50,
   tracesessionactivation 22-36, tracesessiondeactivation 20-32, ueactivityacknowledge 21-34,
   ueactivitynotification 20-32, ueregistrationqueryreq 21-33, ueregistrationqueryresp 23-37,
   updatebearerreq 36-64, updatebearerresp 41-74, updatepdnconnectionsetreq 22-36,
   updatepdnconnectionsetresp 23-37, versionnotsupported 19-27. *)
Definition message_default (d : message_def) (L : layout) : message :=
  mkMsg (message_header_default d) (map field_default L).

(* the field [t] of the element struct, ie.rs 176-323 *)
Definition MmContext_t (x : MmContext) : N :=
  match x with
  | MmEps i => ie_t i | MmUmtsQ i => ie_t i | MmUmtsQq i => ie_t i
  | MmUmtsCq i => ie_t i | MmGsmT i => ie_t i | MmGsmCq i => ie_t i
  end.
Definition type_field (e : ie) : N :=
  match e with
  | IE_Imsi i => ie_t i
  | IE_Cause i => ie_t i
  | IE_Recovery i => ie_t i
  | IE_StnSr i => ie_t i
  | IE_SrvccCause i => ie_t i
  | IE_Apn i => ie_t i
  | IE_ApnAmbr i => ie_t i
  | IE_Ebi i => ie_t i
  | IE_IpAddress i => ie_t i
  | IE_Mei i => ie_t i
  | IE_Msisdn i => ie_t i
  | IE_Indication i => ie_t i
  | IE_Pco i => ie_t i
  | IE_PdnAddressAllocation i => ie_t i
  | IE_BearerQos i => ie_t i
  | IE_FlowQos i => ie_t i
  | IE_RatType i => ie_t i
  | IE_ServingNetwork i => ie_t i
  | IE_BearerTft i => ie_t i
  | IE_TrafficAggregateDescription i => ie_t i
  | IE_Uli i => ie_t i
  | IE_Fteid i => ie_t i
  | IE_Tmsi i => ie_t i
  | IE_GlobalCnId i => ie_t i
  | IE_S103pdf i => ie_t i
  | IE_S1udf i => ie_t i
  | IE_DelayValue i => ie_t i
  | IE_BearerContext i => ie_t i
  | IE_ChargingId i => ie_t i
  | IE_ChargingCharacteristics i => ie_t i
  | IE_TraceInformation i => ie_t i
  | IE_BearerFlags i => ie_t i
  | IE_PdnType i => ie_t i
  | IE_Pti i => ie_t i
  | IE_MmContext i => MmContext_t i
  | IE_PdnConnections i => ie_t i
  | IE_PduNumbers i => ie_t i
  | IE_Ptmsi i => ie_t i
  | IE_PtmsiSignature i => ie_t i
  | IE_HopCounter i => ie_t i
  | IE_UeTimeZone i => ie_t i
  | IE_TraceReference i => ie_t i
  | IE_CompleteRequestMessage i => ie_t i
  | IE_Guti i => ie_t i
  | IE_Fcontainer i => ie_t i
  | IE_Fcause i => ie_t i
  | IE_PlmnId i => ie_t i
  | IE_TargetIdentification i => ie_t i
  | IE_PacketFlowId i => ie_t i
  | IE_RabContext i => ie_t i
  | IE_SrcRncPdcpCtxInfo i => ie_t i
  | IE_PortNumber i => ie_t i
  | IE_ApnRestriction i => ie_t i
  | IE_SelectionMode i => ie_t i
  | IE_SourceIdentification i => ie_t i
  | IE_ChangeReportingAction i => ie_t i
  | IE_Fqcsid i => ie_t i
  | IE_ChannelNeeded i => ie_t i
  | IE_EmlppPriority i => ie_t i
  | IE_NodeType i => ie_t i
  | IE_Fqdn i => ie_t i
  | IE_TransactionIdentifier i => ie_t i
  | IE_MbmsSa i => ie_t i
  | IE_MbmsSd i => ie_t i
  | IE_MbmsSessionId i => ie_t i
  | IE_MbmsFlowId i => ie_t i
  | IE_MbmsIpMulticastDistribution i => ie_t i
  | IE_MbmsDistributionAck i => ie_t i
  | IE_RfspIndex i => ie_t i
  | IE_Uci i => ie_t i
  | IE_CSGInformationReportingAction i => ie_t i
  | IE_CsgId i => ie_t i
  | IE_CsgMembershipIndication i => ie_t i
  | IE_ServiceIndicator i => ie_t i
  | IE_DetachType i => ie_t i
  | IE_Ldn i => ie_t i
  | IE_NodeFeatures i => ie_t i
  | IE_MbmsTimeToDataTransfer i => ie_t i
  | IE_Throttling i => ie_t i
  | IE_Arp i => ie_t i
  | IE_EpcTimer i => ie_t i
  | IE_Spi i => ie_t i
  | IE_Tmgi i => ie_t i
  | IE_AdditionalMmContextForSrvcc i => ie_t i
  | IE_AdditionalFlagsSrvcc i => ie_t i
  | IE_MdtConfiguration i => ie_t i
  | IE_Apco i => ie_t i
  | IE_AbsoluteTimeMbmsDataTransfer i => ie_t i
  | IE_HenbInfoReporting i => ie_t i
  | IE_Ip4Cp i => ie_t i
  | IE_ChangeToReportFlags i => ie_t i
  | IE_ActionIndication i => ie_t i
  | IE_TwanId i => ie_t i
  | IE_UliTimestamp i => ie_t i
  | IE_MbmsFlags i => ie_t i
  | IE_RanNasCause i => ie_t i
  | IE_CnOperatorSelectionEntity i => ie_t i
  | IE_Twmi i => ie_t i
  | IE_NodeNumber i => ie_t i
  | IE_NodeIdentifier i => ie_t i
  | IE_PresenceReportingAreaAction i => ie_t i
  | IE_PresenceReportingAreaInformation i => ie_t i
  | IE_TwanIdTimeStamp i => ie_t i
  | IE_OverloadControlInfo i => ie_t i
  | IE_LoadControlInfo i => ie_t i
  | IE_Metric i => ie_t i
  | IE_Sqn i => ie_t i
  | IE_ApnRelativeCapacity i => ie_t i
  | IE_WlanOffloadIndication i => ie_t i
  | IE_PagingServiceInfo i => ie_t i
  | IE_IntegerNumber i => ie_t i
  | IE_MilliSecondTimeStamp i => ie_t i
  | IE_MonitoringEventInformation i => ie_t i
  | IE_EcgiList i => ie_t i
  | IE_RemoteUeContext i => ie_t i
  | IE_RemoteUserId i => ie_t i
  | IE_RemoteUeIpInformation i => ie_t i
  | IE_CIoTOptimizationSupportIndication i => ie_t i
  | IE_ScefPdnConnections i => ie_t i
  | IE_HeaderCompressionConfiguration i => ie_t i
  | IE_Epco i => ie_t i
  | IE_ServingPlmnRateControl i => ie_t i
  | IE_Counter i => ie_t i
  | IE_MappedUeUsageType i => ie_t i
  | IE_SecondaryRatUsageDataReport i => ie_t i
  | IE_UpFunctionSelectionIndicationFlags i => ie_t i
  | IE_MaxPacketLossRate i => ie_t i
  | IE_ApnRateControlStatus i => ie_t i
  | IE_ExtendedTraceInformation i => ie_t i
  | IE_MonitoringEventExtensionInfo i => ie_t i
  | IE_AdditionalRrmPolicyIndex i => ie_t i
  | IE_V2xInformation i => ie_t i
  | IE_PC5QosParameters i => ie_t i
  | IE_ServicesAuthorized i => ie_t i
  | IE_BitRate i => ie_t i
  | IE_PC5QosFlow i => ie_t i
  | IE_SgiPtpTunnelAddress i => ie_t i
  | IE_PgwChangeInfo i => ie_t i
  | IE_PgwFqdn i => ie_t i
  | IE_GroupId i => ie_t i
  | IE_PSCellId i => ie_t i
  | IE_UpSecurityPolicy i => ie_t i
  | IE_AlternativeImsi i => ie_t i
  | IE_SpecialIEWithTypeExt i => ie_t i
  | IE_PrivateExtension i => ie_t i
  | IE_Unknown i => ie_t i
  end.
