(* V2Enums.v - the enumerations of src/gtpv2/messages/ies and their u8 conversions.
   Generated from the source by tools/mkenums.py. *)
From Coq Require Import NArith Bool.
Local Open Scope N_scope.

(* actionindication.rs 24-31 *)
Inductive IndicationValues :=
| IndicationValues_NoAction | IndicationValues_DeactivationIndication | IndicationValues_PagingIndication | IndicationValues_PagingStopIndication | IndicationValues_Spare.
(* actionindication.rs 33-43 *)
Definition IndicationValues_to (c : IndicationValues) : N :=
  match c with
  | IndicationValues_NoAction => 0
  | IndicationValues_DeactivationIndication => 1
  | IndicationValues_PagingIndication => 2
  | IndicationValues_PagingStopIndication => 3
  | IndicationValues_Spare => 4
  end.
(* actionindication.rs 45-56 *)
Definition IndicationValues_of (n : N) : IndicationValues :=
  if n =? 0 then IndicationValues_NoAction else
  if n =? 1 then IndicationValues_DeactivationIndication else
  if n =? 2 then IndicationValues_PagingIndication else
  if n =? 3 then IndicationValues_PagingStopIndication else
  if (4 <=? n) && (n <=? 7) then IndicationValues_Spare else
  IndicationValues_NoAction.

(* apnrestriction.rs 17-24 *)
Inductive Restriction :=
| Restriction_NoApnRestriction | Restriction_Public1 | Restriction_Public2 | Restriction_Private1 | Restriction_Private2.
(* apnrestriction.rs 26-36 *)
Definition Restriction_to (c : Restriction) : N :=
  match c with
  | Restriction_NoApnRestriction => 0
  | Restriction_Public1 => 1
  | Restriction_Public2 => 2
  | Restriction_Private1 => 3
  | Restriction_Private2 => 4
  end.
(* apnrestriction.rs 38-49 *)
Definition Restriction_of (n : N) : Restriction :=
  if n =? 0 then Restriction_NoApnRestriction else
  if n =? 1 then Restriction_Public1 else
  if n =? 2 then Restriction_Public2 else
  if n =? 3 then Restriction_Private1 else
  if n =? 4 then Restriction_Private2 else
  Restriction_NoApnRestriction.

(* cmi.rs 17-20 *)
Inductive CsgMembership :=
| CsgMembership_CsgMembership | CsgMembership_NonCsgMembership.
(* cmi.rs 22-29 *)
Definition CsgMembership_to (c : CsgMembership) : N :=
  match c with
  | CsgMembership_CsgMembership => 0
  | CsgMembership_NonCsgMembership => 1
  end.
(* cmi.rs 31-39 *)
Definition CsgMembership_of (n : N) : CsgMembership :=
  if n =? 0 then CsgMembership_CsgMembership else
  if n =? 1 then CsgMembership_NonCsgMembership else
  CsgMembership_NonCsgMembership.

(* commons.rs 881-889 *)
Inductive SecurityMode :=
| SecurityMode_GsmKeyAndTriplets | SecurityMode_UmtsKeyUsedCipherAndQuintuplets | SecurityMode_GsmKeyUsedCipherAndQuintuplets | SecurityMode_UmtsKeyAndQuintuplets | SecurityMode_EpsSecurityContextAndQuadruplets | SecurityMode_UmtsKeyQuadrupletsAndQuintuplets | SecurityMode_Spare.
(* commons.rs 891-903 *)
Definition SecurityMode_to (c : SecurityMode) : N :=
  match c with
  | SecurityMode_GsmKeyAndTriplets => 0
  | SecurityMode_UmtsKeyUsedCipherAndQuintuplets => 1
  | SecurityMode_GsmKeyUsedCipherAndQuintuplets => 2
  | SecurityMode_UmtsKeyAndQuintuplets => 3
  | SecurityMode_EpsSecurityContextAndQuadruplets => 4
  | SecurityMode_UmtsKeyQuadrupletsAndQuintuplets => 5
  | SecurityMode_Spare => 6
  end.
(* commons.rs 905-917 *)
Definition SecurityMode_of (n : N) : SecurityMode :=
  if n =? 0 then SecurityMode_GsmKeyAndTriplets else
  if n =? 1 then SecurityMode_UmtsKeyUsedCipherAndQuintuplets else
  if n =? 2 then SecurityMode_GsmKeyUsedCipherAndQuintuplets else
  if n =? 3 then SecurityMode_UmtsKeyAndQuintuplets else
  if n =? 4 then SecurityMode_EpsSecurityContextAndQuadruplets else
  if n =? 5 then SecurityMode_UmtsKeyQuadrupletsAndQuintuplets else
  SecurityMode_Spare.

(* commons.rs 920-931 *)
Inductive NasCipherValues :=
| NasCipherValues_NoChiper | NasCipherValues_Eea1 | NasCipherValues_Eea2 | NasCipherValues_Eea3 | NasCipherValues_Eea4 | NasCipherValues_Eea5 | NasCipherValues_Eea6 | NasCipherValues_Eea7 | NasCipherValues_Spare.
(* commons.rs 933-947 *)
Definition NasCipherValues_to (c : NasCipherValues) : N :=
  match c with
  | NasCipherValues_NoChiper => 0
  | NasCipherValues_Eea1 => 1
  | NasCipherValues_Eea2 => 2
  | NasCipherValues_Eea3 => 3
  | NasCipherValues_Eea4 => 4
  | NasCipherValues_Eea5 => 5
  | NasCipherValues_Eea6 => 6
  | NasCipherValues_Eea7 => 7
  | NasCipherValues_Spare => 8
  end.
(* commons.rs 949-963 *)
Definition NasCipherValues_of (n : N) : NasCipherValues :=
  if n =? 0 then NasCipherValues_NoChiper else
  if n =? 1 then NasCipherValues_Eea1 else
  if n =? 2 then NasCipherValues_Eea2 else
  if n =? 3 then NasCipherValues_Eea3 else
  if n =? 4 then NasCipherValues_Eea4 else
  if n =? 5 then NasCipherValues_Eea5 else
  if n =? 6 then NasCipherValues_Eea6 else
  if n =? 7 then NasCipherValues_Eea7 else
  NasCipherValues_Spare.

(* commons.rs 966-976 *)
Inductive NasIntegrityProtectionValues :=
| NasIntegrityProtectionValues_NoIntegrity | NasIntegrityProtectionValues_Eia1 | NasIntegrityProtectionValues_Eia2 | NasIntegrityProtectionValues_Eia3 | NasIntegrityProtectionValues_Eia4 | NasIntegrityProtectionValues_Eia5 | NasIntegrityProtectionValues_Eia6 | NasIntegrityProtectionValues_Eia7.
(* commons.rs 978-991 *)
Definition NasIntegrityProtectionValues_to (c : NasIntegrityProtectionValues) : N :=
  match c with
  | NasIntegrityProtectionValues_NoIntegrity => 0
  | NasIntegrityProtectionValues_Eia1 => 1
  | NasIntegrityProtectionValues_Eia2 => 2
  | NasIntegrityProtectionValues_Eia3 => 3
  | NasIntegrityProtectionValues_Eia4 => 4
  | NasIntegrityProtectionValues_Eia5 => 5
  | NasIntegrityProtectionValues_Eia6 => 6
  | NasIntegrityProtectionValues_Eia7 => 7
  end.
(* commons.rs 993-1007 *)
Definition NasIntegrityProtectionValues_of (n : N) : NasIntegrityProtectionValues :=
  if n =? 0 then NasIntegrityProtectionValues_NoIntegrity else
  if n =? 1 then NasIntegrityProtectionValues_Eia1 else
  if n =? 2 then NasIntegrityProtectionValues_Eia2 else
  if n =? 3 then NasIntegrityProtectionValues_Eia3 else
  if n =? 4 then NasIntegrityProtectionValues_Eia4 else
  if n =? 5 then NasIntegrityProtectionValues_Eia5 else
  if n =? 6 then NasIntegrityProtectionValues_Eia6 else
  if n =? 7 then NasIntegrityProtectionValues_Eia7 else
  NasIntegrityProtectionValues_NoIntegrity.

(* commons.rs 1010-1020 *)
Inductive CipherValues :=
| CipherValues_NoCipher | CipherValues_Gea1 | CipherValues_Gea2 | CipherValues_Gea3 | CipherValues_Gea4 | CipherValues_Gea5 | CipherValues_Gea6 | CipherValues_Gea7.
(* commons.rs 1022-1035 *)
Definition CipherValues_to (c : CipherValues) : N :=
  match c with
  | CipherValues_NoCipher => 0
  | CipherValues_Gea1 => 1
  | CipherValues_Gea2 => 2
  | CipherValues_Gea3 => 3
  | CipherValues_Gea4 => 4
  | CipherValues_Gea5 => 5
  | CipherValues_Gea6 => 6
  | CipherValues_Gea7 => 7
  end.
(* commons.rs 1037-1050 *)
Definition CipherValues_of (n : N) : CipherValues :=
  if n =? 1 then CipherValues_Gea1 else
  if n =? 2 then CipherValues_Gea2 else
  if n =? 3 then CipherValues_Gea3 else
  if n =? 4 then CipherValues_Gea4 else
  if n =? 5 then CipherValues_Gea5 else
  if n =? 6 then CipherValues_Gea6 else
  if n =? 7 then CipherValues_Gea7 else
  CipherValues_NoCipher.

(* commons.rs 1053-1058 *)
Inductive GprsIntegrityProtectionValues :=
| GprsIntegrityProtectionValues_NoIntegrity | GprsIntegrityProtectionValues_Gia4 | GprsIntegrityProtectionValues_Gia5.
(* commons.rs 1060-1068 *)
Definition GprsIntegrityProtectionValues_to (c : GprsIntegrityProtectionValues) : N :=
  match c with
  | GprsIntegrityProtectionValues_NoIntegrity => 0
  | GprsIntegrityProtectionValues_Gia4 => 4
  | GprsIntegrityProtectionValues_Gia5 => 5
  end.
(* commons.rs 1070-1078 *)
Definition GprsIntegrityProtectionValues_of (n : N) : GprsIntegrityProtectionValues :=
  if n =? 4 then GprsIntegrityProtectionValues_Gia4 else
  if n =? 5 then GprsIntegrityProtectionValues_Gia5 else
  GprsIntegrityProtectionValues_NoIntegrity.

(* detachtype.rs 23-29 *)
Inductive DetachTypeValue :=
| DetachTypeValue_Reserved | DetachTypeValue_PsDetach | DetachTypeValue_CombinedPsCsDetach | DetachTypeValue_Spare.
(* detachtype.rs 31-40 *)
Definition DetachTypeValue_to (c : DetachTypeValue) : N :=
  match c with
  | DetachTypeValue_Reserved => 0
  | DetachTypeValue_PsDetach => 1
  | DetachTypeValue_CombinedPsCsDetach => 2
  | DetachTypeValue_Spare => 3
  end.
(* detachtype.rs 42-51 *)
Definition DetachTypeValue_of (n : N) : DetachTypeValue :=
  if n =? 0 then DetachTypeValue_Reserved else
  if n =? 1 then DetachTypeValue_PsDetach else
  if n =? 2 then DetachTypeValue_CombinedPsCsDetach else
  DetachTypeValue_Spare.

(* fcause.rs 15-22 *)
Inductive CauseType :=
| CauseType_Spare | CauseType_RadioNetworkLayer | CauseType_TransportLayer | CauseType_Nas | CauseType_Protocol | CauseType_Misc.
(* fcause.rs 24-35 *)
Definition CauseType_to (c : CauseType) : N :=
  match c with
  | CauseType_Spare => 5
  | CauseType_RadioNetworkLayer => 0
  | CauseType_TransportLayer => 1
  | CauseType_Nas => 2
  | CauseType_Protocol => 3
  | CauseType_Misc => 4
  end.
(* fcause.rs 37-49 *)
Definition CauseType_of (n : N) : CauseType :=
  if n =? 5 then CauseType_Spare else
  if n =? 0 then CauseType_RadioNetworkLayer else
  if n =? 1 then CauseType_TransportLayer else
  if n =? 2 then CauseType_Nas else
  if n =? 3 then CauseType_Protocol else
  if n =? 4 then CauseType_Misc else
  CauseType_Spare.

(* mdtconfiguration.rs 15-24 *)
Inductive MdtJobType :=
| MdtJobType_ImmediateMdtonly | MdtJobType_LoggedMdtonly | MdtJobType_TraceOnly | MdtJobType_ImmediateMdtandTrace | MdtJobType_RlfReportsonly | MdtJobType_RcefReportsonly | MdtJobType_LoggedMbsfnMdt.
(* mdtconfiguration.rs 26-38 *)
Definition MdtJobType_to (c : MdtJobType) : N :=
  match c with
  | MdtJobType_ImmediateMdtonly => 0
  | MdtJobType_LoggedMdtonly => 1
  | MdtJobType_TraceOnly => 2
  | MdtJobType_ImmediateMdtandTrace => 3
  | MdtJobType_RlfReportsonly => 4
  | MdtJobType_RcefReportsonly => 5
  | MdtJobType_LoggedMbsfnMdt => 6
  end.
(* mdtconfiguration.rs 40-53 *)
Definition MdtJobType_of (n : N) : MdtJobType :=
  if n =? 0 then MdtJobType_ImmediateMdtonly else
  if n =? 1 then MdtJobType_LoggedMdtonly else
  if n =? 2 then MdtJobType_TraceOnly else
  if n =? 3 then MdtJobType_ImmediateMdtandTrace else
  if n =? 4 then MdtJobType_RlfReportsonly else
  if n =? 5 then MdtJobType_RcefReportsonly else
  if n =? 6 then MdtJobType_LoggedMbsfnMdt else
  MdtJobType_ImmediateMdtonly.

(* nodetype.rs 17-20 *)
Inductive Node :=
| Node_Mme | Node_Sgsn.
(* nodetype.rs 22-29 *)
Definition Node_to (c : Node) : N :=
  match c with
  | Node_Mme => 0
  | Node_Sgsn => 1
  end.
(* nodetype.rs 31-39 *)
Definition Node_of (n : N) : Node :=
  if n =? 0 then Node_Mme else
  if n =? 1 then Node_Sgsn else
  Node_Sgsn.

(* pdntype.rs 16-23 *)
Inductive Pdn :=
| Pdn_Ipv4 | Pdn_Ipv6 | Pdn_Ipv46 | Pdn_NonIp | Pdn_Ethernet | Pdn_Reserved.
(* pdntype.rs 25-36 *)
Definition Pdn_to (c : Pdn) : N :=
  match c with
  | Pdn_Ipv4 => 1
  | Pdn_Ipv6 => 2
  | Pdn_Ipv46 => 3
  | Pdn_NonIp => 4
  | Pdn_Ethernet => 5
  | Pdn_Reserved => 6
  end.
(* pdntype.rs 38-50 *)
Definition Pdn_of (n : N) : Pdn :=
  if n =? 1 then Pdn_Ipv4 else
  if n =? 2 then Pdn_Ipv6 else
  if n =? 3 then Pdn_Ipv46 else
  if n =? 4 then Pdn_NonIp else
  if n =? 5 then Pdn_Ethernet else
  if n =? 6 then Pdn_Reserved else
  Pdn_Reserved.

(* rattype.rs 44-69 *)
Inductive Rat :=
| Rat_Reserved | Rat_Utran | Rat_Geran | Rat_Wlan | Rat_Gan | Rat_HspaEvo | Rat_Eutran | Rat_Virtual | Rat_EutranNbiot | Rat_LteM | Rat_NR | Rat_WbEutranLeo | Rat_WbEutranMeo | Rat_WbEutranGeo | Rat_WbEutranOthersat | Rat_EutranNbiotLeo | Rat_EutranNbiotMeo | Rat_EutranNbiotGeo | Rat_EutranNbiotOthersat | Rat_LteMLeo | Rat_LteMMeo | Rat_LteMGeo | Rat_LteMOthersat | Rat_Spare.
(* rattype.rs 71-100 *)
Definition Rat_to (c : Rat) : N :=
  match c with
  | Rat_Reserved => 0
  | Rat_Utran => 1
  | Rat_Geran => 2
  | Rat_Wlan => 3
  | Rat_Gan => 4
  | Rat_HspaEvo => 5
  | Rat_Eutran => 6
  | Rat_Virtual => 7
  | Rat_EutranNbiot => 8
  | Rat_LteM => 9
  | Rat_NR => 10
  | Rat_WbEutranLeo => 11
  | Rat_WbEutranMeo => 12
  | Rat_WbEutranGeo => 13
  | Rat_WbEutranOthersat => 14
  | Rat_EutranNbiotLeo => 15
  | Rat_EutranNbiotMeo => 16
  | Rat_EutranNbiotGeo => 17
  | Rat_EutranNbiotOthersat => 18
  | Rat_LteMLeo => 19
  | Rat_LteMMeo => 20
  | Rat_LteMGeo => 21
  | Rat_LteMOthersat => 22
  | Rat_Spare => 23
  end.
(* rattype.rs 102-131 *)
Definition Rat_of (n : N) : Rat :=
  if n =? 0 then Rat_Reserved else
  if n =? 1 then Rat_Utran else
  if n =? 2 then Rat_Geran else
  if n =? 3 then Rat_Wlan else
  if n =? 4 then Rat_Gan else
  if n =? 5 then Rat_HspaEvo else
  if n =? 6 then Rat_Eutran else
  if n =? 7 then Rat_Virtual else
  if n =? 8 then Rat_EutranNbiot else
  if n =? 9 then Rat_LteM else
  if n =? 10 then Rat_NR else
  if n =? 11 then Rat_WbEutranLeo else
  if n =? 12 then Rat_WbEutranMeo else
  if n =? 13 then Rat_WbEutranGeo else
  if n =? 14 then Rat_WbEutranOthersat else
  if n =? 15 then Rat_EutranNbiotLeo else
  if n =? 16 then Rat_EutranNbiotMeo else
  if n =? 17 then Rat_EutranNbiotGeo else
  if n =? 18 then Rat_EutranNbiotOthersat else
  if n =? 19 then Rat_LteMLeo else
  if n =? 20 then Rat_LteMMeo else
  if n =? 21 then Rat_LteMGeo else
  if n =? 22 then Rat_LteMOthersat else
  Rat_Spare.

(* serviceindicator.rs 23-28 *)
Inductive ServiceIndication :=
| ServiceIndication_Spare | ServiceIndication_CsCallIndicator | ServiceIndication_SmsIndicator.
(* serviceindicator.rs 30-38 *)
Definition ServiceIndication_to (c : ServiceIndication) : N :=
  match c with
  | ServiceIndication_Spare => 0
  | ServiceIndication_CsCallIndicator => 1
  | ServiceIndication_SmsIndicator => 2
  end.
(* serviceindicator.rs 40-48 *)
Definition ServiceIndication_of (n : N) : ServiceIndication :=
  if n =? 1 then ServiceIndication_CsCallIndicator else
  if n =? 2 then ServiceIndication_SmsIndicator else
  ServiceIndication_Spare.

(* srvcccause.rs 33-47 *)
Inductive SrvccCauseValues :=
| SrvccCauseValues_Reserved | SrvccCauseValues_Unspecified | SrvccCauseValues_HandoverRelocationCancelledBySourceSystem | SrvccCauseValues_HandoverRelocationFailureWithTargetSystem | SrvccCauseValues_HandoverRelocationTargetNotAllowed | SrvccCauseValues_UnknownTargetId | SrvccCauseValues_TargetCellNotAvailable | SrvccCauseValues_NoRadioResourcesAvailableInTargetCell | SrvccCauseValues_FailureInRadioInterfaceProcedure | SrvccCauseValues_PermanentSessionLegEstablishmentError | SrvccCauseValues_TemporarySessionLegEstablishmentError | SrvccCauseValues_Spare.
(* srvcccause.rs 49-66 *)
Definition SrvccCauseValues_to (c : SrvccCauseValues) : N :=
  match c with
  | SrvccCauseValues_Reserved => 0
  | SrvccCauseValues_Unspecified => 1
  | SrvccCauseValues_HandoverRelocationCancelledBySourceSystem => 2
  | SrvccCauseValues_HandoverRelocationFailureWithTargetSystem => 3
  | SrvccCauseValues_HandoverRelocationTargetNotAllowed => 4
  | SrvccCauseValues_UnknownTargetId => 5
  | SrvccCauseValues_TargetCellNotAvailable => 6
  | SrvccCauseValues_NoRadioResourcesAvailableInTargetCell => 7
  | SrvccCauseValues_FailureInRadioInterfaceProcedure => 8
  | SrvccCauseValues_PermanentSessionLegEstablishmentError => 9
  | SrvccCauseValues_TemporarySessionLegEstablishmentError => 10
  | SrvccCauseValues_Spare => 11
  end.
(* srvcccause.rs 68-85 *)
Definition SrvccCauseValues_of (n : N) : SrvccCauseValues :=
  if n =? 0 then SrvccCauseValues_Reserved else
  if n =? 1 then SrvccCauseValues_Unspecified else
  if n =? 2 then SrvccCauseValues_HandoverRelocationCancelledBySourceSystem else
  if n =? 3 then SrvccCauseValues_HandoverRelocationFailureWithTargetSystem else
  if n =? 4 then SrvccCauseValues_HandoverRelocationTargetNotAllowed else
  if n =? 5 then SrvccCauseValues_UnknownTargetId else
  if n =? 6 then SrvccCauseValues_TargetCellNotAvailable else
  if n =? 7 then SrvccCauseValues_NoRadioResourcesAvailableInTargetCell else
  if n =? 8 then SrvccCauseValues_FailureInRadioInterfaceProcedure else
  if n =? 9 then SrvccCauseValues_PermanentSessionLegEstablishmentError else
  if n =? 10 then SrvccCauseValues_TemporarySessionLegEstablishmentError else
  SrvccCauseValues_Spare.

(* uci.rs 17-21 *)
Inductive AccessMode :=
| AccessMode_ClosedMode | AccessMode_HybridMode | AccessMode_Reserved.
(* uci.rs 23-31 *)
Definition AccessMode_to (c : AccessMode) : N :=
  match c with
  | AccessMode_ClosedMode => 0
  | AccessMode_HybridMode => 1
  | AccessMode_Reserved => 2
  end.
(* uci.rs 33-42 *)
Definition AccessMode_of (n : N) : AccessMode :=
  if n =? 0 then AccessMode_ClosedMode else
  if n =? 1 then AccessMode_HybridMode else
  if n =? 2 then AccessMode_Reserved else
  if n =? 3 then AccessMode_Reserved else
  AccessMode_Reserved.

(* uci.rs 47-50 *)
Inductive Cmi :=
| Cmi_CsgMembership | Cmi_NonCsgMembership.
(* uci.rs 52-59 *)
Definition Cmi_to (c : Cmi) : N :=
  match c with
  | Cmi_NonCsgMembership => 0
  | Cmi_CsgMembership => 1
  end.
(* uci.rs 61-69 *)
Definition Cmi_of (n : N) : Cmi :=
  if n =? 0 then Cmi_NonCsgMembership else
  if n =? 1 then Cmi_CsgMembership else
  Cmi_NonCsgMembership.

(* upsp.rs 16-22 *)
Inductive UpIpPolicy :=
| UpIpPolicy_NotNeeded | UpIpPolicy_Preferred | UpIpPolicy_Required | UpIpPolicy_Spare.
(* upsp.rs 24-33 *)
Definition UpIpPolicy_to (c : UpIpPolicy) : N :=
  match c with
  | UpIpPolicy_NotNeeded => 0
  | UpIpPolicy_Preferred => 1
  | UpIpPolicy_Required => 2
  | UpIpPolicy_Spare => 3
  end.
(* upsp.rs 35-45 *)
Definition UpIpPolicy_of (n : N) : UpIpPolicy :=
  if n =? 0 then UpIpPolicy_NotNeeded else
  if n =? 1 then UpIpPolicy_Preferred else
  if n =? 2 then UpIpPolicy_Required else
  if n =? 3 then UpIpPolicy_Spare else
  UpIpPolicy_Spare.
