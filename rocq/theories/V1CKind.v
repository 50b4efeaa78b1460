(* V1CKind.v - the information element kinds of the GTPv1-C messages: one constructor per
   struct of src/gtpv1/gtpc/messages/ies that a table-driven message (V1CMsg.v) carries, and the
   trait methods (ies/commons.rs: marshal, unmarshal, len) by kind. ExtensionHeaderTypeList is
   used by one message only and stays outside. *)
From Verif Require Import Base.
From Verif Require Export V1CIe.
Local Open Scope N_scope.

Inductive ie1 :=
| I1_Cause (x : Tv N)
| I1_Imsi (x : Tv (list N))
| I1_Rai (x : Tv RaiV)
| I1_Reordering (x : Tv bool)
| I1_Recovery (x : Tv N)
| I1_SelectionMode (x : Tv N)
| I1_Teid (x : Tv N)
| I1_Teardown (x : Tv bool)
| I1_Nsapi (x : Tv N)
| I1_ChargingChar (x : Tv N)
| I1_TraceReference (x : Tv N)
| I1_TraceType (x : Tv N)
| I1_ChargingId (x : Tv N)
| I1_Eua (x : Tlv EuaV)
| I1_Apn (x : Tlv (list N))
| I1_Pco (x : Tlv (list N))
| I1_Gsn (x : Tlv IpAddr)
| I1_Msisdn (x : Tlv MsisdnV)
| I1_Qos (x : Tlv QosV)
| I1_Tft (x : Tlv (list N))
| I1_TriggerId (x : Tlv (list N))
| I1_OmcId (x : Tlv (list N))
| I1_CommonFlags (x : Tlv (list bool))
| I1_ApnRestriction (x : Tlv Restriction)
| I1_RatType (x : Tlv Rat)
| I1_Uli (x : Tlv UliV)
| I1_Tz (x : Tlv TzV)
| I1_Imei (x : Tlv (list N))
| I1_Camel (x : Tlv (list N))
| I1_Ati (x : Tlv AtiV)
| I1_MsInfoChange (x : Tlv N)
| I1_DirectTunnel (x : Tlv (list bool))
| I1_CorrelationId (x : Tlv N)
| I1_BearerControlMode (x : Tlv N)
| I1_Earp (x : Tlv EarpV)
| I1_ExtCommonFlags (x : Tlv (list bool))
| I1_Uci (x : Tlv UciV)
| I1_CsgInfo (x : Tlv N)
| I1_Ambr (x : Tlv AmbrV)
| I1_Backoff (x : Tlv BackoffV)
| I1_Spi (x : Tlv bool)
| I1_UliTs (x : Tlv N)
| I1_Cnose (x : Tlv SelectMode)
| I1_ExtCommonFlagsII (x : Tlv (list bool))
| I1_Mueut (x : Tlv N)
| I1_Upfsif (x : Tlv bool)
| I1_ChargingGw (x : Tlv IpAddr)
| I1_Pe (x : Tlv PeV).

Inductive kind1 :=
| K1_Cause
| K1_Imsi
| K1_Rai
| K1_Reordering
| K1_Recovery
| K1_SelectionMode
| K1_Teid
| K1_Teardown
| K1_Nsapi
| K1_ChargingChar
| K1_TraceReference
| K1_TraceType
| K1_ChargingId
| K1_Eua
| K1_Apn
| K1_Pco
| K1_Gsn
| K1_Msisdn
| K1_Qos
| K1_Tft
| K1_TriggerId
| K1_OmcId
| K1_CommonFlags
| K1_ApnRestriction
| K1_RatType
| K1_Uli
| K1_Tz
| K1_Imei
| K1_Camel
| K1_Ati
| K1_MsInfoChange
| K1_DirectTunnel
| K1_CorrelationId
| K1_BearerControlMode
| K1_Earp
| K1_ExtCommonFlags
| K1_Uci
| K1_CsgInfo
| K1_Ambr
| K1_Backoff
| K1_Spi
| K1_UliTs
| K1_Cnose
| K1_ExtCommonFlagsII
| K1_Mueut
| K1_Upfsif
| K1_ChargingGw
| K1_Pe.

Definition kind1_of (i : ie1) : kind1 :=
  match i with
  | I1_Cause _ => K1_Cause
  | I1_Imsi _ => K1_Imsi
  | I1_Rai _ => K1_Rai
  | I1_Reordering _ => K1_Reordering
  | I1_Recovery _ => K1_Recovery
  | I1_SelectionMode _ => K1_SelectionMode
  | I1_Teid _ => K1_Teid
  | I1_Teardown _ => K1_Teardown
  | I1_Nsapi _ => K1_Nsapi
  | I1_ChargingChar _ => K1_ChargingChar
  | I1_TraceReference _ => K1_TraceReference
  | I1_TraceType _ => K1_TraceType
  | I1_ChargingId _ => K1_ChargingId
  | I1_Eua _ => K1_Eua
  | I1_Apn _ => K1_Apn
  | I1_Pco _ => K1_Pco
  | I1_Gsn _ => K1_Gsn
  | I1_Msisdn _ => K1_Msisdn
  | I1_Qos _ => K1_Qos
  | I1_Tft _ => K1_Tft
  | I1_TriggerId _ => K1_TriggerId
  | I1_OmcId _ => K1_OmcId
  | I1_CommonFlags _ => K1_CommonFlags
  | I1_ApnRestriction _ => K1_ApnRestriction
  | I1_RatType _ => K1_RatType
  | I1_Uli _ => K1_Uli
  | I1_Tz _ => K1_Tz
  | I1_Imei _ => K1_Imei
  | I1_Camel _ => K1_Camel
  | I1_Ati _ => K1_Ati
  | I1_MsInfoChange _ => K1_MsInfoChange
  | I1_DirectTunnel _ => K1_DirectTunnel
  | I1_CorrelationId _ => K1_CorrelationId
  | I1_BearerControlMode _ => K1_BearerControlMode
  | I1_Earp _ => K1_Earp
  | I1_ExtCommonFlags _ => K1_ExtCommonFlags
  | I1_Uci _ => K1_Uci
  | I1_CsgInfo _ => K1_CsgInfo
  | I1_Ambr _ => K1_Ambr
  | I1_Backoff _ => K1_Backoff
  | I1_Spi _ => K1_Spi
  | I1_UliTs _ => K1_UliTs
  | I1_Cnose _ => K1_Cnose
  | I1_ExtCommonFlagsII _ => K1_ExtCommonFlagsII
  | I1_Mueut _ => K1_Mueut
  | I1_Upfsif _ => K1_Upfsif
  | I1_ChargingGw _ => K1_ChargingGw
  | I1_Pe _ => K1_Pe
  end.

(* the public field [t] *)
Definition ie1_t (i : ie1) : N :=
  match i with
  | I1_Cause x => tv_t x
  | I1_Imsi x => tv_t x
  | I1_Rai x => tv_t x
  | I1_Reordering x => tv_t x
  | I1_Recovery x => tv_t x
  | I1_SelectionMode x => tv_t x
  | I1_Teid x => tv_t x
  | I1_Teardown x => tv_t x
  | I1_Nsapi x => tv_t x
  | I1_ChargingChar x => tv_t x
  | I1_TraceReference x => tv_t x
  | I1_TraceType x => tv_t x
  | I1_ChargingId x => tv_t x
  | I1_Eua x => tlv_t x
  | I1_Apn x => tlv_t x
  | I1_Pco x => tlv_t x
  | I1_Gsn x => tlv_t x
  | I1_Msisdn x => tlv_t x
  | I1_Qos x => tlv_t x
  | I1_Tft x => tlv_t x
  | I1_TriggerId x => tlv_t x
  | I1_OmcId x => tlv_t x
  | I1_CommonFlags x => tlv_t x
  | I1_ApnRestriction x => tlv_t x
  | I1_RatType x => tlv_t x
  | I1_Uli x => tlv_t x
  | I1_Tz x => tlv_t x
  | I1_Imei x => tlv_t x
  | I1_Camel x => tlv_t x
  | I1_Ati x => tlv_t x
  | I1_MsInfoChange x => tlv_t x
  | I1_DirectTunnel x => tlv_t x
  | I1_CorrelationId x => tlv_t x
  | I1_BearerControlMode x => tlv_t x
  | I1_Earp x => tlv_t x
  | I1_ExtCommonFlags x => tlv_t x
  | I1_Uci x => tlv_t x
  | I1_CsgInfo x => tlv_t x
  | I1_Ambr x => tlv_t x
  | I1_Backoff x => tlv_t x
  | I1_Spi x => tlv_t x
  | I1_UliTs x => tlv_t x
  | I1_Cnose x => tlv_t x
  | I1_ExtCommonFlagsII x => tlv_t x
  | I1_Mueut x => tlv_t x
  | I1_Upfsif x => tlv_t x
  | I1_ChargingGw x => tlv_t x
  | I1_Pe x => tlv_t x
  end.

Definition ie1_marshal (i : ie1) : list N :=
  match i with
  | I1_Cause x => tv_marshal Cause_value x
  | I1_Imsi x => tv_marshal Imsi_value x
  | I1_Rai x => tv_marshal Rai_value x
  | I1_Reordering x => tv_marshal Reordering_value x
  | I1_Recovery x => CRecovery_marshal x
  | I1_SelectionMode x => tv_marshal SelectionMode_value x
  | I1_Teid x => tv_marshal CTeid_value x
  | I1_Teardown x => tv_marshal Teardown_value x
  | I1_Nsapi x => tv_marshal Nsapi_value x
  | I1_ChargingChar x => tv_marshal ChargingChar_value x
  | I1_TraceReference x => tv_marshal Trace_value x
  | I1_TraceType x => tv_marshal Trace_value x
  | I1_ChargingId x => tv_marshal ChargingId_value x
  | I1_Eua x => tlv_marshal Eua_value x
  | I1_Apn x => tlv_marshal Apn_value x
  | I1_Pco x => tlv_marshal Blob_value x
  | I1_Gsn x => tlv_marshal Ip_value x
  | I1_Msisdn x => tlv_marshal Msisdn_value x
  | I1_Qos x => tlv_marshal Qos_value x
  | I1_Tft x => tlv_marshal Blob_value x
  | I1_TriggerId x => tlv_marshal Blob_value x
  | I1_OmcId x => tlv_marshal Blob_value x
  | I1_CommonFlags x => tlv_marshal Flags_value x
  | I1_ApnRestriction x => tlv_marshal ApnRestriction_value x
  | I1_RatType x => tlv_marshal RatType_value x
  | I1_Uli x => tlv_marshal Uli_value x
  | I1_Tz x => tlv_marshal Tz_value x
  | I1_Imei x => tlv_marshal Imei_value x
  | I1_Camel x => tlv_marshal Blob_value x
  | I1_Ati x => tlv_marshal Ati_value x
  | I1_MsInfoChange x => tlv_marshal Octet_value x
  | I1_DirectTunnel x => tlv_marshal Flags_value x
  | I1_CorrelationId x => tlv_marshal Octet_value x
  | I1_BearerControlMode x => tlv_marshal Octet_value x
  | I1_Earp x => tlv_marshal Earp_value x
  | I1_ExtCommonFlags x => tlv_marshal Flags_value x
  | I1_Uci x => tlv_marshal Uci_value x
  | I1_CsgInfo x => tlv_marshal Octet_value x
  | I1_Ambr x => tlv_marshal Ambr_value x
  | I1_Backoff x => tlv_marshal Backoff_value x
  | I1_Spi x => tlv_marshal Bool_value x
  | I1_UliTs x => tlv_marshal UliTs_value x
  | I1_Cnose x => tlv_marshal Cnose_value x
  | I1_ExtCommonFlagsII x => tlv_marshal Flags_value x
  | I1_Mueut x => tlv_marshal Mueut_value x
  | I1_Upfsif x => tlv_marshal Bool_value x
  | I1_ChargingGw x => tlv_marshal Ip_value x
  | I1_Pe x => tlv_marshal CPe_value x
  end.

Definition ie1_unmarshal (k : kind1) (m : mode) (b : list N) : res ie1 :=
  match k with
  | K1_Cause => let? x := Cause_unmarshal b in Ok (I1_Cause x)
  | K1_Imsi => let? x := Imsi_unmarshal b in Ok (I1_Imsi x)
  | K1_Rai => let? x := Rai_unmarshal b in Ok (I1_Rai x)
  | K1_Reordering => let? x := Reordering_unmarshal b in Ok (I1_Reordering x)
  | K1_Recovery => let? x := CRecovery_unmarshal b in Ok (I1_Recovery x)
  | K1_SelectionMode => let? x := SelectionMode_unmarshal b in Ok (I1_SelectionMode x)
  | K1_Teid => let? x := CTeid_unmarshal b in Ok (I1_Teid x)
  | K1_Teardown => let? x := Teardown_unmarshal b in Ok (I1_Teardown x)
  | K1_Nsapi => let? x := Nsapi_unmarshal b in Ok (I1_Nsapi x)
  | K1_ChargingChar => let? x := ChargingChar_unmarshal b in Ok (I1_ChargingChar x)
  | K1_TraceReference => let? x := TraceReference_unmarshal b in Ok (I1_TraceReference x)
  | K1_TraceType => let? x := TraceType_unmarshal b in Ok (I1_TraceType x)
  | K1_ChargingId => let? x := ChargingId_unmarshal b in Ok (I1_ChargingId x)
  | K1_Eua => let? x := Eua_unmarshal m b in Ok (I1_Eua x)
  | K1_Apn => let? x := Apn_unmarshal m b in Ok (I1_Apn x)
  | K1_Pco => let? x := Pco_unmarshal m b in Ok (I1_Pco x)
  | K1_Gsn => let? x := CGsn_unmarshal m b in Ok (I1_Gsn x)
  | K1_Msisdn => let? x := Msisdn_unmarshal m b in Ok (I1_Msisdn x)
  | K1_Qos => let? x := Qos_unmarshal m b in Ok (I1_Qos x)
  | K1_Tft => let? x := Tft_unmarshal m b in Ok (I1_Tft x)
  | K1_TriggerId => let? x := TriggerId_unmarshal m b in Ok (I1_TriggerId x)
  | K1_OmcId => let? x := OmcId_unmarshal m b in Ok (I1_OmcId x)
  | K1_CommonFlags => let? x := CommonFlags_unmarshal b in Ok (I1_CommonFlags x)
  | K1_ApnRestriction => let? x := ApnRestriction_unmarshal b in Ok (I1_ApnRestriction x)
  | K1_RatType => let? x := RatType_unmarshal b in Ok (I1_RatType x)
  | K1_Uli => let? x := Uli_unmarshal b in Ok (I1_Uli x)
  | K1_Tz => let? x := Tz_unmarshal b in Ok (I1_Tz x)
  | K1_Imei => let? x := Imei_unmarshal b in Ok (I1_Imei x)
  | K1_Camel => let? x := Camel_unmarshal m b in Ok (I1_Camel x)
  | K1_Ati => let? x := Ati_unmarshal b in Ok (I1_Ati x)
  | K1_MsInfoChange => let? x := MsInfoChange_unmarshal b in Ok (I1_MsInfoChange x)
  | K1_DirectTunnel => let? x := DirectTunnel_unmarshal b in Ok (I1_DirectTunnel x)
  | K1_CorrelationId => let? x := CorrelationId_unmarshal b in Ok (I1_CorrelationId x)
  | K1_BearerControlMode => let? x := BearerControlMode_unmarshal b in Ok (I1_BearerControlMode x)
  | K1_Earp => let? x := Earp_unmarshal b in Ok (I1_Earp x)
  | K1_ExtCommonFlags => let? x := ExtCommonFlags_unmarshal b in Ok (I1_ExtCommonFlags x)
  | K1_Uci => let? x := Uci_unmarshal b in Ok (I1_Uci x)
  | K1_CsgInfo => let? x := CsgInfo_unmarshal b in Ok (I1_CsgInfo x)
  | K1_Ambr => let? x := Ambr_unmarshal b in Ok (I1_Ambr x)
  | K1_Backoff => let? x := Backoff_unmarshal b in Ok (I1_Backoff x)
  | K1_Spi => let? x := Spi_unmarshal b in Ok (I1_Spi x)
  | K1_UliTs => let? x := UliTs_unmarshal b in Ok (I1_UliTs x)
  | K1_Cnose => let? x := Cnose_unmarshal b in Ok (I1_Cnose x)
  | K1_ExtCommonFlagsII => let? x := ExtCommonFlagsII_unmarshal b in Ok (I1_ExtCommonFlagsII x)
  | K1_Mueut => let? x := Mueut_unmarshal b in Ok (I1_Mueut x)
  | K1_Upfsif => let? x := Upfsif_unmarshal b in Ok (I1_Upfsif x)
  | K1_ChargingGw => let? x := ChargingGw_unmarshal m b in Ok (I1_ChargingGw x)
  | K1_Pe => let? x := CPe_unmarshal m b in Ok (I1_Pe x)
  end.

(* the [len] methods *)
Definition ie1_len (m : mode) (i : ie1) : res nat :=
  match i with
  | I1_Cause _ => Ok 2%nat  (* cause.rs 43-45 *)
  | I1_Imsi _ => Ok 9%nat  (* imsi.rs 49-51 *)
  | I1_Rai _ => Ok 7%nat  (* rai.rs 67-69 *)
  | I1_Reordering _ => Ok 2%nat  (* reorderingreq.rs 49-51 *)
  | I1_Recovery _ => Ok 2%nat  (* recovery.rs 44-46 *)
  | I1_SelectionMode _ => Ok 2%nat  (* selectionmode.rs 48-50 *)
  | I1_Teid _ => Ok 5%nat  (* teid.rs 46-48 *)
  | I1_Teardown _ => Ok 2%nat  (* teardownind.rs 52-54 *)
  | I1_Nsapi _ => Ok 2%nat  (* nsapi.rs 46-48 *)
  | I1_ChargingChar _ => Ok 3%nat  (* chargingcharateristics.rs 50-52 *)
  | I1_TraceReference _ => Ok 3%nat  (* tracereference.rs 49-51 *)
  | I1_TraceType _ => Ok 3%nat  (* tracetype.rs 49-51 *)
  | I1_ChargingId _ => Ok 5%nat  (* chargingid.rs 49-51 *)
  | I1_Eua x => len_u16 m x  (* enduseraddress.rs 134-136 *)
  | I1_Apn x => len_u16 m x  (* apn.rs 85-87 *)
  | I1_Pco x => len_u16 m x  (* pco.rs 59-61 *)
  | I1_Gsn x => len_u16 m x  (* gsnaddress.rs 71-73 *)
  | I1_Msisdn x => len_u16 m x  (* msisdn.rs 75-77 *)
  | I1_Qos x => len_u16 m x  (* qos.rs 67-69 *)
  | I1_Tft x => len_u16 m x  (* tft.rs 59-61 *)
  | I1_TriggerId x => len_u16 m x  (* triggerid.rs 59-61 *)
  | I1_OmcId x => len_u16 m x  (* omcid.rs 59-61 *)
  | I1_CommonFlags x => len_u16 m x  (* commonflags.rs 92-94 *)
  | I1_ApnRestriction _ => Ok 2%nat  (* apnrestriction.rs 91-93: APNRESTRICTION_LENGTH + 1 *)
  | I1_RatType _ => Ok 4%nat  (* rattype.rs 93-95 *)
  | I1_Uli _ => Ok 11%nat  (* uli.rs 131-133 *)
  | I1_Tz _ => Ok 5%nat  (* mstimezone.rs 67-69 *)
  | I1_Imei _ => Ok 11%nat  (* imei.rs 55-57 *)
  | I1_Camel x => len_u16 m x  (* camelcic.rs 59-61 *)
  | I1_Ati _ => Ok 12%nat  (* additionaltraceinfo.rs 78-80 *)
  | I1_MsInfoChange _ => Ok 4%nat  (* msinfochange.rs 55-57 *)
  | I1_DirectTunnel x => len_u16 m x  (* directtunnelflags.rs 67-69 *)
  | I1_CorrelationId _ => Ok 4%nat  (* correlationid.rs 55-57 *)
  | I1_BearerControlMode _ => Ok 4%nat  (* bearercontrolmode.rs 55-57 *)
  | I1_Earp _ => Ok 4%nat  (* evolvedallocretentioni.rs 65-67 *)
  | I1_ExtCommonFlags x => len_u16 m x  (* extendedcommonflags.rs 92-94 *)
  | I1_Uci _ => Ok 11%nat  (* uci.rs 109-111 *)
  | I1_CsgInfo x => len_u16 m x  (* csginforeporting.rs 54-56 *)
  | I1_Ambr _ => Ok 11%nat  (* apnambr.rs 59-61 *)
  | I1_Backoff x => len_u16 m x  (* ggsnbackofftime.rs 62-64 *)
  | I1_Spi _ => Ok 4%nat  (* spi.rs 62-64 *)
  | I1_UliTs _ => Ok 7%nat  (* ulitimestamp.rs 52-54 *)
  | I1_Cnose _ => Ok 4%nat  (* cnose.rs 72-74 *)
  | I1_ExtCommonFlagsII x => len_u16 m x  (* extendedcommonflagsii.rs 70-72 *)
  | I1_Mueut _ => Ok 5%nat  (* mueut.rs 55-57 *)
  | I1_Upfsif _ => Ok 4%nat  (* upfsif.rs 62-64 *)
  | I1_ChargingGw x => len_u16 m x  (* charginggwaddress.rs 71-73 *)
  | I1_Pe x => len_u16 m x  (* privateextension.rs 59-61 *)
  end.

(* the values of Default for the structs that occur as mandatory fields *)
Definition Cause_default : ie1 := I1_Cause (mkTv CAUSE 0).
Definition Imsi_default : ie1 := I1_Imsi (mkTv IMSI [48]).
Definition Teid_default : ie1 := I1_Teid (mkTv TEID_DATA 0).
Definition Nsapi_default : ie1 := I1_Nsapi (mkTv NSAPI 0).
Definition Eua_default : ie1 := I1_Eua (mkTlv END_USER_ADDRESS 2 (mkEua 1 33 None None)).
Definition Apn_default : ie1 := I1_Apn (mkTlv APN 0 []).
Definition Gsn_default : ie1 := I1_Gsn (mkTlv GSN_ADDRESS 4 (V4 0 0 0 0)).
Definition Qos_default : ie1 := I1_Qos (mkTlv QOS 1 (mkQos 0 [])).
Definition RatType_default : ie1 := I1_RatType (mkTlv RATTYPE 1 Geran).
Definition CorrelationId_default : ie1 := I1_CorrelationId (mkTlv CORRELATIONID 1 0).
