(* V1Defaults.v - the Default values of the GTPv1-C and GTP-U structs: what a field that the sender does not
   give holds, in [X { field: value, ..X::default() }]. *)
From Verif Require Import Base.
From Verif Require Export V1CTables.
Local Open Scope N_scope.

(* ------------------------------------------------------------------------- *)
(* GTPv1-C: src/gtpv1/gtpc *)

(* header.rs 97-108 *)
Definition chdr_default : CHdr := mkCHdr 0 8 0 None None None.

(* extensionheaders: the types of commons.rs 12-20, by their default values; DEFAULT = 0xffff (commons.rs 7) *)
Definition CPDCPPDUNumber_default : CExt := CX_PDCPPDUNumber (mkNumExt 192 1 0).  (* pdcppdunumber.rs 15-23 *)
Definition CSuspendRequest_default : CExt := CX_SuspendRequest (mkNumExt 193 1 65535).  (* suspendrequest.rs 15-23 *)
Definition CSuspendResponse_default : CExt := CX_SuspendResponse (mkNumExt 194 1 65535).  (* suspendresponse.rs 15-23 *)
Definition CMBMSSupportIndication_default : CExt := CX_MBMSSupportIndication (mkNumExt 1 1 65535).  (* mbmssupportindication.rs 15-23 *)
Definition CMSInfoChangeReporting_default : CExt := CX_MSInfoChangeReporting (mkNumExt 2 1 65535).  (* msicrsi.rs 15-23 *)
Definition CUnknown_default : CExt := CX_Unknown (mkBlobExt 255 0 []).  (* unknown.rs 12-20 *)

(* messages/ies: one per kind *)
Definition default1 (k : kind1) : ie1 :=
  match k with
  | K1_Cause => I1_Cause (mkTv CAUSE 0)  (* cause.rs 19-23 *)
  | K1_Imsi => I1_Imsi (mkTv IMSI [48])  (* imsi.rs 18-25 *)
  | K1_Rai => I1_Rai (mkTv RAI (mkRai (0, 0, false) 0 0))  (* rai.rs 22-33 *)
  | K1_Reordering => I1_Reordering (mkTv REORDERING_REQUIRED false)  (* reorderingreq.rs 19-26 *)
  | K1_Recovery => I1_Recovery (mkTv RECOVERY 0)  (* recovery.rs 18-25 *)
  | K1_SelectionMode => I1_SelectionMode (mkTv SELECTION_MODE 0)  (* selectionmode.rs 18-25 *)
  | K1_Teid => I1_Teid (mkTv TEID_DATA 0)  (* teid.rs 19-26 *)
  | K1_Teardown => I1_Teardown (mkTv TEARDOWN_IND true)  (* teardownind.rs 18-25 *)
  | K1_Nsapi => I1_Nsapi (mkTv NSAPI 0)  (* nsapi.rs 19-23 *)
  | K1_ChargingChar => I1_ChargingChar (mkTv CHARGING_CHARACTERISTICS 0)  (* chargingcharateristics.rs 19-26 *)
  | K1_TraceReference => I1_TraceReference (mkTv TRACE_REFERENCE 0)  (* tracereference.rs 19-26 *)
  | K1_TraceType => I1_TraceType (mkTv TRACE_TYPE 0)  (* tracetype.rs 19-26 *)
  | K1_ChargingId => I1_ChargingId (mkTv CHARGING_ID 0)  (* chargingid.rs 19-26 *)
  | K1_Eua => I1_Eua (mkTlv END_USER_ADDRESS 2 (mkEua 1 33 None None))  (* enduseraddress.rs 38-49 *)
  | K1_Apn => I1_Apn (mkTlv APN 0 [])  (* apn.rs 19-27 *)
  | K1_Pco => I1_Pco (mkTlv PCO 0 [])  (* pco.rs 18-26 *)
  | K1_Gsn => I1_Gsn (mkTlv GSN_ADDRESS 4 (V4 0 0 0 0))  (* gsnaddress.rs 19-27 *)
  | K1_Msisdn => I1_Msisdn (mkTlv MSISDN 2 (mkMsisdn 1 1 1 [48]))  (* msisdn.rs 21-32 *)
  | K1_Qos => I1_Qos (mkTlv QOS 1 (mkQos 0 []))  (* qos.rs 19-28 *)
  | K1_Tft => I1_Tft (mkTlv TFT 0 [])  (* tft.rs 18-26 *)
  | K1_TriggerId => I1_TriggerId (mkTlv TRIGGERID 0 [])  (* triggerid.rs 18-26 *)
  | K1_OmcId => I1_OmcId (mkTlv OMCID 0 [])  (* omcid.rs 18-26 *)
  | K1_CommonFlags => I1_CommonFlags (mkTlv COMMONFLAGS 1 (repeat false 8))  (* commonflags.rs 26-41 *)
  | K1_ApnRestriction => I1_ApnRestriction (mkTlv APNRESTRICTION 1 NoApnRestriction)  (* apnrestriction.rs 52-60 *)
  | K1_RatType => I1_RatType (mkTlv RATTYPE 1 Geran)  (* rattype.rs 54-62 *)
  | K1_Uli => I1_Uli (mkTlv ULI 8 (mkUli (0, 0, false) 0 (Ci 0)))  (* uli.rs 31-43 *)
  | K1_Tz => I1_Tz (mkTlv MSTIMEZONETYPE 2 (mkTz 0%Z 0))  (* mstimezone.rs 20-29 *)
  | K1_Imei => I1_Imei (mkTlv IMEI 8 [48])  (* imei.rs 19-27 *)
  | K1_Camel => I1_Camel (mkTlv CAMELCIC 0 [])  (* camelcic.rs 18-26 *)
  | K1_Ati => I1_Ati (mkTlv ADDITIONALTRACEINFO 9 (mkAti 0 0 0 0 0 0))  (* additionaltraceinfo.rs 24-37 *)
  | K1_MsInfoChange => I1_MsInfoChange (mkTlv MSINFO_CHANGE 1 0)  (* msinfochange.rs 19-27 *)
  | K1_DirectTunnel => I1_DirectTunnel (mkTlv DTF 1 (repeat false 3))  (* directtunnelflags.rs 21-31 *)
  | K1_CorrelationId => I1_CorrelationId (mkTlv CORRELATIONID 1 0)  (* correlationid.rs 19-27 *)
  | K1_BearerControlMode => I1_BearerControlMode (mkTlv BEARER_CONTROL_MODE 1 0)  (* bearercontrolmode.rs 19-27 *)
  | K1_Earp => I1_Earp (mkTlv EVOLVEDALLOCRETENTIONI 1 (mkEarp 0 0 0))  (* evolvedallocretentioni.rs 21-31 *)
  | K1_ExtCommonFlags => I1_ExtCommonFlags (mkTlv EXTCOMMONFLAGS 1 (repeat false 8))  (* extendedcommonflags.rs 26-41 *)
  | K1_Uci => I1_Uci (mkTlv UCI 8 (mkUci (0, 0, false) 0 ClosedMode CsgMembership))  (* uci.rs 41-54 *)
  | K1_CsgInfo => I1_CsgInfo (mkTlv CSG_INFO_REPORT 1 0)  (* csginforeporting.rs 21-29 *)
  | K1_Ambr => I1_Ambr (mkTlv APNAMBR 8 (mkAmbr 0 0))  (* apnambr.rs 20-29 *)
  | K1_Backoff => I1_Backoff (mkTlv GGSN_BACKOFF 1 (mkBackoff 0 0))  (* ggsnbackofftime.rs 20-29 *)
  | K1_Spi => I1_Spi (mkTlv SPI 1 false)  (* spi.rs 19-27 *)
  | K1_UliTs => I1_UliTs (mkTlv ULI_TIMESTAMP 4 0)  (* ulitimestamp.rs 19-27 *)
  | K1_Cnose => I1_Cnose (mkTlv CNOSE 1 ServingNetworkSelectedbyUE)  (* cnose.rs 26-34 *)
  | K1_ExtCommonFlagsII => I1_ExtCommonFlagsII (mkTlv EXTCOMMONFLAGS_II 1 (repeat false 3))  (* extendedcommonflagsii.rs 21-31 *)
  | K1_Mueut => I1_Mueut (mkTlv MUEUT 2 0)  (* mueut.rs 19-27 *)
  | K1_Upfsif => I1_Upfsif (mkTlv UPFSIF 1 false)  (* upfsif.rs 19-27 *)
  | K1_ChargingGw => I1_ChargingGw (mkTlv CHARGING_GW_ADDRESS 4 (V4 0 0 0 0))  (* charginggwaddress.rs 19-27 *)
  | K1_Pe => I1_Pe (mkTlv PRIVATE_EXTENSION 0 (mkPeV 0 []))  (* privateextension.rs 19-28 *)
  end.
(* extensionheadertypelist.rs 18-26 *)
Definition CEhtl_default : Tlv (list N) := mkTlv EXTENSION_HEADER_TYPE_LIST 0 [].

(* messages: Gtpv1Header { msgtype, ..default() }, Option fields None, other fields their default
   (createpdpctxreq.rs 58-107 and the other fifteen; V1CTables.v lists the fields) *)
Definition with_type (t : N) : CHdr :=
  mkCHdr t (c_length chdr_default) (c_teid chdr_default) (c_sqn chdr_default) (c_npdu chdr_default) (c_ext chdr_default).
Definition message1_default (T : table1) : Msg1 := mkMsg1 (with_type (t_msgtype T)) (map s_default (t_slots T)).
Definition Vns_default : CHdr := with_type C_VERSION_NOT_SUPPORTED.  (* versionnotsupported.rs 17-25 *)
Definition CEchoReq_default : CEchoReq := mkCEchoReq (with_type ECHO_REQUEST) None.  (* echoreq.rs 19-30 *)
Definition CEchoResp_default : CEchoResp := mkCEchoResp (with_type ECHO_RESPONSE) (mkTv RECOVERY 0) None.  (* echoresp.rs 20-32 *)
Definition CSup_default : CSup := mkCSup (with_type SUPPORTED_EXTENSION_HEADERS_NOTIFICATION) CEhtl_default.  (* supportedexthdrnotification.rs 19-30 *)

(* ------------------------------------------------------------------------- *)
(* GTP-U: src/gtpv1/gtpu; header.rs 131-142 is [hdr_default] of V1U.v *)
Definition PDCPPDUNumber_default : NumExt := mkNumExt PDCP_PDU_NUMBER 1 0.  (* pdcppdunumber.rs 15-23 *)
Definition UDPPort_default : NumExt := mkNumExt UDP_PORT 1 0.  (* udpport.rs 15-23 *)
Definition LongPDCPPDUNumber_default : NumExt := mkNumExt LONG_PDCP_PDU_NUMBER_I 2 0.  (* longpdcppdunumber.rs 16-24 *)
Definition Sci_default : NumExt := mkNumExt SCI 1 0.  (* sci.rs 15-23 *)
Definition RanContainer_default : BlobExt := mkBlobExt RAN_CONTAINER 1 [].  (* rancontainer.rs 15-23 *)
Definition XwRanContainer_default : BlobExt := mkBlobExt XW_RAN_CONTAINER 1 [].  (* xwrancontainer.rs 15-23 *)
Definition NrRanContainer_default : BlobExt := mkBlobExt NR_RAN_CONTAINER 1 [].  (* nrrancontainer.rs 15-23 *)
Definition PduSessionContainer_default : BlobExt := mkBlobExt PDU_SESSION_CONTAINER 1 [].  (* pdusessioncontainer.rs 15-23 *)
Definition Unknown_default : BlobExt := mkBlobExt 255 0 [].  (* unknown.rs 12-20 *)
(* messages/ies: Teid and GsnAddress are [teid_default] and [gsn_default] of V1U.v *)
Definition rec_default : Recovery := mkRec RECOVERY 0.  (* recovery.rs 18-25 *)
Definition pe_default : PrivateExtension := mkPe PRIVATE_EXTENSION 0 0 [].  (* privateextension.rs 19-28 *)
Definition ehtl_default : ExtensionHeaderTypeList := mkEhtl EXTENSION_HEADER_TYPE_LIST 0 [].  (* extensionheadertypelist.rs 18-26 *)
Definition with_type_u (t : N) : Gtpv1Header :=
  mkHdr t (h_length hdr_default) (teid hdr_default) (sequence_number hdr_default) (npdu_number hdr_default) (extension_headers hdr_default).
Definition EchoRequest_default : SimpleMsg := mkSimple (with_type_u ECHO_REQUEST) None.  (* echoreq.rs 19-30 *)
Definition EndMarker_default : SimpleMsg := mkSimple (with_type_u END_MARKER) None.  (* endmarker.rs 19-30 *)
Definition EchoResponse_default : EchoResponse := mkEchoResp (with_type_u ECHO_RESPONSE) rec_default None.  (* echoresp.rs 20-32 *)
Definition ErrorIndication_default : ErrorIndication := mkErrInd (with_type_u ERROR_INDICATION) teid_default gsn_default None.  (* errorindication.rs 20-33 *)
Definition Gpdu_default : Gpdu := mkGpdu (with_type_u GPDU) [].  (* gpdu.rs 18-29 *)
Definition SupExtNotif_default : SupExtNotif := mkSup (with_type_u SUPPORTED_EXTENSION_HEADERS_NOTIFICATION) ehtl_default.  (* supportedexthdrnotification.rs 19-30 *)
