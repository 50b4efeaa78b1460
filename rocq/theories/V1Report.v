(* V1Report.v - what a GTPv1 element, extension header or header tells about itself: the is_empty methods. *)
From Verif Require Import Base V1U V1CHdr V1CIe V1CKind.
Local Open Scope N_scope.

(* is_empty of the elements of gtpv1/gtpc/messages/ies (IEs trait); file names relative to that directory. A string is a list of
   character codes; 48 is '0'. *)
Definition is_empty1 (i : ie1) : bool :=
  match i with
  | I1_Cause _ => false  (* cause.rs 46-48 *)
  | I1_Imsi x => match tv_v x with [c] => c =? 48 | _ => false end  (* imsi.rs 52-54 *)
  | I1_Rai _ => false  (* rai.rs 70-72 *)
  | I1_Reordering _ => false  (* reorderingreq.rs 52-54 *)
  | I1_Recovery _ => false  (* recovery.rs 47-49 *)
  | I1_SelectionMode _ => false  (* selectionmode.rs 51-53 *)
  | I1_Teid _ => false  (* teid.rs 49-51 *)
  | I1_Teardown _ => false  (* teardownind.rs 55-57 *)
  | I1_Nsapi _ => false  (* nsapi.rs 49-51 *)
  | I1_ChargingChar _ => false  (* chargingcharateristics.rs 54-56 *)
  | I1_TraceReference _ => false  (* tracereference.rs 52-54 *)
  | I1_TraceType _ => false  (* tracetype.rs 52-54 *)
  | I1_ChargingId _ => false  (* chargingid.rs 52-54 *)
  | I1_Eua x => tlv_length x =? 0  (* enduseraddress.rs 137-139 *)
  | I1_Apn x => tlv_length x =? 0  (* apn.rs 89-91 *)
  | I1_Pco x => tlv_length x =? 0  (* pco.rs 62-64 *)
  | I1_Gsn x => tlv_length x =? 0  (* gsnaddress.rs 74-76 *)
  | I1_Msisdn x => tlv_length x =? 0  (* msisdn.rs 78-80 *)
  | I1_Qos x => tlv_length x =? 0  (* qos.rs 70-72 *)
  | I1_Tft x => tlv_length x =? 0  (* tft.rs 62-64 *)
  | I1_TriggerId x => tlv_length x =? 0  (* triggerid.rs 62-64 *)
  | I1_OmcId x => tlv_length x =? 0  (* omcid.rs 62-64 *)
  | I1_CommonFlags x => tlv_length x =? 0  (* commonflags.rs 95-97 *)
  | I1_ApnRestriction x => tlv_length x =? 0  (* apnrestriction.rs 94-96 *)
  | I1_RatType x => tlv_length x =? 0  (* rattype.rs 96-98 *)
  | I1_Uli x => tlv_length x =? 0  (* uli.rs 134-136 *)
  | I1_Tz x => tlv_length x =? 0  (* mstimezone.rs 70-72 *)
  | I1_Imei x => tlv_length x =? 0  (* imei.rs 58-60 *)
  | I1_Camel x => tlv_length x =? 0  (* camelcic.rs 62-64 *)
  | I1_Ati x => tlv_length x =? 0  (* additionaltraceinfo.rs 82-84 *)
  | I1_MsInfoChange x => tlv_length x =? 0  (* msinfochange.rs 58-60 *)
  | I1_DirectTunnel x => tlv_length x =? 0  (* directtunnelflags.rs 70-72 *)
  | I1_CorrelationId x => tlv_length x =? 0  (* correlationid.rs 58-60 *)
  | I1_BearerControlMode x => tlv_length x =? 0  (* bearercontrolmode.rs 58-60 *)
  | I1_Earp x => tlv_length x =? 0  (* evolvedallocretentioni.rs 68-70 *)
  | I1_ExtCommonFlags x => tlv_length x =? 0  (* extendedcommonflags.rs 95-97 *)
  | I1_Uci x => tlv_length x =? 0  (* uci.rs 112-114 *)
  | I1_CsgInfo x => tlv_length x =? 0  (* csginforeporting.rs 57-59 *)
  | I1_Ambr x => tlv_length x =? 0  (* apnambr.rs 62-64 *)
  | I1_Backoff x => tlv_length x =? 0  (* ggsnbackofftime.rs 65-67 *)
  | I1_Spi x => tlv_length x =? 0  (* spi.rs 65-67 *)
  | I1_UliTs x => tlv_length x =? 0  (* ulitimestamp.rs 55-57 *)
  | I1_Cnose x => tlv_length x =? 0  (* cnose.rs 75-77 *)
  | I1_ExtCommonFlagsII x => tlv_length x =? 0  (* extendedcommonflagsii.rs 73-75 *)
  | I1_Mueut x => tlv_length x =? 0  (* mueut.rs 58-60 *)
  | I1_Upfsif x => tlv_length x =? 0  (* upfsif.rs 65-67 *)
  | I1_ChargingGw x => tlv_length x =? 0  (* charginggwaddress.rs 74-76 *)
  | I1_Pe x => tlv_length x =? 0  (* privateextension.rs 62-64 *)
  end.
(* extensionheadertypelist.rs 54-56 *)
Definition cehtl_is_empty (x : Tlv (list N)) : bool := tlv_length x =? 0.

(* gtpv1/gtpc/header.rs 76-78: [self == ExtensionHeader::NoMoreExtensionHeaders] *)
Definition cext_is_empty (e : CExt) : bool := match e with CX_NoMore => true | _ => false end.
(* the ones of the structures themselves: gtpc/extensionheaders/pdcppdunumber.rs, suspendrequest.rs, suspendresponse.rs,
   mbmssupportindication.rs, msicrsi.rs 51-53: [self.length == 0]; unknown.rs 50-52: [false] *)
Definition cnum_is_empty (x : NumExt) : bool := ne_length x =? 0.
Definition cunknown_is_empty (_ : BlobExt) : bool := false.
(* gtpv1/gtpc/header.rs 301-308; MIN_HEADER_LENGTH = 8 *)
Definition chdr_is_empty (h : CHdr) : bool :=
  (c_msgtype h =? 0) && (c_length h =? 8) && (c_teid h =? 0) && negb (is_some (c_sqn h)) && negb (is_some (c_npdu h)) && negb (is_some (c_ext h)).

(* gtpv1/gtpu/header.rs 99-112 with extensionheaders/pdcppdunumber.rs 52-54, udpport.rs 52-54, sci.rs 53-55 (the value is 0),
   longpdcppdunumber.rs 60-62 (the length is 0), rancontainer.rs and its siblings 53-55, unknown.rs 51-53 (no octets) *)
Definition no_octets (l : list N) : bool := match l with [] => true | _ => false end.
Definition ext_is_empty (e : ExtensionHeader) : bool :=
  match e with
  | NoMoreExtensionHeaders => true
  | EH_PDCPPDUNumber x | EH_UDPPort x | EH_Sci x => ne_value x =? 0
  | EH_LongPDCPPDUNumber x => ne_length x =? 0
  | EH_RanContainer x | EH_XwRanContainer x | EH_NrRanContainer x | EH_PduSessionContainer x | EH_Unknown x => no_octets (be_container x)
  end.
(* gtpv1/gtpu/messages/ies: teid.rs 49-51, recovery.rs 48-50, gsnaddress.rs 78-80, privateextension.rs 66-68,
   extensionheadertypelist.rs 58-60 *)
Definition teid_is_empty (x : Teid) : bool := te_teid x =? 0.
Definition rec_is_empty (x : Recovery) : bool := rec_value x =? 0.
Definition gsn_is_empty (x : GsnAddress) : bool := match gsn_ip x with V4 a b c d => (a =? 0) && (b =? 0) && (c =? 0) && (d =? 0) | V6 _ => false end.
Definition pe_is_empty (x : PrivateExtension) : bool := no_octets (pe_value x).
Definition ehtl_is_empty (x : ExtensionHeaderTypeList) : bool := no_octets (ehtl_list x).
