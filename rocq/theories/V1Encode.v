(* V1Encode.v - the GTPv1-U and GTPv1-C encoders with the operations that can panic. The octets are those of V1U.v,
   V1CHdr.v, V1CIe.v, V1CKind.v and V1CMsg.v; here the encoders in which something is indexed, subtracted, added,
   shifted or unwrapped are modelled once more with the panic as a result. What is left as it is: slices with constant
   bounds of arrays whose size is in their type (additionaltraceinfo.rs 46 and the like). The encoders of all other
   elements contain no operation that can panic except set_tlv_ie_length and mcc_mnc_encode. *)
From Verif Require Import Base Encode V1U V1CHdr V1CIe V1CKind V1CMsg.
Local Open Scope N_scope.

(* utils.rs 198-202, 206-210 *)
Definition set_length_checked (m : mode) (b : list N) : res (list N) := set_size m 8 2 b.
Definition set_tlv_ie_length_checked (m : mode) (b : list N) : res (list N) := set_size m 3 1 b.

(* [o.map(marshal)] for an optional element *)
Definition opt_checked {A} (f : A -> res (list N)) (o : option A) : res (list N) :=
  match o with None => Ok [] | Some x => f x end.

(* gtpu/header.rs 145-191 *)
Definition hdr_checked (m : mode) (h : Gtpv1Header) : res (list N) :=
  let head := [construct_flags h; msgtype h] ++ enc16 (h_length h) ++ enc32 (teid h) in
  match is_some (sequence_number h), is_some (npdu_number h), is_some (extension_headers h) with
  | true, true, true =>
      let? s := unwrap (sequence_number h) in let? n := unwrap (npdu_number h) in
      Ok (head ++ enc16 s ++ [n] ++ marshal_ext_hdr h)
  | true, true, false =>
      let? s := unwrap (sequence_number h) in let? n := unwrap (npdu_number h) in
      Ok (head ++ enc16 s ++ [n; NO_MORE_EXTENSION_HEADERS])
  | true, false, false => let? s := unwrap (sequence_number h) in Ok (head ++ enc16 s ++ [0; NO_MORE_EXTENSION_HEADERS])
  | true, false, true => let? s := unwrap (sequence_number h) in Ok (head ++ enc16 s ++ [0] ++ marshal_ext_hdr h)
  | false, false, false => Ok head
  | false, false, true => Ok (head ++ [0; 0; 0] ++ marshal_ext_hdr h)
  | false, true, true => let? n := unwrap (npdu_number h) in Ok (head ++ [0; 0; n] ++ marshal_ext_hdr h)
  | false, true, false => let? n := unwrap (npdu_number h) in Ok (head ++ [0; 0; n; NO_MORE_EXTENSION_HEADERS])
  end.

(* gtpu/messages/ies/extensionheadertypelist.rs 29-36, gtpc/messages/ies/extensionheadertypelist.rs 29-36 *)
Definition type_list_checked (m : mode) (t len : N) (l : list N) : res (list N) :=
  let b := [t; len] ++ l in
  let? n := sub_usize m (nlen b) 2 in put b 1 (n mod 256).
(* gtpu/messages/ies/gsnaddress.rs 30-45, privateextension.rs 32-41 *)
Definition Gsn_checked (m : mode) (x : GsnAddress) : res (list N) :=
  set_tlv_ie_length_checked m ([gsn_t x] ++ enc16 (gsn_length x) ++ ip_octets (gsn_ip x)).
Definition Pe_checked (m : mode) (x : PrivateExtension) : res (list N) :=
  set_tlv_ie_length_checked m ([pe_t x] ++ enc16 (pe_length x) ++ enc16 (pe_id x) ++ pe_value x).

(* the messages of gtpu/messages: the [marshal] functions append to the caller's buffer [b] and then set the length of
   that buffer *)
Definition Simple_checked (m : mode) (x : SimpleMsg) (b : list N) : res (list N) :=
  let? h := hdr_checked m (sm_header x) in let? p := opt_checked (Pe_checked m) (sm_private_ext x) in
  set_length_checked m (b ++ h ++ p).
Definition EchoResponse_checked (m : mode) (x : EchoResponse) (b : list N) : res (list N) :=
  let? h := hdr_checked m (er_header x) in let? p := opt_checked (Pe_checked m) (er_private_ext x) in
  set_length_checked m (b ++ h ++ Rec_marshal (er_recovery x) ++ p).
Definition ErrorIndication_checked (m : mode) (x : ErrorIndication) (b : list N) : res (list N) :=
  let? h := hdr_checked m (ei_header x) in let? g := Gsn_checked m (ei_peer x) in
  let? p := opt_checked (Pe_checked m) (ei_private x) in
  set_length_checked m (b ++ h ++ Teid_marshal (ei_teid x) ++ g ++ p).
Definition Gpdu_checked (m : mode) (x : Gpdu) (b : list N) : res (list N) :=
  let? h := hdr_checked m (gp_header x) in set_length_checked m (b ++ h ++ gp_tpdu x).
Definition SupExtNotif_checked (m : mode) (x : SupExtNotif) (b : list N) : res (list N) :=
  let? h := hdr_checked m (sn_header x) in
  let? l := type_list_checked m (ehtl_t (sn_list x)) (ehtl_length (sn_list x)) (ehtl_list (sn_list x)) in
  set_length_checked m (b ++ h ++ l).

(* ------------------------------------------------------------------------- *)
(* GTPv1-C *)
(* [a + b] on u8 *)
Definition sum8 (m : mode) (a b : N) : res N :=
  if a + b <? 256 then Ok (a + b) else match m with Debug => Panic | Release => Ok ((a + b) mod 256) end.
(* [x << k] on u8 *)
Definition shl8 (m : mode) (x k : N) : res N :=
  match m with Debug => if k <? 8 then Ok (N.shiftl x k mod 256) else Panic | Release => Ok (N.shiftl x (k mod 8) mod 256) end.
(* commonflags.rs 49-57, extendedcommonflags.rs 49-57: enumerate, shift, sum *)
Fixpoint flags_sum (m : mode) (i acc : N) (l : list bool) : res N :=
  match l with
  | [] => Ok acc
  | f :: r => let? k := sub_usize m 7 i in let? y := shl8 m (b2n f) k in let? acc := sum8 m acc y in flags_sum m (i + 1) acc r
  end.
Definition Flags8_checked (m : mode) (v : list bool) : res (list N) := let? x := flags_sum m 0 0 v in Ok [x].
(* the elements that hold a network: rai.rs 37-46, uci.rs 71-86, uli.rs 46-85 *)
Definition plmn_checked (p : N * N * bool) : res (list N) := let '(mcc, mnc, three) := p in mcc_mnc_encode_checked mcc mnc three.
Definition Rai_checked (m : mode) (v : RaiV) : res (list N) :=
  let? p := plmn_checked (rai_plmn v) in Ok (p ++ enc16 (rai_lac v) ++ [rai_rac v]).
Definition Uci_checked (m : mode) (v : UciV) : res (list N) :=
  let? p := plmn_checked (uci_plmn v) in
  Ok (p ++ enc32 (N.land (uci_csgid v) 134217727) ++ [Uci_flags (uci_mode v) (uci_cmi v)]).
Definition Uli_checked (m : mode) (v : UliV) : res (list N) :=
  let? p := plmn_checked (uli_plmn v) in
  Ok ((match uli_loc v with Ci _ => 0 | Sac _ => 1 | Rac _ => 2 end)
      :: p ++ enc16 (uli_lac v) ++ match uli_loc v with Ci i => enc16 i | Sac i => enc16 i | Rac r => [r; 255] end).

(* the common body of the [marshal] functions of the elements with a length *)
Definition tlv_checked {A} (m : mode) (value : mode -> A -> res (list N)) (x : Tlv A) : res (list N) :=
  let? v := value m (tlv_v x) in set_tlv_ie_length_checked m ([tlv_t x] ++ enc16 (tlv_length x) ++ v).
Definition sure {A} (value : A -> list N) : mode -> A -> res (list N) := fun _ v => Ok (value v).

(* the [marshal] of each element, as in ie1_marshal *)
Definition ie1_checked (m : mode) (i : ie1) : res (list N) :=
  match i with
  | I1_Rai x => let? v := Rai_checked m (tv_v x) in Ok (tv_t x :: v)
  | I1_Cause _ | I1_Imsi _ | I1_Reordering _ | I1_Recovery _ | I1_SelectionMode _ | I1_Teid _ | I1_Teardown _ | I1_Nsapi _
  | I1_ChargingChar _ | I1_TraceReference _ | I1_TraceType _ | I1_ChargingId _ => Ok (ie1_marshal i)
  | I1_CommonFlags x => tlv_checked m Flags8_checked x
  | I1_ExtCommonFlags x => tlv_checked m Flags8_checked x
  | I1_Uli x => tlv_checked m Uli_checked x
  | I1_Uci x => tlv_checked m Uci_checked x
  | I1_Eua x => tlv_checked m (sure Eua_value) x
  | I1_Apn x => tlv_checked m (sure Apn_value) x
  | I1_Pco x => tlv_checked m (sure Blob_value) x
  | I1_Gsn x => tlv_checked m (sure Ip_value) x
  | I1_Msisdn x => tlv_checked m (sure Msisdn_value) x
  | I1_Qos x => tlv_checked m (sure Qos_value) x
  | I1_Tft x => tlv_checked m (sure Blob_value) x
  | I1_TriggerId x => tlv_checked m (sure Blob_value) x
  | I1_OmcId x => tlv_checked m (sure Blob_value) x
  | I1_ApnRestriction x => tlv_checked m (sure ApnRestriction_value) x
  | I1_RatType x => tlv_checked m (sure RatType_value) x
  | I1_Tz x => tlv_checked m (sure Tz_value) x
  | I1_Imei x => tlv_checked m (sure Imei_value) x
  | I1_Camel x => tlv_checked m (sure Blob_value) x
  | I1_Ati x => tlv_checked m (sure Ati_value) x
  | I1_MsInfoChange x => tlv_checked m (sure Octet_value) x
  | I1_DirectTunnel x => tlv_checked m (sure Flags_value) x
  | I1_CorrelationId x => tlv_checked m (sure Octet_value) x
  | I1_BearerControlMode x => tlv_checked m (sure Octet_value) x
  | I1_Earp x => tlv_checked m (sure Earp_value) x
  | I1_CsgInfo x => tlv_checked m (sure Octet_value) x
  | I1_Ambr x => tlv_checked m (sure Ambr_value) x
  | I1_Backoff x => tlv_checked m (sure Backoff_value) x
  | I1_Spi x => tlv_checked m (sure Bool_value) x
  | I1_UliTs x => tlv_checked m (sure UliTs_value) x
  | I1_Cnose x => tlv_checked m (sure Cnose_value) x
  | I1_ExtCommonFlagsII x => tlv_checked m (sure Flags_value) x
  | I1_Mueut x => tlv_checked m (sure Mueut_value) x
  | I1_Upfsif x => tlv_checked m (sure Bool_value) x
  | I1_ChargingGw x => tlv_checked m (sure Ip_value) x
  | I1_Pe x => tlv_checked m (sure CPe_value) x
  end.

(* the fields of a message in the order of its [marshal] *)
Fixpoint fields_checked (m : mode) (l : list (option ie1)) : res (list N) :=
  match l with
  | [] => Ok []
  | o :: r => let? a := opt_checked (ie1_checked m) o in let? b := fields_checked m r in Ok (a ++ b)
  end.
Definition msg1_checked (m : mode) (x : Msg1) (b : list N) : res (list N) :=
  let? l := fields_checked m (m_fields x) in set_length_checked m (b ++ chdr_marshal (m_header x) ++ l).
(* versionnotsupported.rs, echorequest.rs, echoresponse.rs, supportedexthdrnotification.rs *)
Definition Vns_checked (m : mode) (h : CHdr) (b : list N) : res (list N) := set_length_checked m (b ++ chdr_marshal h).
Definition CEchoReq_checked (m : mode) (x : CEchoReq) (b : list N) : res (list N) :=
  let? p := opt_checked (tlv_checked m (sure CPe_value)) (ceq_pe x) in
  set_length_checked m (b ++ chdr_marshal (ceq_header x) ++ p).
Definition CEchoResp_checked (m : mode) (x : CEchoResp) (b : list N) : res (list N) :=
  let? p := opt_checked (tlv_checked m (sure CPe_value)) (cer_pe x) in
  set_length_checked m (b ++ chdr_marshal (cer_header x) ++ CRecovery_marshal (cer_recovery x) ++ p).
Definition CSup_checked (m : mode) (x : CSup) (b : list N) : res (list N) :=
  let? l := type_list_checked m (tlv_t (cs_list x)) (tlv_length (cs_list x)) (tlv_v (cs_list x)) in
  set_length_checked m (b ++ chdr_marshal (cs_header x) ++ l).
