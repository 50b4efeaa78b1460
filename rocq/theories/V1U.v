(* V1U.v - model of GTPv1-U: src/gtpv1/gtpu and the parts of src/gtpv1/utils.rs it uses. *)
From Verif Require Import Base.
From Verif Require Export V1Errors.
Local Open Scope N_scope.

Notation res := (Base.res GTPV1Error).

(* ------------------------------------------------------------------------- *)
(* src/gtpv1/utils.rs                                                        *)

(* utils.rs 198-202 set_length: octets 2,3 := (len - 8) as u16. The usize subtraction
   cannot underflow: every caller has just written a header of at least 8 octets. *)
Definition set_length (b : list N) : list N :=
  let size := ((nlen b - 8) mod 65536)%N in
  set_nth (set_nth b 2 ((size / 256) mod 256)) 3 (size mod 256).

(* utils.rs 206-210 set_tlv_ie_length: octets 1,2 := (len - 3) as u16 *)
Definition set_tlv_ie_length (b : list N) : list N :=
  let size := ((nlen b - 3) mod 65536)%N in
  set_nth (set_nth b 1 ((size / 256) mod 256)) 2 (size mod 256).

(* utils.rs 214-219 check_tlv_ie_buffer: (length + 3) is a u16 addition *)
Definition check_tlv_ie_buffer (m : mode) (length_ : N) (b : list N) : res bool :=
  if length_ =? 0 then Ok false
  else let? s := add16 m length_ 3 in Ok (N.to_nat s <=? length b)%nat.

(* ------------------------------------------------------------------------- *)
(* Extension headers: src/gtpv1/gtpu/extensionheaders                        *)

(* extensionheaders/commons.rs 9 *)
Definition NO_MORE_EXTENSION_HEADERS : N := 0.
(* longpdcppdunumber.rs 3-5, nrrancontainer.rs 3, pdcppdunumber.rs 3-4,
   pdusessioncontainer.rs 3, rancontainer.rs 3, sci.rs 3-4, udpport.rs 3-4,
   xwrancontainer.rs 3 *)
Definition LONG_PDCP_PDU_NUMBER_I : N := 3.
Definition LONG_PDCP_PDU_NUMBER_II : N := 130.
Definition LONG_PDCP_PDU_NUMBER_LENGTH : N := 2.
Definition NR_RAN_CONTAINER : N := 132.
Definition PDCP_PDU_NUMBER : N := 192.
Definition PDCP_PDU_NUMBER_LENGTH : N := 1.
Definition PDU_SESSION_CONTAINER : N := 133.
Definition RAN_CONTAINER : N := 129.
Definition SCI : N := 32.
Definition UDP_PORT : N := 64.
Definition XW_RAN_CONTAINER : N := 131.

(* One-number headers: PDCPPDUNumber (pdcppdunumber.rs 8-13), UDPPort (udpport.rs 8-13),
   Sci (sci.rs 8-13), LongPDCPPDUNumber (longpdcppdunumber.rs 9-14). *)
Record NumExt := mkNumExt { ne_type : N; ne_length : N; ne_value : N }.
(* Octet-string headers: RanContainer, XwRanContainer, NrRanContainer,
   PduSessionContainer (lines 8-13 of their files), Unknown (unknown.rs 5-10). *)
Record BlobExt := mkBlobExt { be_type : N; be_length : N; be_container : list N }.

(* header.rs 8-20 *)
Inductive ExtensionHeader :=
| NoMoreExtensionHeaders
| EH_PDCPPDUNumber (x : NumExt)
| EH_UDPPort (x : NumExt)
| EH_LongPDCPPDUNumber (x : NumExt)
| EH_Sci (x : NumExt)
| EH_RanContainer (x : BlobExt)
| EH_XwRanContainer (x : BlobExt)
| EH_NrRanContainer (x : BlobExt)
| EH_PduSessionContainer (x : BlobExt)
| EH_Unknown (x : BlobExt).

(* pdcppdunumber.rs 26-30, udpport.rs 26-30 *)
Definition Num16_marshal (x : NumExt) : list N :=
  [ne_type x; ne_length x] ++ enc16 (ne_value x).
(* sci.rs 26-31 *)
Definition Sci_marshal (x : NumExt) : list N := [ne_type x; ne_length x; ne_value x; 0].
(* longpdcppdunumber.rs 27-33: (number << 8) as u32, to_be_bytes, two zero octets *)
Definition Long_marshal (x : NumExt) : list N :=
  [ne_type x; ne_length x] ++ enc32 ((ne_value x * 256) mod 4294967296) ++ [0; 0].
(* rancontainer.rs 26-30 and the three siblings; unknown.rs 23-27 *)
Definition Blob_marshal (x : BlobExt) : list N :=
  [be_type x; be_length x] ++ be_container x.

(* The length check all of them share, e.g. pdcppdunumber.rs 34-40:
   length octet 0 is an error; then [(length * 4) as usize <= buffer.len()], where the
   multiplication is on u8. The continuation gets the length octet and the product. *)
Definition ext_checked {A} (m : mode) (b : list N) (k : N -> N -> res A) : res A :=
  let? l := at_ b 1 in
  if l =? 0 then Err ExtHeaderInvalidLength
  else
    let? s := mul8 m l 4 in
    if (N.to_nat s <=? length b)%nat then k l s else Err ExtHeaderInvalidLength.

(* pdcppdunumber.rs 32-46, udpport.rs 32-46 *)
Definition Num16_unmarshal (t : N) (m : mode) (b : list N) : res NumExt :=
  ext_checked m b (fun l _ =>
    let? x := at_ b 2 in let? y := at_ b 3 in Ok (mkNumExt t l (be16 x y))).
(* sci.rs 33-47 *)
Definition Sci_unmarshal (m : mode) (b : list N) : res NumExt :=
  ext_checked m b (fun l _ => let? x := at_ b 2 in Ok (mkNumExt SCI l x)).
(* longpdcppdunumber.rs 35-54 *)
Definition Long_unmarshal (m : mode) (b : list N) : res NumExt :=
  let? t := at_ b 0 in
  if (t =? LONG_PDCP_PDU_NUMBER_I) || (t =? LONG_PDCP_PDU_NUMBER_II) then
    ext_checked m b (fun l _ =>
      let? x := at_ b 2 in let? y := at_ b 3 in let? z := at_ b 4 in
      Ok (mkNumExt t l (be32 0 x y z)))
  else Err ExtHeaderUnknown.
(* rancontainer.rs 32-47 and siblings *)
Definition Blob_unmarshal (t : N) (m : mode) (b : list N) : res BlobExt :=
  ext_checked m b (fun l s =>
    let? c := slice b 2 (N.to_nat s) in Ok (mkBlobExt t l c)).
(* unknown.rs 29-45 *)
Definition Unknown_unmarshal (m : mode) (b : list N) : res BlobExt :=
  let? t := at_ b 0 in Blob_unmarshal t m b.

(* every file: fn len = (self.length * 4) as usize, u8 multiplication *)
Definition ext_len_of (m : mode) (l : N) : res nat :=
  let? s := mul8 m l 4 in Ok (N.to_nat s).

(* header.rs 23-67 *)
Definition ext_unmarshal (m : mode) (b : list N) : res ExtensionHeader :=
  let? t := at_ b 0 in
  if t =? NO_MORE_EXTENSION_HEADERS then Ok NoMoreExtensionHeaders
  else if t =? PDCP_PDU_NUMBER then
    let? i := Num16_unmarshal PDCP_PDU_NUMBER m b in Ok (EH_PDCPPDUNumber i)
  else if t =? UDP_PORT then
    let? i := Num16_unmarshal UDP_PORT m b in Ok (EH_UDPPort i)
  else if t =? LONG_PDCP_PDU_NUMBER_I then
    let? i := Long_unmarshal m b in Ok (EH_LongPDCPPDUNumber i)
  else if t =? LONG_PDCP_PDU_NUMBER_II then
    let? i := Long_unmarshal m b in Ok (EH_LongPDCPPDUNumber i)
  else if t =? SCI then
    let? i := Sci_unmarshal m b in Ok (EH_Sci i)
  else if t =? RAN_CONTAINER then
    let? i := Blob_unmarshal RAN_CONTAINER m b in Ok (EH_RanContainer i)
  else if t =? XW_RAN_CONTAINER then
    let? i := Blob_unmarshal XW_RAN_CONTAINER m b in Ok (EH_XwRanContainer i)
  else if t =? NR_RAN_CONTAINER then
    let? i := Blob_unmarshal NR_RAN_CONTAINER m b in Ok (EH_NrRanContainer i)
  else if t =? PDU_SESSION_CONTAINER then
    let? i := Blob_unmarshal PDU_SESSION_CONTAINER m b in Ok (EH_PduSessionContainer i)
  else
    let? i := Unknown_unmarshal m b in Ok (EH_Unknown i).

(* header.rs 69-82, returning the octets appended to the buffer *)
Definition ext_marshal (e : ExtensionHeader) : list N :=
  match e with
  | NoMoreExtensionHeaders => []
  | EH_PDCPPDUNumber i => Num16_marshal i
  | EH_LongPDCPPDUNumber i => Long_marshal i
  | EH_Sci i => Sci_marshal i
  | EH_UDPPort i => Num16_marshal i
  | EH_RanContainer i => Blob_marshal i
  | EH_XwRanContainer i => Blob_marshal i
  | EH_NrRanContainer i => Blob_marshal i
  | EH_PduSessionContainer i => Blob_marshal i
  | EH_Unknown i => Blob_marshal i
  end.

(* header.rs 84-97 *)
Definition ext_len (m : mode) (e : ExtensionHeader) : res nat :=
  match e with
  | NoMoreExtensionHeaders => Ok 1%nat
  | EH_PDCPPDUNumber i | EH_LongPDCPPDUNumber i | EH_Sci i | EH_UDPPort i =>
      ext_len_of m (ne_length i)
  | EH_RanContainer i | EH_XwRanContainer i | EH_NrRanContainer i
  | EH_PduSessionContainer i | EH_Unknown i => ext_len_of m (be_length i)
  end.

(* ------------------------------------------------------------------------- *)
(* src/gtpv1/gtpu/header.rs: Gtpv1Header                                      *)

(* header.rs 121-129 *)
Record Gtpv1Header := mkHdr {
  msgtype : N;
  h_length : N;
  teid : N;
  sequence_number : option N;
  npdu_number : option N;
  extension_headers : option (list ExtensionHeader)
}.

(* header.rs 131-142 *)
Definition hdr_default : Gtpv1Header := mkHdr 0 8 0 None None None.

(* header.rs 306-318 *)
Definition construct_flags (h : Gtpv1Header) : N :=
  let flags := if is_some (extension_headers h) then 4 else 0 in
  let flags := if is_some (sequence_number h) then N.lor flags 2 else flags in
  let flags := if is_some (npdu_number h) then N.lor flags 1 else flags in
  N.lor flags 48.

(* header.rs 320-333 *)
Definition marshal_ext_hdr (h : Gtpv1Header) : list N :=
  match extension_headers h with
  | Some l => concat (map ext_marshal l) ++ [NO_MORE_EXTENSION_HEADERS]
  | None => [NO_MORE_EXTENSION_HEADERS]
  end.

(* header.rs 145-191, returning the octets appended *)
Definition hdr_marshal (h : Gtpv1Header) : list N :=
  [construct_flags h; msgtype h] ++ enc16 (h_length h) ++ enc32 (teid h) ++
  match sequence_number h, npdu_number h, extension_headers h with
  | Some s, Some n, Some _ => enc16 s ++ [n] ++ marshal_ext_hdr h
  | Some s, Some n, None => enc16 s ++ [n; NO_MORE_EXTENSION_HEADERS]
  | Some s, None, None => enc16 s ++ [0; NO_MORE_EXTENSION_HEADERS]
  | Some s, None, Some _ => enc16 s ++ [0] ++ marshal_ext_hdr h
  | None, None, None => []
  | None, None, Some _ => [0; 0; 0] ++ marshal_ext_hdr h
  | None, Some n, Some _ => [0; 0; n] ++ marshal_ext_hdr h
  | None, Some n, None => [0; 0; n; NO_MORE_EXTENSION_HEADERS]
  end.

(* header.rs 335-351: the [loop]. Fuel counts iterations; running out of it is
   [Diverge]. *)
Fixpoint ext_loop (m : mode) (fuel : nat) (b : list N) (cursor : nat)
    (data : list ExtensionHeader) : res (list ExtensionHeader) :=
  match fuel with
  | O => Diverge
  | S fuel' =>
    let? rest := slice_from b cursor in
    let? i := ext_unmarshal m rest in
    match i with
    | NoMoreExtensionHeaders => Ok data
    | _ => let? l := ext_len m i in ext_loop m fuel' b (cursor + l) (data ++ [i])
    end
  end.
Definition unmarshal_ext_hdr (m : mode) (b : list N) : res (list ExtensionHeader) :=
  ext_loop m (S (length b)) b 0 [].

(* header.rs 193-302: the body shared by the arms that read the optional octets.
   [np]: the arm stores octet 10 as N-PDU number; [ext]: the arm walks the extension
   headers from octet 11. *)
Definition hdr_optional (m : mode) (b : list N) (mt len td : N) (np ext : bool)
    : res Gtpv1Header :=
  let? o := slice_from b 8 in
  if (4 <=? length o)%nat then
    let? s1 := at_ b 8 in let? s2 := at_ b 9 in
    let? n := (if np then let? x := at_ b 10 in Ok (Some x) else Ok None) in
    if ext then
      let? r := slice_from b 11 in
      let? i := unmarshal_ext_hdr m r in
      Ok (mkHdr mt len td (Some (be16 s1 s2)) n (Some i))
    else Ok (mkHdr mt len td (Some (be16 s1 s2)) n None)
  else Err HeaderInvalidLength.

(* header.rs 208-297: match on the flags (S, PN, E) *)
Definition hdr_flags (m : mode) (b : list N) (b0 mt len td : N) : res Gtpv1Header :=
  match N.shiftr (N.land b0 2) 1, N.land b0 1, N.shiftr (N.land b0 4) 2 with
  | 1, 1, 1 => hdr_optional m b mt len td true true
  | 1, 1, 0 => hdr_optional m b mt len td true false
  | 1, 0, 0 => hdr_optional m b mt len td false false
  | 1, 0, 1 => hdr_optional m b mt len td false true
  | 0, 0, 0 => Ok (mkHdr mt len td None None None)
  | 0, 0, 1 => hdr_optional m b mt len td true true
  | 0, 1, 1 => hdr_optional m b mt len td true true
  | 0, 1, 0 => hdr_optional m b mt len td true true
  | _, _, _ => Ok (mkHdr mt len td None None None)
  end.

(* header.rs 193-302 *)
Definition hdr_unmarshal (m : mode) (b : list N) : res Gtpv1Header :=
  if (8 <=? length b)%nat then
    let? b0 := at_ b 0 in
    if (N.shiftr b0 5 =? 1) && (N.shiftr (N.land b0 16) 4 =? 1) then
      let? mt := at_ b 1 in
      let? l1 := at_ b 2 in let? l2 := at_ b 3 in
      if be16 l1 l2 =? 0 then Err HeaderInvalidLength
      else
        let? t1 := at_ b 4 in let? t2 := at_ b 5 in
        let? t3 := at_ b 6 in let? t4 := at_ b 7 in
        hdr_flags m b b0 mt (be16 l1 l2) (be32 t1 t2 t3 t4)
    else Err HeaderVersionNotSupported
  else Err HeaderInvalidLength.

(* header.rs 353-416: get_header_size; sum of the extension header lengths *)
Fixpoint ext_len_sum (m : mode) (l : list ExtensionHeader) : res nat :=
  match l with
  | [] => Ok 0%nat
  | e :: r => let? a := ext_len m e in let? s := ext_len_sum m r in Ok (a + s)%nat
  end.
Definition get_header_size (m : mode) (h : Gtpv1Header) : res nat :=
  match extension_headers h with
  | Some l => let? s := ext_len_sum m l in Ok (8 + 2 + 1 + s + 1)%nat
  | None =>
    if is_some (sequence_number h) || is_some (npdu_number h)
    then Ok (8 + 2 + 1 + 1)%nat else Ok 8%nat
  end.

(* ------------------------------------------------------------------------- *)
(* src/gtpv1/gtpu/messages/ies                                                *)

(* extensionheadertypelist.rs 11-16 *)
Record ExtensionHeaderTypeList := mkEhtl { ehtl_t : N; ehtl_length : N; ehtl_list : list N }.
Definition EXTENSION_HEADER_TYPE_LIST : N := 141. (* extensionheadertypelist.rs 7 *)
(* extensionheadertypelist.rs 29-36 *)
Definition Ehtl_marshal (x : ExtensionHeaderTypeList) : list N :=
  let b := [ehtl_t x; ehtl_length x] ++ ehtl_list x in
  set_nth b 1 ((nlen b - 2) mod 256).
(* extensionheadertypelist.rs 38-52 *)
Definition Ehtl_unmarshal (m : mode) (b : list N) : res ExtensionHeaderTypeList :=
  let? l := at_ b 1 in
  if l =? 0 then Err ExtHeaderInvalidLength
  else
    let? s := add8 m l 2 in
    if (N.to_nat s <=? length b)%nat then
      let? r := slice_from b 2 in Ok (mkEhtl EXTENSION_HEADER_TYPE_LIST l r)
    else Err IEInvalidLength.

(* std::net::IpAddr: the address octets *)
Inductive IpAddr := V4 (a b c d : N) | V6 (o : list N).
Definition ip_octets (i : IpAddr) : list N :=
  match i with V4 a b c d => [a; b; c; d] | V6 o => o end.

(* gsnaddress.rs 8-17 *)
Record GsnAddress := mkGsn { gsn_t : N; gsn_length : N; gsn_ip : IpAddr }.
Definition GSN_ADDRESS : N := 133.
(* gsnaddress.rs 30-40 *)
Definition Gsn_marshal (x : GsnAddress) : list N :=
  set_tlv_ie_length ([gsn_t x] ++ enc16 (gsn_length x) ++ ip_octets (gsn_ip x)).
(* gsnaddress.rs 42-72 *)
Definition Gsn_unmarshal (m : mode) (b : list N) : res GsnAddress :=
  if (3 <=? length b)%nat then
    let? l1 := at_ b 1 in let? l2 := at_ b 2 in
    let l := be16 l1 l2 in
    if l =? 0 then Err IEInvalidLength
    else
      let? ok := check_tlv_ie_buffer m l b in
      if ok then
        if l =? 4 then
          let? a := at_ b 3 in let? c := at_ b 4 in let? d := at_ b 5 in
          let? e := at_ b 6 in Ok (mkGsn GSN_ADDRESS l (V4 a c d e))
        else if l =? 16 then
          if (19 <=? length b)%nat
          then let? o := slice b 3 19 in Ok (mkGsn GSN_ADDRESS l (V6 o))
          else Err IEInvalidLength
        else Err IEIncorrect
      else Err IEInvalidLength
  else Err IEInvalidLength.
(* gsnaddress.rs 74-76 *)
Definition Gsn_len (m : mode) (x : GsnAddress) : res nat :=
  let? s := add16 m (gsn_length x) 3 in Ok (N.to_nat s).

(* privateextension.rs 7-17 *)
Record PrivateExtension := mkPe { pe_t : N; pe_length : N; pe_id : N; pe_value : list N }.
Definition PRIVATE_EXTENSION : N := 255.
(* privateextension.rs 31-39 *)
Definition Pe_marshal (x : PrivateExtension) : list N :=
  set_tlv_ie_length ([pe_t x] ++ enc16 (pe_length x) ++ enc16 (pe_id x) ++ pe_value x).
(* privateextension.rs 41-60 *)
Definition Pe_unmarshal (m : mode) (b : list N) : res PrivateExtension :=
  if (3 <=? length b)%nat then
    let? l1 := at_ b 1 in let? l2 := at_ b 2 in
    let l := be16 l1 l2 in
    if l =? 0 then Err IEInvalidLength
    else
      let? ok := check_tlv_ie_buffer m l b in
      if ok then
        let? i1 := at_ b 3 in let? i2 := at_ b 4 in
        let? v := slice_from b 5 in
        Ok (mkPe PRIVATE_EXTENSION l (be16 i1 i2) v)
      else Err IEInvalidLength
  else Err IEInvalidLength.
(* privateextension.rs 62-64 *)
Definition Pe_len (m : mode) (x : PrivateExtension) : res nat :=
  let? s := add16 m (pe_length x) 3 in Ok (N.to_nat s).

(* recovery.rs 7-16 *)
Record Recovery := mkRec { rec_t : N; rec_value : N }.
Definition RECOVERY : N := 14.
(* recovery.rs 28-31 *)
Definition Rec_marshal (x : Recovery) : list N := [RECOVERY; rec_value x].
(* recovery.rs 33-42 *)
Definition Rec_unmarshal (b : list N) : res Recovery :=
  if (1 <? length b)%nat then
    let? t := at_ b 0 in let? v := at_ b 1 in Ok (mkRec t v)
  else Err IEInvalidLength.

(* teid.rs 7-16 *)
Record Teid := mkTeid { te_t : N; te_teid : N }.
Definition TEID_DATA : N := 16.
(* teid.rs 28-31 *)
Definition Teid_marshal (x : Teid) : list N := [TEID_DATA] ++ enc32 (te_teid x).
(* teid.rs 33-43 *)
Definition Teid_unmarshal (b : list N) : res Teid :=
  if (4 <? length b)%nat then
    let? t := at_ b 0 in
    let? a := at_ b 1 in let? c := at_ b 2 in let? d := at_ b 3 in let? e := at_ b 4 in
    Ok (mkTeid t (be32 a c d e))
  else Err IEInvalidLength.

(* ------------------------------------------------------------------------- *)
(* src/gtpv1/gtpu/messages. [marshal] takes the buffer it is called with and returns the
   buffer after the call. *)

Definition opt_bytes {A} (f : A -> list N) (o : option A) : list N :=
  match o with Some x => f x | None => [] end.

(* [if let Ok(i) = PrivateExtension::unmarshal(..) { field = Some(i) }]: an error is
   dropped, a panic is not. *)
Definition optional {A} (r : res A) : res (option A) :=
  match r with Ok a => Ok (Some a) | Err _ => Ok None | Panic => Panic | Diverge => Diverge end.

(* echoreq.rs 9-17 (ECHO_REQUEST = 1); endmarker.rs 9-17 (END_MARKER = 254) has the same
   shape and the same code, with its own constant. *)
Record SimpleMsg := mkSimple { sm_header : Gtpv1Header; sm_private_ext : option PrivateExtension }.
Definition ECHO_REQUEST : N := 1.
Definition END_MARKER : N := 254.
(* echoreq.rs 33-41, endmarker.rs 33-41 *)
Definition Simple_marshal (x : SimpleMsg) (b : list N) : list N :=
  set_length (b ++ hdr_marshal (sm_header x) ++ opt_bytes Pe_marshal (sm_private_ext x)).
(* echoreq.rs 43-61, endmarker.rs 43-61 *)
Definition Simple_unmarshal (mt : N) (m : mode) (b : list N) : res SimpleMsg :=
  let? h := hdr_unmarshal m b in
  if negb (msgtype h =? mt) then Err MessageIncorrectMessageType
  else if (N.to_nat (h_length h) <? length b)%nat then
    let? hs := get_header_size m h in
    let? r := slice_from b hs in
    let? p := optional (Pe_unmarshal m r) in
    Ok (mkSimple h p)
  else Ok (mkSimple h None).
Definition EchoRequest_unmarshal := Simple_unmarshal ECHO_REQUEST.
Definition EndMarker_unmarshal := Simple_unmarshal END_MARKER.

(* echoresp.rs 9-18 *)
Record EchoResponse := mkEchoResp {
  er_header : Gtpv1Header; er_recovery : Recovery; er_private_ext : option PrivateExtension }.
Definition ECHO_RESPONSE : N := 2.
(* echoresp.rs 35-48 *)
Definition EchoResponse_marshal (x : EchoResponse) (b : list N) : list N :=
  set_length (b ++ hdr_marshal (er_header x) ++ Rec_marshal (er_recovery x)
                ++ opt_bytes Pe_marshal (er_private_ext x)).
(* echoresp.rs 50-85 *)
Definition EchoResponse_unmarshal (m : mode) (b : list N) : res EchoResponse :=
  let? h := hdr_unmarshal m b in
  if negb (msgtype h =? ECHO_RESPONSE) then Err MessageIncorrectMessageType
  else if (N.to_nat (h_length h) + 4 <? length b)%nat then
    let? cursor := get_header_size m h in
    if (cursor <? length b)%nat then
      let? t := at_ b cursor in
      if t =? RECOVERY then
        let? s := slice_from b cursor in
        let? r := Rec_unmarshal s in
        let cursor := (cursor + 2)%nat in
        if (cursor <? length b)%nat then
          let? s := slice_from b cursor in
          let? p := optional (Pe_unmarshal m s) in
          Ok (mkEchoResp h r p)
        else Ok (mkEchoResp h r None)
      else Err MessageMandatoryIEMissing
    else Err MessageMandatoryIEMissing
  else Err MessageLengthError.

(* errorindication.rs 8-18 *)
Record ErrorIndication := mkErrInd {
  ei_header : Gtpv1Header; ei_teid : Teid; ei_peer : GsnAddress;
  ei_private : option PrivateExtension }.
Definition ERROR_INDICATION : N := 26.
(* errorindication.rs 36-46 *)
Definition ErrorIndication_marshal (x : ErrorIndication) (b : list N) : list N :=
  set_length (b ++ hdr_marshal (ei_header x) ++ Teid_marshal (ei_teid x)
                ++ Gsn_marshal (ei_peer x) ++ opt_bytes Pe_marshal (ei_private x)).

(* State of the loop at errorindication.rs 62-123: [c_*] are the msg_hash entries for the
   three IE types (counting the duplicates is a u8 addition). *)
Record EiState := mkEi {
  ei_cursor : nat; ei_increment : N;
  c_teid : option N; c_gsn : option N; c_pe : option N;
  s_teid : Teid; s_gsn : GsnAddress; s_pe : option PrivateExtension }.

(* errorindication.rs 72-82: insert 1, or increment the u8 found *)
Definition count (m : mode) (c : option N) : res (option N) :=
  match c with
  | None => Ok (Some 1)
  | Some n => let? n' := add8 m n 1 in Ok (Some n')
  end.

(* errorindication.rs 64-123 *)
Fixpoint ei_loop (m : mode) (fuel : nat) (b : list N) (s : EiState) : res EiState :=
  match fuel with
  | O => Diverge
  | S fuel' =>
    if (length b <=? ei_cursor s)%nat then Ok s
    else
      let? t := at_ b (ei_cursor s) in
      if t <? ei_increment s then Err MessageInvalidMessageFormat
      else
        let? r := slice_from b (ei_cursor s) in
        if t =? TEID_DATA then
          match Teid_unmarshal r with
          | Ok i =>
            let? c := count m (c_teid s) in
            ei_loop m fuel' b (mkEi (ei_cursor s + 5) t c (c_gsn s) (c_pe s)
              (if is_some (c_teid s) then s_teid s else i) (s_gsn s) (s_pe s))
          | Err _ => Err MessageMandatoryIEMissing
          | Panic => Panic | Diverge => Diverge
          end
        else if t =? GSN_ADDRESS then
          match Gsn_unmarshal m r with
          | Ok i =>
            let? c := count m (c_gsn s) in
            let? l := Gsn_len m i in
            ei_loop m fuel' b (mkEi (ei_cursor s + l) t (c_teid s) c (c_pe s)
              (s_teid s) (if is_some (c_gsn s) then s_gsn s else i) (s_pe s))
          | Err _ => Err MessageMandatoryIEMissing
          | Panic => Panic | Diverge => Diverge
          end
        else if t =? PRIVATE_EXTENSION then
          match Pe_unmarshal m r with
          | Ok i =>
            let? c := count m (c_pe s) in
            let? l := Pe_len m i in
            ei_loop m fuel' b (mkEi (ei_cursor s + l) t (c_teid s) (c_gsn s) c
              (s_teid s) (s_gsn s) (if is_some (c_pe s) then s_pe s else Some i))
          | Err _ => Err MessageOptionalIEIncorrect
          | Panic => Panic | Diverge => Diverge
          end
        else Err MessageInvalidMessageFormat
  end.

(* errorindication.rs 48-131. [(length + 8)] is a u16 addition. *)
Definition teid_default : Teid := mkTeid TEID_DATA 0.
Definition gsn_default : GsnAddress := mkGsn GSN_ADDRESS 4 (V4 0 0 0 0).
Definition ErrorIndication_unmarshal (m : mode) (b : list N) : res ErrorIndication :=
  let? h := hdr_unmarshal m b in
  if negb (msgtype h =? ERROR_INDICATION) then Err MessageIncorrectMessageType
  else
    let? tot := add16 m (h_length h) 8 in
    if (N.to_nat tot <=? length b)%nat then
      let? hs := get_header_size m h in
      let? s := ei_loop m (S (length b)) b
                  (mkEi hs 0 None None None teid_default gsn_default None) in
      if is_some (c_teid s) && is_some (c_gsn s)
      then Ok (mkErrInd h (s_teid s) (s_gsn s) (s_pe s))
      else Err MessageMandatoryIEMissing
    else Err MessageLengthError.

(* gpdu.rs 8-16 *)
Record Gpdu := mkGpdu { gp_header : Gtpv1Header; gp_tpdu : list N }.
Definition GPDU : N := 255.
(* gpdu.rs 32-36 *)
Definition Gpdu_marshal (x : Gpdu) (b : list N) : list N :=
  set_length (b ++ hdr_marshal (gp_header x) ++ gp_tpdu x).
(* gpdu.rs 38-57 *)
Definition Gpdu_unmarshal (m : mode) (b : list N) : res Gpdu :=
  let? h := hdr_unmarshal m b in
  if negb (msgtype h =? GPDU) then Err MessageIncorrectMessageType
  else
    let? tot := add16 m (h_length h) 8 in
    if (N.to_nat tot <=? length b)%nat then
      let? hs := get_header_size m h in
      let? p := slice b hs (N.to_nat tot) in
      Ok (mkGpdu h p)
    else Err MessageLengthError.

(* supportedexthdrnotification.rs 9-17 *)
Record SupExtNotif := mkSup { sn_header : Gtpv1Header; sn_list : ExtensionHeaderTypeList }.
Definition SUPPORTED_EXTENSION_HEADERS_NOTIFICATION : N := 31.
(* supportedexthdrnotification.rs 33-41 *)
Definition SupExtNotif_marshal (x : SupExtNotif) (b : list N) : list N :=
  set_length (b ++ hdr_marshal (sn_header x) ++ Ehtl_marshal (sn_list x)).
(* supportedexthdrnotification.rs 43-73 *)
Definition SupExtNotif_unmarshal (m : mode) (b : list N) : res SupExtNotif :=
  let? h := hdr_unmarshal m b in
  if negb (msgtype h =? SUPPORTED_EXTENSION_HEADERS_NOTIFICATION)
  then Err MessageIncorrectMessageType
  else
    let? tot := add16 m (h_length h) 8 in
    if (N.to_nat tot <=? length b)%nat then
      let? hs := get_header_size m h in
      if (hs =? length b)%nat then Err MessageMandatoryIEMissing
      else
        let? t := at_ b hs in
        if t =? EXTENSION_HEADER_TYPE_LIST then
          let? r := slice_from b hs in
          match Ehtl_unmarshal m r with
          | Ok i => Ok (mkSup h i)
          | Err _ => Err MessageMandatoryIEMissing
          | Panic => Panic | Diverge => Diverge
          end
        else Err MessageInvalidMessageFormat
    else Err MessageLengthError.
