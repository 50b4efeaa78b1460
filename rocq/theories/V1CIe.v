(* V1CIe.v - the information elements of GTPv1-C: src/gtpv1/gtpc/messages/ies. File names in
   the comments are relative to that directory. Every [impl IEs] has marshal, unmarshal and
   len; [unmarshal] is given the buffer from the element's type octet to the end of the
   packet. Strings are lists of character codes; fields are N bounded by their Rust type in
   the specification (V1CSpec.v). *)
From Verif Require Import Base Digits Labels.
From Verif Require Export V1CHdr.
Local Open Scope N_scope.

(* A TV element: a type octet and a value of fixed size. A TLV element: a type octet, a
   16-bit length and a value. Each Rust struct has these fields; [tv_v]/[tlv_v] gathers the
   remaining ones. *)
Record Tv (A : Type) := mkTv { tv_t : N; tv_v : A }.
Record Tlv (A : Type) := mkTlv { tlv_t : N; tlv_length : N; tlv_v : A }.
Arguments mkTv {A}. Arguments tv_t {A}. Arguments tv_v {A}.
Arguments mkTlv {A}. Arguments tlv_t {A}. Arguments tlv_length {A}. Arguments tlv_v {A}.

(* The shape shared by the marshal functions: type octet then value (TV); type octet,
   length field, value and set_tlv_ie_length over it (TLV). *)
Definition tv_marshal {A} (value : A -> list N) (x : Tv A) : list N := tv_t x :: value (tv_v x).
Definition tlv_marshal {A} (value : A -> list N) (x : Tlv A) : list N :=
  set_tlv_ie_length ([tlv_t x] ++ enc16 (tlv_length x) ++ value (tlv_v x)).

(* The shapes shared by the unmarshal functions. [k] reads the fields from the buffer.
   A TV element: at least [n] octets, else IEInvalidLength. *)
Definition tv_unmarshal {A} (T : N) (n : nat) (k : list N -> res A) (b : list N) : res (Tv A) :=
  if (n <=? length b)%nat then let? v := k b in Ok (mkTv T v) else Err IEInvalidLength.
(* A TLV element of a fixed size: at least [n] octets; the length field is stored, not
   compared with anything. *)
Definition fixed_unmarshal {A} (T : N) (n : nat) (k : list N -> res A) (b : list N) : res (Tlv A) :=
  if (n <=? length b)%nat then
    let? l1 := at_ b 1 in let? l2 := at_ b 2 in
    let? v := k b in Ok (mkTlv T (be16 l1 l2) v)
  else Err IEInvalidLength.
(* A TLV element whose length field is compared with the buffer (check_tlv_ie_buffer). *)
Definition var_unmarshal {A} (T : N) (k : N -> list N -> res A) (m : mode) (b : list N) : res (Tlv A) :=
  if (3 <=? length b)%nat then
    let? l1 := at_ b 1 in let? l2 := at_ b 2 in
    let l := be16 l1 l2 in
    let? ok := check_tlv_ie_buffer m l b in
    if ok then let? v := k l b in Ok (mkTlv T l v)
    else Err IEInvalidLength
  else Err IEInvalidLength.

(* The two forms of [len]: a constant, or (self.length + 3) computed in u16. *)
Definition len_u16 {A} (m : mode) (x : Tlv A) : res nat :=
  let? s := add16 m (tlv_length x) 3 in Ok (N.to_nat s).

(* single octets and big-endian integers at an offset *)
Definition be16_at (b : list N) (i : nat) : res N :=
  let? a := at_ b i in let? c := at_ b (i + 1) in Ok (be16 a c).
Definition be24_at (b : list N) (i : nat) : res N :=
  let? a := at_ b i in let? c := at_ b (i + 1) in let? d := at_ b (i + 2) in Ok (be24 a c d).
Definition be32_at (b : list N) (i : nat) : res N :=
  let? a := at_ b i in let? c := at_ b (i + 1) in let? d := at_ b (i + 2) in
  let? e := at_ b (i + 3) in Ok (be32 a c d e).
(* mcc_mnc_decode(&buffer[i..=i+2]) *)
Definition plmn_at (b : list N) (i : nat) : res (N * N * bool) :=
  let? s := slice b i (i + 3) in mcc_mnc_decode s.
Definition plmn_octets (p : N * N * bool) : list N :=
  let '(mcc, mnc, three) := p in mcc_mnc_encode mcc mnc three.

(* ------------------------------------------------------------------------- *)
(* TV elements                                                                *)

Definition CAUSE : N := 1.                     (* cause.rs 7 *)
Definition IMSI : N := 2.                      (* imsi.rs 7 *)
Definition RAI : N := 3.                       (* rai.rs 7 *)
Definition REORDERING_REQUIRED : N := 8.       (* reorderingreq.rs 7 *)
Definition SELECTION_MODE : N := 15.           (* selectionmode.rs 7 *)
Definition TEID_CONTROL : N := 17.             (* teid.rs 8; TEID_DATA = 16 is V1U.TEID_DATA *)
Definition TEARDOWN_IND : N := 19.             (* teardownind.rs 7 *)
Definition NSAPI : N := 20.                    (* nsapi.rs 7 *)
Definition CHARGING_CHARACTERISTICS : N := 26. (* chargingcharateristics.rs 7 *)
Definition TRACE_REFERENCE : N := 27.          (* tracereference.rs 7 *)
Definition TRACE_TYPE : N := 28.               (* tracetype.rs 7 *)
Definition CHARGING_ID : N := 127.             (* chargingid.rs 7 *)

(* cause.rs 26-29, 31-41 *)
Definition Cause_value (v : N) : list N := [v].
Definition Cause_unmarshal := tv_unmarshal CAUSE 2 (fun b => at_ b 1).
(* imsi.rs 28-31, 33-47: tbcd_decode of the eight octets 1..=8 *)
Definition Imsi_value (s : list N) : list N := tbcd_encode s.
Definition Imsi_unmarshal := tv_unmarshal IMSI 9 (fun b => let? s := slice b 1 9 in Ok (tbcd_decode s)).
(* rai.rs 13-20, 36-45, 47-65 *)
Record RaiV := mkRai { rai_plmn : N * N * bool; rai_lac : N; rai_rac : N }.
Definition Rai_value (v : RaiV) : list N := plmn_octets (rai_plmn v) ++ enc16 (rai_lac v) ++ [rai_rac v].
Definition Rai_unmarshal := tv_unmarshal RAI 7 (fun b =>
  let? p := plmn_at b 1 in let? l := be16_at b 4 in let? r := at_ b 6 in Ok (mkRai p l r)).
(* reorderingreq.rs 29-35, 37-47 *)
Definition Reordering_value (v : bool) : list N := [if v then 255 else 254].
Definition Reordering_unmarshal := tv_unmarshal REORDERING_REQUIRED 2 (fun b =>
  let? x := at_ b 1 in Ok (negb (N.land x 1 =? 0))).
(* recovery.rs 28-31: pushes the constant RECOVERY, not self.t; 33-42 *)
Definition CRecovery_marshal (x : Tv N) : list N := [RECOVERY; tv_v x].
Definition CRecovery_unmarshal := tv_unmarshal RECOVERY 2 (fun b => at_ b 1).
(* selectionmode.rs 28-31, 33-46 *)
Definition SelectionMode_value (v : N) : list N := [N.lor 252 v].
Definition SelectionMode_unmarshal := tv_unmarshal SELECTION_MODE 2 (fun b =>
  let? x := at_ b 1 in Ok (N.land x 3)).
(* teid.rs 29-32, 34-44: t is taken from buffer[0] *)
Definition CTeid_value (v : N) : list N := enc32 v.
Definition CTeid_unmarshal (b : list N) : res (Tv N) :=
  if (5 <=? length b)%nat then
    let? t := at_ b 0 in let? v := be32_at b 1 in Ok (mkTv t v)
  else Err IEInvalidLength.
(* teardownind.rs 28-34, 36-50 *)
Definition Teardown_value (v : bool) : list N := [if v then 255 else 254].
Definition Teardown_unmarshal := tv_unmarshal TEARDOWN_IND 2 (fun b =>
  let? x := at_ b 1 in
  if x =? 254 then Ok false else if x =? 255 then Ok true else Err IEIncorrect).
(* nsapi.rs 26-29, 31-44 *)
Definition Nsapi_value (v : N) : list N := [v].
Definition Nsapi_unmarshal := tv_unmarshal NSAPI 2 (fun b => let? x := at_ b 1 in Ok (N.land x 15)).
(* chargingcharateristics.rs 29-33, 35-48 *)
Definition ChargingChar_value (v : N) : list N := [v; 0].
Definition ChargingChar_unmarshal := tv_unmarshal CHARGING_CHARACTERISTICS 3 (fun b =>
  let? x := at_ b 1 in Ok (N.land x 15)).
(* tracereference.rs 29-32, 34-47; tracetype.rs 29-32, 34-47 *)
Definition Trace_value (v : N) : list N := enc16 v.
Definition TraceReference_unmarshal := tv_unmarshal TRACE_REFERENCE 3 (fun b => be16_at b 1).
Definition TraceType_unmarshal := tv_unmarshal TRACE_TYPE 3 (fun b => be16_at b 1).
(* chargingid.rs 29-32, 34-47 *)
Definition ChargingId_value (v : N) : list N := enc32 v.
Definition ChargingId_unmarshal := tv_unmarshal CHARGING_ID 5 (fun b =>
  let? v := be32_at b 1 in if v =? 0 then Err IEIncorrect else Ok v).

(* ------------------------------------------------------------------------- *)
(* TLV elements                                                               *)

Definition END_USER_ADDRESS : N := 128.        (* enduseraddress.rs 8 *)
Definition APN : N := 131.                     (* apn.rs 7 *)
Definition PCO : N := 132.                     (* pco.rs 7 *)
Definition MSISDN : N := 134.                  (* msisdn.rs 7 *)
Definition QOS : N := 135.                     (* qos.rs 7 *)
Definition TFT : N := 137.                     (* tft.rs 7 *)
Definition TRIGGERID : N := 142.               (* triggerid.rs 7 *)
Definition OMCID : N := 143.                   (* omcid.rs 7 *)
Definition COMMONFLAGS : N := 148.             (* commonflags.rs 7 *)
Definition APNRESTRICTION : N := 149.          (* apnrestriction.rs 7 *)
Definition RATTYPE : N := 151.                 (* rattype.rs 7 *)
Definition ULI : N := 152.                     (* uli.rs 7 *)
Definition MSTIMEZONETYPE : N := 153.          (* mstimezone.rs 7 *)
Definition IMEI : N := 154.                    (* imei.rs 7 *)
Definition CAMELCIC : N := 155.                (* camelcic.rs 7 *)
Definition ADDITIONALTRACEINFO : N := 162.     (* additionaltraceinfo.rs 7 *)
Definition MSINFO_CHANGE : N := 181.           (* msinfochange.rs 7 *)
Definition DTF : N := 182.                     (* directtunnelflags.rs 7 *)
Definition CORRELATIONID : N := 183.           (* correlationid.rs 7 *)
Definition BEARER_CONTROL_MODE : N := 184.     (* bearercontrolmode.rs 7 *)
Definition EVOLVEDALLOCRETENTIONI : N := 191.  (* evolvedallocretentioni.rs 7 *)
Definition EXTCOMMONFLAGS : N := 193.          (* extendedcommonflags.rs 7 *)
Definition UCI : N := 194.                     (* uci.rs 7 *)
Definition CSG_INFO_REPORT : N := 195.         (* csginforeporting.rs 7 *)
Definition APNAMBR : N := 198.                 (* apnambr.rs 7 *)
Definition GGSN_BACKOFF : N := 202.            (* ggsnbackofftime.rs 7 *)
Definition SPI : N := 203.                     (* spi.rs 7 *)
Definition ULI_TIMESTAMP : N := 214.           (* ulitimestamp.rs 7 *)
Definition CNOSE : N := 216.                   (* cnose.rs 7 *)
Definition EXTCOMMONFLAGS_II : N := 218.       (* extendedcommonflagsii.rs 7 *)
Definition MUEUT : N := 223.                   (* mueut.rs 7 *)
Definition UPFSIF : N := 224.                  (* upfsif.rs 7 *)
Definition CHARGING_GW_ADDRESS : N := 251.     (* charginggwaddress.rs 8 *)

(* Opaque octets: pco.rs 29-57, tft.rs 29-57, triggerid.rs 29-57, omcid.rs 29-57.
   The slice end (data.length + 3) is a u16 addition. *)
Definition blob_at (m : mode) (l : N) (b : list N) : res (list N) :=
  let? e := add16 m l 3 in slice b 3 (N.to_nat e).
Definition Blob_value (v : list N) : list N := v.
Definition Pco_unmarshal (m : mode) := var_unmarshal PCO (blob_at m) m.
Definition Tft_unmarshal (m : mode) := var_unmarshal TFT (blob_at m) m.
Definition TriggerId_unmarshal (m : mode) := var_unmarshal TRIGGERID (blob_at m) m.
Definition OmcId_unmarshal (m : mode) := var_unmarshal OMCID (blob_at m) m.

(* camelcic.rs 38-57: no zero-length check; the slice end is computed in usize *)
Definition Camel_unmarshal (m : mode) (b : list N) : res (Tlv (list N)) :=
  if (3 <=? length b)%nat then
    let? l1 := at_ b 1 in let? l2 := at_ b 2 in
    let l := be16 l1 l2 in
    let? s := add16 m l 3 in
    if (N.to_nat s <=? length b)%nat then
      let? v := slice b 3 (3 + N.to_nat l) in Ok (mkTlv CAMELCIC l v)
    else Err IEInvalidLength
  else Err IEInvalidLength.

(* apn.rs 30-43, 45-83. The early return for length 0 gives the error check_tlv_ie_buffer
   would give. The label loop is that of Labels.v. *)
Definition Apn_value (s : list N) : list N := labels_encode s.
Definition Apn_unmarshal (m : mode) := var_unmarshal APN (fun l b =>
  let? d := slice b 3 (3 + N.to_nat l) in labels_decode d) m.

(* gsnaddress.rs 30-40, 42-69; charginggwaddress.rs 30-40, 42-69 *)
Definition Ip_value (i : IpAddr) : list N := ip_octets i.
Definition ip_at (l : N) (b : list N) : res IpAddr :=
  if l =? 4 then
    let? a := at_ b 3 in let? c := at_ b 4 in let? d := at_ b 5 in let? e := at_ b 6 in Ok (V4 a c d e)
  else if l =? 16 then
    if (19 <=? length b)%nat then let? o := slice b 3 19 in Ok (V6 o) else Err IEInvalidLength
  else Err IEIncorrect.
Definition CGsn_unmarshal (m : mode) := var_unmarshal GSN_ADDRESS ip_at m.
Definition ChargingGw_unmarshal (m : mode) := var_unmarshal CHARGING_GW_ADDRESS ip_at m.

(* privateextension.rs 31-39, 41-57: the value runs to the end of the buffer *)
Record PeV := mkPeV { pev_id : N; pev_value : list N }.
Definition CPe_value (v : PeV) : list N := enc16 (pev_id v) ++ pev_value v.
Definition CPe_unmarshal (m : mode) := var_unmarshal PRIVATE_EXTENSION (fun _ b =>
  let? i := be16_at b 3 in let? v := slice_from b 5 in Ok (mkPeV i v)) m.

(* qos.rs 31-39, 41-65 *)
Record QosV := mkQos { qos_arp : N; qos_qos : list N }.
Definition Qos_value (v : QosV) : list N := qos_arp v :: qos_qos v.
Definition Qos_unmarshal (m : mode) := var_unmarshal QOS (fun l b =>
  let? a := at_ b 3 in
  let? e := add16 m l 3 in
  let? q := slice b 4 (N.to_nat e) in
  if (3 <=? length q)%nat && (length q <=? 255)%nat then Ok (mkQos a q) else Err IEIncorrect) m.

(* msisdn.rs 12-19, 35-43, 45-73: eight octets are read after the number plan octet,
   whatever the length field says. u8 shifts drop the high bits. *)
Record MsisdnV := mkMsisdn { ms_ext : N; ms_nature : N; ms_plan : N; ms_digits : list N }.
Definition Msisdn_value (v : MsisdnV) : list N :=
  N.lor (N.lor ((N.shiftl (ms_ext v) 7) mod 256) ((N.shiftl (ms_nature v) 4) mod 256)) (ms_plan v)
  :: tbcd_encode (ms_digits v).
Definition Msisdn_unmarshal (m : mode) := var_unmarshal MSISDN (fun _ b =>
  let? x := at_ b 3 in
  let plan := N.land x 15 in
  if (plan =? 1) || (plan =? 6) then
    let? d := slice b 4 12 in
    Ok (mkMsisdn (N.shiftr (N.land x 128) 7) (N.shiftr (N.land x 112) 4) plan (tbcd_decode d))
  else Err IEIncorrect) m.

(* enduseraddress.rs 29-36, 52-77, 79-132. Addresses are their octets. *)
Record EuaV := mkEua { eua_org : N; eua_nbr : N; eua_v4 : option (list N); eua_v6 : option (list N) }.
Definition opt_octets (o : option (list N)) : list N := match o with Some l => l | None => [] end.
Definition Eua_value (v : EuaV) : list N :=
  N.lor 240 (eua_org v) ::
  (if eua_org v =? 0 then [eua_nbr v]
   else if eua_org v =? 1 then eua_nbr v :: opt_octets (eua_v4 v) ++ opt_octets (eua_v6 v)
   else []).
Definition Eua_unmarshal (m : mode) := var_unmarshal END_USER_ADDRESS (fun l b =>
  let? o := at_ b 3 in
  let org := N.land o 15 in
  let? nbr := at_ b 4 in
  if (l =? 2) && (org =? 0) && ((nbr =? 1) || (nbr =? 2)) then Ok (mkEua org nbr None None)
  else if (l =? 2) && (org =? 1) && ((nbr =? 33) || (nbr =? 87) || (nbr =? 141)) then
    Ok (mkEua org nbr None None)
  else if (l =? 6) && (org =? 1) && (nbr =? 33) then
    let? a := slice b 5 9 in Ok (mkEua org nbr (Some a) None)
  else if (l =? 18) && (org =? 1) && (nbr =? 87) then
    let? a := slice b 5 21 in Ok (mkEua org nbr None (Some a))
  else if (l =? 22) && (org =? 1) && (nbr =? 141) then
    let? a := slice b 5 9 in let? c := slice b 9 25 in Ok (mkEua org nbr (Some a) (Some c))
  else Err IEIncorrect) m.

(* additionaltraceinfo.rs 13-22, 40-55, 57-76 *)
Record AtiV := mkAti { ati_ref : N; ati_session : N; ati_events : N; ati_depth : N; ati_ifs : N; ati_ctl : N }.
Definition Ati_value (v : AtiV) : list N :=
  enc24 (ati_ref v) ++ enc16 (ati_session v) ++ [ati_events v; ati_depth v; ati_ifs v; ati_ctl v].
Definition Ati_unmarshal := fixed_unmarshal ADDITIONALTRACEINFO 12 (fun b =>
  let? r := be24_at b 3 in let? s := be16_at b 6 in
  let? e := at_ b 8 in let? d := at_ b 9 in let? i := at_ b 10 in let? c := at_ b 11 in
  Ok (mkAti r s e d i c)).

(* apnambr.rs 13-18, 32-40, 42-57 *)
Record AmbrV := mkAmbr { ambr_ul : N; ambr_dl : N }.
Definition Ambr_value (v : AmbrV) : list N := enc32 (ambr_ul v) ++ enc32 (ambr_dl v).
Definition Ambr_unmarshal := fixed_unmarshal APNAMBR 11 (fun b =>
  let? u := be32_at b 3 in let? d := be32_at b 7 in Ok (mkAmbr u d)).

(* apnrestriction.rs 13-41, 63-70, 72-89 *)
Inductive Restriction := NoApnRestriction | Public1 | Public2 | Private1 | Private2.
Definition Restriction_enc (r : Restriction) : N :=
  match r with NoApnRestriction => 0 | Public1 => 1 | Public2 => 2 | Private1 => 3 | Private2 => 4 end.
Definition Restriction_dec (v : N) : res Restriction :=
  if v =? 0 then Ok NoApnRestriction else if v =? 1 then Ok Public1 else if v =? 2 then Ok Public2
  else if v =? 3 then Ok Private1 else if v =? 4 then Ok Private2 else Err IEIncorrect.
Definition ApnRestriction_value (v : Restriction) : list N := [Restriction_enc v].
Definition ApnRestriction_unmarshal := fixed_unmarshal APNRESTRICTION 4 (fun b =>
  let? x := at_ b 3 in Restriction_dec x).

(* One octet stored as it is: correlationid.rs 30-37, 39-53 *)
Definition Octet_value (v : N) : list N := [v].
Definition CorrelationId_unmarshal := fixed_unmarshal CORRELATIONID 4 (fun b => at_ b 3).
(* bearercontrolmode.rs 30-37, 39-53 *)
Definition BearerControlMode_unmarshal := fixed_unmarshal BEARER_CONTROL_MODE 4 (fun b =>
  let? x := at_ b 3 in if x <=? 1 then Ok x else Err IEIncorrect).
(* msinfochange.rs 30-37, 39-53 *)
Definition MsInfoChange_unmarshal := fixed_unmarshal MSINFO_CHANGE 4 (fun b =>
  let? x := at_ b 3 in if x <=? 2 then Ok x else Err IEIncorrect).
(* csginforeporting.rs 32-39, 41-52 *)
Definition CsgInfo_unmarshal := fixed_unmarshal CSG_INFO_REPORT 4 (fun b =>
  let? x := at_ b 3 in Ok (N.land x 7)).

(* cnose.rs 21-24, 37-47, 49-70 *)
Inductive SelectMode := ServingNetworkSelectedbyUE | ServingNetworkSelectedbyNetwork.
Definition Cnose_value (v : SelectMode) : list N :=
  match v with ServingNetworkSelectedbyUE => [0] | ServingNetworkSelectedbyNetwork => [1] end.
Definition Cnose_unmarshal := fixed_unmarshal CNOSE 4 (fun b =>
  let? x := at_ b 3 in
  if x =? 0 then Ok ServingNetworkSelectedbyUE
  else if (x =? 1) || (x =? 2) || (x =? 3) then Ok ServingNetworkSelectedbyNetwork
  else Err IEIncorrect).

(* commonflags.rs 13-24, 44-61, 63-90, 100-113; extendedcommonflags.rs likewise: eight
   booleans, the first in bit 8. The sum of shifted bits is written as Horner's scheme. *)
Definition flags_octet (l : list bool) : N := fold_left (fun a f => 2 * a + b2n f) l 0.
Definition flags_of (n : nat) (x : N) : list bool :=
  map (fun i => N.testbit x (N.of_nat i)) (rev (seq 0 n)).
(* the booleans in the order of into_array (most significant first) *)
Definition Flags_value (v : list bool) : list N := [flags_octet v].
Definition CommonFlags_unmarshal := fixed_unmarshal COMMONFLAGS 4 (fun b =>
  let? x := at_ b 3 in Ok (flags_of 8 x)).
Definition ExtCommonFlags_unmarshal := fixed_unmarshal EXTCOMMONFLAGS 4 (fun b =>
  let? x := at_ b 3 in Ok (flags_of 8 x)).
(* directtunnelflags.rs 34-49, 51-65: (ei, gcsi, dti), most significant first;
   extendedcommonflagsii.rs 34-49, 51-68: (pmtsmi, dtci, pnsi) *)
Definition DirectTunnel_unmarshal := fixed_unmarshal DTF 4 (fun b =>
  let? x := at_ b 3 in Ok (flags_of 3 x)).
Definition ExtCommonFlagsII_unmarshal := fixed_unmarshal EXTCOMMONFLAGS_II 4 (fun b =>
  let? x := at_ b 3 in Ok (flags_of 3 x)).

(* evolvedallocretentioni.rs 13-19, 34-45, 47-63 *)
Record EarpV := mkEarp { earp_vuln : N; earp_level : N; earp_cap : N }.
Definition Earp_value (v : EarpV) : list N :=
  [N.lor (N.lor ((N.shiftl (earp_cap v) 6) mod 256) ((N.shiftl (earp_level v) 2) mod 256)) (earp_vuln v)].
Definition Earp_unmarshal := fixed_unmarshal EVOLVEDALLOCRETENTIONI 4 (fun b =>
  let? x := at_ b 3 in
  Ok (mkEarp (N.land x 1) (N.land (N.shiftr x 2) 15) (N.land (N.shiftr x 6) 1))).

(* extensionheadertypelist.rs 29-36, 38-49, 51-53: a one-octet length; the list runs to the
   end of the buffer *)
Definition CEhtl_marshal (x : Tlv (list N)) : list N :=
  let b := [tlv_t x; tlv_length x] ++ tlv_v x in
  set_nth b 1 ((nlen b - 2) mod 256).
Definition CEhtl_unmarshal (m : mode) (b : list N) : res (Tlv (list N)) :=
  let? l := at_ b 1 in
  let? s := add8 m l 2 in
  if (N.to_nat s <=? length b)%nat then
    let? v := slice_from b 2 in Ok (mkTlv EXTENSION_HEADER_TYPE_LIST l v)
  else Err IEInvalidLength.

(* ggsnbackofftime.rs 13-18, 32-42, 44-60: the size test is for two octets *)
Record BackoffV := mkBackoff { bo_unit : N; bo_value : N }.
Definition Backoff_value (v : BackoffV) : list N :=
  [N.lor ((N.shiftl (bo_unit v) 5) mod 256) (if bo_value v <? 127 then bo_value v else 127)].
Definition Backoff_unmarshal := fixed_unmarshal GGSN_BACKOFF 2 (fun b =>
  let? x := at_ b 3 in
  let u := N.shiftr x 5 in
  Ok (mkBackoff (if u <=? 4 then u else if u =? 7 then 7 else 1) (N.land x 31))).

(* imei.rs 30-37, 39-53: the length field of the result is the default 8 *)
Definition Imei_value (s : list N) : list N := tbcd_encode s.
Definition Imei_unmarshal (b : list N) : res (Tlv (list N)) :=
  if (11 <=? length b)%nat then
    let? s := slice b 3 11 in Ok (mkTlv IMEI 8 (tbcd_decode s))
  else Err IEInvalidLength.

(* mstimezone.rs 13-18, 32-44, 46-65; time_zone is an i8 *)
Record TzV := mkTz { tz_zone : Z; tz_dst : N }.
Definition Tz_value (v : TzV) : list N :=
  [if (0 <=? tz_zone v)%Z then Z.to_N (tz_zone v) else N.lor 128 (Z.to_N (- tz_zone v)); tz_dst v].
Definition Tz_unmarshal := fixed_unmarshal MSTIMEZONETYPE 5 (fun b =>
  let? x := at_ b 3 in let? d := at_ b 4 in
  let a := Z.of_N (N.land x 127) in
  Ok (mkTz (if N.shiftr x 7 =? 0 then a else if N.shiftr x 7 =? 1 then (- a)%Z else 0%Z) (N.land d 3))).

(* mueut.rs 30-37, 39-53 *)
Definition Mueut_value (v : N) : list N := enc16 v.
Definition Mueut_unmarshal := fixed_unmarshal MUEUT 5 (fun b => be16_at b 3).

(* rattype.rs 12-43, 65-72, 74-91 *)
Inductive Rat := Utran | Geran | Wlan | Gan | Hspaevo | Eutran.
Definition Rat_enc (r : Rat) : N :=
  match r with Utran => 1 | Geran => 2 | Wlan => 3 | Gan => 4 | Hspaevo => 5 | Eutran => 6 end.
Definition Rat_dec (v : N) : res Rat :=
  if v =? 1 then Ok Utran else if v =? 2 then Ok Geran else if v =? 3 then Ok Wlan
  else if v =? 4 then Ok Gan else if v =? 5 then Ok Hspaevo else if v =? 6 then Ok Eutran
  else Err IEIncorrect.
Definition RatType_value (v : Rat) : list N := [Rat_enc v].
Definition RatType_unmarshal := fixed_unmarshal RATTYPE 4 (fun b => let? x := at_ b 3 in Rat_dec x).

(* spi.rs 30-40, 42-60; upfsif.rs 30-40, 42-60 *)
Definition Bool_value (v : bool) : list N := [if v then 1 else 0].
Definition bool_at3 (b : list N) : res bool :=
  let? x := at_ b 3 in if x =? 0 then Ok false else if x =? 1 then Ok true else Err IEIncorrect.
Definition Spi_unmarshal := fixed_unmarshal SPI 4 bool_at3.
Definition Upfsif_unmarshal := fixed_unmarshal UPFSIF 4 bool_at3.

(* uci.rs 13-39, 57-77, 79-107. csgid is masked when encoding, not when decoding. *)
Inductive AccessMode := ClosedMode | HybridMode | ReservedMode.
Inductive Cmi := CsgMembership | NonCsgMembership.
Record UciV := mkUci { uci_plmn : N * N * bool; uci_csgid : N; uci_mode : AccessMode; uci_cmi : Cmi }.
Definition Uci_flags (a : AccessMode) (c : Cmi) : N :=
  match a, c with
  | ClosedMode, CsgMembership => 0 | ClosedMode, NonCsgMembership => 1
  | HybridMode, CsgMembership => 64 | HybridMode, NonCsgMembership => 65
  | ReservedMode, CsgMembership => 128 | ReservedMode, NonCsgMembership => 129
  end.
Definition Uci_value (v : UciV) : list N :=
  plmn_octets (uci_plmn v) ++ enc32 (N.land (uci_csgid v) 134217727) ++ [Uci_flags (uci_mode v) (uci_cmi v)].
Definition Uci_unmarshal := fixed_unmarshal UCI 11 (fun b =>
  let? p := plmn_at b 3 in let? c := be32_at b 6 in let? x := at_ b 10 in
  let a := N.shiftr (N.land x 192) 6 in
  Ok (mkUci p c (if a =? 0 then ClosedMode else if a =? 1 then HybridMode else ReservedMode)
        (if N.land x 1 =? 0 then CsgMembership else NonCsgMembership))).

(* uli.rs 13-29, 46-85, 87-129 *)
Inductive Location := Ci (v : N) | Sac (v : N) | Rac (v : N).
Record UliV := mkUli { uli_plmn : N * N * bool; uli_lac : N; uli_loc : Location }.
Definition Uli_value (v : UliV) : list N :=
  (match uli_loc v with Ci _ => 0 | Sac _ => 1 | Rac _ => 2 end)
  :: plmn_octets (uli_plmn v) ++ enc16 (uli_lac v)
  ++ match uli_loc v with Ci i => enc16 i | Sac i => enc16 i | Rac r => [r; 255] end.
Definition Uli_unmarshal := fixed_unmarshal ULI 11 (fun b =>
  let? x := at_ b 3 in
  if x <=? 2 then
    let? p := plmn_at b 4 in let? l := be16_at b 7 in
    let? c := be16_at b 9 in let? r := at_ b 9 in
    Ok (mkUli p l (if x =? 0 then Ci c else if x =? 1 then Sac c else Rac r))
  else Err IEIncorrect).

(* ulitimestamp.rs 30-37, 39-50 *)
Definition UliTs_value (v : N) : list N := enc32 v.
Definition UliTs_unmarshal := fixed_unmarshal ULI_TIMESTAMP 7 (fun b => be32_at b 3).
