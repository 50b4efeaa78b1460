(* V2IeC.v - GTPv2-C information elements, third part (conventions as in V2IeA.v) *)
From Verif Require Import Base.
From Verif Require Export V2Base V2Enums V2Common.
Local Open Scope N_scope.

(* ---- fteid.rs *)
(* 60-68 *)
Record fteid := mkFteid { ft_if : N; ft_teid : N; ft_v4 : option (list N); ft_v6 : option (list N) }.
Definition opt_octets (o : option (list N)) : list N := match o with Some i => i | None => [] end.
(* 91-111 *)
Definition Fteid_value (v : fteid) : list N :=
  N.lor (match ft_v4 v, ft_v6 v with
         | Some _, Some _ => 192 | Some _, None => 128 | None, Some _ => 64 | None, None => 192 end) (ft_if v)
  :: enc_be 4 (ft_teid v) ++ opt_octets (ft_v4 v) ++ opt_octets (ft_v6 v).
Definition Fteid_marshal := marshal_ie 87 Fteid_value.
(* 113-153; the octets of the TEID and the addresses are not checked against the buffer *)
Definition Fteid_unmarshal (m : mode) (b : list N) : res (Tliv fteid) :=
  need b 4 (IEInvalidLength 87) (hdr4 b (fun len ins =>
  checked m len b (IEInvalidLength 87) (
  let? x := at_ b 4 in
  let? teid := be_at b 5 4 in
  let i := N.land x 63 in
  let k4 := N.shiftr x 7 in let k6 := N.land (N.shiftr x 6) 1 in
  if (k4 =? 1) && (k6 =? 1) then
    let? a := slice b 9 13 in let? c := slice b 13 29 in
    Ok (std 87 len ins (mkFteid i teid (Some a) (Some c)))
  else if (k4 =? 1) && (k6 =? 0) then
    let? a := slice b 9 13 in Ok (std 87 len ins (mkFteid i teid (Some a) None))
  else if (k4 =? 0) && (k6 =? 1) then
    let? c := slice b 9 25 in Ok (std 87 len ins (mkFteid i teid None (Some c)))
  else Err (IEIncorrect 87)))).
(* 155-157 *)
Definition Fteid_len (m : mode) (x : Tliv fteid) : res nat := len_u16 m x.

(* ---- globalcnid.rs *)
(* 17-25 *)
Record global_cn := mkGlobalCn { gc_plmn : plmn; gc_id : N }.
(* 48-61 *)
Definition GlobalCnId_value (v : global_cn) : list N := plmn_enc (gc_plmn v) ++ enc_be 2 (gc_id v).
Definition GlobalCnId_marshal := marshal_ie 89 GlobalCnId_value.
(* 63-79 *)
Definition GlobalCnId_unmarshal (m : mode) (b : list N) : res (Tliv global_cn) :=
  need b 9 (IEInvalidLength 89) (hdr4 b (fun len ins =>
  let? p := plmn_at b 4 in let? c := be_at b 7 2 in Ok (std 89 len ins (mkGlobalCn p c)))).
(* 81-83 *)
Definition GlobalCnId_len (m : mode) (x : Tliv global_cn) : res nat := len_const 9.

(* ---- groupid.rs *)
(* 41-49 *)
Definition GroupId_value (v : list N) : list N := v.
Definition GroupId_marshal := marshal_ie 216 GroupId_value.
(* 51-68 *)
Definition GroupId_unmarshal (m : mode) (b : list N) : res (Tliv (list N)) :=
  need b 4 (IEInvalidLength 216) (hdr4 b (fun len ins =>
  checked m len b (IEInvalidLength 216) (
  let? s := slice b 4 (N.to_nat len + 4) in Ok (std 216 len ins s)))).
(* 70-72 *)
Definition GroupId_len (m : mode) (x : Tliv (list N)) : res nat := len_usize x.

(* ---- guti.rs *)
(* 17-27 *)
Record guti := mkGuti { gu_plmn : plmn; gu_mmegi : N; gu_mmec : N; gu_mtmsi : N }.
(* 52-67 *)
Definition Guti_value (v : guti) : list N :=
  plmn_enc (gu_plmn v) ++ enc_be 2 (gu_mmegi v) ++ [gu_mmec v] ++ enc_be 4 (gu_mtmsi v).
Definition Guti_marshal := marshal_ie 117 Guti_value.
(* 69-87 *)
Definition Guti_unmarshal (m : mode) (b : list N) : res (Tliv guti) :=
  need b 14 (IEInvalidLength 117) (hdr4 b (fun len ins =>
  let? p := plmn_at b 4 in let? g := be_at b 7 2 in let? c := at_ b 9 in let? t := be_at b 10 4 in
  Ok (std 117 len ins (mkGuti p g c t)))).
(* 89-91 *)
Definition Guti_len (m : mode) (x : Tliv guti) : res nat := len_const 14.

(* ---- hdrcomprconfig.rs *)
(* 17-23 *)
Record hdr_compr := mkHdrCompr { hc_profiles : list N; hc_max_cid : N }.
(* the match of 52-88 and its inverse 106-114 *)
Definition rohc_bit (p : N) : N :=
  if p =? 2 then 1 else if p =? 3 then 2 else if p =? 4 then 4 else if p =? 6 then 8
  else if p =? 258 then 16 else if p =? 259 then 32 else if p =? 260 then 64 else 0.
Definition rohc_of_bit (x : N) : list N :=
  if x =? 1 then [2] else if x =? 2 then [3] else if x =? 4 then [4] else if x =? 8 then [6]
  else if x =? 16 then [258] else if x =? 32 then [259] else if x =? 64 then [260] else [].
(* 44-95: a bit is added once *)
Definition HeaderCompressionConfiguration_value (v : hdr_compr) : list N :=
  [fold_left (fun i p => if N.land i (rohc_bit p) =? 0 then i + rohc_bit p else i) (hc_profiles v) 0; 0]
  ++ enc_be 2 (hc_max_cid v).
Definition HeaderCompressionConfiguration_marshal := marshal_ie 196 HeaderCompressionConfiguration_value.
(* 97-121; the profiles are pushed onto the default list [0] *)
Definition HeaderCompressionConfiguration_unmarshal (m : mode) (b : list N) : res (Tliv hdr_compr) :=
  need b 8 (IEInvalidLength 196) (hdr4 b (fun len ins =>
  let? x := at_ b 4 in
  let l := concat (map (fun k => rohc_of_bit (N.land x (2 ^ k))) [0; 1; 2; 3; 4; 5; 6; 7]) in
  let? c := be_at b 6 2 in Ok (std 196 len ins (mkHdrCompr (0 :: l) c)))).
(* 123-125 *)
Definition HeaderCompressionConfiguration_len (m : mode) (x : Tliv hdr_compr) : res nat := len_const 8.

(* ---- henbinforeporting.rs *)
(* 46-57 *)
Definition HenbInfoReporting_value (v : bool) : list N := [flag v 1].
Definition HenbInfoReporting_marshal := marshal_ie 165 HenbInfoReporting_value.
(* 59-75 *)
Definition HenbInfoReporting_unmarshal (m : mode) (b : list N) : res (Tliv bool) :=
  need b 5 (IEInvalidLength 165) (hdr4 b (fun len ins =>
  let? x := at_ b 4 in
  if x =? 0 then Ok (std 165 len ins false)
  else if x =? 1 then Ok (std 165 len ins true)
  else Err (IEIncorrect 165))).
(* 77-79 *)
Definition HenbInfoReporting_len (m : mode) (x : Tliv bool) : res nat := len_const 5.

(* ---- hopcounter.rs *)
(* 42-50 *)
Definition HopCounter_value (v : N) : list N := [v].
Definition HopCounter_marshal := marshal_ie 113 HopCounter_value.
(* 52-64 *)
Definition HopCounter_unmarshal (m : mode) (b : list N) : res (Tliv N) :=
  need b 5 (IEInvalidLength 113) (hdr4 b (fun len ins =>
  let? x := at_ b 4 in Ok (std 113 len ins x))).
(* 66-68 *)
Definition HopCounter_len (m : mode) (x : Tliv N) : res nat := len_usize x.

(* ---- imsi.rs *)
(* 41-49 *)
Definition Imsi_value (imsi : list N) : list N := tbcd_encode imsi.
Definition Imsi_marshal := marshal_ie 1 Imsi_value.
(* 51-70; b[4..=length+3] is b[4..length+4] *)
Definition Imsi_unmarshal (m : mode) (b : list N) : res (Tliv (list N)) :=
  need b 5 (IEIncorrect 1) (hdr4 b (fun len ins =>
  checked m len b (IEInvalidLength 1) (
  let? s := slice b 4 (N.to_nat len + 4) in Ok (std 1 len ins (tbcd_decode s))))).
(* 72-74 *)
Definition Imsi_len (m : mode) (x : Tliv (list N)) : res nat := len_usize x.

(* ---- indication.rs (flags printed by tools/mkindication.py) *)
(* 16-95 *)
Record indication := mkIndication {
  i_daf : bool; i_dtf : bool; i_hi : bool; i_dfi : bool; i_oi : bool; i_isrsi : bool; i_israi : bool; i_sgwci : bool;
  i_sqci : bool; i_uimsi : bool; i_cfsi : bool; i_crsi : bool; i_ps : bool; i_pt : bool; i_si : bool; i_msv : bool;
  i_retloc : bool; i_pbic : bool; i_srni : bool; i_s6af : bool; i_s4af : bool; i_mbmdt : bool; i_israu : bool; i_ccrsi : bool;
  i_cprai : bool; i_arrl : bool; i_ppoff : bool; i_ppon : bool; i_ppsi : bool; i_csfbi : bool; i_clii : bool; i_cpsr : bool;
  i_nsi : bool; i_uasi : bool; i_dtci : bool; i_bdwi : bool; i_psci : bool; i_pcri : bool; i_aosi : bool; i_aopi : bool;
  i_roaai : bool; i_epcosi : bool; i_cpopci : bool; i_pmtsmi : bool; i_s11tf : bool; i_pnsi : bool; i_unaccsi : bool; i_wpmsi : bool;
  i_g5snn26 : bool; i_reprefi : bool; i_g5siwki : bool; i_eevrsi : bool; i_ltemui : bool; i_ltempi : bool; i_enbcrsi : bool; i_tspcmi : bool;
  i_csrmfi : bool; i_mtedtn : bool; i_mtedta : bool; i_n5gnmi : bool; i_g5cnrs : bool; i_g5cnri : bool; i_s5rho : bool; i_ethpdn : bool;
  i_nspusi : bool; i_pgwrnsi : bool; i_rppcsi : bool; i_pgwchi : bool; i_sissme : bool; i_nsenbi : bool; i_idfupf : bool; i_emci : bool;
  i_ltemsai : bool; i_srtpi : bool; i_upipsi : bool }.
(* 189-266 *)
Definition Indication_value (v : indication) : list N :=
  [flag (i_daf v) 128 + flag (i_dtf v) 64 + flag (i_hi v) 32 + flag (i_dfi v) 16 + flag (i_oi v) 8 + flag (i_isrsi v) 4 + flag (i_israi v) 2 + flag (i_sgwci v) 1;
   flag (i_sqci v) 128 + flag (i_uimsi v) 64 + flag (i_cfsi v) 32 + flag (i_crsi v) 16 + flag (i_ps v) 8 + flag (i_pt v) 4 + flag (i_si v) 2 + flag (i_msv v) 1;
   flag (i_retloc v) 128 + flag (i_pbic v) 64 + flag (i_srni v) 32 + flag (i_s6af v) 16 + flag (i_s4af v) 8 + flag (i_mbmdt v) 4 + flag (i_israu v) 2 + flag (i_ccrsi v) 1;
   flag (i_cprai v) 128 + flag (i_arrl v) 64 + flag (i_ppoff v) 32 + flag (i_ppon v) 16 + flag (i_ppsi v) 8 + flag (i_csfbi v) 4 + flag (i_clii v) 2 + flag (i_cpsr v) 1;
   flag (i_nsi v) 128 + flag (i_uasi v) 64 + flag (i_dtci v) 32 + flag (i_bdwi v) 16 + flag (i_psci v) 8 + flag (i_pcri v) 4 + flag (i_aosi v) 2 + flag (i_aopi v) 1;
   flag (i_roaai v) 128 + flag (i_epcosi v) 64 + flag (i_cpopci v) 32 + flag (i_pmtsmi v) 16 + flag (i_s11tf v) 8 + flag (i_pnsi v) 4 + flag (i_unaccsi v) 2 + flag (i_wpmsi v) 1;
   flag (i_g5snn26 v) 128 + flag (i_reprefi v) 64 + flag (i_g5siwki v) 32 + flag (i_eevrsi v) 16 + flag (i_ltemui v) 8 + flag (i_ltempi v) 4 + flag (i_enbcrsi v) 2 + flag (i_tspcmi v) 1;
   flag (i_csrmfi v) 128 + flag (i_mtedtn v) 64 + flag (i_mtedta v) 32 + flag (i_n5gnmi v) 16 + flag (i_g5cnrs v) 8 + flag (i_g5cnri v) 4 + flag (i_s5rho v) 2 + flag (i_ethpdn v) 1;
   flag (i_nspusi v) 128 + flag (i_pgwrnsi v) 64 + flag (i_rppcsi v) 32 + flag (i_pgwchi v) 16 + flag (i_sissme v) 8 + flag (i_nsenbi v) 4 + flag (i_idfupf v) 2 + flag (i_emci v) 1;
   flag (i_ltemsai v) 4 + flag (i_srtpi v) 2 + flag (i_upipsi v) 1].
Definition Indication_marshal := marshal_ie 77 Indication_value.
(* 270-371: octets that are absent leave the default false, further octets are ignored *)
Definition Indication_convert (s : list N) : indication :=
  mkIndication
    (bit (nth 0 s 0) 128) (bit (nth 0 s 0) 64) (bit (nth 0 s 0) 32) (bit (nth 0 s 0) 16) (bit (nth 0 s 0) 8) (bit (nth 0 s 0) 4) (bit (nth 0 s 0) 2) (bit (nth 0 s 0) 1)
    (bit (nth 1 s 0) 128) (bit (nth 1 s 0) 64) (bit (nth 1 s 0) 32) (bit (nth 1 s 0) 16) (bit (nth 1 s 0) 8) (bit (nth 1 s 0) 4) (bit (nth 1 s 0) 2) (bit (nth 1 s 0) 1)
    (bit (nth 2 s 0) 128) (bit (nth 2 s 0) 64) (bit (nth 2 s 0) 32) (bit (nth 2 s 0) 16) (bit (nth 2 s 0) 8) (bit (nth 2 s 0) 4) (bit (nth 2 s 0) 2) (bit (nth 2 s 0) 1)
    (bit (nth 3 s 0) 128) (bit (nth 3 s 0) 64) (bit (nth 3 s 0) 32) (bit (nth 3 s 0) 16) (bit (nth 3 s 0) 8) (bit (nth 3 s 0) 4) (bit (nth 3 s 0) 2) (bit (nth 3 s 0) 1)
    (bit (nth 4 s 0) 128) (bit (nth 4 s 0) 64) (bit (nth 4 s 0) 32) (bit (nth 4 s 0) 16) (bit (nth 4 s 0) 8) (bit (nth 4 s 0) 4) (bit (nth 4 s 0) 2) (bit (nth 4 s 0) 1)
    (bit (nth 5 s 0) 128) (bit (nth 5 s 0) 64) (bit (nth 5 s 0) 32) (bit (nth 5 s 0) 16) (bit (nth 5 s 0) 8) (bit (nth 5 s 0) 4) (bit (nth 5 s 0) 2) (bit (nth 5 s 0) 1)
    (bit (nth 6 s 0) 128) (bit (nth 6 s 0) 64) (bit (nth 6 s 0) 32) (bit (nth 6 s 0) 16) (bit (nth 6 s 0) 8) (bit (nth 6 s 0) 4) (bit (nth 6 s 0) 2) (bit (nth 6 s 0) 1)
    (bit (nth 7 s 0) 128) (bit (nth 7 s 0) 64) (bit (nth 7 s 0) 32) (bit (nth 7 s 0) 16) (bit (nth 7 s 0) 8) (bit (nth 7 s 0) 4) (bit (nth 7 s 0) 2) (bit (nth 7 s 0) 1)
    (bit (nth 8 s 0) 128) (bit (nth 8 s 0) 64) (bit (nth 8 s 0) 32) (bit (nth 8 s 0) 16) (bit (nth 8 s 0) 8) (bit (nth 8 s 0) 4) (bit (nth 8 s 0) 2) (bit (nth 8 s 0) 1)
    (bit (nth 9 s 0) 4) (bit (nth 9 s 0) 2) (bit (nth 9 s 0) 1).
(* 386-398: the slice is taken without a check *)
Definition Indication_unmarshal (m : mode) (b : list N) : res (Tliv indication) :=
  need b 4 (IEInvalidLength 77) (hdr4 b (fun len ins =>
  let? s := slice b 4 (N.to_nat len + 4) in Ok (std 77 len ins (Indication_convert s)))).
(* 400-402 *)
Definition Indication_len (m : mode) (x : Tliv indication) : res nat := len_usize x.

(* ---- integernumber.rs *)
(* 41-49 *)
Definition IntegerNumber_value (v : list N) : list N := v.
Definition IntegerNumber_marshal := marshal_ie 187 IntegerNumber_value.
(* 51-68 *)
Definition IntegerNumber_unmarshal (m : mode) (b : list N) : res (Tliv (list N)) :=
  need b 4 (IEInvalidLength 187) (hdr4 b (fun len ins =>
  checked m len b (IEInvalidLength 187) (
  let? s := slice b 4 (4 + N.to_nat len) in Ok (std 187 len ins s)))).
(* 70-72 *)
Definition IntegerNumber_len (m : mode) (x : Tliv (list N)) : res nat := len_usize x.

(* ---- ip4cp.rs *)
(* 18-24 *)
Record ip4cp := mkIp4Cp { i4_prefix : N; i4_ip : list N }.
(* 45-54 *)
Definition Ip4Cp_value (v : ip4cp) : list N := i4_prefix v :: i4_ip v.
Definition Ip4Cp_marshal := marshal_ie 166 Ip4Cp_value.
(* 56-69 *)
Definition Ip4Cp_unmarshal (m : mode) (b : list N) : res (Tliv ip4cp) :=
  need b 9 (IEInvalidLength 166) (hdr4 b (fun len ins =>
  let? p := at_ b 4 in let? a := slice b 5 9 in Ok (std 166 len ins (mkIp4Cp p a)))).
(* 71-73 *)
Definition Ip4Cp_len (m : mode) (x : Tliv ip4cp) : res nat := len_const 9.

(* ---- ipaddress.rs *)
(* 42-53 *)
Definition IpAddress_value (v : ipaddr) : list N := match v with IpV4 o => o | IpV6 o => o end.
Definition IpAddress_marshal := marshal_ie 74 IpAddress_value.
(* 55-83 *)
Definition IpAddress_unmarshal (m : mode) (b : list N) : res (Tliv ipaddr) :=
  need b 4 (IEInvalidLength 74) (hdr4 b (fun len ins =>
  checked m len b (IEInvalidLength 74) (
  if len =? 4 then let? o := slice b 4 8 in Ok (std 74 len ins (IpV4 o))
  else if len =? 16 then
    need b 20 (IEInvalidLength 74) (let? o := slice b 4 20 in Ok (std 74 len ins (IpV6 o)))
  else Err (IEIncorrect 74)))).
(* 85-87 *)
Definition IpAddress_len (m : mode) (x : Tliv ipaddr) : res nat := len_usize x.

(* ---- ldn.rs *)
(* 41-49 *)
Definition Ldn_value (name : list N) : list N := utf8 name.
Definition Ldn_marshal := marshal_ie 151 Ldn_value.
(* 51-69: each octet becomes the character with that code *)
Definition Ldn_unmarshal (m : mode) (b : list N) : res (Tliv (list N)) :=
  need b 4 (IEInvalidLength 151) (hdr4 b (fun len ins =>
  checked m len b (IEInvalidLength 151) (
  let? s := slice b 4 (4 + N.to_nat len) in Ok (std 151 len ins s)))).
(* 71-73 *)
Definition Ldn_len (m : mode) (x : Tliv (list N)) : res nat := len_u16 m x.

(* ---- maxpacketlossrate.rs *)
(* 18-24 *)
Record max_loss := mkMaxLoss { ml_ul : option N; ml_dl : option N }.
(* 45-71 *)
Definition MaxPacketLossRate_value (v : max_loss) : list N :=
  match ml_dl v, ml_ul v with
  | None, None => [0]
  | None, Some u => 1 :: enc_be 2 u
  | Some d, None => 2 :: enc_be 2 d
  | Some d, Some u => 3 :: enc_be 2 u ++ enc_be 2 d
  end.
Definition MaxPacketLossRate_marshal := marshal_ie 203 MaxPacketLossRate_value.
(* 73-115 *)
Definition MaxPacketLossRate_unmarshal (m : mode) (b : list N) : res (Tliv max_loss) :=
  need b 5 (IEInvalidLength 203) (hdr4 b (fun len ins =>
  let? x := at_ b 4 in
  let k := N.land x 3 in
  if k =? 0 then Ok (std 203 len ins (mkMaxLoss None None))
  else if k =? 1 then
    checked m 3 b (IEInvalidLength 203) (let? u := be_at b 5 2 in Ok (std 203 len ins (mkMaxLoss (Some u) None)))
  else if k =? 2 then
    checked m 3 b (IEInvalidLength 203) (let? d := be_at b 5 2 in Ok (std 203 len ins (mkMaxLoss None (Some d))))
  else if k =? 3 then
    checked m 5 b (IEInvalidLength 203) (
      let? u := be_at b 5 2 in let? d := be_at b 7 2 in Ok (std 203 len ins (mkMaxLoss (Some u) (Some d))))
  else Err (IEIncorrect 203))).
(* 117-119 *)
Definition MaxPacketLossRate_len (m : mode) (x : Tliv max_loss) : res nat := len_usize x.

(* ---- mbmsdistributionack.rs *)
(* 42-50 *)
Definition MbmsDistributionAck_value (v : N) : list N := [N.land v 3].
Definition MbmsDistributionAck_marshal := marshal_ie 143 MbmsDistributionAck_value.
(* 52-64 *)
Definition MbmsDistributionAck_unmarshal (m : mode) (b : list N) : res (Tliv N) :=
  need b 5 (IEInvalidLength 143) (hdr4 b (fun len ins =>
  let? x := at_ b 4 in Ok (std 143 len ins (N.land x 3)))).
(* 66-68 *)
Definition MbmsDistributionAck_len (m : mode) (x : Tliv N) : res nat := len_const 5.

(* ---- mbmsflags.rs *)
(* 17-23 *)
Record mbms_flags := mkMbmsFlags { mf_msri : bool; mf_lmri : bool }.
(* 44-58 *)
Definition MbmsFlags_value (v : mbms_flags) : list N :=
  [match mf_lmri v, mf_msri v with false, false => 0 | true, false => 2 | false, true => 1 | true, true => 3 end].
Definition MbmsFlags_marshal := marshal_ie 171 MbmsFlags_value.
(* 60-92 *)
Definition MbmsFlags_unmarshal (m : mode) (b : list N) : res (Tliv mbms_flags) :=
  need b 5 (IEInvalidLength 171) (hdr4 b (fun len ins =>
  let? x := at_ b 4 in
  let f := N.land x 3 in
  if f =? 0 then Ok (std 171 len ins (mkMbmsFlags false false))
  else if f =? 2 then Ok (std 171 len ins (mkMbmsFlags false true))
  else if f =? 1 then Ok (std 171 len ins (mkMbmsFlags true false))
  else if f =? 3 then Ok (std 171 len ins (mkMbmsFlags true true))
  else Err (IEIncorrect 171))).
(* 94-96 *)
Definition MbmsFlags_len (m : mode) (x : Tliv mbms_flags) : res nat := len_const 5.

(* ---- mbmsflowid.rs *)
(* 42-50 *)
Definition MbmsFlowId_value (v : N) : list N := enc_be 2 v.
Definition MbmsFlowId_marshal := marshal_ie 141 MbmsFlowId_value.
(* 52-64 *)
Definition MbmsFlowId_unmarshal (m : mode) (b : list N) : res (Tliv N) :=
  need b 6 (IEInvalidLength 141) (hdr4 b (fun len ins =>
  let? x := be_at b 4 2 in Ok (std 141 len ins x))).
(* 66-68 *)
Definition MbmsFlowId_len (m : mode) (x : Tliv N) : res nat := len_const 6.

(* ---- mbmsipmulticastdistribution.rs *)
(* 17-20, 25-33 *)
Inductive MbmsHc := MbmsHc_UncompressedHeader | MbmsHc_CompressedHeader.
Record mbms_multicast := mkMulticast { mm_teid : N; mm_a1 : ipaddr; mm_a2 : ipaddr; mm_hc : MbmsHc }.
Definition multicast_ip (a : ipaddr) : list N := match a with IpV4 o => 4 :: o | IpV6 o => 80 :: o end.
(* 56-88 *)
Definition MbmsIpMulticastDistribution_value (v : mbms_multicast) : list N :=
  enc_be 4 (mm_teid v) ++ multicast_ip (mm_a1 v) ++ multicast_ip (mm_a2 v) ++
  [match mm_hc v with MbmsHc_UncompressedHeader => 0 | MbmsHc_CompressedHeader => 1 end].
Definition MbmsIpMulticastDistribution_marshal := marshal_ie 142 MbmsIpMulticastDistribution_value.
(* one of the two address blocks of 101-163 *)
Definition multicast_ip_at (b : list N) (c : nat) : res (ipaddr * nat) :=
  let? k := at_ b c in
  if k =? 4 then
    need b (c + 5) (IEInvalidLength 142) (let? o := slice b (c + 1) (c + 5) in Ok (IpV4 o, (c + 5)%nat))
  else if k =? 80 then
    need b (c + 17) (IEInvalidLength 142) (let? o := slice b (c + 1) (c + 17) in Ok (IpV6 o, (c + 17)%nat))
  else Err (IEIncorrect 142).
(* 90-178; the instance octet is not masked; [if buffer.len() >= cursor] before the last read
   is always true *)
Definition MbmsIpMulticastDistribution_unmarshal (m : mode) (b : list N) : res (Tliv mbms_multicast) :=
  need b 8 (IEInvalidLength 142) (hdr4 b (fun len ins =>
  let? teid := be_at b 4 4 in
  checked m len b (IEInvalidLength 142) (
  let? (a1, c) := multicast_ip_at b 8 in
  let? (a2, c) := multicast_ip_at b c in
  need b c (IEInvalidLength 142) (
  let? k := at_ b c in
  if k =? 0 then Ok (mkIe 142 len ins (mkMulticast teid a1 a2 MbmsHc_UncompressedHeader))
  else if k =? 1 then Ok (mkIe 142 len ins (mkMulticast teid a1 a2 MbmsHc_CompressedHeader))
  else Err (IEIncorrect 142))))).
(* 180-182 *)
Definition MbmsIpMulticastDistribution_len (m : mode) (x : Tliv mbms_multicast) : res nat := len_usize x.

(* ---- mbmssa.rs *)
(* 41-59 *)
Definition MbmsServiceArea_value (v : list N) : list N :=
  if (length v =? 0)%nat then [0; 0; 0] else (nlen v - 1) mod 256 :: enc_all (enc_be 2) v.
Definition MbmsServiceArea_marshal := marshal_ie 139 MbmsServiceArea_value.
(* 61-84 *)
Definition MbmsServiceArea_unmarshal (m : mode) (b : list N) : res (Tliv (list N)) :=
  need b 4 (IEInvalidLength 139) (hdr4 b (fun len ins =>
  checked m len b (IEInvalidLength 139) (
  let? n := at_ b 4 in
  let e := (5 + (N.to_nat n + 1) * 2)%nat in
  need b e (IEInvalidLength 139) (
  let? s := slice b 5 e in Ok (std 139 len ins (chunks16 s)))))).
(* 86-88 *)
Definition MbmsServiceArea_len (m : mode) (x : Tliv (list N)) : res nat := len_usize x.

(* ---- mbmssd.rs *)
(* 17-23 *)
Record mbms_sd := mkMbmsSd { sd_seconds : N; sd_days : N }.
(* 44-53: u32 shift *)
Definition MbmsSessionDuration_value (v : mbms_sd) : list N :=
  enc_be 3 (N.lor ((N.shiftl (sd_seconds v) 7) mod 4294967296) (sd_days v)).
Definition MbmsSessionDuration_marshal := marshal_ie 138 MbmsSessionDuration_value.
(* 55-68 *)
Definition MbmsSessionDuration_unmarshal (m : mode) (b : list N) : res (Tliv mbms_sd) :=
  need b 7 (IEInvalidLength 138) (hdr4 b (fun len ins =>
  let? x := be_at b 4 3 in let? d := at_ b 6 in
  Ok (std 138 len ins (mkMbmsSd (N.shiftr x 7) (N.land d 127))))).
(* 70-72 *)
Definition MbmsSessionDuration_len (m : mode) (x : Tliv mbms_sd) : res nat := len_const 7.

(* ---- mbmssessionid.rs *)
(* 42-50 *)
Definition MbmsSessionId_value (v : N) : list N := [v].
Definition MbmsSessionId_marshal := marshal_ie 140 MbmsSessionId_value.
(* 52-64 *)
Definition MbmsSessionId_unmarshal (m : mode) (b : list N) : res (Tliv N) :=
  need b 5 (IEInvalidLength 140) (hdr4 b (fun len ins =>
  let? x := at_ b 4 in Ok (std 140 len ins x))).
(* 66-68 *)
Definition MbmsSessionId_len (m : mode) (x : Tliv N) : res nat := len_const 5.

(* ---- mbmstimetodatatransfer.rs *)
(* 42-50 *)
Definition MbmsTimeToDataTransfer_value (v : N) : list N := [v].
Definition MbmsTimeToDataTransfer_marshal := marshal_ie 153 MbmsTimeToDataTransfer_value.
(* 52-64; the instance octet is not masked *)
Definition MbmsTimeToDataTransfer_unmarshal (m : mode) (b : list N) : res (Tliv N) :=
  need b 5 (IEInvalidLength 153) (hdr4 b (fun len ins =>
  let? x := at_ b 4 in Ok (mkIe 153 len ins x))).
(* 66-68 *)
Definition MbmsTimeToDataTransfer_len (m : mode) (x : Tliv N) : res nat := len_const 5.

(* ---- mdtconfiguration.rs *)
(* 58-62, 67-83 *)
Record mdt_config := mkMdt {
  md_job : MdtJobType; md_meas : list N; md_trigger : N; md_interval : N; md_amount : N;
  md_rsrp : N; md_rsrq : N; md_area : option (list N); md_rrm : option N; md_lte : option N;
  md_pos : option N; md_plmns : option (list plmn) }.
Definition opt1 (o : option N) : list N := match o with Some i => [i] | None => [] end.
(* 114-170 *)
Definition MdtConfiguration_value (v : mdt_config) : list N :=
  [MdtJobType_to (md_job v)] ++ md_meas v ++
  [md_trigger v; md_interval v; md_amount v; md_rsrp v; md_rsrq v] ++
  (match md_area v with Some i => lv i | None => [0] end) ++
  [flag (is_some (md_rrm v)) 1 + flag (is_some (md_lte v)) 2 + flag (is_some (md_pos v)) 4 + flag (is_some (md_plmns v)) 8] ++
  opt1 (md_rrm v) ++ opt1 (md_lte v) ++ opt1 (md_pos v) ++
  (match md_plmns v with Some l => nlen l mod 256 :: enc_all plmn_enc l | None => [] end).
Definition MdtConfiguration_marshal := marshal_ie 162 MdtConfiguration_value.
(* [if flag && b.len() > cursor { field = Some(b[cursor]); cursor += 1 }] of 213-224 *)
Definition opt_at (f : bool) (b : list N) (c : nat) : res (option N * nat) :=
  if f && (c <? length b)%nat then let? x := at_ b c in Ok (Some x, S c) else Ok (None, c).
(* 233-243: the loop runs to the end of the buffer, whatever the announced number *)
Fixpoint mdt_plmns_loop (fuel : nat) (b : list N) (c : nat) : res (list plmn) :=
  if (c <? length b)%nat then
    match fuel with
    | O => Diverge
    | S f =>
        need b (c + 3) (IEInvalidLength 162) (
        let? p := plmn_at b c in let? l := mdt_plmns_loop f b (c + 3) in Ok (p :: l))
    end
  else Ok [].
(* 172-249 *)
Definition MdtConfiguration_unmarshal (m : mode) (b : list N) : res (Tliv mdt_config) :=
  need b 15 (IEInvalidLength 162) (hdr4 b (fun len ins =>
  let? j := at_ b 4 in let? ms := slice b 5 9 in
  let? t := at_ b 9 in let? i := at_ b 10 in let? a := at_ b 11 in let? rp := at_ b 12 in let? rq := at_ b 13 in
  let? al := at_ b 14 in
  let? (area, c) :=
    (if al =? 0 then Ok (None, 15%nat)
     else let? s := slice b 15 (15 + N.to_nat al) in Ok (Some s, (15 + N.to_nat al)%nat)) in
  let? f := at_ b c in
  let pli := N.shiftr f 3 =? 1 in
  let pmi := N.land (N.shiftr f 2) 1 =? 1 in
  let mpi := N.land (N.shiftr f 1) 1 =? 1 in
  let crrmi := N.land f 1 =? 1 in
  let? (rrm, c) := opt_at crrmi b (S c) in
  let? (lte, c) := opt_at mpi b c in
  let? (pos, c) := opt_at pmi b c in
  let? plmns :=
    (if pli then
       let? n := at_ b c in
       if n <? 16 then
         need b (c + 1 + N.to_nat n * 3) (IEInvalidLength 162) (
         let? l := mdt_plmns_loop (length b) b (c + 1) in Ok (Some l))
       else Err (IEIncorrect 162)
     else Ok None) in
  Ok (std 162 len ins (mkMdt (MdtJobType_of j) ms t i a rp rq area rrm lte pos plmns)))).
(* 251-253 *)
Definition MdtConfiguration_len (m : mode) (x : Tliv mdt_config) : res nat := len_usize x.

(* ---- mei.rs *)
(* 42-50 *)
Definition Mei_value (mei : list N) : list N := tbcd_encode mei.
Definition Mei_marshal := marshal_ie 75 Mei_value.
(* 52-71 *)
Definition Mei_unmarshal (m : mode) (b : list N) : res (Tliv (list N)) :=
  need b 4 (IEInvalidLength 75) (hdr4 b (fun len ins =>
  checked m len b (IEInvalidLength 75) (
  let? e := end16 m len 4 in let? s := slice b 4 e in Ok (std 75 len ins (tbcd_decode s))))).
(* 73-75 *)
Definition Mei_len (m : mode) (x : Tliv (list N)) : res nat := len_const 12.

(* ---- metric.rs *)
(* 42-50 *)
Definition Metric_value (v : N) : list N := [v].
Definition Metric_marshal := marshal_ie 182 Metric_value.
(* 52-64 *)
Definition Metric_unmarshal (m : mode) (b : list N) : res (Tliv N) :=
  need b 5 (IEInvalidLength 182) (hdr4 b (fun len ins =>
  let? x := at_ b 4 in Ok (std 182 len ins (if 100 <? x then 0 else x)))).
(* 66-68 *)
Definition Metric_len (m : mode) (x : Tliv N) : res nat := len_const 5.

(* ---- millisecondtimestamp.rs *)
(* 42-50: the low six octets *)
Definition MilliSecondTimeStamp_value (v : N) : list N := enc_be 6 v.
Definition MilliSecondTimeStamp_marshal := marshal_ie 188 MilliSecondTimeStamp_value.
(* 52-66 *)
Definition MilliSecondTimeStamp_unmarshal (m : mode) (b : list N) : res (Tliv N) :=
  need b 10 (IEInvalidLength 188) (hdr4 b (fun len ins =>
  let? x := be_at b 4 6 in Ok (std 188 len ins x))).
(* 68-70 *)
Definition MilliSecondTimeStamp_len (m : mode) (x : Tliv N) : res nat := len_const 10.
