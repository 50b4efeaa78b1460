(* V2IeE.v - GTPv2-C information elements, fifth part (conventions as in V2IeA.v) *)
From Verif Require Import Base.
From Verif Require Export V2Base V2Enums V2Common V2IeC.
Local Open Scope N_scope.

(* String::from_utf8: None when the octets are not well-formed UTF-8 *)
Definition ocons (x : N) (o : option (list N)) : option (list N) :=
  match o with Some l => Some (x :: l) | None => None end.
Fixpoint utf8_strict (b : list N) : option (list N) :=
  match b with
  | [] => Some []
  | c :: r =>
      if c <? 128 then ocons c (utf8_strict r)
      else if (194 <=? c) && (c <=? 223) then
        match r with
        | d :: r1 => if cont d then ocons ((c - 192) * 64 + (d - 128)) (utf8_strict r1) else None
        | [] => None
        end
      else if (224 <=? c) && (c <=? 239) then
        match r with
        | d :: e :: r2 =>
            if second_ok c d && cont e then
              ocons ((c - 224) * 4096 + (d - 128) * 64 + (e - 128)) (utf8_strict r2)
            else None
        | _ => None
        end
      else if (240 <=? c) && (c <=? 244) then
        match r with
        | d :: e :: f :: r3 =>
            if second_ok c d && cont e && cont f then
              ocons ((c - 240) * 262144 + (d - 128) * 4096 + (e - 128) * 64 + (f - 128)) (utf8_strict r3)
            else None
        | _ => None
        end
      else None
  end.
Definition utf8_or (s : list N) (e : GTPV2Error) : res (list N) :=
  match utf8_strict s with Some x => Ok x | None => Err e end.

(* ---- monitoringeventextinfo.rs *)
(* 16-24 *)
Record mon_ext := mkMonExt { mx_ref : N; mx_id : list N; mx_rmplrt : option N; mx_ext : option N }.
Definition opt_be (k : nat) (o : option N) : list N := match o with Some i => enc_be k i | None => [] end.
(* 47-65 *)
Definition MonitoringEventExtensionInfo_value (v : mon_ext) : list N :=
  flag (is_some (mx_ext v)) 2 + flag (is_some (mx_rmplrt v)) 1 :: enc_be 4 (mx_ref v) ++
  lv (utf8 (mx_id v)) ++ opt_be 3 (mx_rmplrt v) ++ opt_be 8 (mx_ext v).
Definition MonitoringEventExtensionInfo_marshal := marshal_ie 206 MonitoringEventExtensionInfo_value.
(* [if flag { if buffer.len() >= cursor + k { .. cursor += k } else { Err } }] *)
Definition opt_be_at (f : bool) (k : nat) (e : GTPV2Error) (b : list N) (c : nat) : res (option N * nat) :=
  if f then need b (c + k) e (let? x := be_at b c k in Ok (Some x, (c + k)%nat)) else Ok (None, c).
(* 67-131: the octets up to the identifier's length are not checked against the buffer, and
   the check for the identifier itself (buffer.len() >= 9 + len) is one octet short *)
Definition MonitoringEventExtensionInfo_unmarshal (m : mode) (b : list N) : res (Tliv mon_ext) :=
  need b 4 (IEInvalidLength 206) (hdr4 b (fun len ins =>
  checked m len b (IEInvalidLength 206) (
  let? ref := be_at b 5 4 in
  let? l := at_ b 9 in
  let n := N.to_nat l in
  need b (9 + n) (IEInvalidLength 206) (
  let? s := slice b 10 (10 + n) in
  let? id := utf8_or s (IEIncorrect 206) in
  let? x := at_ b 4 in
  let? (rm, c) := opt_be_at (bit x 1) 3 (IEInvalidLength 206) b (10 + n)%nat in
  let? (ext, c) := opt_be_at (bit x 2) 8 (IEInvalidLength 206) b c in
  Ok (std 206 len ins (mkMonExt ref id rm ext)))))).
(* 133-135 *)
Definition MonitoringEventExtensionInfo_len (m : mode) (x : Tliv mon_ext) : res nat := len_usize x.

(* ---- monitoringeventinfo.rs *)
(* 16-27 *)
Record mon_info := mkMonInfo {
  mi_nsui : bool; mi_nsur : bool; mi_nscf : bool; mi_ref : N; mi_id : list N; mi_reports : N; mi_ext : option N }.
(* 53-72; the four flags share the octet of the instance *)
Definition MonitoringEventInformation_value (v : mon_info) : list N :=
  enc_be 4 (mi_ref v) ++ lv (utf8 (mi_id v)) ++ enc_be 2 (mi_reports v) ++ opt_be 8 (mi_ext v).
Definition mon_flags (v : mon_info) : N :=
  flag (is_some (mi_ext v)) 128 + flag (mi_nscf v) 64 + flag (mi_nsui v) 32 + flag (mi_nsur v) 16.
Definition MonitoringEventInformation_marshal (x : Tliv mon_info) : list N :=
  tliv 189 (ie_length x) (N.lor (mon_flags (ie_v x)) (N.land (ie_ins x) 15)) (MonitoringEventInformation_value (ie_v x)).
(* 74-126 *)
Definition MonitoringEventInformation_unmarshal (m : mode) (b : list N) : res (Tliv mon_info) :=
  need b 9 (IEInvalidLength 189) (hdr4 b (fun len ins =>
  let? ref := be_at b 4 4 in
  let? (s, c) := lv_at b 8 (IEInvalidLength 189) in
  let? id := utf8_or s (IEIncorrect 189) in
  need b (c + 2) (IEInvalidLength 189) (
  let? n := be_at b c 2 in
  let? (ext, _) := opt_be_at (bit ins 128) 8 (IEInvalidLength 189) b (c + 2)%nat in
  Ok (std 189 len ins (mkMonInfo (bit ins 32) (bit ins 16) (bit ins 64) ref id n ext))))).
(* 128-130 *)
Definition MonitoringEventInformation_len (m : mode) (x : Tliv mon_info) : res nat := len_usize x.

(* ---- msisdn.rs *)
(* 41-49 *)
Definition Msisdn_value (v : list N) : list N := tbcd_encode v.
Definition Msisdn_marshal := marshal_ie 76 Msisdn_value.
(* 51-70; try_into on a slice to a slice cannot fail *)
Definition Msisdn_unmarshal (m : mode) (b : list N) : res (Tliv (list N)) :=
  need b 4 (IEInvalidLength 76) (hdr4 b (fun len ins =>
  checked m len b (IEInvalidLength 76) (
  let? e := end16 m len 4 in let? s := slice b 4 e in Ok (std 76 len ins (tbcd_decode s))))).
(* 72-74 *)
Definition Msisdn_len (m : mode) (x : Tliv (list N)) : res nat := len_usize x.

(* ---- mueut.rs *)
(* 43-51 *)
Definition MappedUeUsageType_value (v : N) : list N := enc_be 2 v.
Definition MappedUeUsageType_marshal := marshal_ie 200 MappedUeUsageType_value.
(* 53-65 *)
Definition MappedUeUsageType_unmarshal (m : mode) (b : list N) : res (Tliv N) :=
  need b 6 (IEInvalidLength 200) (hdr4 b (fun len ins => let? v := be_at b 4 2 in Ok (std 200 len ins v))).
(* 67-69 *)
Definition MappedUeUsageType_len (m : mode) (x : Tliv N) : res nat := len_const 6.

(* ---- nodefeatures.rs *)
(* 17-29 *)
Record node_features := mkNodeFeatures {
  nf_prn : bool; nf_mabr : bool; nf_ntsr : bool; nf_ciot : bool;
  nf_s1un : bool; nf_eth : bool; nf_mtedt : bool; nf_psset : bool }.
(* 56-72 *)
Definition NodeFeatures_value (v : node_features) : list N :=
  [flag (nf_prn v) 1 + flag (nf_mabr v) 2 + flag (nf_ntsr v) 4 + flag (nf_ciot v) 8 +
   flag (nf_s1un v) 16 + flag (nf_eth v) 32 + flag (nf_mtedt v) 64 + flag (nf_psset v) 128].
Definition NodeFeatures_marshal := marshal_ie 152 NodeFeatures_value.
(* 74-93 *)
Definition NodeFeatures_unmarshal (m : mode) (b : list N) : res (Tliv node_features) :=
  need b 5 (IEInvalidLength 152) (hdr4 b (fun len ins =>
  let? x := at_ b 4 in
  Ok (std 152 len ins (mkNodeFeatures (bit x 1) (bit x 2) (bit x 4) (bit x 8) (bit x 16) (bit x 32) (bit x 64) (bit x 128))))).
(* 95-97 *)
Definition NodeFeatures_len (m : mode) (x : Tliv node_features) : res nat := len_const 5.

(* ---- nodeidentifier.rs *)
(* 16-22 *)
Record node_identifier := mkNodeIdentifier { ni_name : list N; ni_realm : list N }.
(* 43-56 *)
Definition NodeIdentifier_value (v : node_identifier) : list N := lv (utf8 (ni_name v)) ++ lv (utf8 (ni_realm v)).
Definition NodeIdentifier_marshal := marshal_ie 176 NodeIdentifier_value.
(* 58-88; each octet becomes one char *)
Definition NodeIdentifier_unmarshal (m : mode) (b : list N) : res (Tliv node_identifier) :=
  need b 5 (IEInvalidLength 176) (hdr4 b (fun len ins =>
  checked m len b (IEInvalidLength 176) (
  let? l := at_ b 4 in
  let n := N.to_nat l in
  need b (5 + n + 1) (IEInvalidLength 176) (
  let? name := slice b 5 (5 + n) in
  let? (realm, _) := lv_at b (5 + n)%nat (IEInvalidLength 176) in
  Ok (std 176 len ins (mkNodeIdentifier name realm)))))).
(* 90-92 *)
Definition NodeIdentifier_len (m : mode) (x : Tliv node_identifier) : res nat := len_usize x.

(* ---- nodenumber.rs *)
(* 41-52 *)
Definition NodeNumber_value (v : list N) : list N := lv (145 :: tbcd_encode v).
Definition NodeNumber_marshal := marshal_ie 175 NodeNumber_value.
(* 54-77; neither slice is checked *)
Definition NodeNumber_unmarshal (m : mode) (b : list N) : res (Tliv (list N)) :=
  need b 5 (IEIncorrect 175) (hdr4 b (fun len ins =>
  checked m len b (IEInvalidLength 175) (
  let? l := at_ b 4 in
  let? n := slice b 5 (N.to_nat l + 5) in
  let? d := slice_from n 1 in
  Ok (std 175 len ins (tbcd_decode d))))).
(* 79-81 *)
Definition NodeNumber_len (m : mode) (x : Tliv (list N)) : res nat := len_usize x.

(* ---- nodetype.rs *)
(* 69-77 *)
Definition NodeType_value (v : Node) : list N := [Node_to v].
Definition NodeType_marshal := marshal_ie 135 NodeType_value.
(* 79-91; the instance octet is not masked *)
Definition NodeType_unmarshal (m : mode) (b : list N) : res (Tliv Node) :=
  need b 5 (IEInvalidLength 135) (hdr4 b (fun len ins => let? x := at_ b 4 in Ok (mkIe 135 len ins (Node_of x)))).
(* 93-95 *)
Definition NodeType_len (m : mode) (x : Tliv Node) : res nat := len_const 5.

(* ---- paa.rs *)
(* 17-23 *)
Inductive pdn_address :=
| Paa_V4 (a : list N) | Paa_V6 (a : list N) (prefix : N) | Paa_Dual (a4 a6 : list N) (prefix : N)
| Paa_NonIp | Paa_Ethernet.
(* 53-79 *)
Definition PdnAddressAllocation_value (v : pdn_address) : list N :=
  match v with
  | Paa_V4 i => 1 :: i
  | Paa_V6 i j => 2 :: j :: i
  | Paa_Dual i j n => 3 :: n :: j ++ i
  | Paa_NonIp => [4]
  | Paa_Ethernet => [5]
  end.
Definition PdnAddressAllocation_marshal := marshal_ie 79 PdnAddressAllocation_value.
(* 81-133 *)
Definition PdnAddressAllocation_unmarshal (m : mode) (b : list N) : res (Tliv pdn_address) :=
  need b 5 (IEInvalidLength 79) (hdr4 b (fun len ins =>
  checked m len b (IEInvalidLength 79) (
  let? x := at_ b 4 in
  if x =? 1 then
    if 5 <=? len then let? a := slice b 5 9 in Ok (std 79 len ins (Paa_V4 a)) else Err (IEInvalidLength 79)
  else if x =? 2 then
    if 18 <=? len then let? p := at_ b 5 in let? a := slice b 6 22 in Ok (std 79 len ins (Paa_V6 a p))
    else Err (IEInvalidLength 79)
  else if x =? 3 then
    if 22 <=? len then
      let? p := at_ b 5 in let? a6 := slice b 6 22 in let? a4 := slice b 22 26 in
      Ok (std 79 len ins (Paa_Dual a4 a6 p))
    else Err (IEInvalidLength 79)
  else if x =? 4 then Ok (std 79 len ins Paa_NonIp)
  else if x =? 5 then Ok (std 79 len ins Paa_Ethernet)
  else Err (IEIncorrect 79)))).
(* 135-137 *)
Definition PdnAddressAllocation_len (m : mode) (x : Tliv pdn_address) : res nat := len_usize x.

(* ---- packetflowid.rs *)
(* 17-23 *)
Record packet_flow := mkPacketFlow { pf_ebi : N; pf_id : N }.
(* 44-53 *)
Definition PacketFlowId_value (v : packet_flow) : list N := [pf_ebi v] ++ enc_be 4 (pf_id v).
Definition PacketFlowId_marshal := marshal_ie 123 PacketFlowId_value.
(* 55-68 *)
Definition PacketFlowId_unmarshal (m : mode) (b : list N) : res (Tliv packet_flow) :=
  need b 9 (IEInvalidLength 123) (hdr4 b (fun len ins =>
  let? e := at_ b 4 in let? i := be_at b 5 4 in Ok (std 123 len ins (mkPacketFlow (N.land e 15) i)))).
(* 70-72 *)
Definition PacketFlowId_len (m : mode) (x : Tliv packet_flow) : res nat := len_const 9.

(* ---- pagingserviceinfo.rs *)
(* 17-23 *)
Record paging_info := mkPagingInfo { pg_ebi : N; pg_policy : option N }.
(* 44-59 *)
Definition PagingServiceInfo_value (v : paging_info) : list N :=
  pg_ebi v :: match pg_policy v with Some i => [1; i] | None => [0] end.
Definition PagingServiceInfo_marshal := marshal_ie 186 PagingServiceInfo_value.
(* 61-78; the policy octet is not checked against the buffer *)
Definition PagingServiceInfo_unmarshal (m : mode) (b : list N) : res (Tliv paging_info) :=
  need b 6 (IEInvalidLength 186) (hdr4 b (fun len ins =>
  let? e := at_ b 4 in let? k := at_ b 5 in
  if k =? 0 then Ok (std 186 len ins (mkPagingInfo e None))
  else if k =? 1 then let? p := at_ b 6 in Ok (std 186 len ins (mkPagingInfo e (Some p)))
  else Err (IEIncorrect 186))).
(* 80-86 *)
Definition PagingServiceInfo_len (m : mode) (x : Tliv paging_info) : res nat :=
  len_const (if is_some (pg_policy (ie_v x)) then 7 else 6).

(* ---- pc5qosflow.rs *)
(* 12-20 *)
Record pc5_flow := mkPc5Flow { p5_pqi : N; p5_gfbr : N; p5_mfbr : N; p5_range : option N }.
(* 43-57 *)
Definition PC5QosFlow_value (v : pc5_flow) : list N :=
  flag (is_some (p5_range v)) 1 :: p5_pqi v :: enc_be 4 (p5_gfbr v) ++ enc_be 4 (p5_mfbr v) ++
  match p5_range v with Some i => [i] | None => [] end.
Definition PC5QosFlow_marshal := marshal_ie 212 PC5QosFlow_value.
(* 59-80; the fields are not checked against the buffer *)
Definition PC5QosFlow_unmarshal (m : mode) (b : list N) : res (Tliv pc5_flow) :=
  need b 4 (IEInvalidLength 212) (hdr4 b (fun len ins =>
  checked m len b (IEInvalidLength 212) (
  let? p := at_ b 5 in let? g := be_at b 6 4 in let? f := be_at b 10 4 in let? x := at_ b 4 in
  if bit x 1 then let? r := at_ b 14 in Ok (std 212 len ins (mkPc5Flow p g f (Some r)))
  else Ok (std 212 len ins (mkPc5Flow p g f None))))).
(* 82-84 *)
Definition PC5QosFlow_len (m : mode) (x : Tliv pc5_flow) : res nat := len_usize x.

(* ---- pco.rs *)
(* 41-49 *)
Definition Pco_value (v : list N) : list N := v.
Definition Pco_marshal := marshal_ie 78 Pco_value.
(* 51-68 *)
Definition Pco_unmarshal (m : mode) (b : list N) : res (Tliv (list N)) :=
  need b 4 (IEInvalidLength 78) (hdr4 b (fun len ins =>
  checked m len b (IEInvalidLength 78) (
  let? e := end16 m len 4 in let? s := slice b 4 e in Ok (std 78 len ins s)))).
(* 70-72 *)
Definition Pco_len (m : mode) (x : Tliv (list N)) : res nat := len_usize x.

(* ---- pdntype.rs *)
(* 80-88 *)
Definition PdnType_value (v : Pdn) : list N := [Pdn_to v].
Definition PdnType_marshal := marshal_ie 99 PdnType_value.
(* 90-102 *)
Definition PdnType_unmarshal (m : mode) (b : list N) : res (Tliv Pdn) :=
  need b 5 (IEInvalidLength 99) (hdr4 b (fun len ins => let? x := at_ b 4 in Ok (std 99 len ins (Pdn_of x)))).
(* 104-106 *)
Definition PdnType_len (m : mode) (x : Tliv Pdn) : res nat := len_const 5.

(* ---- pdunumbers.rs *)
(* 17-26 *)
Record pdu_numbers := mkPduNumbers { pn_nsapi : N; pn_dl : N; pn_ul : N; pn_send : N; pn_recv : N }.
(* 50-62 *)
Definition PduNumbers_value (v : pdu_numbers) : list N :=
  [pn_nsapi v] ++ enc_be 2 (pn_dl v) ++ enc_be 2 (pn_ul v) ++ enc_be 2 (pn_send v) ++ enc_be 2 (pn_recv v).
Definition PduNumbers_marshal := marshal_ie 110 PduNumbers_value.
(* 64-80 *)
Definition PduNumbers_unmarshal (m : mode) (b : list N) : res (Tliv pdu_numbers) :=
  need b 13 (IEInvalidLength 110) (hdr4 b (fun len ins =>
  let? n := at_ b 4 in let? d := be_at b 5 2 in let? u := be_at b 7 2 in
  let? s := be_at b 9 2 in let? r := be_at b 11 2 in
  Ok (std 110 len ins (mkPduNumbers (N.land n 15) d u s r)))).
(* 82-84 *)
Definition PduNumbers_len (m : mode) (x : Tliv pdu_numbers) : res nat := len_usize x.

(* ---- pgwfqdn.rs *)
(* 41-55 *)
Definition PgwFqdn_value (v : list N) : list N := labels_encode v.
Definition PgwFqdn_marshal := marshal_ie 215 PgwFqdn_value.
(* 57-91 *)
Definition PgwFqdn_unmarshal (m : mode) (b : list N) : res (Tliv (list N)) :=
  need b 4 (IEInvalidLength 215) (hdr4 b (fun len ins =>
  checked m len b (IEInvalidLength 215) (
  let? s := slice b 4 (4 + N.to_nat len) in let? n := labels_decode s in Ok (std 215 len ins n)))).
(* 93-95 *)
Definition PgwFqdn_len (m : mode) (x : Tliv (list N)) : res nat := len_usize x.

(* ---- plmnid.rs *)
(* 46-58 *)
Definition PlmnId_value (v : plmn) : list N := plmn_enc v.
Definition PlmnId_marshal := marshal_ie 120 PlmnId_value.
(* 60-75 *)
Definition PlmnId_unmarshal (m : mode) (b : list N) : res (Tliv plmn) :=
  need b 7 (IEInvalidLength 120) (hdr4 b (fun len ins => let? p := plmn_at b 4 in Ok (std 120 len ins p))).
(* 77-79 *)
Definition PlmnId_len (m : mode) (x : Tliv plmn) : res nat := len_const 7.

(* ---- portnumber.rs *)
(* 42-50 *)
Definition PortNumber_value (v : N) : list N := enc_be 2 v.
Definition PortNumber_marshal := marshal_ie 126 PortNumber_value.
(* 52-64 *)
Definition PortNumber_unmarshal (m : mode) (b : list N) : res (Tliv N) :=
  need b 6 (IEInvalidLength 126) (hdr4 b (fun len ins => let? v := be_at b 4 2 in Ok (std 126 len ins v))).
(* 66-68 *)
Definition PortNumber_len (m : mode) (x : Tliv N) : res nat := len_const 6.

(* ---- praa.rs *)
(* 21-36 *)
Record praa := mkPraa {
  pa_inapra : bool; pa_action : N; pa_prai : N; pa_tai : list tai; pa_rai : list rai;
  pa_macro : list macro_enb; pa_home : list macro_enb; pa_ecgi : list ecgi; pa_sai : list sai;
  pa_cgi : list cgi; pa_ext : list ext_macro_enb }.
(* 66-169; no more than 15 TAIs and RAIs and 63 of the others are written *)
Definition PresenceReportingAreaAction_value (v : praa) : list N :=
  let tai := firstn 15 (pa_tai v) in let rai := firstn 15 (pa_rai v) in
  let mac := firstn 63 (pa_macro v) in let home := firstn 63 (pa_home v) in
  let ecgi := firstn 63 (pa_ecgi v) in let sai := firstn 63 (pa_sai v) in
  let cgi := firstn 63 (pa_cgi v) in let ext := firstn 63 (pa_ext v) in
  N.lor (flag (pa_inapra v) 8) (pa_action v) :: enc_be 3 (pa_prai v) ++
  [16 * nlen tai + nlen rai; nlen mac; nlen home; nlen ecgi; nlen sai; nlen cgi] ++
  enc_all Tai_enc tai ++ enc_all MacroEnbId_enc mac ++ enc_all MacroEnbId_enc home ++
  enc_all Ecgi_enc ecgi ++ enc_all Rai_enc rai ++ enc_all Sai_enc sai ++ enc_all Cgi_enc cgi ++
  nlen ext :: enc_all ExtMacroEnbId_enc ext.
Definition PresenceReportingAreaAction_marshal := marshal_ie 177 PresenceReportingAreaAction_value.
(* [for _ in 0..n { if cursor > buffer.len() { return Err(e) }
     match dec(&buffer[cursor..]) { Ok(j) => { list.push(j); cursor += s } Err(_) => return Err(e) } }] *)
Fixpoint many_checked {A} (dec : list N -> res A) (s : nat) (e : GTPV2Error) (n : nat) (b : list N) (c : nat)
  : res (list A * nat) :=
  match n with
  | O => Ok ([], c)
  | S k =>
      need b c e (
      let? t := slice_from b c in
      let? x := orelse (dec t) e in
      let? (xs, c') := many_checked dec s e k b (c + s) in Ok (x :: xs, c'))
  end.
(* 171-344; the ten octets after the header are read before any check, and the count of
   extended macro eNBs is read when cursor <= buffer.len() *)
Definition PresenceReportingAreaAction_unmarshal (m : mode) (b : list N) : res (Tliv praa) :=
  let e := IEInvalidLength 177 in
  need b 4 e (hdr4 b (fun len ins =>
  checked m len b e (
  let? x := at_ b 4 in
  let? prai := be_at b 5 3 in
  let? n8 := at_ b 8 in let? n9 := at_ b 9 in let? n10 := at_ b 10 in
  let? n11 := at_ b 11 in let? n12 := at_ b 12 in let? n13 := at_ b 13 in
  let cnt y := N.to_nat (N.land y 63) in
  need b 14 e (
  let? (tai, c) := many_checked Tai_dec 5 e (N.to_nat (N.shiftr n8 4)) b 14%nat in
  let? (mac, c) := many_checked MacroEnbId_dec 6 e (cnt n9) b c in
  let? (home, c) := many_checked MacroEnbId_dec 6 e (cnt n10) b c in
  let? (ecgi, c) := many_checked Ecgi_dec 7 e (cnt n11) b c in
  let? (rai, c) := many_checked Rai_dec 7 e (N.to_nat (N.land n8 15)) b c in
  let? (sai, c) := many_checked Sai_dec 7 e (cnt n12) b c in
  let? (cgi, c) := many_checked Cgi_dec 7 e (cnt n13) b c in
  let? ext :=
    (if (c <=? length b)%nat then
       let? k := at_ b c in
       let? (ext, _) := many_checked ExtMacroEnbId_dec 6 e (N.to_nat k) b (c + 1)%nat in Ok ext
     else Ok []) in
  Ok (std 177 len ins (mkPraa (negb (N.land (N.shiftr x 3) 1 =? 0)) (N.land x 7) prai tai rai mac home ecgi sai cgi ext)))))).
(* 346-348 *)
Definition PresenceReportingAreaAction_len (m : mode) (x : Tliv praa) : res nat := len_usize x.

(* ---- prai.rs *)
(* 17-22 *)
Inductive presence_area := Ipra (i : N) | Opra (i : N) | Inapra (i : N).
Record prai := mkPrai { pr_area : presence_area; pr_more : option (list presence_area) }.
(* 25-42; [more] is the flag 0x04 that marshal (85-106) puts in *)
Definition presence_area_enc (a : presence_area) (more : bool) : list N :=
  match a with
  | Inapra j => enc_be 3 j ++ [8 + flag more 4]
  | Ipra j => enc_be 3 j ++ [1 + flag more 4]
  | Opra j => enc_be 3 j ++ [2 + flag more 4]
  end.
(* 85-106: every area but the last is marked with 0x04. The code first sets the mark on each
   area and then clears it on the last one written ([& 0x0b]). *)
Fixpoint presence_areas_enc (l : list presence_area) : list N :=
  match l with
  | [] => []
  | [a] => presence_area_enc a false
  | a :: r => presence_area_enc a true ++ presence_areas_enc r
  end.
Definition PresenceReportingAreaInformation_value (v : prai) : list N :=
  presence_areas_enc (pr_area v :: match pr_more v with Some l => l | None => [] end).
Definition PresenceReportingAreaInformation_marshal := marshal_ie 178 PresenceReportingAreaInformation_value.
(* 46-52 *)
Definition presence_area_at (b : list N) (c : nat) : res presence_area :=
  let? f := at_ b (c + 3) in
  let? i := be_at b c 3 in
  if bit f 8 then Ok (Inapra i)
  else if bit f 2 && negb (bit f 1) then Ok (Opra i)
  else if negb (bit f 2) && bit f 1 then Ok (Ipra i)
  else Ok (Inapra i).
(* the loop of 118-131 *)
Fixpoint presence_areas_loop (fuel : nat) (b : list N) (c : nat) : res (list presence_area) :=
  if (length b <? c + 4)%nat then Ok []
  else match fuel with
  | O => Diverge
  | S f =>
      let? a := presence_area_at b c in
      let? x := at_ b (c + 3) in
      if bit x 4 then let? r := presence_areas_loop f b (c + 4) in Ok (a :: r) else Ok [a]
  end.
(* 108-136: at least eight value octets, though one area takes four *)
Definition PresenceReportingAreaInformation_unmarshal (m : mode) (b : list N) : res (Tliv prai) :=
  need b 12 (IEInvalidLength 178) (hdr4 b (fun len ins =>
  let? a := presence_area_at b 4 in
  let? x := at_ b 7 in
  if bit x 4 then
    let? r := presence_areas_loop (length b) b 8 in Ok (std 178 len ins (mkPrai a (Some r)))
  else Ok (std 178 len ins (mkPrai a None)))).
(* 138-140 *)
Definition PresenceReportingAreaInformation_len (m : mode) (x : Tliv prai) : res nat := len_const 12.

(* ---- privateextension.rs *)
(* 16-22 *)
Record private_ext := mkPrivateExt { pe_id : N; pe_value : list N }.
(* 43-52 *)
Definition PrivateExtension_value (v : private_ext) : list N := enc_be 2 (pe_id v) ++ pe_value v.
Definition PrivateExtension_marshal := marshal_ie 255 PrivateExtension_value.
(* 54-72; the slice panics when the declared length is 1 *)
Definition PrivateExtension_unmarshal (m : mode) (b : list N) : res (Tliv private_ext) :=
  need b 7 (IEInvalidLength 255) (hdr4 b (fun len ins =>
  checked m len b (IEInvalidLength 255) (
  let? i := be_at b 4 2 in
  let? e := end16 m len 4 in
  let? s := slice b 6 e in
  Ok (std 255 len ins (mkPrivateExt i s))))).
(* 74-76 *)
Definition PrivateExtension_len (m : mode) (x : Tliv private_ext) : res nat := len_usize x.

(* ---- pscellid.rs *)
(* 17-25 *)
Record pscell := mkPscell { ps_plmn : plmn; ps_cgi : list N }.
(* 48-61 *)
Definition PSCellId_value (v : pscell) : list N := plmn_enc (ps_plmn v) ++ ps_cgi v.
Definition PSCellId_marshal := marshal_ie 217 PSCellId_value.
(* 63-79 *)
Definition PSCellId_unmarshal (m : mode) (b : list N) : res (Tliv pscell) :=
  need b 12 (IEInvalidLength 217) (hdr4 b (fun len ins =>
  let? p := plmn_at b 4 in let? c := slice b 7 12 in Ok (std 217 len ins (mkPscell p c)))).
(* 81-83 *)
Definition PSCellId_len (m : mode) (x : Tliv pscell) : res nat := len_const 12.

(* ---- pti.rs *)
(* 42-50 *)
Definition Pti_value (v : N) : list N := [v].
Definition Pti_marshal := marshal_ie 100 Pti_value.
(* 52-64 *)
Definition Pti_unmarshal (m : mode) (b : list N) : res (Tliv N) :=
  need b 5 (IEInvalidLength 100) (hdr4 b (fun len ins => let? v := at_ b 4 in Ok (std 100 len ins v))).
(* 66-68 *)
Definition Pti_len (m : mode) (x : Tliv N) : res nat := len_const 5.

(* ---- ptmsi.rs *)
(* 42-50 *)
Definition Ptmsi_value (v : N) : list N := enc_be 4 v.
Definition Ptmsi_marshal := marshal_ie 111 Ptmsi_value.
(* 52-66; the instance octet is not masked in the end *)
Definition Ptmsi_unmarshal (m : mode) (b : list N) : res (Tliv N) :=
  need b 8 (IEInvalidLength 111) (hdr4 b (fun len ins => let? v := be_at b 4 4 in Ok (mkIe 111 len ins v))).
(* 68-70 *)
Definition Ptmsi_len (m : mode) (x : Tliv N) : res nat := len_const 8.

(* ---- ptmsisignature.rs *)
(* 42-50 *)
Definition PtmsiSignature_value (v : N) : list N := enc_be 4 v.
Definition PtmsiSignature_marshal := marshal_ie 112 PtmsiSignature_value.
(* 52-64 *)
Definition PtmsiSignature_unmarshal (m : mode) (b : list N) : res (Tliv N) :=
  need b 8 (IEInvalidLength 112) (hdr4 b (fun len ins => let? v := be_at b 4 4 in Ok (std 112 len ins v))).
(* 66-68 *)
Definition PtmsiSignature_len (m : mode) (x : Tliv N) : res nat := len_const 8.

(* ---- rabcontext.rs *)
(* 17-26 *)
Record rab_ctx := mkRabCtx { rc_nsapi : N; rc_dlg : N; rc_ulg : N; rc_dlp : N; rc_ulp : N }.
(* 50-67 *)
Definition RabContext_value (v : rab_ctx) : list N :=
  [N.lor (flag (rc_ulp v =? 0) 128 + flag (rc_dlp v =? 0) 64 + flag (rc_ulg v =? 0) 32 + flag (rc_dlg v =? 0) 16) (rc_nsapi v)]
  ++ enc_be 2 (rc_dlg v) ++ enc_be 2 (rc_ulg v) ++ enc_be 2 (rc_dlp v) ++ enc_be 2 (rc_ulp v).
Definition RabContext_marshal := marshal_ie 124 RabContext_value.
(* 69-85 *)
Definition RabContext_unmarshal (m : mode) (b : list N) : res (Tliv rab_ctx) :=
  need b 13 (IEInvalidLength 124) (hdr4 b (fun len ins =>
  let? n := at_ b 4 in let? d := be_at b 5 2 in let? u := be_at b 7 2 in
  let? s := be_at b 9 2 in let? r := be_at b 11 2 in
  Ok (std 124 len ins (mkRabCtx (N.land n 15) d u s r)))).
(* 87-89 *)
Definition RabContext_len (m : mode) (x : Tliv rab_ctx) : res nat := len_const 13.

(* ---- rannascause.rs *)
(* 16-23, 51-58 *)
Inductive s1ap_cause := S1_Radio (i : N) | S1_Transport (i : N) | S1_Nas (i : N) | S1_Protocol (i : N) | S1_Misc (i : N) | S1_Spare (i : N).
Inductive ran_nas_cause :=
| Rn_S1ap (c : s1ap_cause) | Rn_Emm (i : N) | Rn_Esm (i : N) | Rn_Diameter (i : N) | Rn_Ikev2 (i : N) | Rn_Spare.
(* 26-35 *)
Definition s1ap_enc (c : s1ap_cause) : list N :=
  match c with
  | S1_Radio i => [16; i] | S1_Transport i => [17; i] | S1_Nas i => [18; i]
  | S1_Protocol i => [19; i] | S1_Misc i => [20; i] | S1_Spare i => [21; i]
  end.
(* 36-45 *)
Definition s1ap_dec (i j : N) : s1ap_cause :=
  if i =? 0 then S1_Radio j else if i =? 1 then S1_Transport j else if i =? 2 then S1_Nas j
  else if i =? 3 then S1_Protocol j else if i =? 4 then S1_Misc j else S1_Spare j.
(* 88-118 *)
Definition RanNasCause_value (v : ran_nas_cause) : list N :=
  match v with
  | Rn_S1ap i => s1ap_enc i
  | Rn_Emm i => [32; i]
  | Rn_Esm i => [48; i]
  | Rn_Diameter i => 64 :: enc_be 2 i
  | Rn_Ikev2 i => 80 :: enc_be 2 i
  | Rn_Spare => [96; 0]
  end.
Definition RanNasCause_marshal := marshal_ie 172 RanNasCause_value.
(* 120-158 *)
Definition RanNasCause_unmarshal (m : mode) (b : list N) : res (Tliv ran_nas_cause) :=
  need b 6 (IEInvalidLength 172) (hdr4 b (fun len ins =>
  checked m len b (IEInvalidLength 172) (
  let? x := at_ b 4 in let? y := at_ b 5 in
  let k := N.shiftr x 4 in
  if k =? 1 then Ok (std 172 len ins (Rn_S1ap (s1ap_dec (N.land x 15) y)))
  else if k =? 2 then Ok (std 172 len ins (Rn_Emm y))
  else if k =? 3 then Ok (std 172 len ins (Rn_Esm y))
  else if k =? 4 then
    need b 7 (IEInvalidLength 172) (let? i := be_at b 5 2 in Ok (std 172 len ins (Rn_Diameter i)))
  else if k =? 5 then
    need b 7 (IEInvalidLength 172) (let? i := be_at b 5 2 in Ok (std 172 len ins (Rn_Ikev2 i)))
  else Ok (std 172 len ins Rn_Spare)))).
(* 160-162 *)
Definition RanNasCause_len (m : mode) (x : Tliv ran_nas_cause) : res nat := len_usize x.

(* ---- rattype.rs *)
(* 161-169 *)
Definition RatType_value (v : Rat) : list N := [Rat_to v].
Definition RatType_marshal := marshal_ie 82 RatType_value.
(* 171-183 *)
Definition RatType_unmarshal (m : mode) (b : list N) : res (Tliv Rat) :=
  need b 5 (IEInvalidLength 82) (hdr4 b (fun len ins => let? x := at_ b 4 in Ok (std 82 len ins (Rat_of x)))).
(* 185-187 *)
Definition RatType_len (m : mode) (x : Tliv Rat) : res nat := len_const 5.

(* ---- recovery.rs *)
(* 41-49 *)
Definition Recovery_value (v : N) : list N := [v].
Definition Recovery_marshal := marshal_ie 3 Recovery_value.
(* 51-63 *)
Definition Recovery_unmarshal (m : mode) (b : list N) : res (Tliv N) :=
  need b 5 (IEInvalidLength 3) (hdr4 b (fun len ins => let? v := at_ b 4 in Ok (std 3 len ins v))).
(* 65-67 *)
Definition Recovery_len (m : mode) (x : Tliv N) : res nat := len_const 5.

(* ---- remoteueip.rs *)
(* 17-21 *)
Inductive remote_ip := Rip_V4 (a : list N) | Rip_V6 (a : list N) | Rip_NonIp.
(* 51-69; only the first eight octets of an IPv6 address are written *)
Definition RemoteUeIpInformation_value (v : remote_ip) : list N :=
  match v with Rip_V4 i => 1 :: i | Rip_V6 i => 2 :: firstn 8 i | Rip_NonIp => [0] end.
Definition RemoteUeIpInformation_marshal := marshal_ie 193 RemoteUeIpInformation_value.
(* 71-114 *)
Definition RemoteUeIpInformation_unmarshal (m : mode) (b : list N) : res (Tliv remote_ip) :=
  need b 5 (IEInvalidLength 193) (hdr4 b (fun len ins =>
  checked m len b (IEInvalidLength 193) (
  let? x := at_ b 4 in
  if x =? 1 then
    if 5 <=? len then let? a := slice b 5 9 in Ok (std 193 len ins (Rip_V4 a)) else Err (IEInvalidLength 193)
  else if x =? 2 then
    if 9 <=? len then let? a := slice b 5 13 in Ok (std 193 len ins (Rip_V6 (a ++ [0; 0; 0; 0; 0; 0; 0; 0])))
    else Err (IEInvalidLength 193)
  else if x =? 0 then Ok (std 193 len ins Rip_NonIp)
  else Err (IEIncorrect 193)))).
(* 116-118 *)
Definition RemoteUeIpInformation_len (m : mode) (x : Tliv remote_ip) : res nat := len_u16 m x.
