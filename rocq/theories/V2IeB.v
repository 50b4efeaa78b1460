(* V2IeB.v - GTPv2-C information elements, second part (conventions as in V2IeA.v) *)
From Verif Require Import Base.
From Verif Require Export V2Base V2Enums V2Common.
Local Open Scope N_scope.

(* ---- completereqmessage.rs *)
(* 15-19 *)
Inductive request_message := ReqSpare | ReqAttach (o : list N) | ReqTau (o : list N).
(* 49-67 *)
Definition CompleteRequestMessage_value (v : request_message) : list N :=
  match v with ReqSpare => [2] | ReqAttach o => 0 :: o | ReqTau o => 1 :: o end.
Definition CompleteRequestMessage_marshal := marshal_ie 116 CompleteRequestMessage_value.
(* 69-97 *)
Definition CompleteRequestMessage_unmarshal (m : mode) (b : list N) : res (Tliv request_message) :=
  need b 5 (IEInvalidLength 116) (hdr4 b (fun len ins =>
  checked m len b (IEInvalidLength 116) (
  let? k := at_ b 4 in
  if k =? 0 then let? o := slice b 5 (4 + N.to_nat len) in Ok (std 116 len ins (ReqAttach o))
  else if k =? 1 then let? o := slice b 5 (4 + N.to_nat len) in Ok (std 116 len ins (ReqTau o))
  else Ok (std 116 len ins ReqSpare)))).
(* 99-101 *)
Definition CompleteRequestMessage_len (m : mode) (x : Tliv request_message) : res nat := len_u16 m x.

(* ---- counter.rs *)
(* 17-23 *)
Record counter := mkCounter { ct_timestamp : N; ct_counter : N }.
(* 44-53 *)
Definition Counter_value (v : counter) : list N := enc_be 4 (ct_timestamp v) ++ [ct_counter v].
Definition Counter_marshal := marshal_ie 199 Counter_value.
(* 55-68 *)
Definition Counter_unmarshal (m : mode) (b : list N) : res (Tliv counter) :=
  need b 9 (IEInvalidLength 199) (hdr4 b (fun len ins =>
  let? ts := be_at b 4 4 in let? c := at_ b 8 in Ok (std 199 len ins (mkCounter ts c)))).
(* 70-72 *)
Definition Counter_len (m : mode) (x : Tliv counter) : res nat := len_const 9.

(* ---- csgid.rs *)
(* 42-50 *)
Definition CsgId_value (v : N) : list N := enc_be 4 v.
Definition CsgId_marshal := marshal_ie 147 CsgId_value.
(* 52-64 *)
Definition CsgId_unmarshal (m : mode) (b : list N) : res (Tliv N) :=
  need b 8 (IEInvalidLength 147) (hdr4 b (fun len ins =>
  let? v := be_at b 4 4 in Ok (std 147 len ins v))).
(* 66-68 *)
Definition CsgId_len (m : mode) (x : Tliv N) : res nat := len_const 8.

(* ---- csginforeporting.rs *)
(* 45-53 *)
Definition CSGInformationReportingAction_value (v : N) : list N := [v].
Definition CSGInformationReportingAction_marshal := marshal_ie 146 CSGInformationReportingAction_value.
(* 55-67 *)
Definition CSGInformationReportingAction_unmarshal (m : mode) (b : list N) : res (Tliv N) :=
  need b 5 (IEInvalidLength 146) (hdr4 b (fun len ins =>
  let? x := at_ b 4 in Ok (std 146 len ins (N.land x 7)))).
(* 69-71 *)
Definition CSGInformationReportingAction_len (m : mode) (x : Tliv N) : res nat := len_const 5.

(* ---- delayvalue.rs *)
(* 42-50 *)
Definition DelayValue_value (v : N) : list N := [v].
Definition DelayValue_marshal := marshal_ie 92 DelayValue_value.
(* 52-64 *)
Definition DelayValue_unmarshal (m : mode) (b : list N) : res (Tliv N) :=
  need b 5 (IEInvalidLength 92) (hdr4 b (fun len ins =>
  let? x := at_ b 4 in Ok (std 92 len ins x))).
(* 66-68 *)
Definition DelayValue_len (m : mode) (x : Tliv N) : res nat := len_const 5.

(* ---- detachtype.rs *)
(* 79-87 *)
Definition DetachType_value (v : DetachTypeValue) : list N := [DetachTypeValue_to v].
Definition DetachType_marshal := marshal_ie 150 DetachType_value.
(* 89-101 *)
Definition DetachType_unmarshal (m : mode) (b : list N) : res (Tliv DetachTypeValue) :=
  need b 5 (IEInvalidLength 150) (hdr4 b (fun len ins =>
  let? x := at_ b 4 in Ok (std 150 len ins (DetachTypeValue_of x)))).
(* 103-105 *)
Definition DetachType_len (m : mode) (x : Tliv DetachTypeValue) : res nat := len_const 5.

(* ---- ebi.rs *)
(* 41-49 *)
Definition Ebi_value (v : N) : list N := [v].
Definition Ebi_marshal := marshal_ie 73 Ebi_value.
(* 51-63 *)
Definition Ebi_unmarshal (m : mode) (b : list N) : res (Tliv N) :=
  need b 5 (IEInvalidLength 73) (hdr4 b (fun len ins =>
  let? x := at_ b 4 in Ok (std 73 len ins (N.land x 15)))).
(* 65-67 *)
Definition Ebi_len (m : mode) (x : Tliv N) : res nat := len_const 5.

(* ---- ecgilist.rs *)
(* 41-57; i.len() as u16 *)
Definition EcgiList_value (v : option (list ecgi)) : list N :=
  match v with Some i => enc_be 2 (nlen i mod 65536) ++ enc_all Ecgi_enc i | None => [0; 0] end.
Definition EcgiList_marshal := marshal_ie 190 EcgiList_value.
(* 59-92 *)
Definition EcgiList_unmarshal (m : mode) (b : list N) : res (Tliv (option (list ecgi))) :=
  need b 6 (IEInvalidLength 190) (hdr4 b (fun len ins =>
  let? n := be_at b 4 2 in
  if n =? 0 then Ok (std 190 len ins None)
  else need b (6 + 7 * N.to_nat n) (IEInvalidLength 190) (
    let? (l, _) := many (fun t => orelse (Ecgi_dec t) (IEIncorrect 190)) (fun _ => 7%nat) (N.to_nat n) b 6 in
    Ok (std 190 len ins (Some l))))).
(* 94-99 *)
Definition EcgiList_len (m : mode) (x : Tliv (option (list ecgi))) : res nat :=
  Ok match ie_v x with Some i => 4 + 2 + length i * 7 | None => 4 + 2 end%nat.

(* ---- emlppprio.rs *)
(* 41-49 *)
Definition EmlppPriority_value (v : N) : list N := [v].
Definition EmlppPriority_marshal := marshal_ie 134 EmlppPriority_value.
(* 51-63 *)
Definition EmlppPriority_unmarshal (m : mode) (b : list N) : res (Tliv N) :=
  need b 5 (IEInvalidLength 134) (hdr4 b (fun len ins =>
  let? x := at_ b 4 in Ok (std 134 len ins (N.land x 7)))).
(* 65-67 *)
Definition EmlppPriority_len (m : mode) (x : Tliv N) : res nat := len_const 5.

(* ---- epco.rs *)
(* 42-50 *)
Definition Epco_value (v : list N) : list N := v.
Definition Epco_marshal := marshal_ie 197 Epco_value.
(* 52-69; the slice end is a u16 sum *)
Definition Epco_unmarshal (m : mode) (b : list N) : res (Tliv (list N)) :=
  need b 4 (IEInvalidLength 197) (hdr4 b (fun len ins =>
  checked m len b (IEInvalidLength 197) (
  let? e := end16 m len 4 in let? s := slice b 4 e in Ok (std 197 len ins s)))).
(* 71-73 *)
Definition Epco_len (m : mode) (x : Tliv (list N)) : res nat := len_usize x.

(* ---- epctimer.rs *)
(* 17-23 *)
Record epc_timer := mkEpcTimer { et_unit : N; et_value : N }.
(* 44-55 *)
Definition EpcTimer_value (v : epc_timer) : list N :=
  [N.lor (shl8 (et_unit v) 5) (if et_value v <? 127 then et_value v else 127)].
Definition EpcTimer_marshal := marshal_ie 156 EpcTimer_value.
(* 57-74 *)
Definition EpcTimer_unmarshal (m : mode) (b : list N) : res (Tliv epc_timer) :=
  need b 5 (IEInvalidLength 156) (hdr4 b (fun len ins =>
  let? x := at_ b 4 in
  let u := N.shiftr x 5 in
  let unit := if u <=? 4 then u else if u =? 7 then 7 else 1 in
  Ok (std 156 len ins (mkEpcTimer unit (N.land x 31))))).
(* 76-78 *)
Definition EpcTimer_len (m : mode) (x : Tliv epc_timer) : res nat := len_const 5.

(* ---- extendedtraceinfo.rs *)
(* 17-30 *)
Record ext_trace := mkExtTrace {
  xt_plmn : plmn; xt_id : N; xt_events : list N; xt_ne : list N; xt_depth : N;
  xt_ifs : list N; xt_ip : ipaddr }.
Definition ip_lv (a : ipaddr) : list N := match a with IpV4 o => 4 :: o | IpV6 o => 16 :: o end.
(* 58-88 *)
Definition ExtendedTraceInformation_value (v : ext_trace) : list N :=
  plmn_enc (xt_plmn v) ++ enc_be 3 (xt_id v) ++ lv (xt_events v) ++ lv (xt_ne v) ++
  [xt_depth v] ++ lv (xt_ifs v) ++ ip_lv (xt_ip v).
Definition ExtendedTraceInformation_marshal := marshal_ie 205 ExtendedTraceInformation_value.
(* 90-173; the instance octet is not masked; only the lists and the address are checked
   against the buffer, the octets holding their lengths are not *)
Definition ExtendedTraceInformation_unmarshal (m : mode) (b : list N) : res (Tliv ext_trace) :=
  need b 11 (IEInvalidLength 205) (hdr4 b (fun len ins =>
  let? id := be_at b 7 3 in
  let? p := plmn_at b 4 in
  let? (ev, c) := lv_at b 10 (IEInvalidLength 205) in
  let? (ne, c) := lv_at b c (IEInvalidLength 205) in
  need b (c + 1) (IEInvalidLength 205) (
  let? depth := at_ b c in
  let? (ifs, c) := lv_at b (c + 1) (IEInvalidLength 205) in
  let? k := at_ b c in
  let? ip :=
    (if k =? 4 then need b (c + 5) (IEInvalidLength 205) (let? o := slice b (c + 1) (c + 5) in Ok (IpV4 o))
     else if k =? 16 then need b (c + 17) (IEInvalidLength 205) (let? o := slice b (c + 1) (c + 17) in Ok (IpV6 o))
     else Err (IEInvalidLength 205)) in
  Ok (mkIe 205 len ins (mkExtTrace p id ev ne depth ifs ip))))).
(* 175-177 *)
Definition ExtendedTraceInformation_len (m : mode) (x : Tliv ext_trace) : res nat := len_u16 m x.

(* ---- fcause.rs *)
(* 54-60 *)
Record fcause := mkFcause { fc_type : CauseType; fc_field : list N }.
(* 81-90 *)
Definition Fcause_value (v : fcause) : list N := CauseType_to (fc_type v) :: fc_field v.
Definition Fcause_marshal := marshal_ie 119 Fcause_value.
(* 92-110 *)
Definition Fcause_unmarshal (m : mode) (b : list N) : res (Tliv fcause) :=
  need b 5 (IEInvalidLength 119) (hdr4 b (fun len ins =>
  let? x := at_ b 4 in
  checked m len b (IEInvalidLength 119) (
  let? s := slice b 5 (4 + N.to_nat len) in
  Ok (std 119 len ins (mkFcause (CauseType_of (N.land x 15)) s))))).
(* 112-114 *)
Definition Fcause_len (m : mode) (x : Tliv fcause) : res nat := len_usize x.

(* ---- fcontainer.rs *)
(* 15-24 *)
Inductive container :=
| FcReserved | FcUtran (o : list N) | FcBss (o : list N) | FcEutran (o : list N) | FcNbifom (o : list N)
| FcEnDc (o : list N) | FcInterSystemSON (o : list N) | FcUnknown (o : list N).
(* 54-92; Unknown pushes i[0] and i[1..], which panics on an empty vector: the model encodes
   that as the empty list, and well-formed values exclude it *)
Definition Fcontainer_value (v : container) : list N :=
  match v with
  | FcReserved => [0] | FcUtran i => 1 :: i | FcBss i => 2 :: i | FcEutran i => 3 :: i
  | FcNbifom i => 4 :: i | FcEnDc i => 5 :: i | FcInterSystemSON i => 6 :: i | FcUnknown i => i
  end.
Definition Fcontainer_marshal := marshal_ie 118 Fcontainer_value.
(* 94-144 *)
Definition Fcontainer_unmarshal (m : mode) (b : list N) : res (Tliv container) :=
  need b 5 (IEInvalidLength 118) (hdr4 b (fun len ins =>
  checked m len b (IEInvalidLength 118) (
  let? k := at_ b 4 in
  let e := (4 + N.to_nat len)%nat in
  let? c :=
    (if k =? 0 then Ok FcReserved
     else if k =? 1 then let? o := slice b 5 e in Ok (FcUtran o)
     else if k =? 2 then let? o := slice b 5 e in Ok (FcBss o)
     else if k =? 3 then let? o := slice b 5 e in Ok (FcEutran o)
     else if k =? 4 then let? o := slice b 5 e in Ok (FcNbifom o)
     else if k =? 5 then let? o := slice b 5 e in Ok (FcEnDc o)
     else if k =? 6 then let? o := slice b 5 e in Ok (FcInterSystemSON o)
     else let? o := slice b 4 e in Ok (FcUnknown o)) in
  Ok (std 118 len ins c)))).
(* 146-148 *)
Definition Fcontainer_len (m : mode) (x : Tliv container) : res nat := len_u16 m x.

(* ---- flowqos.rs *)
(* 16-25 *)
Record flow_qos := mkFlowQos { fq_qci : N; fq_maxbr_ul : N; fq_maxbr_dl : N; fq_gbr_ul : N; fq_gbr_dl : N }.
(* 49-61: the low five octets of each u64 *)
Definition FlowQos_value (v : flow_qos) : list N :=
  [fq_qci v] ++ enc_be 5 (fq_maxbr_ul v) ++ enc_be 5 (fq_maxbr_dl v) ++ enc_be 5 (fq_gbr_ul v) ++ enc_be 5 (fq_gbr_dl v).
Definition FlowQos_marshal := marshal_ie 81 FlowQos_value.
(* 63-87 *)
Definition FlowQos_unmarshal (m : mode) (b : list N) : res (Tliv flow_qos) :=
  need b 25 (IEInvalidLength 81) (hdr4 b (fun len ins =>
  let? q := at_ b 4 in let? mu := be_at b 5 5 in let? md := be_at b 10 5 in
  let? gu := be_at b 15 5 in let? gd := be_at b 20 5 in Ok (std 81 len ins (mkFlowQos q mu md gu gd)))).
(* 89-91 *)
Definition FlowQos_len (m : mode) (x : Tliv flow_qos) : res nat := len_const 25.

(* ---- fqcsid.rs *)
(* 17-21, 44-50 *)
Inductive node_id := NodeV4 (o : list N) | NodeV6 (o : list N) | NodeNw (n : N).
Record fqcsid := mkFqcsid { fs_node : node_id; fs_csid : list N }.
(* 71-100 *)
Definition Fqcsid_value (v : fqcsid) : list N :=
  let n := N.land (nlen (fs_csid v) mod 256) 15 in
  match fs_node v with
  | NodeV4 o => n :: o
  | NodeV6 o => N.lor 16 n :: o
  | NodeNw a => N.lor 32 n :: enc_be 4 a
  end ++ enc_all (enc_be 2) (fs_csid v).
Definition Fqcsid_marshal := marshal_ie 132 Fqcsid_value.
(* 102-164 *)
Definition Fqcsid_unmarshal (m : mode) (b : list N) : res (Tliv fqcsid) :=
  need b 5 (IEInvalidLength 132) (hdr4 b (fun len ins =>
  checked m len b (IEInvalidLength 132) (
  let? x := at_ b 4 in
  let n := N.to_nat (N.land x 15) in
  let k := N.shiftr x 4 in
  if k =? 0 then
    let c := (9 + 2 * n)%nat in
    checked m (N.of_nat (c - 4)) b (IEInvalidLength 132) (
    let? o := slice b 5 9 in let? s := slice b 9 c in
    Ok (std 132 len ins (mkFqcsid (NodeV4 o) (chunks16 s))))
  else if k =? 1 then
    let c := (21 + 2 * n)%nat in
    checked m (N.of_nat (c - 4)) b (IEInvalidLength 132) (
    let? o := slice b 5 21 in let? s := slice b 21 c in
    Ok (std 132 len ins (mkFqcsid (NodeV6 o) (chunks16 s))))
  else if k =? 2 then
    let c := (9 + 2 * n)%nat in
    checked m (N.of_nat (c - 4)) b (IEInvalidLength 132) (
    let? a := be_at b 5 4 in let? s := slice b 9 c in
    Ok (std 132 len ins (mkFqcsid (NodeNw a) (chunks16 s))))
  else Err (IEIncorrect 132)))).
(* 166-168 *)
Definition Fqcsid_len (m : mode) (x : Tliv fqcsid) : res nat := len_u16 m x.

(* ---- fqdn.rs *)
(* 41-55 *)
Definition Fqdn_value (name : list N) : list N := labels_encode name.
Definition Fqdn_marshal := marshal_ie 136 Fqdn_value.
(* 57-90 *)
Definition Fqdn_unmarshal (m : mode) (b : list N) : res (Tliv (list N)) :=
  need b 4 (IEInvalidLength 136) (hdr4 b (fun len ins =>
  checked m len b (IEInvalidLength 136) (
  let? donor := slice b 4 (4 + N.to_nat len) in
  let? name := labels_decode donor in Ok (std 136 len ins name)))).
(* 92-94 *)
Definition Fqdn_len (m : mode) (x : Tliv (list N)) : res nat := len_u16 m x.
