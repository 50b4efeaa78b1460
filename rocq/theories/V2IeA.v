(* V2IeA.v - GTPv2-C information elements, first part (src/gtpv2/messages/ies).

   Conventions for every IE X with type code T:
   - the struct is [Tliv body]: t, length, ins and the remaining fields as [body];
   - [X_value v] is the octets pushed after type, length and instance by X::marshal;
     X_marshal is the whole of X::marshal;
   - [X_unmarshal m b] is X::unmarshal on buffer b in build mode m;
   - [X_len m x] is X::len.
   Fixed numbers are the constants at the top of the cited file. *)
From Verif Require Import Base.
From Verif Require Export V2Base V2Enums.
Local Open Scope N_scope.

(* ---- abstimembmsdatatransfer.rs *)
(* 42-50 *)
Definition AbsoluteTimeMbmsDataTransfer_value (seconds : N) : list N := enc_be 8 seconds.
Definition AbsoluteTimeMbmsDataTransfer_marshal := marshal_ie 164 AbsoluteTimeMbmsDataTransfer_value.
(* 52-67 *)
Definition AbsoluteTimeMbmsDataTransfer_unmarshal (m : mode) (b : list N) : res (Tliv N) :=
  need b 12 (IEInvalidLength 164) (hdr4 b (fun len ins =>
  let? seconds := be_at b 4 8 in Ok (std 164 len ins seconds))).
(* 69-71 *)
Definition AbsoluteTimeMbmsDataTransfer_len (m : mode) (x : Tliv N) : res nat := len_const 12.

(* ---- actionindication.rs *)
(* 84-92 *)
Definition ActionIndication_value (v : IndicationValues) : list N := [IndicationValues_to v].
Definition ActionIndication_marshal := marshal_ie 168 ActionIndication_value.
(* 94-106 *)
Definition ActionIndication_unmarshal (m : mode) (b : list N) : res (Tliv IndicationValues) :=
  need b 5 (IEInvalidLength 168) (hdr4 b (fun len ins =>
  let? x := at_ b 4 in Ok (std 168 len ins (IndicationValues_of (N.land x 7))))).
(* 108-110 *)
Definition ActionIndication_len (m : mode) (x : Tliv IndicationValues) : res nat := len_usize x.

(* ---- addflagssrvcc.rs *)
(* 17-23 *)
Record addflags_srvcc := mkAddFlags { af_ics : bool; af_vf : bool }.
(* 44-58 *)
Definition AdditionalFlagsSrvcc_value (v : addflags_srvcc) : list N :=
  [match af_vf v, af_ics v with false, false => 0 | true, false => 2 | false, true => 1 | true, true => 3 end].
Definition AdditionalFlagsSrvcc_marshal := marshal_ie 160 AdditionalFlagsSrvcc_value.
(* 60-92; after the mask only 0..3 are possible, the last arm is the code's unreachable one *)
Definition AdditionalFlagsSrvcc_unmarshal (m : mode) (b : list N) : res (Tliv addflags_srvcc) :=
  need b 5 (IEInvalidLength 160) (hdr4 b (fun len ins =>
  let? x := at_ b 4 in
  let f := N.land x 3 in
  if f =? 0 then Ok (std 160 len ins (mkAddFlags false false))
  else if f =? 2 then Ok (std 160 len ins (mkAddFlags false true))
  else if f =? 1 then Ok (std 160 len ins (mkAddFlags true false))
  else if f =? 3 then Ok (std 160 len ins (mkAddFlags true true))
  else Err (IEIncorrect 160))).
(* 94-96 *)
Definition AdditionalFlagsSrvcc_len (m : mode) (x : Tliv addflags_srvcc) : res nat := len_const 5.

(* ---- additionalmmctxsrvcc.rs *)
(* 16-23 *)
Record addmm_srvcc := mkAddMm {
  am_classmark2 : option (list N); am_classmark3 : option (list N); am_codecs : option (list N) }.
Definition amm_opt (o : option (list N)) : list N :=
  match o with Some i => nlen i mod 256 :: i | None => [0] end.
(* 45-70 *)
Definition AdditionalMmContextForSrvcc_value (v : addmm_srvcc) : list N :=
  amm_opt (am_classmark2 v) ++ amm_opt (am_classmark3 v) ++ amm_opt (am_codecs v).
Definition AdditionalMmContextForSrvcc_marshal := marshal_ie 159 AdditionalMmContextForSrvcc_value.
(* one of the three blocks of 82-119: the field and the cursor after it; a zero length
   advances the cursor by two *)
Definition amm_field (b : list N) (cursor : nat) : res (option (list N) * nat) :=
  let? l := at_ b cursor in
  let n := N.to_nat l in
  if (0 <? n)%nat then
    if (cursor + 1 + n <=? length b)%nat then
      let? s := slice b (cursor + 1) (cursor + 1 + n) in Ok (Some s, (cursor + 1 + n)%nat)
    else Err (IEInvalidLength 159)
  else Ok (None, (cursor + 2)%nat).
(* 72-125 *)
Definition AdditionalMmContextForSrvcc_unmarshal (m : mode) (b : list N) : res (Tliv addmm_srvcc) :=
  need b 5 (IEInvalidLength 159) (hdr4 b (fun len ins =>
  let? (c2, k) := amm_field b 4 in
  let? (c3, k) := amm_field b k in
  let? (cl, _) := amm_field b k in
  Ok (std 159 len ins (mkAddMm c2 c3 cl)))).
(* 127-129 *)
Definition AdditionalMmContextForSrvcc_len (m : mode) (x : Tliv addmm_srvcc) : res nat := len_usize x.

(* ---- alternativeimsi.rs *)
(* 41-49 *)
Definition AlternativeImsi_value (imsi : list N) : list N := tbcd_encode imsi.
Definition AlternativeImsi_marshal := marshal_ie 219 AlternativeImsi_value.
(* 51-70; b[4..=length+3] is b[4..length+4] *)
Definition AlternativeImsi_unmarshal (m : mode) (b : list N) : res (Tliv (list N)) :=
  need b 5 (IEIncorrect 219) (hdr4 b (fun len ins =>
  checked m len b (IEInvalidLength 219) (
  let? s := slice b 4 (N.to_nat len + 4) in Ok (std 219 len ins (tbcd_decode s))))).
(* 72-74 *)
Definition AlternativeImsi_len (m : mode) (x : Tliv (list N)) : res nat := len_usize x.

(* ---- ambr.rs *)
(* 17-23 *)
Record ambr := mkAmbr { ambr_ul : N; ambr_dl : N }.
(* 44-53 *)
Definition Ambr_value (v : ambr) : list N := enc_be 4 (ambr_ul v) ++ enc_be 4 (ambr_dl v).
Definition Ambr_marshal := marshal_ie 72 Ambr_value.
(* 55-68 *)
Definition Ambr_unmarshal (m : mode) (b : list N) : res (Tliv ambr) :=
  need b 12 (IEInvalidLength 72) (hdr4 b (fun len ins =>
  let? ul := be_at b 4 4 in let? dl := be_at b 8 4 in Ok (std 72 len ins (mkAmbr ul dl)))).
(* 70-72 *)
Definition Ambr_len (m : mode) (x : Tliv ambr) : res nat := len_const 12.

(* ---- apco.rs *)
(* 42-50 *)
Definition Apco_value (v : list N) : list N := v.
Definition Apco_marshal := marshal_ie 163 Apco_value.
(* 52-69 *)
Definition Apco_unmarshal (m : mode) (b : list N) : res (Tliv (list N)) :=
  need b 4 (IEInvalidLength 163) (hdr4 b (fun len ins =>
  checked m len b (IEInvalidLength 163) (
  let? s := slice b 4 (4 + N.to_nat len) in Ok (std 163 len ins s)))).
(* 71-73 *)
Definition Apco_len (m : mode) (x : Tliv (list N)) : res nat := len_usize x.

(* ---- apn.rs *)
(* 41-55 *)
Definition Apn_value (name : list N) : list N := labels_encode name.
Definition Apn_marshal := marshal_ie 71 Apn_value.
(* 57-91 *)
Definition Apn_unmarshal (m : mode) (b : list N) : res (Tliv (list N)) :=
  need b 4 (IEInvalidLength 71) (hdr4 b (fun len ins =>
  checked m len b (IEInvalidLength 71) (
  let? donor := slice b 4 (4 + N.to_nat len) in
  let? name := labels_decode donor in Ok (std 71 len ins name)))).
(* 93-95 *)
Definition Apn_len (m : mode) (x : Tliv (list N)) : res nat := len_u16 m x.

(* ---- apnratecontrolstatus.rs *)
(* 13-21 *)
Record apn_rate := mkApnRate { ar_ul : N; ar_exc : N; ar_dl : N; ar_validity : N }.
(* 44-55 *)
Definition ApnRateControlStatus_value (v : apn_rate) : list N :=
  enc_be 4 (ar_ul v) ++ enc_be 4 (ar_exc v) ++ enc_be 4 (ar_dl v) ++ enc_be 8 (ar_validity v).
Definition ApnRateControlStatus_marshal := marshal_ie 204 ApnRateControlStatus_value.
(* 57-78 *)
Definition ApnRateControlStatus_unmarshal (m : mode) (b : list N) : res (Tliv apn_rate) :=
  need b 24 (IEInvalidLength 204) (hdr4 b (fun len ins =>
  let? ul := be_at b 4 4 in let? exc := be_at b 8 4 in let? dl := be_at b 12 4 in
  let? va := be_at b 16 8 in Ok (std 204 len ins (mkApnRate ul exc dl va)))).
(* 80-82 *)
Definition ApnRateControlStatus_len (m : mode) (x : Tliv apn_rate) : res nat := len_usize x.

(* ---- apnrelativecapacity.rs *)
(* 16-22 *)
Record apn_rel_cap := mkApnRelCap { arc_cap : N; arc_name : list N }.
(* 43-58 *)
Definition ApnRelativeCapacity_value (v : apn_rel_cap) : list N := arc_cap v :: labels_encode (arc_name v).
Definition ApnRelativeCapacity_marshal := marshal_ie 184 ApnRelativeCapacity_value.
(* 60-97 *)
Definition ApnRelativeCapacity_unmarshal (m : mode) (b : list N) : res (Tliv apn_rel_cap) :=
  need b 4 (IEInvalidLength 184) (hdr4 b (fun len ins =>
  checked m len b (IEInvalidLength 184) (
  let? c := at_ b 4 in
  let cap := if c <=? 100 then c else 0 in
  let? donor := slice b 5 (4 + N.to_nat len) in
  let? name := labels_decode donor in Ok (std 184 len ins (mkApnRelCap cap name))))).
(* 99-101 *)
Definition ApnRelativeCapacity_len (m : mode) (x : Tliv apn_rel_cap) : res nat := len_usize x.

(* ---- apnrestriction.rs *)
(* 79-87 *)
Definition ApnRestriction_value (v : Restriction) : list N := [Restriction_to v].
Definition ApnRestriction_marshal := marshal_ie 127 ApnRestriction_value.
(* 89-101 *)
Definition ApnRestriction_unmarshal (m : mode) (b : list N) : res (Tliv Restriction) :=
  need b 5 (IEInvalidLength 127) (hdr4 b (fun len ins =>
  let? x := at_ b 4 in Ok (std 127 len ins (Restriction_of x)))).
(* 103-105 *)
Definition ApnRestriction_len (m : mode) (x : Tliv Restriction) : res nat := len_const 5.

(* ---- arp.rs *)
(* 17-24 *)
Record arp := mkArp { arp_pci : bool; arp_pl : N; arp_pvi : bool }.
(* 46-59 *)
Definition Arp_value (v : arp) : list N :=
  [match arp_pci v, arp_pvi v with
   | false, false => shl8 (arp_pl v) 2
   | false, true => N.lor (shl8 (arp_pl v) 2) 1
   | true, false => N.lor 64 (shl8 (arp_pl v) 2)
   | true, true => N.lor (N.lor 64 (shl8 (arp_pl v) 2)) 1
   end].
Definition Arp_marshal := marshal_ie 155 Arp_value.
(* 61-83 *)
Definition Arp_unmarshal (m : mode) (b : list N) : res (Tliv arp) :=
  need b 5 (IEInvalidLength 155) (hdr4 b (fun len ins =>
  let? x := at_ b 4 in
  let top := N.shiftr x 6 in
  let? pci := if top =? 0 then Ok false else if top =? 1 then Ok true else Err (IEIncorrect 155) in
  let pl := N.land (N.shiftr x 2) 15 in
  let low := N.land x 1 in
  let? pvi := if low =? 0 then Ok false else if low =? 1 then Ok true else Err (IEIncorrect 155) in
  Ok (std 155 len ins (mkArp pci pl pvi)))).
(* 85-87 *)
Definition Arp_len (m : mode) (x : Tliv arp) : res nat := len_usize x.

(* ---- arpi.rs *)
(* 42-50 *)
Definition AdditionalRrmPolicyIndex_value (v : N) : list N := enc_be 4 v.
Definition AdditionalRrmPolicyIndex_marshal := marshal_ie 207 AdditionalRrmPolicyIndex_value.
(* 52-64 *)
Definition AdditionalRrmPolicyIndex_unmarshal (m : mode) (b : list N) : res (Tliv N) :=
  need b 8 (IEInvalidLength 207) (hdr4 b (fun len ins =>
  let? v := be_at b 4 4 in Ok (std 207 len ins v))).
(* 66-68 *)
Definition AdditionalRrmPolicyIndex_len (m : mode) (x : Tliv N) : res nat := len_const 8.

(* ---- bearerflags.rs *)
(* 17-25 *)
Record bearer_flags := mkBearerFlags { bf_asi : bool; bf_vind : bool; bf_vb : bool; bf_ppc : bool }.
(* 48-69 *)
Definition BearerFlags_value (v : bearer_flags) : list N :=
  [N.lor (N.lor (N.lor (flag (bf_asi v) 8) (flag (bf_vind v) 4)) (flag (bf_vb v) 2)) (flag (bf_ppc v) 1)].
Definition BearerFlags_marshal := marshal_ie 97 BearerFlags_value.
(* 71-95 *)
Definition BearerFlags_unmarshal (m : mode) (b : list N) : res (Tliv bearer_flags) :=
  need b 5 (IEInvalidLength 97) (hdr4 b (fun len ins =>
  let? f := at_ b 4 in Ok (std 97 len ins (mkBearerFlags (bit f 8) (bit f 4) (bit f 2) (bit f 1))))).
(* 97-99 *)
Definition BearerFlags_len (m : mode) (x : Tliv bearer_flags) : res nat := len_usize x.

(* ---- bearerqos.rs *)
(* 17-29 *)
Record bearer_qos := mkBearerQos {
  bq_pvi : N; bq_pl : N; bq_pci : N; bq_qci : N;
  bq_maxbr_ul : N; bq_maxbr_dl : N; bq_gbr_ul : N; bq_gbr_dl : N }.
(* 56-73; to_be_bytes()[3..] of a u64 is its low 5 octets *)
Definition BearerQos_value (v : bearer_qos) : list N :=
  N.lor (N.lor (shl8 (bq_pci v) 6) (shl8 (bq_pl v) 2)) (bq_pvi v) :: bq_qci v ::
  enc_be 5 (bq_maxbr_ul v) ++ enc_be 5 (bq_maxbr_dl v) ++ enc_be 5 (bq_gbr_ul v) ++ enc_be 5 (bq_gbr_dl v).
Definition BearerQos_marshal := marshal_ie 80 BearerQos_value.
(* 75-102 *)
Definition BearerQos_unmarshal (m : mode) (b : list N) : res (Tliv bearer_qos) :=
  need b 26 (IEInvalidLength 80) (hdr4 b (fun len ins =>
  let? x := at_ b 4 in let? qci := at_ b 5 in
  let? mu := be_at b 6 5 in let? md := be_at b 11 5 in
  let? gu := be_at b 16 5 in let? gd := be_at b 21 5 in
  Ok (std 80 len ins (mkBearerQos (N.land x 1) (N.land (N.shiftr x 2) 15) (N.land (N.shiftr x 6) 1)
                        qci mu md gu gd)))).
(* 104-106 *)
Definition BearerQos_len (m : mode) (x : Tliv bearer_qos) : res nat := len_const 26.

(* ---- bearertft.rs *)
(* 41-49 *)
Definition BearerTft_value (v : list N) : list N := v.
Definition BearerTft_marshal := marshal_ie 84 BearerTft_value.
(* 51-69 *)
Definition BearerTft_unmarshal (m : mode) (b : list N) : res (Tliv (list N)) :=
  need b 4 (IEInvalidLength 84) (hdr4 b (fun len ins =>
  checked m len b (IEInvalidLength 84) (
  let? s := slice b 4 (4 + N.to_nat len) in Ok (std 84 len ins s)))).
(* 71-73 *)
Definition BearerTft_len (m : mode) (x : Tliv (list N)) : res nat := len_usize x.

(* ---- bitrate.rs *)
(* 42-50 *)
Definition BitRate_value (v : N) : list N := enc_be 4 v.
Definition BitRate_marshal := marshal_ie 211 BitRate_value.
(* 52-64 *)
Definition BitRate_unmarshal (m : mode) (b : list N) : res (Tliv N) :=
  need b 8 (IEInvalidLength 211) (hdr4 b (fun len ins =>
  let? v := be_at b 4 4 in Ok (std 211 len ins v))).
(* 66-68 *)
Definition BitRate_len (m : mode) (x : Tliv N) : res nat := len_const 8.

(* ---- cause.rs *)
(* 18-27 *)
Record cause := mkCause { ca_value : N; ca_pce : bool; ca_bce : bool; ca_cs : bool; ca_offend : option N }.
(* 51-72 *)
Definition Cause_value (v : cause) : list N :=
  ca_value v :: N.lor (N.lor (flag (ca_pce v) 4) (flag (ca_bce v) 2)) (flag (ca_cs v) 1)
  :: match ca_offend v with Some i => [i; 0; 0; 0] | None => [] end.
Definition Cause_marshal := marshal_ie 2 Cause_value.
(* 74-111 *)
Definition Cause_unmarshal (m : mode) (b : list N) : res (Tliv cause) :=
  need b 5 (IEInvalidLength 2) (hdr4 b (fun len ins =>
  if len =? 2 then
    need b 6 (IEIncorrect 2) (
    let? v := at_ b 4 in let? f := at_ b 5 in
    Ok (std 2 len ins (mkCause v (bit f 4) (bit f 2) (bit f 1) None)))
  else if len =? 6 then
    need b 10 (IEIncorrect 2) (
    let? v := at_ b 4 in let? f := at_ b 5 in let? o := at_ b 6 in
    Ok (std 2 len ins (mkCause v (bit f 4) (bit f 2) (bit f 1) (Some o))))
  else Err (IEIncorrect 2))).
(* 113-115 *)
Definition Cause_len (m : mode) (x : Tliv cause) : res nat := len_u16 m x.

(* ---- changereportingaction.rs *)
(* 54-62 *)
Definition ChangeReportingAction_value (v : N) : list N := [v].
Definition ChangeReportingAction_marshal := marshal_ie 131 ChangeReportingAction_value.
(* 64-76 *)
Definition ChangeReportingAction_unmarshal (m : mode) (b : list N) : res (Tliv N) :=
  need b 5 (IEInvalidLength 131) (hdr4 b (fun len ins =>
  let? v := at_ b 4 in Ok (std 131 len ins v))).
(* 78-80 *)
Definition ChangeReportingAction_len (m : mode) (x : Tliv N) : res nat := len_const 5.

(* ---- changetoreportflags.rs *)
(* 20-26 *)
Record ctr_flags := mkCtrFlags { ctr_tzcr : bool; ctr_sncr : bool }.
(* 47-60 *)
Definition ChangeToReportFlags_value (v : ctr_flags) : list N :=
  [match ctr_tzcr v, ctr_sncr v with false, false => 0 | false, true => 1 | true, false => 2 | true, true => 3 end].
Definition ChangeToReportFlags_marshal := marshal_ie 167 ChangeToReportFlags_value.
(* 62-80 *)
Definition ChangeToReportFlags_unmarshal (m : mode) (b : list N) : res (Tliv ctr_flags) :=
  need b 5 (IEInvalidLength 167) (hdr4 b (fun len ins =>
  let? x := at_ b 4 in
  let f := N.land x 3 in
  if f =? 0 then Ok (std 167 len ins (mkCtrFlags false false))
  else if f =? 1 then Ok (std 167 len ins (mkCtrFlags false true))
  else if f =? 2 then Ok (std 167 len ins (mkCtrFlags true false))
  else if f =? 3 then Ok (std 167 len ins (mkCtrFlags true true))
  else Err (IEIncorrect 167))).
(* 82-84 *)
Definition ChangeToReportFlags_len (m : mode) (x : Tliv ctr_flags) : res nat := len_const 5.

(* ---- channelneeded.rs *)
(* 42-50 *)
Definition ChannelNeeded_value (v : N) : list N := [v].
Definition ChannelNeeded_marshal := marshal_ie 133 ChannelNeeded_value.
(* 52-64 *)
Definition ChannelNeeded_unmarshal (m : mode) (b : list N) : res (Tliv N) :=
  need b 5 (IEInvalidLength 133) (hdr4 b (fun len ins =>
  let? v := at_ b 4 in Ok (std 133 len ins v))).
(* 66-68 *)
Definition ChannelNeeded_len (m : mode) (x : Tliv N) : res nat := len_const 5.

(* ---- chargingchar.rs *)
(* 42-50 *)
Definition ChargingCharacteristics_value (v : N) : list N := enc_be 2 v.
Definition ChargingCharacteristics_marshal := marshal_ie 95 ChargingCharacteristics_value.
(* 52-64 *)
Definition ChargingCharacteristics_unmarshal (m : mode) (b : list N) : res (Tliv N) :=
  need b 6 (IEInvalidLength 95) (hdr4 b (fun len ins =>
  let? v := be_at b 4 2 in Ok (std 95 len ins v))).
(* 66-68 *)
Definition ChargingCharacteristics_len (m : mode) (x : Tliv N) : res nat := len_const 6.

(* ---- chargingid.rs *)
(* 42-50 *)
Definition ChargingId_value (v : N) : list N := enc_be 4 v.
Definition ChargingId_marshal := marshal_ie 94 ChargingId_value.
(* 52-64 *)
Definition ChargingId_unmarshal (m : mode) (b : list N) : res (Tliv N) :=
  need b 8 (IEInvalidLength 94) (hdr4 b (fun len ins =>
  let? v := be_at b 4 4 in Ok (std 94 len ins v))).
(* 66-68 *)
Definition ChargingId_len (m : mode) (x : Tliv N) : res nat := len_const 8.

(* ---- ciotoptimizationssupport.rs *)
(* 17-25 *)
Record ciot := mkCiot { ci_sgnipdn : bool; ci_scnipdn : bool; ci_awopdn : bool; ci_ihcsi : bool }.
(* 48-60 *)
Definition CIoTOptimizationSupportIndication_value (v : ciot) : list N :=
  [N.lor (N.lor (N.lor (flag (ci_sgnipdn v) 1) (flag (ci_scnipdn v) 2)) (flag (ci_awopdn v) 4)) (flag (ci_ihcsi v) 8)].
Definition CIoTOptimizationSupportIndication_marshal := marshal_ie 194 CIoTOptimizationSupportIndication_value.
(* 62-77 *)
Definition CIoTOptimizationSupportIndication_unmarshal (m : mode) (b : list N) : res (Tliv ciot) :=
  need b 5 (IEInvalidLength 194) (hdr4 b (fun len ins =>
  let? f := at_ b 4 in Ok (std 194 len ins (mkCiot (bit f 1) (bit f 2) (bit f 4) (bit f 8))))).
(* 79-81 *)
Definition CIoTOptimizationSupportIndication_len (m : mode) (x : Tliv ciot) : res nat := len_const 5.

(* ---- cmi.rs *)
(* 69-77 *)
Definition CsgMembershipIndication_value (v : CsgMembership) : list N := [CsgMembership_to v].
Definition CsgMembershipIndication_marshal := marshal_ie 148 CsgMembershipIndication_value.
(* 79-91; the instance is not masked *)
Definition CsgMembershipIndication_unmarshal (m : mode) (b : list N) : res (Tliv CsgMembership) :=
  need b 5 (IEInvalidLength 148) (hdr4 b (fun len ins =>
  let? x := at_ b 4 in Ok (mkIe 148 len ins (CsgMembership_of x)))).
(* 93-95 *)
Definition CsgMembershipIndication_len (m : mode) (x : Tliv CsgMembership) : res nat := len_const 5.

(* ---- cnose.rs *)
(* 26-29 *)
Inductive SelectMode := ServingNetworkSelectedbyUE | ServingNetworkSelectedbyNetwork.
(* 49-60 *)
Definition CnOperatorSelectionEntity_value (v : SelectMode) : list N :=
  [match v with ServingNetworkSelectedbyUE => 0 | ServingNetworkSelectedbyNetwork => 1 end].
Definition CnOperatorSelectionEntity_marshal := marshal_ie 173 CnOperatorSelectionEntity_value.
(* 62-79 *)
Definition CnOperatorSelectionEntity_unmarshal (m : mode) (b : list N) : res (Tliv SelectMode) :=
  need b 5 (IEInvalidLength 173) (hdr4 b (fun len ins =>
  let? x := at_ b 4 in
  if x =? 0 then Ok (std 173 len ins ServingNetworkSelectedbyUE)
  else if x =? 1 then Ok (std 173 len ins ServingNetworkSelectedbyNetwork)
  else if (x =? 2) || (x =? 3) then Ok (std 173 len ins ServingNetworkSelectedbyNetwork)
  else Err (IEIncorrect 173))).
(* 81-83 *)
Definition CnOperatorSelectionEntity_len (m : mode) (x : Tliv SelectMode) : res nat := len_const 5.
