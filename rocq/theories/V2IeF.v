(* V2IeF.v - GTPv2-C information elements, sixth part (conventions as in V2IeA.v) *)
From Verif Require Import Base.
From Verif Require Export V2Base V2Enums V2Common V2IeC V2IeE.
Local Open Scope N_scope.

(* ---- remoteuserid.rs *)
(* 16-23 *)
Record remote_user := mkRemoteUser { ru_imsi : list N; ru_msisdn : option (list N); ru_imei : option (list N) }.
Definition opt_lv (o : option (list N)) : list N := match o with Some i => lv i | None => [] end.
Definition opt_map {A B} (f : A -> B) (o : option A) : option B := match o with Some i => Some (f i) | None => None end.
(* 45-98 *)
Definition RemoteUserId_value (v : remote_user) : list N :=
  flag (is_some (ru_imei v)) 2 + flag (is_some (ru_msisdn v)) 1 :: lv (tbcd_encode (ru_imsi v)) ++
  opt_lv (opt_map tbcd_encode (ru_msisdn v)) ++ opt_lv (opt_map tbcd_encode (ru_imei v)).
Definition RemoteUserId_marshal := marshal_ie 192 RemoteUserId_value.
(* [cursor += l + 1; if cursor > b.len() { Err }; l = b[cursor - 1]; if cursor + l > b.len() { Err };
   tbcd_decode(&b[cursor..cursor + l])] with c the cursor before the length octet *)
Definition user_digits (f : bool) (b : list N) (c : nat) : res (option (list N) * nat) :=
  if f then
    need b (c + 1) (IEInvalidLength 192) (
    let? (s, c') := lv_at b c (IEInvalidLength 192) in Ok (Some (tbcd_decode s), c'))
  else Ok (None, c).
(* 100-184; the IMSI is not checked against the buffer *)
Definition RemoteUserId_unmarshal (m : mode) (b : list N) : res (Tliv remote_user) :=
  need b 6 (IEInvalidLength 192) (hdr4 b (fun len ins =>
  let? x := at_ b 4 in
  let? l := at_ b 5 in
  let? s := slice b 6 (6 + N.to_nat l) in
  let? (ms, c) := user_digits (bit x 1) b (6 + N.to_nat l)%nat in
  let? (im, _) := user_digits (bit x 2) b c in
  Ok (std 192 len ins (mkRemoteUser (tbcd_decode s) ms im)))).
(* 186-188 *)
Definition RemoteUserId_len (m : mode) (x : Tliv remote_user) : res nat := len_usize x.

(* ---- rfspindex.rs *)
(* 42-50 *)
Definition RfspIndex_value (v : N) : list N := enc_be 2 v.
Definition RfspIndex_marshal := marshal_ie 144 RfspIndex_value.
(* 52-64 *)
Definition RfspIndex_unmarshal (m : mode) (b : list N) : res (Tliv N) :=
  need b 6 (IEInvalidLength 144) (hdr4 b (fun len ins => let? v := be_at b 4 2 in Ok (std 144 len ins v))).
(* 66-68 *)
Definition RfspIndex_len (m : mode) (x : Tliv N) : res nat := len_const 6.

(* ---- s103pdf.rs *)
(* 17-24 *)
Record s103_pdf := mkS103 { s3_ip : ipaddr; s3_gre : N; s3_ebis : list N }.
(* 46-66 *)
Definition addr_kind (a : ipaddr) : list N := match a with IpV4 o => 4 :: o | IpV6 o => 16 :: o end.
Definition S103pdf_value (v : s103_pdf) : list N := addr_kind (s3_ip v) ++ enc_be 4 (s3_gre v) ++ lv (s3_ebis v).
Definition S103pdf_marshal := marshal_ie 90 S103pdf_value.
(* 68-116; the IPv4 form is not checked against the buffer before the list of bearers, and the
   check in the IPv6 form is one octet short *)
Definition S103pdf_unmarshal (m : mode) (b : list N) : res (Tliv s103_pdf) :=
  need b 4 (IEInvalidLength 90) (hdr4 b (fun len ins =>
  checked m len b (IEInvalidLength 90) (
  let? k := at_ b 4 in
  if k =? 4 then
    let? a := slice b 5 9 in let? g := be_at b 9 4 in let? n := at_ b 13 in
    need b (14 + N.to_nat n) (IEInvalidLength 90) (
    let? e := slice b 14 (14 + N.to_nat n) in Ok (std 90 len ins (mkS103 (IpV4 a) g e)))
  else if k =? 16 then
    need b 25 (IEInvalidLength 90) (
    let? a := slice b 5 21 in let? g := be_at b 21 4 in let? n := at_ b 25 in
    need b (25 + N.to_nat n) (IEInvalidLength 90) (
    let? e := slice b 26 (26 + N.to_nat n) in Ok (std 90 len ins (mkS103 (IpV6 a) g e))))
  else Err (IEIncorrect 90)))).
(* 118-120 *)
Definition S103pdf_len (m : mode) (x : Tliv s103_pdf) : res nat := len_usize x.

(* ---- s1udf.rs *)
(* 17-24 *)
Record s1_udf := mkS1udf { s1_ebi : N; s1_ip : ipaddr; s1_teid : N }.
(* 46-65 *)
Definition S1udf_value (v : s1_udf) : list N := N.land (s1_ebi v) 15 :: addr_kind (s1_ip v) ++ enc_be 4 (s1_teid v).
Definition S1udf_marshal := marshal_ie 91 S1udf_value.
(* 67-104; partly unchecked against the buffer *)
Definition S1udf_unmarshal (m : mode) (b : list N) : res (Tliv s1_udf) :=
  need b 4 (IEInvalidLength 91) (hdr4 b (fun len ins =>
  checked m len b (IEInvalidLength 91) (
  let? e := at_ b 4 in let? k := at_ b 5 in
  if k =? 4 then
    let? a := slice b 6 10 in let? t := be_at b 10 4 in Ok (std 91 len ins (mkS1udf (N.land e 15) (IpV4 a) t))
  else if k =? 16 then
    need b 22 (IEInvalidLength 91) (
    let? a := slice b 6 22 in let? t := be_at b 22 4 in Ok (std 91 len ins (mkS1udf (N.land e 15) (IpV6 a) t)))
  else Err (IEIncorrect 91)))).
(* 106-108 *)
Definition S1udf_len (m : mode) (x : Tliv s1_udf) : res nat := len_usize x.

(* ---- secondaryratudr.rs *)
(* 21-34 *)
Record rat_report := mkRatReport {
  rr_irsgw : bool; rr_irpgw : bool; rr_rat : N; rr_ebi : N; rr_start : N; rr_end : N;
  rr_dl : N; rr_ul : N; rr_transfer : option (list N) }.
(* 62-85 *)
Definition SecondaryRatUsageDataReport_value (v : rat_report) : list N :=
  flag (is_some (rr_transfer v)) 4 + flag (rr_irsgw v) 2 + flag (rr_irpgw v) 1 :: rr_rat v :: rr_ebi v ::
  enc_be 4 (rr_start v) ++ enc_be 4 (rr_end v) ++ enc_be 8 (rr_dl v) ++ enc_be 8 (rr_ul v) ++ opt_lv (rr_transfer v).
Definition SecondaryRatUsageDataReport_marshal := marshal_ie 201 SecondaryRatUsageDataReport_value.
(* 87-127 *)
Definition SecondaryRatUsageDataReport_unmarshal (m : mode) (b : list N) : res (Tliv rat_report) :=
  need b 31 (IEInvalidLength 201) (hdr4 b (fun len ins =>
  let? x := at_ b 4 in let? t := at_ b 5 in let? e := at_ b 6 in
  let? st := be_at b 7 4 in let? en := be_at b 11 4 in let? dl := be_at b 15 8 in let? ul := be_at b 23 8 in
  let? tr := (if bit x 4 then
                need b 32 (IEIncorrect 201) (let? (s, _) := lv_at b 31 (IEIncorrect 201) in Ok (Some s))
              else Ok None) in
  Ok (std 201 len ins (mkRatReport (bit x 2) (bit x 1) t (N.land e 15) st en dl ul tr)))).
(* 129-131 *)
Definition SecondaryRatUsageDataReport_len (m : mode) (x : Tliv rat_report) : res nat := len_usize x.

(* ---- selectionmode.rs *)
(* 42-50 *)
Definition SelectionMode_value (v : N) : list N := [v].
Definition SelectionMode_marshal := marshal_ie 128 SelectionMode_value.
(* 52-64 *)
Definition SelectionMode_unmarshal (m : mode) (b : list N) : res (Tliv N) :=
  need b 5 (IEInvalidLength 128) (hdr4 b (fun len ins => let? x := at_ b 4 in Ok (std 128 len ins (N.land x 3)))).
(* 66-68 *)
Definition SelectionMode_len (m : mode) (x : Tliv N) : res nat := len_const 5.

(* ---- serviceindicator.rs *)
(* 76-84 *)
Definition ServiceIndicator_value (v : ServiceIndication) : list N := [ServiceIndication_to v].
Definition ServiceIndicator_marshal := marshal_ie 149 ServiceIndicator_value.
(* 86-98 *)
Definition ServiceIndicator_unmarshal (m : mode) (b : list N) : res (Tliv ServiceIndication) :=
  need b 5 (IEInvalidLength 149) (hdr4 b (fun len ins => let? x := at_ b 4 in Ok (std 149 len ins (ServiceIndication_of x)))).
(* 100-102 *)
Definition ServiceIndicator_len (m : mode) (x : Tliv ServiceIndication) : res nat := len_const 5.

(* [match x { 0 => false, 1 => true, _ => return Err(e) }] *)
Definition bool_of (x : N) (e : GTPV2Error) : res bool :=
  if x =? 0 then Ok false else if x =? 1 then Ok true else Err e.

(* ---- servicesauthorized.rs *)
(* 17-23 *)
Record services_auth := mkServicesAuth { sa_vehicle : bool; sa_pedestrian : bool }.
(* 44-59 *)
Definition ServicesAuthorized_value (v : services_auth) : list N := [flag (sa_vehicle v) 1; flag (sa_pedestrian v) 1].
Definition ServicesAuthorized_marshal := marshal_ie 210 ServicesAuthorized_value.
(* 61-82 *)
Definition ServicesAuthorized_unmarshal (m : mode) (b : list N) : res (Tliv services_auth) :=
  need b 6 (IEInvalidLength 210) (hdr4 b (fun len ins =>
  let? x := at_ b 4 in let? v := bool_of x (IEIncorrect 210) in
  let? y := at_ b 5 in let? p := bool_of y (IEIncorrect 210) in
  Ok (std 210 len ins (mkServicesAuth v p)))).
(* 84-86 *)
Definition ServicesAuthorized_len (m : mode) (x : Tliv services_auth) : res nat := len_const 6.

(* ---- servingnetwork.rs *)
(* 46-58 *)
Definition ServingNetwork_value (v : plmn) : list N := plmn_enc v.
Definition ServingNetwork_marshal := marshal_ie 83 ServingNetwork_value.
(* 60-75 *)
Definition ServingNetwork_unmarshal (m : mode) (b : list N) : res (Tliv plmn) :=
  need b 7 (IEInvalidLength 83) (hdr4 b (fun len ins => let? p := plmn_at b 4 in Ok (std 83 len ins p))).
(* 77-79 *)
Definition ServingNetwork_len (m : mode) (x : Tliv plmn) : res nat := len_const 7.

(* ---- servingplmnratecontrol.rs *)
(* 17-23 *)
Record plmn_rate := mkPlmnRate { pc_ul : N; pc_dl : N }.
(* 44-53 *)
Definition ServingPlmnRateControl_value (v : plmn_rate) : list N := enc_be 2 (pc_ul v) ++ enc_be 2 (pc_dl v).
Definition ServingPlmnRateControl_marshal := marshal_ie 198 ServingPlmnRateControl_value.
(* 55-68 *)
Definition ServingPlmnRateControl_unmarshal (m : mode) (b : list N) : res (Tliv plmn_rate) :=
  need b 8 (IEInvalidLength 198) (hdr4 b (fun len ins =>
  let? u := be_at b 4 2 in let? d := be_at b 6 2 in Ok (std 198 len ins (mkPlmnRate u d)))).
(* 70-72 *)
Definition ServingPlmnRateControl_len (m : mode) (x : Tliv plmn_rate) : res nat := len_const 8.

(* ---- sgiptptunneladdress.rs *)
(* 17-23 *)
Record sgi_tunnel := mkSgiTunnel { sg_ip : ipaddr; sg_port : option N }.
(* 44-65 *)
Definition SgiPtpTunnelAddress_value (v : sgi_tunnel) : list N :=
  match sg_ip v with
  | IpV4 o => flag (is_some (sg_port v)) 4 + 1 :: o
  | IpV6 o => flag (is_some (sg_port v)) 4 + 2 :: o
  end ++ opt_be 2 (sg_port v).
Definition SgiPtpTunnelAddress_marshal := marshal_ie 213 SgiPtpTunnelAddress_value.
(* 67-116 *)
Definition SgiPtpTunnelAddress_unmarshal (m : mode) (b : list N) : res (Tliv sgi_tunnel) :=
  need b 5 (IEInvalidLength 213) (hdr4 b (fun len ins =>
  checked m len b (IEInvalidLength 213) (
  let? x := at_ b 4 in
  if N.land x 3 =? 1 then
    need b 9 (IEInvalidLength 213) (
    let? a := slice b 5 9 in
    let? (p, _) := opt_be_at (bit x 4) 2 (IEInvalidLength 213) b 9 in
    Ok (std 213 len ins (mkSgiTunnel (IpV4 a) p)))
  else if N.land x 3 =? 2 then
    need b 21 (IEInvalidLength 213) (
    let? a := slice b 5 21 in
    let? (p, _) := opt_be_at (bit x 4) 2 (IEInvalidLength 213) b 21 in
    Ok (std 213 len ins (mkSgiTunnel (IpV6 a) p)))
  else Err (IEIncorrect 213)))).
(* 118-120 *)
Definition SgiPtpTunnelAddress_len (m : mode) (x : Tliv sgi_tunnel) : res nat := len_usize x.

(* ---- targetid.rs 177-217: CellIdentifier, shared with sourceid.rs *)
Record cell_id := mkCellId { ce_plmn : plmn; ce_lac : N; ce_rac : N; ce_ci : N }.
Definition CellIdentifier_enc (v : cell_id) : list N :=
  plmn_enc (ce_plmn v) ++ enc_be 2 (ce_lac v) ++ [ce_rac v] ++ enc_be 2 (ce_ci v).
Definition CellIdentifier_dec (b : list N) : res cell_id :=
  need b 8 (IEInvalidLength 0) (
  let? p := plmn_at b 0 in let? l := be_at b 3 2 in let? r := at_ b 5 in let? c := be_at b 6 2 in
  Ok (mkCellId p l r c)).

(* ---- sourceid.rs *)
(* 15-21, 26-36 *)
Record source_rnc := mkSourceRnc { sr_plmn : plmn; sr_id : N; sr_ext : option N }.
Definition SourceRncIdentifier_enc (v : source_rnc) : list N :=
  plmn_enc (sr_plmn v) ++ enc_be 2 (sr_id v) ++ opt_be 2 (sr_ext v).
(* 38-64: whether there is an extended RNC id is decided by the length of the whole rest of the
   buffer; fewer than five octets panic *)
Definition SourceRncIdentifier_dec (b : list N) : res source_rnc :=
  if (length b <? 6)%nat then
    let? p := plmn_at b 0 in let? i := be_at b 3 2 in Ok (mkSourceRnc p i None)
  else if (7 <=? length b)%nat then
    let? p := plmn_at b 0 in let? i := be_at b 3 2 in let? e := be_at b 5 2 in Ok (mkSourceRnc p i (Some e))
  else Err (IEInvalidLength 0).
(* 66-71 *)
Definition SourceRncIdentifier_size (v : source_rnc) : nat := if is_some (sr_ext v) then 7 else 5.
(* 87-92 *)
Inductive source_type := St_Rnc (v : source_rnc) | St_Cell (v : cell_id) | St_Spare.
(* 94-101 *)
Definition source_type_to (s : source_type) : N := match s with St_Cell _ => 0 | St_Rnc _ => 1 | St_Spare => 2 end.
(* 115-121 *)
Definition source_type_enc (s : source_type) : list N :=
  match s with St_Rnc i => SourceRncIdentifier_enc i | St_Cell i => CellIdentifier_enc i | St_Spare => [] end.
(* 123-142 *)
Definition source_type_dec (b : list N) : res source_type :=
  let? x := at_ b 0 in
  let? t := slice_from b 1 in
  if x =? 0 then let? i := orelse (CellIdentifier_dec t) (IEIncorrect 0) in Ok (St_Cell i)
  else if x =? 1 then let? i := orelse (SourceRncIdentifier_dec t) (IEIncorrect 0) in Ok (St_Rnc i)
  else Ok St_Spare.
(* 144-150 *)
Definition source_type_size (s : source_type) : nat :=
  match s with St_Rnc i => SourceRncIdentifier_size i | St_Cell _ => 8 | St_Spare => 1 end.
(* 170-176 *)
Record source_id := mkSourceId { si_target : cell_id; si_source : source_type }.
(* 197-207 *)
Definition SourceIdentification_value (v : source_id) : list N :=
  CellIdentifier_enc (si_target v) ++ [source_type_to (si_source v)] ++ source_type_enc (si_source v).
Definition SourceIdentification_marshal := marshal_ie 129 SourceIdentification_value.
(* 209-230; the instance octet is not masked *)
Definition SourceIdentification_unmarshal (m : mode) (b : list N) : res (Tliv source_id) :=
  need b 13 (IEInvalidLength 129) (hdr4 b (fun len ins =>
  let? c := slice b 4 12 in
  let? cell := orelse (CellIdentifier_dec c) (IEIncorrect 129) in
  let? t := slice_from b 12 in
  let? src := orelse (source_type_dec t) (IEIncorrect 129) in
  Ok (mkIe 129 len ins (mkSourceId cell src)))).
(* 232-234 *)
Definition SourceIdentification_len (m : mode) (x : Tliv source_id) : res nat :=
  len_const (13 + source_type_size (si_source (ie_v x))).

(* ---- specialiewithtypeext.rs *)
(* 16-22 *)
Record special_ie := mkSpecialIe { sp_ext : N; sp_data : list N }.
(* 43-52 *)
Definition SpecialIEWithTypeExt_value (v : special_ie) : list N := enc_be 2 (sp_ext v) ++ sp_data v.
Definition SpecialIEWithTypeExt_marshal := marshal_ie 254 SpecialIEWithTypeExt_value.
(* 54-72; the second octet of the extension is not checked, and a length of 1 makes the slice
   bounds cross *)
Definition SpecialIEWithTypeExt_unmarshal (m : mode) (b : list N) : res (Tliv special_ie) :=
  need b 5 (IEInvalidLength 254) (hdr4 b (fun len ins =>
  let? e := be_at b 4 2 in
  checked m len b (IEInvalidLength 254) (
  let? d := slice b 6 (4 + N.to_nat len) in Ok (std 254 len ins (mkSpecialIe e d))))).
(* 74-76 *)
Definition SpecialIEWithTypeExt_len (m : mode) (x : Tliv special_ie) : res nat := len_usize x.

(* ---- spi.rs *)
(* 42-53 *)
Definition Spi_value (v : bool) : list N := [flag v 1].
Definition Spi_marshal := marshal_ie 157 Spi_value.
(* 55-71 *)
Definition Spi_unmarshal (m : mode) (b : list N) : res (Tliv bool) :=
  need b 5 (IEInvalidLength 157) (hdr4 b (fun len ins =>
  let? x := at_ b 4 in let? v := bool_of x (IEIncorrect 157) in Ok (std 157 len ins v))).
(* 73-75 *)
Definition Spi_len (m : mode) (x : Tliv bool) : res nat := len_const 5.

(* ---- sqn.rs *)
(* 42-50 *)
Definition Sqn_value (v : N) : list N := enc_be 4 v.
Definition Sqn_marshal := marshal_ie 183 Sqn_value.
(* 52-64 *)
Definition Sqn_unmarshal (m : mode) (b : list N) : res (Tliv N) :=
  need b 8 (IEInvalidLength 183) (hdr4 b (fun len ins => let? v := be_at b 4 4 in Ok (std 183 len ins v))).
(* 66-68 *)
Definition Sqn_len (m : mode) (x : Tliv N) : res nat := len_const 8.

(* ---- srcrncpdcpctxinfo.rs *)
(* 41-49 *)
Definition SourceRncPdcpContextInfo_value (v : list N) : list N := v.
Definition SourceRncPdcpContextInfo_marshal := marshal_ie 125 SourceRncPdcpContextInfo_value.
(* 51-68 *)
Definition SourceRncPdcpContextInfo_unmarshal (m : mode) (b : list N) : res (Tliv (list N)) :=
  need b 4 (IEInvalidLength 125) (hdr4 b (fun len ins =>
  checked m len b (IEInvalidLength 125) (
  let? e := end16 m len 4 in let? s := slice b 4 e in Ok (std 125 len ins s)))).
(* 70-72 *)
Definition SourceRncPdcpContextInfo_len (m : mode) (x : Tliv (list N)) : res nat := len_u16 m x.

(* ---- srvcccause.rs *)
(* 113-121 *)
Definition SrvccCause_value (v : SrvccCauseValues) : list N := [SrvccCauseValues_to v].
Definition SrvccCause_marshal := marshal_ie 56 SrvccCause_value.
(* 123-135 *)
Definition SrvccCause_unmarshal (m : mode) (b : list N) : res (Tliv SrvccCauseValues) :=
  need b 5 (IEInvalidLength 56) (hdr4 b (fun len ins => let? x := at_ b 4 in Ok (std 56 len ins (SrvccCauseValues_of x)))).
(* 137-139 *)
Definition SrvccCause_len (m : mode) (x : Tliv SrvccCauseValues) : res nat := len_const 5.

(* ---- stnsr.rs *)
(* 16-22 *)
Record stn_sr := mkStnSr { sn_nanpi : N; sn_msisdn : list N }.
(* 43-52 *)
Definition StnSr_value (v : stn_sr) : list N := sn_nanpi v :: tbcd_encode (sn_msisdn v).
Definition StnSr_marshal := marshal_ie 51 StnSr_value.
(* 54-74 *)
Definition StnSr_unmarshal (m : mode) (b : list N) : res (Tliv stn_sr) :=
  need b 4 (IEInvalidLength 51) (hdr4 b (fun len ins =>
  checked m len b (IEInvalidLength 51) (
  let? n := at_ b 4 in
  let? e := end16 m len 4 in let? s := slice b 5 e in Ok (std 51 len ins (mkStnSr n (tbcd_decode s)))))).
(* 76-78 *)
Definition StnSr_len (m : mode) (x : Tliv stn_sr) : res nat := len_usize x.

(* ---- tad.rs *)
(* 41-49 *)
Definition TrafficAggregateDescription_value (v : list N) : list N := v.
Definition TrafficAggregateDescription_marshal := marshal_ie 85 TrafficAggregateDescription_value.
(* 51-69 *)
Definition TrafficAggregateDescription_unmarshal (m : mode) (b : list N) : res (Tliv (list N)) :=
  need b 4 (IEInvalidLength 85) (hdr4 b (fun len ins =>
  checked m len b (IEInvalidLength 85) (
  let? s := slice b 4 (4 + N.to_nat len) in Ok (std 85 len ins s)))).
(* 71-73 *)
Definition TrafficAggregateDescription_len (m : mode) (x : Tliv (list N)) : res nat := len_usize x.

(* ---- targetid.rs *)
(* 17-21, 26-34: the first six octets of the routing area *)
Record rnc_id := mkRncId { rn_rai : rai; rn_id : N; rn_ext : option N }.
Definition RncIdentifier_enc (v : rnc_id) : list N :=
  removelast (Rai_enc (rn_rai v)) ++ enc_be 2 (rn_id v) ++ opt_be 2 (rn_ext v).
(* 36-66: decided by the length of the whole rest of the buffer *)
Definition RncIdentifier_dec (b : list N) : res rnc_id :=
  if ((8 <=? length b) && (length b <? 10))%nat then
    let? t := slice b 0 6 in let? r := orelse (Rai_dec t) (IEIncorrect 0) in
    let? i := be_at b 6 2 in Ok (mkRncId r i None)
  else if (10 <=? length b)%nat then
    let? t := slice b 0 6 in let? r := orelse (Rai_dec t) (IEIncorrect 0) in
    let? i := be_at b 6 2 in let? e := be_at b 8 2 in Ok (mkRncId r i (Some e))
  else Err (IEInvalidLength 0).
(* 88-114 *)
Record macro_enb_tac := mkMacroTac { mt_enb : macro_enb; mt_tac : N }.
Definition MacroEnbIdentifier_enc (v : macro_enb_tac) : list N := MacroEnbId_enc (mt_enb v) ++ enc_be 2 (mt_tac v).
Definition MacroEnbIdentifier_dec (b : list N) : res macro_enb_tac :=
  need b 8 (IEInvalidLength 0) (
  let? t := slice b 0 6 in let? e := orelse (MacroEnbId_dec t) (IEIncorrect 0) in
  let? c := be_at b 6 2 in Ok (mkMacroTac e c)).
(* 133-158 *)
Record ext_enb_tac := mkExtTac { xt_enb : ext_macro_enb; xt_tac : N }.
Definition ExtendedMacroEnbIdentifier_enc (v : ext_enb_tac) : list N := ExtMacroEnbId_enc (xt_enb v) ++ enc_be 2 (xt_tac v).
Definition ExtendedMacroEnbIdentifier_dec (b : list N) : res ext_enb_tac :=
  need b 8 (IEInvalidLength 0) (
  let? t := slice b 0 6 in let? e := orelse (ExtMacroEnbId_dec t) (IEIncorrect 0) in
  let? c := be_at b 6 2 in Ok (mkExtTac e c)).
(* 232-281; etac is an array of three octets *)
Record gnb_id := mkGnb { gn_plmn : plmn; gn_length : N; gn_id : N; gn_etac : list N }.
Definition GNbIdentifier_enc (v : gnb_id) : list N :=
  plmn_enc (gn_plmn v) ++ [gn_length v] ++ enc_be 4 (gn_id v) ++ gn_etac v.
Definition GNbIdentifier_dec (b : list N) : res gnb_id :=
  need b 11 (IEInvalidLength 0) (
  let? p := plmn_at b 0 in let? l := at_ b 3 in let? i := be_at b 4 4 in let? e := slice b 8 11 in Ok (mkGnb p l i e)).
(* 300-325 *)
Record macro_ng := mkMacroNg { mn_enb : macro_enb; mn_etac : list N }.
Definition MacronGeNbIdentifier_enc (v : macro_ng) : list N := MacroEnbId_enc (mn_enb v) ++ mn_etac v.
Definition MacronGeNbIdentifier_dec (b : list N) : res macro_ng :=
  need b 9 (IEInvalidLength 0) (
  let? t := slice b 0 6 in let? e := orelse (MacroEnbId_dec t) (IEIncorrect 0) in
  let? c := slice b 6 9 in Ok (mkMacroNg e c)).
(* 344-369 *)
Record ext_ng := mkExtNg { xn_enb : ext_macro_enb; xn_etac : list N }.
Definition ExtendedGeNbIdentifier_enc (v : ext_ng) : list N := ExtMacroEnbId_enc (xn_enb v) ++ xn_etac v.
Definition ExtendedGeNbIdentifier_dec (b : list N) : res ext_ng :=
  need b 9 (IEInvalidLength 0) (
  let? t := slice b 0 6 in let? e := orelse (ExtMacroEnbId_dec t) (IEIncorrect 0) in
  let? c := slice b 6 9 in Ok (mkExtNg e c)).
(* 388-396, 413-432 *)
Record en_gnb := mkEnGnb { eg_plmn : plmn; eg_length : N; eg_id : N; eg_tac : option N; eg_etac : option (list N) }.
Definition EnGNbIdentifier_enc (v : en_gnb) : list N :=
  plmn_enc (eg_plmn v) ++ [N.lor (flag (is_some (eg_tac v)) 128 + flag (is_some (eg_etac v)) 64) (eg_length v)] ++
  enc_be 4 (eg_id v) ++ opt_be 2 (eg_tac v) ++ opt_octets (eg_etac v).
(* 434-459: the two flags are swapped with respect to the encoder, and both are required *)
Definition EnGNbIdentifier_dec (b : list N) : res en_gnb :=
  need b 8 (IEInvalidLength 0) (
  let? x := at_ b 3 in let? i := be_at b 4 4 in let? p := plmn_at b 0 in
  if bit x 64 then need b 10 (IEInvalidLength 0) (
    let? t := be_at b 8 2 in
    if bit x 128 then need b 13 (IEInvalidLength 0) (
      let? e := slice b 10 13 in Ok (mkEnGnb p (N.land x 63) i (Some t) (Some e)))
    else Err (IEInvalidLength 0))
  else Err (IEInvalidLength 0)).
(* 461-467 *)
Definition EnGNbIdentifier_size (v : en_gnb) : nat :=
  match eg_tac v, eg_etac v with Some _, Some _ => 14 | Some _, None => 11 | None, _ => 8 end.
(* 486-499 *)
Inductive target_type :=
| Tt_Rnc (v : rnc_id) | Tt_MacroeNb (v : macro_enb_tac) | Tt_Cell (v : cell_id) | Tt_MacroEnbIdentifier (v : macro_enb)
| Tt_Home (v : macro_enb_tac) | Tt_ExtMacro (v : ext_enb_tac) | Tt_GNb (v : gnb_id) | Tt_MacroNg (v : macro_ng)
| Tt_ExtNg (v : ext_ng) | Tt_EnGNb (v : en_gnb) | Tt_Spare.
(* 502-515 *)
Definition target_type_to (t : target_type) : N :=
  match t with
  | Tt_Rnc _ => 0 | Tt_MacroeNb _ => 1 | Tt_Cell _ => 2 | Tt_Home _ => 3 | Tt_ExtMacro _ => 4 | Tt_GNb _ => 5
  | Tt_MacroNg _ => 6 | Tt_ExtNg _ => 7 | Tt_EnGNb _ => 8 | _ => 9
  end.
(* 536-549 *)
Definition target_type_enc (t : target_type) : list N :=
  match t with
  | Tt_Rnc i => RncIdentifier_enc i | Tt_MacroeNb i => MacroEnbIdentifier_enc i | Tt_Cell i => CellIdentifier_enc i
  | Tt_Home i => MacroEnbIdentifier_enc i | Tt_ExtMacro i => ExtendedMacroEnbIdentifier_enc i
  | Tt_GNb i => GNbIdentifier_enc i | Tt_MacroNg i => MacronGeNbIdentifier_enc i
  | Tt_ExtNg i => ExtendedGeNbIdentifier_enc i | Tt_EnGNb i => EnGNbIdentifier_enc i | _ => []
  end.
(* 551-619 *)
Definition tt_of {A} (r : res A) (wrap : A -> target_type) : res target_type :=
  let? i := orelse r (IEIncorrect 0) in Ok (wrap i).
Definition target_type_dec (b : list N) : res target_type :=
  let? x := at_ b 0 in
  let? t := slice_from b 1 in
  if x =? 0 then tt_of (RncIdentifier_dec t) Tt_Rnc
  else if x =? 1 then tt_of (MacroEnbIdentifier_dec t) Tt_MacroeNb
  else if x =? 2 then tt_of (CellIdentifier_dec t) Tt_Cell
  else if x =? 3 then tt_of (MacroEnbIdentifier_dec t) Tt_Home
  else if x =? 4 then tt_of (ExtendedMacroEnbIdentifier_dec t) Tt_ExtMacro
  else if x =? 5 then tt_of (GNbIdentifier_dec t) Tt_GNb
  else if x =? 6 then tt_of (MacronGeNbIdentifier_dec t) Tt_MacroNg
  else if x =? 7 then tt_of (ExtendedGeNbIdentifier_dec t) Tt_ExtNg
  else if x =? 8 then tt_of (EnGNbIdentifier_dec t) Tt_EnGNb
  else Ok Tt_Spare.
(* 621-634, with 68-73, 116-118, 160-162, 215-217, 283-285, 327-329, 371-373 *)
Definition target_type_size (t : target_type) : nat :=
  match t with
  | Tt_Rnc i => if is_some (rn_ext i) then 10 else 8
  | Tt_MacroeNb _ => 8 | Tt_Cell _ => 8 | Tt_Home _ => 8 | Tt_ExtMacro _ => 8 | Tt_GNb _ => 11
  | Tt_MacroNg _ => 9 | Tt_ExtNg _ => 9 | Tt_EnGNb i => EnGNbIdentifier_size i | _ => 1
  end.
(* 686-695 *)
Definition TargetIdentification_value (v : target_type) : list N := target_type_to v :: target_type_enc v.
Definition TargetIdentification_marshal := marshal_ie 121 TargetIdentification_value.
(* 697-714; the instance octet is not masked *)
Definition TargetIdentification_unmarshal (m : mode) (b : list N) : res (Tliv target_type) :=
  need b 5 (IEInvalidLength 121) (hdr4 b (fun len ins =>
  let? t := slice_from b 4 in
  let? v := orelse (target_type_dec t) (IEIncorrect 121) in Ok (mkIe 121 len ins v))).
(* 716-718 *)
Definition TargetIdentification_len (m : mode) (x : Tliv target_type) : res nat :=
  len_const (5 + target_type_size (ie_v x)).

(* ---- throttling.rs *)
(* 30-37 *)
Record throttle := mkThrottle { th_unit : N; th_value : N; th_factor : N }.
(* 59-68 *)
Definition Throttling_value (v : throttle) : list N := [N.lor (shl8 (th_unit v) 5) (th_value v); th_factor v].
Definition Throttling_marshal := marshal_ie 154 Throttling_value.
(* 70-91 *)
Definition Throttling_unmarshal (m : mode) (b : list N) : res (Tliv throttle) :=
  need b 6 (IEInvalidLength 154) (hdr4 b (fun len ins =>
  let? x := at_ b 4 in let? f := at_ b 5 in
  let u := N.shiftr x 5 in
  Ok (std 154 len ins (mkThrottle (if u <? 5 then u else if u =? 7 then 0 else 1) (N.land x 31)
                                  (if f <? 101 then f else 0))))).
(* 93-95 *)
Definition Throttling_len (m : mode) (x : Tliv throttle) : res nat := len_const 6.

(* ---- tmgi.rs *)
(* 42-50; an array of six octets *)
Definition Tmgi_value (v : list N) : list N := v.
Definition Tmgi_marshal := marshal_ie 158 Tmgi_value.
(* 52-68; the instance octet is not masked *)
Definition Tmgi_unmarshal (m : mode) (b : list N) : res (Tliv (list N)) :=
  need b 10 (IEInvalidLength 158) (hdr4 b (fun len ins => let? s := slice b 4 10 in Ok (mkIe 158 len ins s))).
(* 70-72 *)
Definition Tmgi_len (m : mode) (x : Tliv (list N)) : res nat := len_const 10.

(* ---- tmsi.rs *)
(* 42-50 *)
Definition Tmsi_value (v : N) : list N := enc_be 4 v.
Definition Tmsi_marshal := marshal_ie 88 Tmsi_value.
(* 52-64 *)
Definition Tmsi_unmarshal (m : mode) (b : list N) : res (Tliv N) :=
  need b 8 (IEInvalidLength 88) (hdr4 b (fun len ins => let? v := be_at b 4 4 in Ok (std 88 len ins v))).
(* 66-68 *)
Definition Tmsi_len (m : mode) (x : Tliv N) : res nat := len_usize x.

(* ---- traceinfo.rs *)
(* 18-31 *)
Record trace_info := mkTraceInfo {
  ti_plmn : plmn; ti_id : N; ti_events : list N; ti_ne : N; ti_depth : N; ti_ifs : list N; ti_ip : list N }.
(* 59-77 *)
Definition TraceInformation_value (v : trace_info) : list N :=
  plmn_enc (ti_plmn v) ++ enc_be 3 (ti_id v) ++ ti_events v ++ enc_be 2 (ti_ne v) ++ [ti_depth v] ++ ti_ifs v ++ ti_ip v.
Definition TraceInformation_marshal := marshal_ie 96 TraceInformation_value.
(* 79-101 *)
Definition TraceInformation_unmarshal (m : mode) (b : list N) : res (Tliv trace_info) :=
  need b 38 (IEInvalidLength 96) (hdr4 b (fun len ins =>
  let? p := plmn_at b 4 in let? i := be_at b 7 3 in let? e := slice b 10 19 in let? n := be_at b 19 2 in
  let? d := at_ b 21 in let? f := slice b 22 34 in let? a := slice b 34 38 in
  Ok (std 96 len ins (mkTraceInfo p i e n d f a)))).
(* 103-105 *)
Definition TraceInformation_len (m : mode) (x : Tliv trace_info) : res nat := len_const 38.

(* ---- tracereference.rs *)
(* 17-25 *)
Record trace_ref := mkTraceRef { tr_plmn : plmn; tr_id : N }.
(* 48-61; the type constant (line 11) is 83, which is that of the Serving Network *)
Definition TraceReference_value (v : trace_ref) : list N := plmn_enc (tr_plmn v) ++ enc_be 3 (tr_id v).
Definition TraceReference_marshal := marshal_ie 83 TraceReference_value.
(* 63-79 *)
Definition TraceReference_unmarshal (m : mode) (b : list N) : res (Tliv trace_ref) :=
  need b 10 (IEInvalidLength 83) (hdr4 b (fun len ins =>
  let? i := be_at b 7 3 in let? p := plmn_at b 4 in Ok (std 83 len ins (mkTraceRef p i)))).
(* 81-83 *)
Definition TraceReference_len (m : mode) (x : Tliv trace_ref) : res nat := len_const 10.

(* ---- transactionid.rs *)
(* 16-19 *)
Record transaction_id := mkTransactionId { tx_flag : bool; tx_id : N }.
(* 49-66 *)
Definition TransactionIdentifier_value (v : transaction_id) : list N :=
  if tx_id v <? 7 then [N.lor (flag (tx_flag v) 128) (N.land (shl8 (tx_id v) 4) 112)]
  else [flag (tx_flag v) 128; tx_id v].
Definition TransactionIdentifier_marshal := marshal_ie 137 TransactionIdentifier_value.
(* 68-89 *)
Definition TransactionIdentifier_unmarshal (m : mode) (b : list N) : res (Tliv transaction_id) :=
  need b 5 (IEInvalidLength 137) (hdr4 b (fun len ins =>
  let? x := at_ b 4 in
  let f := N.shiftr x 7 =? 1 in
  if 1 <? len then
    need b 6 (IEInvalidLength 137) (let? i := at_ b 5 in Ok (std 137 len ins (mkTransactionId f i)))
  else Ok (std 137 len ins (mkTransactionId f (N.land (N.shiftr x 4) 7))))).
(* 91-93 *)
Definition TransactionIdentifier_len (m : mode) (x : Tliv transaction_id) : res nat := len_usize x.

(* ---- twanid.rs *)
(* 18-29 *)
Record twan_id := mkTwanId {
  tw_ssid : list N; tw_bssid : option (list N); tw_civic : option (list N); tw_plmn : option plmn;
  tw_name : option (list N); tw_relay : option (N * list N); tw_circuit : option (list N) }.
(* 55-100 *)
Definition TwanId_value (v : twan_id) : list N :=
  flag (is_some (tw_relay v)) 16 + flag (is_some (tw_name v)) 8 + flag (is_some (tw_plmn v)) 4 +
  flag (is_some (tw_civic v)) 2 + flag (is_some (tw_bssid v)) 1 :: lv (tw_ssid v) ++ opt_octets (tw_bssid v) ++
  opt_lv (tw_civic v) ++ match tw_plmn v with Some p => plmn_enc p | None => [] end ++
  opt_lv (opt_map utf8 (tw_name v)) ++
  match tw_relay v with Some (i, d) => i :: lv d | None => [] end ++ opt_lv (tw_circuit v).
Definition TwanId_marshal := marshal_ie 169 TwanId_value.
(* A length octet at c, then that many octets, neither checked against the buffer *)
Definition lv_raw (b : list N) (c : nat) : res (list N * nat) :=
  let? l := at_ b c in let? s := slice b (c + 1) (c + 1 + N.to_nat l) in Ok (s, (c + 1 + N.to_nat l)%nat).
(* 102-199; the checks [cursor <= b.len()] (126, 150, 186) do not exclude the end of the buffer *)
Definition TwanId_unmarshal (m : mode) (b : list N) : res (Tliv twan_id) :=
  need b 6 (IEInvalidLength 169) (hdr4 b (fun len ins =>
  let? x := at_ b 4 in
  let? (ssid, c) := lv_raw b 5 in
  let? (bs, c) := (if bit x 1 then let? s := slice b c (c + 6) in Ok (Some s, (c + 6)%nat) else Ok (None, c)) in
  let? (cv, c) := (if bit x 2 then
                     if (c <=? length b)%nat then let? (s, c) := lv_raw b c in Ok (Some s, c)
                     else Err (IEInvalidLength 169)
                   else Ok (None, c)) in
  let? (pl, c) := (if bit x 4 then let? p := plmn_at b c in Ok (Some p, (c + 3)%nat) else Ok (None, c)) in
  let? (nm, c) := (if bit x 8 then
                     if (c <=? length b)%nat then
                       let? (s, c) := lv_raw b c in let? n := utf8_or s (IEIncorrect 169) in Ok (Some n, c)
                     else Err (IEInvalidLength 169)
                   else Ok (None, c)) in
  if bit x 16 then
    if (c <? length b)%nat then
      let? i := at_ b c in
      let? (d, c) := lv_at b (c + 1) (IEInvalidLength 169) in
      if (c <=? length b)%nat then
        let? (e, _) := lv_at b c (IEInvalidLength 169) in
        Ok (std 169 len ins (mkTwanId ssid bs cv pl nm (Some (i, d)) (Some e)))
      else Err (IEInvalidLength 169)
    else Err (IEInvalidLength 169)
  else Ok (std 169 len ins (mkTwanId ssid bs cv pl nm None None)))).
(* 201-203 *)
Definition TwanId_len (m : mode) (x : Tliv twan_id) : res nat := len_usize x.

(* ---- twanidtimestamp.rs *)
(* 42-50 *)
Definition TwanIdTimeStamp_value (v : N) : list N := enc_be 4 v.
Definition TwanIdTimeStamp_marshal := marshal_ie 179 TwanIdTimeStamp_value.
(* 52-64 *)
Definition TwanIdTimeStamp_unmarshal (m : mode) (b : list N) : res (Tliv N) :=
  need b 8 (IEInvalidLength 179) (hdr4 b (fun len ins => let? v := be_at b 4 4 in Ok (std 179 len ins v))).
(* 66-68 *)
Definition TwanIdTimeStamp_len (m : mode) (x : Tliv N) : res nat := len_const 8.

(* ---- twmi.rs *)
(* 17-23 *)
Record twmi := mkTwmi { tm_mcm : bool; tm_scm : bool }.
(* 44-57 *)
Definition Twmi_value (v : twmi) : list N := [flag (tm_mcm v) 2 + flag (tm_scm v) 1].
Definition Twmi_marshal := marshal_ie 174 Twmi_value.
(* 59-77 *)
Definition Twmi_unmarshal (m : mode) (b : list N) : res (Tliv twmi) :=
  need b 5 (IEInvalidLength 174) (hdr4 b (fun len ins =>
  let? x := at_ b 4 in Ok (std 174 len ins (mkTwmi (bit x 2) (bit x 1))))).
(* 79-81 *)
Definition Twmi_len (m : mode) (x : Tliv twmi) : res nat := len_const 5.

(* ---- uci.rs *)
(* 74-85 *)
Record uci := mkUci { uc_plmn : plmn; uc_csgid : N; uc_mode : AccessMode; uc_lcsg : bool; uc_cmi : Cmi }.
(* 111-135 *)
Definition Uci_value (v : uci) : list N :=
  plmn_enc (uc_plmn v) ++ enc_be 4 (N.land (uc_csgid v) 134217727) ++
  [N.lor (N.lor (shl8 (AccessMode_to (uc_mode v)) 6) (flag (uc_lcsg v) 2)) (Cmi_to (uc_cmi v))].
Definition Uci_marshal := marshal_ie 145 Uci_value.
(* 137-159 *)
Definition Uci_unmarshal (m : mode) (b : list N) : res (Tliv uci) :=
  need b 12 (IEInvalidLength 145) (hdr4 b (fun len ins =>
  let? c := be_at b 7 4 in let? p := plmn_at b 4 in let? x := at_ b 11 in
  Ok (std 145 len ins (mkUci p c (AccessMode_of (N.shiftr (N.land x 192) 6))
                            (negb (N.shiftr (N.land x 2) 1 =? 0)) (Cmi_of (N.land x 1)))))).
(* 161-163 *)
Definition Uci_len (m : mode) (x : Tliv uci) : res nat := len_const 12.

(* ---- uetimezone.rs *)
(* 17-23; an i8 is an integer between -128 and 127 *)
Record ue_time_zone := mkUeTimeZone { tz_zone : Z; tz_dst : N }.
(* 44-57 *)
Definition UeTimeZone_value (v : ue_time_zone) : list N :=
  [if (0 <=? tz_zone v)%Z then Z.to_N (tz_zone v) else N.lor 128 (Z.to_N (- tz_zone v)); tz_dst v].
Definition UeTimeZone_marshal := marshal_ie 114 UeTimeZone_value.
(* 59-76 *)
Definition UeTimeZone_unmarshal (m : mode) (b : list N) : res (Tliv ue_time_zone) :=
  need b 6 (IEInvalidLength 114) (hdr4 b (fun len ins =>
  let? x := at_ b 4 in let? d := at_ b 5 in
  let s := N.shiftr x 7 in let a := Z.of_N (N.land x 127) in
  Ok (std 114 len ins (mkUeTimeZone (if s =? 0 then a else if s =? 1 then (- a)%Z else 0%Z) (N.land d 3))))).
(* 78-80 *)
Definition UeTimeZone_len (m : mode) (x : Tliv ue_time_zone) : res nat := len_const 6.

(* ---- uli.rs *)
(* 16-25 *)
Inductive location :=
| Loc_Cgi (v : cgi) | Loc_Sai (v : sai) | Loc_Rai (v : rai) | Loc_Tai (v : tai)
| Loc_Ecgi (v : ecgi) | Loc_Lai (v : lai) | Loc_Macro (v : macro_enb) | Loc_ExtMacro (v : ext_macro_enb).
(* the position of the kind in the enum, from 1 *)
Definition loc_kind (l : location) : N :=
  match l with
  | Loc_Cgi _ => 1 | Loc_Sai _ => 2 | Loc_Rai _ => 3 | Loc_Tai _ => 4
  | Loc_Ecgi _ => 5 | Loc_Lai _ => 6 | Loc_Macro _ => 7 | Loc_ExtMacro _ => 8
  end.
Definition loc_enc (l : location) : list N :=
  match l with
  | Loc_Cgi v => Cgi_enc v | Loc_Sai v => Sai_enc v | Loc_Rai v => Rai_enc v | Loc_Tai v => Tai_enc v
  | Loc_Ecgi v => Ecgi_enc v | Loc_Lai v => Lai_enc v | Loc_Macro v => MacroEnbId_enc v
  | Loc_ExtMacro v => ExtMacroEnbId_enc v
  end.
(* derive(PartialOrd) at 15 and commons.rs 20, 68, 116, 165, 210, 255, 302, 349: the variant first,
   then the fields in order *)
Definition plmn_key (p : plmn) : list N := [p_mcc p; p_mnc p; flag (p_three p) 1].
Definition loc_key (l : location) : list N :=
  loc_kind l ::
  match l with
  | Loc_Cgi v => plmn_key (cgi_plmn v) ++ [cgi_lac v; cgi_ci v]
  | Loc_Sai v => plmn_key (sai_plmn v) ++ [sai_lac v; sai_sac v]
  | Loc_Rai v => plmn_key (rai_plmn v) ++ [rai_lac v; rai_rac v]
  | Loc_Tai v => plmn_key (tai_plmn v) ++ [tai_tac v]
  | Loc_Ecgi v => plmn_key (ecgi_plmn v) ++ [ecgi_eci v]
  | Loc_Lai v => plmn_key (lai_plmn v) ++ [lai_lac v]
  | Loc_Macro v => plmn_key (me_plmn v) ++ [me_id v]
  | Loc_ExtMacro v => plmn_key (xe_plmn v) ++ [flag (xe_smenb v) 1; xe_id v]
  end.
Fixpoint key_le (a b : list N) : bool :=
  match a, b with
  | [], _ => true
  | _ :: _, [] => false
  | x :: a', y :: b' => if x <? y then true else if x =? y then key_le a' b' else false
  end.
(* slice::sort_by, a stable sort *)
Fixpoint loc_insert (x : location) (l : list location) : list location :=
  match l with
  | [] => [x]
  | y :: r => if key_le (loc_key x) (loc_key y) then x :: l else y :: loc_insert x r
  end.
Fixpoint loc_sort (l : list location) : list location :=
  match l with [] => [] | x :: r => loc_insert x (loc_sort r) end.
(* 68-110: the first location of each kind, and the flags *)
Fixpoint loc_first (flags : N) (l : list location) : N * list N :=
  match l with
  | [] => (flags, [])
  | x :: r =>
      let f := 2 ^ (loc_kind x - 1) in
      if N.land flags f =? 0 then
        let (fl, o) := loc_first (N.lor flags f) r in (fl, loc_enc x ++ o)
      else loc_first flags r
  end.
(* 54-119 *)
Definition Uli_value (v : list location) : list N := let (fl, o) := loc_first 0 (loc_sort v) in fl :: o.
Definition Uli_marshal (x : Tliv (list location)) : list N := marshal_ie (ie_t x) Uli_value x.
(* 217-230 *)
Definition to_flags (i : N) : list N := filter (fun k => bit i (2 ^ (k - 1))) [1; 2; 3; 4; 5; 6; 7; 8].
(* 128-195 *)
Definition loc_dec (k : N) (t : list N) : res location :=
  if k =? 1 then let? v := Cgi_dec t in Ok (Loc_Cgi v)
  else if k =? 2 then let? v := Sai_dec t in Ok (Loc_Sai v)
  else if k =? 3 then let? v := Rai_dec t in Ok (Loc_Rai v)
  else if k =? 4 then let? v := Tai_dec t in Ok (Loc_Tai v)
  else if k =? 5 then let? v := Ecgi_dec t in Ok (Loc_Ecgi v)
  else if k =? 6 then let? v := Lai_dec t in Ok (Loc_Lai v)
  else if k =? 7 then let? v := MacroEnbId_dec t in Ok (Loc_Macro v)
  else let? v := ExtMacroEnbId_dec t in Ok (Loc_ExtMacro v).
Definition loc_step (k : N) : nat :=
  if k <=? 3 then 7 else if k =? 4 then 5 else if k =? 5 then 7 else if k =? 6 then 5 else 6.
Fixpoint loc_loop (order : list N) (b : list N) (c : nat) : res (list location) :=
  match order with
  | [] => Ok []
  | k :: ks =>
      let? t := slice_from b c in let? x := loc_dec k t in
      let? xs := loc_loop ks b (c + loc_step k) in Ok (x :: xs)
  end.
(* 121-199; the start of a slice may lie behind the end of the buffer *)
Definition Uli_unmarshal (m : mode) (b : list N) : res (Tliv (list location)) :=
  need b 4 (IEInvalidLength 86) (hdr4 b (fun len ins =>
  checked m len b (IEInvalidLength 86) (
  let? x := at_ b 4 in
  let? l := loc_loop (to_flags x) b 5 in Ok (std 86 len ins l)))).
(* 201-203 *)
Definition Uli_len (m : mode) (x : Tliv (list location)) : res nat := len_usize x.

(* ---- ulitimestamp.rs *)
(* 42-50 *)
Definition UliTimestamp_value (v : N) : list N := enc_be 4 v.
Definition UliTimestamp_marshal := marshal_ie 170 UliTimestamp_value.
(* 52-64 *)
Definition UliTimestamp_unmarshal (m : mode) (b : list N) : res (Tliv N) :=
  need b 8 (IEInvalidLength 170) (hdr4 b (fun len ins => let? v := be_at b 4 4 in Ok (std 170 len ins v))).
(* 66-68 *)
Definition UliTimestamp_len (m : mode) (x : Tliv N) : res nat := len_const 8.

(* ---- unknown.rs *)
(* 26-34 *)
Definition Unknown_value (v : list N) : list N := v.
Definition Unknown_marshal (x : Tliv (list N)) : list N := marshal_ie (ie_t x) Unknown_value x.
(* 36-53: the type field keeps its default 0, the instance octet is not masked, and the error of
   the first check reads an octet that an empty buffer does not have *)
Definition Unknown_unmarshal (m : mode) (b : list N) : res (Tliv (list N)) :=
  if (4 <=? length b)%nat then
    hdr4 b (fun len ins =>
    checked m len b (IEInvalidLength 0) (
    let? e := end16 m len 4 in let? s := slice b 4 e in Ok (mkIe 0 len ins s)))
  else let? t := at_ b 0 in Err (IEInvalidLength t).
(* 55-57 *)
Definition Unknown_len (m : mode) (x : Tliv (list N)) : res nat := len_usize x.

(* ---- upfsif.rs *)
(* 42-53 *)
Definition UpFunctionSelectionIndicationFlags_value (v : bool) : list N := [flag v 1].
Definition UpFunctionSelectionIndicationFlags_marshal := marshal_ie 202 UpFunctionSelectionIndicationFlags_value.
(* 55-71 *)
Definition UpFunctionSelectionIndicationFlags_unmarshal (m : mode) (b : list N) : res (Tliv bool) :=
  need b 5 (IEInvalidLength 202) (hdr4 b (fun len ins =>
  let? x := at_ b 4 in let? v := bool_of x (IEIncorrect 202) in Ok (std 202 len ins v))).
(* 73-75 *)
Definition UpFunctionSelectionIndicationFlags_len (m : mode) (x : Tliv bool) : res nat := len_const 5.

(* ---- upsp.rs *)
(* 75-83 *)
Definition UpSecurityPolicy_value (v : UpIpPolicy) : list N := [UpIpPolicy_to v].
Definition UpSecurityPolicy_marshal := marshal_ie 218 UpSecurityPolicy_value.
(* 85-97 *)
Definition UpSecurityPolicy_unmarshal (m : mode) (b : list N) : res (Tliv UpIpPolicy) :=
  need b 5 (IEInvalidLength 218) (hdr4 b (fun len ins =>
  let? x := at_ b 4 in Ok (std 218 len ins (UpIpPolicy_of (N.land x 3))))).
(* 99-101 *)
Definition UpSecurityPolicy_len (m : mode) (x : Tliv UpIpPolicy) : res nat := len_const 5.

(* ---- wlanoffloadindication.rs *)
(* 22-28 *)
Record wlan_offload := mkWlanOffload { wo_eutran : bool; wo_utran : bool }.
(* 49-62 *)
Definition WlanOffloadIndication_value (v : wlan_offload) : list N := [flag (wo_eutran v) 2 + flag (wo_utran v) 1].
Definition WlanOffloadIndication_marshal := marshal_ie 185 WlanOffloadIndication_value.
(* 64-82 *)
Definition WlanOffloadIndication_unmarshal (m : mode) (b : list N) : res (Tliv wlan_offload) :=
  need b 5 (IEInvalidLength 185) (hdr4 b (fun len ins =>
  let? x := at_ b 4 in Ok (std 185 len ins (mkWlanOffload (bit x 2) (bit x 1))))).
(* 84-86 *)
Definition WlanOffloadIndication_len (m : mode) (x : Tliv wlan_offload) : res nat := len_const 5.
