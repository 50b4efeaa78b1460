(* V2ValSpec.v - what the octets of every GTPv2-C information element are, written down from the
   figures of 3GPP TS 29.274, clause 8, and without the encoders of the model: numbers by division,
   octets as rows of bit fields.

   The value types are the ones of the crate. Where the crate does not follow the standard, the
   layout below is the crate's and a remark says so; the theorems C59_... state those deviations. *)
From Verif Require Import Base.
From Verif Require Export V2WireSpec.
Local Open Scope N_scope.

(* ------------------------------------------------------------------------- *)
(* the vocabulary *)

(* a number in k octets, most significant first *)
Fixpoint num (k : nat) (v : N) : list N :=
  match k with O => [] | S j => num j (v / 256) ++ [v mod 256] end.
(* one octet as a row of bit fields (width, value), bit 8 first. A row that is not eight bits wide
   or holds a value too large for its field is no octet at all. *)
Definition octet (fields : list (N * N)) : N :=
  if (fold_right (fun f s => fst f + s) 0 fields =? 8) && forallb (fun f => snd f <? 2 ^ fst f) fields
  then fold_left (fun acc f => acc * 2 ^ fst f + snd f) fields 0
  else 256.
Definition one (b : bool) : N := if b then 1 else 0.
Definition given {A} (o : option A) : N := match o with Some _ => 1 | None => 0 end.
(* eight one-bit flags *)
Definition row (b8 b7 b6 b5 b4 b3 b2 b1 : bool) : N :=
  octet [(1, one b8); (1, one b7); (1, one b6); (1, one b5); (1, one b4); (1, one b3); (1, one b2); (1, one b1)].
(* a string of octets behind a length octet *)
Definition sized (x : list N) : list N := nlen x :: x.
Definition opt {A} (w : A -> list N) (o : option A) : list N := match o with Some x => w x | None => [] end.
(* an optional string that leaves a zero length octet behind when it is absent *)
Definition sized0 (o : option (list N)) : list N := match o with Some x => sized x | None => [0] end.
Definition every {A} (w : A -> list N) (l : list A) : list N := concat (map w l).
(* decimal digits, two to an octet, the first in the low half; an odd one out is paired with 1111 *)
Fixpoint semi_octets (s : list N) : list N :=
  match s with
  | [] => []
  | [a] => [octet [(4, 15); (4, a - 48)]]
  | a :: b :: r => octet [(4, b - 48); (4, a - 48)] :: semi_octets r
  end.
(* TS 23.003 9.1: each dot separated label behind a length octet *)
Definition labels (s : list N) : list N := every (fun w => sized (utf8 w)) (split_dot s).
(* TS 24.008 10.5.1.3: MCC and MNC digits *)
Definition plmn_wire (p : plmn) : list N :=
  let mcc1 := p_mcc p / 100 in let mcc2 := p_mcc p / 10 mod 10 in let mcc3 := p_mcc p mod 10 in
  let mnc1 := if p_three p then p_mnc p / 100 else p_mnc p / 10 in
  let mnc2 := if p_three p then p_mnc p / 10 mod 10 else p_mnc p mod 10 in
  let mnc3 := if p_three p then p_mnc p mod 10 else 15 in
  [octet [(4, mcc2); (4, mcc1)]; octet [(4, mnc3); (4, mcc3)]; octet [(4, mnc2); (4, mnc1)]].
Definition address (a : ipaddr) : list N := match a with IpV4 o => o | IpV6 o => o end.

(* ------------------------------------------------------------------------- *)
(* the values for which the layouts are meant *)

Definition short (x : list N) : Prop := nlen x < 256.
Definition digits (s : list N) : Prop := Forall (fun c => 48 <= c <= 57) s.
Definition if_given {A} (P : A -> Prop) (o : option A) : Prop := match o with Some x => P x | None => True end.
Definition plmn_fits (p : plmn) : Prop := p_mcc p < 1000 /\ p_mnc p < (if p_three p then 1000 else 100).
Definition labels_fit (s : list N) : Prop := Forall (fun w => short (utf8 w)) (split_dot s).
Definition address_fits (a : ipaddr) : Prop :=
  match a with IpV4 o => length o = 4%nat | IpV6 o => length o = 16%nat end.

(* ------------------------------------------------------------------------- *)
(* parts of elements *)

Definition Cgi_wire (v : cgi) := plmn_wire (cgi_plmn v) ++ num 2 (cgi_lac v) ++ num 2 (cgi_ci v).
Definition Sai_wire (v : sai) := plmn_wire (sai_plmn v) ++ num 2 (sai_lac v) ++ num 2 (sai_sac v).
(* TS 29.274 8.21.3: two octets of routing area code, the second all ones *)
Definition Rai_wire (v : rai) := plmn_wire (rai_plmn v) ++ num 2 (rai_lac v) ++ [rai_rac v; 255].
Definition Tai_wire (v : tai) := plmn_wire (tai_plmn v) ++ num 2 (tai_tac v).
(* 28 bits of cell identifier in four octets *)
Definition Ecgi_wire (v : ecgi) := plmn_wire (ecgi_plmn v) ++ num 4 (ecgi_eci v).
Definition Lai_wire (v : lai) := plmn_wire (lai_plmn v) ++ num 2 (lai_lac v).
(* 20 bits of identifier in three octets *)
Definition Macro_wire (v : macro_enb) := plmn_wire (me_plmn v) ++ num 3 (me_id v).
Definition ExtMacro_wire (v : ext_macro_enb) :=
  plmn_wire (xe_plmn v) ++ [octet [(1, one (xe_smenb v)); (2, 0); (5, xe_id v / 65536)]] ++ num 2 (xe_id v).
Definition ExtMacro_fits (v : ext_macro_enb) : Prop :=
  plmn_fits (xe_plmn v) /\ xe_id v < (if xe_smenb v then 2 ^ 18 else 2 ^ 21).
Definition Triplet_wire (v : auth_triplet) := at_rand v ++ at_sres v ++ at_kc v.
Definition Quintuplet_wire (v : auth_quintuplet) :=
  aq_rand v ++ sized (aq_xres v) ++ aq_ck v ++ aq_ik v ++ sized (aq_autn v).
Definition Quintuplet_fits (v : auth_quintuplet) : Prop := short (aq_xres v) /\ short (aq_autn v).
Definition Quadruplet_wire (v : auth_quadruplet) :=
  ad_rand v ++ sized (ad_xres v) ++ sized (ad_autn v) ++ ad_kasme v.
Definition Quadruplet_fits (v : auth_quadruplet) : Prop := short (ad_xres v) /\ short (ad_autn v).
Definition AmbrMm_wire (v : ambr_mm) := num 4 (amm_ul v) ++ num 4 (amm_dl v).
Definition Access_wire (v : access_restriction) : list N :=
  [row (ax_ecna v) (ax_nbna v) (ax_hnna v) (ax_ena v) (ax_ina v) (ax_gana v) (ax_gena v) (ax_una v)].
Definition ExtAccess_wire (o : option ext_access_restriction) : list N :=
  match o with
  | Some v => [1; row false false false (ex_nruna v) (ex_nrusrna v) (ex_nrna v) (ex_ussrna v) (ex_nrsrna v)]
  | None => [0]
  end.
Definition OldEps_wire (v : old_eps_ctx) : list N :=
  octet [(1, given (oe_next_hop v)); (1, 0); (3, oe_ksi v); (3, match oe_ncc v with Some n => n | None => 0 end)]
  :: oe_kasme v ++ opt (fun n => n) (oe_next_hop v).
Definition OldEps_fits (v : old_eps_ctx) : Prop := oe_ksi v < 8 /\ if_given (fun n => n < 8) (oe_ncc v).
(* an APN rate control status inside an MM context: its length, the length of the APN, the APN, counters *)
Definition RateMm_wire (v : apn_rate_mm) : list N :=
  num 2 (22 + nlen (utf8 (rm_apn v))) ++ num 2 (nlen (utf8 (rm_apn v))) ++ utf8 (rm_apn v) ++
  num 4 (rm_ul v) ++ num 4 (rm_exc v) ++ num 4 (rm_dl v) ++ rm_validity v.
(* REMARK: the octet in front is the number of statuses, where the crate's own decoder (and the
   standard) has their length in octets *)
Definition Rates_wire (o : option (list apn_rate_mm)) : list N :=
  match o with Some l => nlen l :: every RateMm_wire l | None => [0] end.
Definition Rates_fit (o : option (list apn_rate_mm)) : Prop :=
  if_given (fun l => nlen l < 256 /\ Forall (fun v => length (rm_validity v) = 8%nat) l) o.

(* ------------------------------------------------------------------------- *)
(* elements, in the order of the crate's files *)

Definition ActionIndication_wire (v : IndicationValues) : list N :=
  [match v with
   | IndicationValues_NoAction => 0 | IndicationValues_DeactivationIndication => 1
   | IndicationValues_PagingIndication => 2 | IndicationValues_PagingStopIndication => 3
   | IndicationValues_Spare => 4 end].
Definition AdditionalFlagsSrvcc_wire (v : addflags_srvcc) := [row false false false false false false (af_vf v) (af_ics v)].
Definition AdditionalMm_wire (v : addmm_srvcc) :=
  sized0 (am_classmark2 v) ++ sized0 (am_classmark3 v) ++ sized0 (am_codecs v).
Definition AdditionalMm_fits (v : addmm_srvcc) : Prop :=
  if_given short (am_classmark2 v) /\ if_given short (am_classmark3 v) /\ if_given short (am_codecs v).
Definition Ambr_wire (v : ambr) := num 4 (ambr_ul v) ++ num 4 (ambr_dl v).
Definition ApnRate_wire (v : apn_rate) := num 4 (ar_ul v) ++ num 4 (ar_exc v) ++ num 4 (ar_dl v) ++ num 8 (ar_validity v).
(* REMARK: the standard has the length of the APN between the two *)
Definition ApnRelCap_wire (v : apn_rel_cap) := arc_cap v :: labels (arc_name v).
Definition ApnRestriction_wire (v : Restriction) : list N :=
  [match v with
   | Restriction_NoApnRestriction => 0 | Restriction_Public1 => 1 | Restriction_Public2 => 2
   | Restriction_Private1 => 3 | Restriction_Private2 => 4 end].
Definition Arp_wire (v : arp) := [octet [(1, 0); (1, one (arp_pci v)); (4, arp_pl v); (1, 0); (1, one (arp_pvi v))]].
Definition Arp_fits (v : arp) : Prop := arp_pl v < 16.
Definition BearerFlags_wire (v : bearer_flags) :=
  [row false false false false (bf_asi v) (bf_vind v) (bf_vb v) (bf_ppc v)].
Definition BearerQos_wire (v : bearer_qos) :=
  [octet [(1, 0); (1, bq_pci v); (4, bq_pl v); (1, 0); (1, bq_pvi v)]; bq_qci v] ++
  num 5 (bq_maxbr_ul v) ++ num 5 (bq_maxbr_dl v) ++ num 5 (bq_gbr_ul v) ++ num 5 (bq_gbr_dl v).
Definition BearerQos_fits (v : bearer_qos) : Prop := bq_pci v < 2 /\ bq_pl v < 16 /\ bq_pvi v < 2.
(* an offending element is named by its type; its length is zero and its instance is not reported *)
Definition Cause_wire (v : cause) :=
  [ca_value v; row false false false false false (ca_pce v) (ca_bce v) (ca_cs v)] ++
  opt (fun t => [t; 0; 0; 0]) (ca_offend v).
Definition ChangeToReport_wire (v : ctr_flags) := [row false false false false false false (ctr_tzcr v) (ctr_sncr v)].
Definition Ciot_wire (v : ciot) :=
  [row false false false false (ci_ihcsi v) (ci_awopdn v) (ci_scnipdn v) (ci_sgnipdn v)].
(* REMARK: the opposite of the bit that the User CSG Information carries for the same thing *)
Definition CsgMembership_wire (v : CsgMembership) : list N :=
  [match v with CsgMembership_CsgMembership => 0 | CsgMembership_NonCsgMembership => 1 end].
Definition Cnose_wire (v : SelectMode) : list N :=
  [match v with ServingNetworkSelectedbyUE => 0 | ServingNetworkSelectedbyNetwork => 1 end].

Definition CompleteRequest_wire (v : request_message) : list N :=
  match v with ReqAttach o => 0 :: o | ReqTau o => 1 :: o | ReqSpare => [2] end.
Definition Counter_wire (v : counter) := num 4 (ct_timestamp v) ++ [ct_counter v].
Definition DetachType_wire (v : DetachTypeValue) : list N :=
  [match v with
   | DetachTypeValue_Reserved => 0 | DetachTypeValue_PsDetach => 1 | DetachTypeValue_CombinedPsCsDetach => 2
   | DetachTypeValue_Spare => 3 end].
(* an EPS bearer identity is the low half of its octet *)
Definition Ebi_wire (v : N) := [octet [(4, 0); (4, v)]].
Definition half (v : N) : Prop := v < 16.
Definition EcgiList_wire (v : option (list ecgi)) : list N :=
  match v with Some l => num 2 (nlen l) ++ every Ecgi_wire l | None => num 2 0 end.
Definition EcgiList_fits (v : option (list ecgi)) : Prop :=
  if_given (fun l => Forall (fun e => plmn_fits (ecgi_plmn e)) l) v.
Definition EpcTimer_wire (v : epc_timer) := [octet [(3, et_unit v); (5, et_value v)]].
Definition EpcTimer_fits (v : epc_timer) : Prop := et_unit v < 8 /\ et_value v < 32.
Definition ExtTrace_wire (v : ext_trace) :=
  plmn_wire (xt_plmn v) ++ num 3 (xt_id v) ++ sized (xt_events v) ++ sized (xt_ne v) ++ [xt_depth v] ++
  sized (xt_ifs v) ++ sized (address (xt_ip v)).
Definition ExtTrace_fits (v : ext_trace) : Prop :=
  plmn_fits (xt_plmn v) /\ short (xt_events v) /\ short (xt_ne v) /\ short (xt_ifs v) /\ address_fits (xt_ip v).
Definition Fcause_wire (v : fcause) :=
  match fc_type v with
  | CauseType_RadioNetworkLayer => 0 | CauseType_TransportLayer => 1 | CauseType_Nas => 2
  | CauseType_Protocol => 3 | CauseType_Misc => 4 | CauseType_Spare => 5 end :: fc_field v.
Definition Fcontainer_wire (v : container) : list N :=
  match v with
  | FcReserved => [0] | FcUtran o => 1 :: o | FcBss o => 2 :: o | FcEutran o => 3 :: o | FcNbifom o => 4 :: o
  | FcEnDc o => 5 :: o | FcInterSystemSON o => 6 :: o
  | FcUnknown o => o   (* carries its own container type *)
  end.
Definition FlowQos_wire (v : flow_qos) :=
  [fq_qci v] ++ num 5 (fq_maxbr_ul v) ++ num 5 (fq_maxbr_dl v) ++ num 5 (fq_gbr_ul v) ++ num 5 (fq_gbr_dl v).
Definition Fqcsid_wire (v : fqcsid) :=
  [octet [(4, match fs_node v with NodeV4 _ => 0 | NodeV6 _ => 1 | NodeNw _ => 2 end); (4, nlen (fs_csid v))]] ++
  match fs_node v with NodeV4 o => o | NodeV6 o => o | NodeNw n => num 4 n end ++ every (num 2) (fs_csid v).
Definition Fqcsid_fits (v : fqcsid) : Prop := nlen (fs_csid v) < 16.

Definition Fteid_wire (v : fteid) :=
  octet [(1, given (ft_v4 v)); (1, given (ft_v6 v)); (6, ft_if v)] :: num 4 (ft_teid v) ++
  opt (fun a => a) (ft_v4 v) ++ opt (fun a => a) (ft_v6 v).
(* REMARK: without any address the crate announces both *)
Definition Fteid_fits (v : fteid) : Prop := ft_if v < 64 /\ (ft_v4 v <> None \/ ft_v6 v <> None).
Definition GlobalCn_wire (v : global_cn) := plmn_wire (gc_plmn v) ++ num 2 (gc_id v).
Definition Guti_wire (v : guti) := plmn_wire (gu_plmn v) ++ num 2 (gu_mmegi v) ++ [gu_mmec v] ++ num 4 (gu_mtmsi v).
Definition HdrCompr_wire (v : hdr_compr) :=
  let has p := existsb (N.eqb p) (hc_profiles v) in
  (* RoHC profiles 0x0104, 0x0103, 0x0102, 0x0006, 0x0004, 0x0003, 0x0002 *)
  [row false (has 260) (has 259) (has 258) (has 6) (has 4) (has 3) (has 2); 0] ++ num 2 (hc_max_cid v).
Definition flag_wire (v : bool) : list N := [one v].
Definition Indication_wire (v : indication) : list N :=
  [ row (i_daf v) (i_dtf v) (i_hi v) (i_dfi v) (i_oi v) (i_isrsi v) (i_israi v) (i_sgwci v);
    row (i_sqci v) (i_uimsi v) (i_cfsi v) (i_crsi v) (i_ps v) (i_pt v) (i_si v) (i_msv v);
    row (i_retloc v) (i_pbic v) (i_srni v) (i_s6af v) (i_s4af v) (i_mbmdt v) (i_israu v) (i_ccrsi v);
    row (i_cprai v) (i_arrl v) (i_ppoff v) (i_ppon v) (i_ppsi v) (i_csfbi v) (i_clii v) (i_cpsr v);
    row (i_nsi v) (i_uasi v) (i_dtci v) (i_bdwi v) (i_psci v) (i_pcri v) (i_aosi v) (i_aopi v);
    row (i_roaai v) (i_epcosi v) (i_cpopci v) (i_pmtsmi v) (i_s11tf v) (i_pnsi v) (i_unaccsi v) (i_wpmsi v);
    row (i_g5snn26 v) (i_reprefi v) (i_g5siwki v) (i_eevrsi v) (i_ltemui v) (i_ltempi v) (i_enbcrsi v) (i_tspcmi v);
    row (i_csrmfi v) (i_mtedtn v) (i_mtedta v) (i_n5gnmi v) (i_g5cnrs v) (i_g5cnri v) (i_s5rho v) (i_ethpdn v);
    row (i_nspusi v) (i_pgwrnsi v) (i_rppcsi v) (i_pgwchi v) (i_sissme v) (i_nsenbi v) (i_idfupf v) (i_emci v);
    row false false false false false (i_ltemsai v) (i_srtpi v) (i_upipsi v) ].
Definition Ip4Cp_wire (v : ip4cp) := i4_prefix v :: i4_ip v.
Definition MaxLoss_wire (v : max_loss) :=
  octet [(6, 0); (1, given (ml_dl v)); (1, given (ml_ul v))] :: opt (num 2) (ml_ul v) ++ opt (num 2) (ml_dl v).
Definition two_bits_wire (v : N) := [octet [(6, 0); (2, v)]].
Definition quarter (v : N) : Prop := v < 4.
Definition MbmsFlags_wire (v : mbms_flags) := [row false false false false false false (mf_lmri v) (mf_msri v)].
(* two bits of address type, six bits of address length *)
Definition multicast_wire (a : ipaddr) : list N :=
  match a with IpV4 o => octet [(2, 0); (6, 4)] :: o | IpV6 o => octet [(2, 1); (6, 16)] :: o end.
Definition Multicast_wire (v : mbms_multicast) :=
  num 4 (mm_teid v) ++ multicast_wire (mm_a1 v) ++ multicast_wire (mm_a2 v) ++
  [match mm_hc v with MbmsHc_UncompressedHeader => 0 | MbmsHc_CompressedHeader => 1 end].
(* TS 23.003 15.3: the number of service area codes less one, then the codes *)
Definition MbmsSa_wire (v : list N) := (nlen v - 1) :: every (num 2) v.
Definition MbmsSa_fits (v : list N) : Prop := 1 <= nlen v <= 256.
(* 17 bits of seconds, 7 bits of days *)
Definition MbmsSd_wire (v : mbms_sd) := num 3 (sd_seconds v * 128 + sd_days v).
Definition MbmsSd_fits (v : mbms_sd) : Prop := sd_seconds v < 2 ^ 17 /\ sd_days v < 128.
Definition Mdt_wire (v : mdt_config) :=
  [match md_job v with
   | MdtJobType_ImmediateMdtonly => 0 | MdtJobType_LoggedMdtonly => 1 | MdtJobType_TraceOnly => 2
   | MdtJobType_ImmediateMdtandTrace => 3 | MdtJobType_RlfReportsonly => 4 | MdtJobType_RcefReportsonly => 5
   | MdtJobType_LoggedMbsfnMdt => 6 end] ++ md_meas v ++
  [md_trigger v; md_interval v; md_amount v; md_rsrp v; md_rsrq v] ++ sized0 (md_area v) ++
  [octet [(4, 0); (1, given (md_plmns v)); (1, given (md_pos v)); (1, given (md_lte v)); (1, given (md_rrm v))]] ++
  opt (num 1) (md_rrm v) ++ opt (num 1) (md_lte v) ++ opt (num 1) (md_pos v) ++
  opt (fun l => nlen l :: every plmn_wire l) (md_plmns v).
Definition Mdt_fits (v : mdt_config) : Prop :=
  if_given short (md_area v) /\ if_given (fun x => x < 256) (md_rrm v) /\ if_given (fun x => x < 256) (md_lte v) /\
  if_given (fun x => x < 256) (md_pos v) /\ if_given (fun l => nlen l < 256 /\ Forall plmn_fits l) (md_plmns v).

(* the MM contexts *)
Definition SecurityMode_num (v : SecurityMode) : N :=
  match v with
  | SecurityMode_GsmKeyAndTriplets => 0 | SecurityMode_UmtsKeyUsedCipherAndQuintuplets => 1
  | SecurityMode_GsmKeyUsedCipherAndQuintuplets => 2 | SecurityMode_UmtsKeyAndQuintuplets => 3
  | SecurityMode_EpsSecurityContextAndQuadruplets => 4 | SecurityMode_UmtsKeyQuadrupletsAndQuintuplets => 5
  | SecurityMode_Spare => 6
  end.
Definition Cipher_num (v : CipherValues) : N :=
  match v with
  | CipherValues_NoCipher => 0 | CipherValues_Gea1 => 1 | CipherValues_Gea2 => 2 | CipherValues_Gea3 => 3
  | CipherValues_Gea4 => 4 | CipherValues_Gea5 => 5 | CipherValues_Gea6 => 6 | CipherValues_Gea7 => 7
  end.
Definition GprsIntegrity_num (v : GprsIntegrityProtectionValues) : N :=
  match v with
  | GprsIntegrityProtectionValues_NoIntegrity => 0
  | GprsIntegrityProtectionValues_Gia4 => 4 | GprsIntegrityProtectionValues_Gia5 => 5
  end.
Definition NasCipher_num (v : NasCipherValues) : N :=
  match v with
  | NasCipherValues_NoChiper => 0 | NasCipherValues_Eea1 => 1 | NasCipherValues_Eea2 => 2 | NasCipherValues_Eea3 => 3
  | NasCipherValues_Eea4 => 4 | NasCipherValues_Eea5 => 5 | NasCipherValues_Eea6 => 6 | NasCipherValues_Eea7 => 7
  | NasCipherValues_Spare => 8
  end.
Definition NasIntegrity_num (v : NasIntegrityProtectionValues) : N :=
  match v with
  | NasIntegrityProtectionValues_NoIntegrity => 0 | NasIntegrityProtectionValues_Eia1 => 1
  | NasIntegrityProtectionValues_Eia2 => 2 | NasIntegrityProtectionValues_Eia3 => 3
  | NasIntegrityProtectionValues_Eia4 => 4 | NasIntegrityProtectionValues_Eia5 => 5
  | NasIntegrityProtectionValues_Eia6 => 6 | NasIntegrityProtectionValues_Eia7 => 7
  end.
Definition howmany {A} (o : option (list A)) : N := match o with Some l => nlen l | None => 0 end.
Definition upto7 {A} (P : A -> Prop) (o : option (list A)) : Prop := if_given (fun l => nlen l < 8 /\ Forall P l) o.
(* security mode, next hop indicator (or spare), DRX indicator, key set identifier *)
Definition mm_octet5 (s : SecurityMode) (nhi : N) (drx : option (list N)) (ksi : N) : N :=
  octet [(3, SecurityMode_num s); (1, nhi); (1, given drx); (3, ksi)].
Definition higher_wire (h : bool) : list N := if h then [1; 1] else [0].
(* subscribed and used AMBR, the capabilities, the MEI, access restrictions, voice domain preference *)
Definition mm_tail (s u : option ambr_mm) (ue ms mei : option (list N)) (ax : access_restriction) (vdn : option (list N)) : list N :=
  opt AmbrMm_wire s ++ opt AmbrMm_wire u ++ sized0 ue ++ sized0 ms ++ sized0 mei ++ Access_wire ax ++ sized0 vdn.
Definition mm_tail_fits (ue ms mei vdn : option (list N)) : Prop :=
  if_given short ue /\ if_given short ms /\ if_given short mei /\ if_given short vdn.
Definition MmGsmT_wire (v : mm_gsm_t) : list N :=
  [ mm_octet5 (t_sec v) 0 (t_drx v) (t_cksn v);
    octet [(3, howmany (t_trips v)); (3, 0); (1, given (t_uambr v)); (1, given (t_sambr v))];
    octet [(5, 0); (3, Cipher_num (t_ciph v))] ] ++
  num 8 (t_kc v) ++ opt (every Triplet_wire) (t_trips v) ++ opt (fun d => d) (t_drx v) ++
  mm_tail (t_sambr v) (t_uambr v) (t_ue v) (t_ms v) (t_mei v) (t_access v) (t_vdn v).
Definition MmGsmT_fits (v : mm_gsm_t) : Prop :=
  t_cksn v < 8 /\ upto7 (fun _ => True) (t_trips v) /\ mm_tail_fits (t_ue v) (t_ms v) (t_mei v) (t_vdn v).
Definition MmGsmCq_wire (v : mm_gsm_cq) : list N :=
  [ mm_octet5 (g_sec v) 0 (g_drx v) (g_cksn v);
    octet [(3, howmany (g_quints v)); (3, 0); (1, given (g_uambr v)); (1, given (g_sambr v))];
    octet [(5, 0); (3, Cipher_num (g_ciph v))] ] ++
  num 8 (g_kc v) ++ opt (every Quintuplet_wire) (g_quints v) ++ opt (fun d => d) (g_drx v) ++
  mm_tail (g_sambr v) (g_uambr v) (g_ue v) (g_ms v) (g_mei v) (g_access v) (g_vdn v) ++ higher_wire (g_higher v).
Definition MmGsmCq_fits (v : mm_gsm_cq) : Prop :=
  g_cksn v < 8 /\ upto7 Quintuplet_fits (g_quints v) /\ mm_tail_fits (g_ue v) (g_ms v) (g_mei v) (g_vdn v).
(* the IOV, GUPII and UGIPAI indicators; integrity protection and cipher algorithms *)
Definition umts_octet6 {A} (q : option (list A)) (iov : option N) (gupii : bool)
    (int : option GprsIntegrityProtectionValues) (u s : option ambr_mm) : N :=
  octet [(3, howmany q); (1, given iov); (1, one gupii); (1, given int); (1, given u); (1, given s)].
Definition umts_octet7 (int : option GprsIntegrityProtectionValues) (c : CipherValues) : N :=
  octet [(2, 0); (3, match int with Some i => GprsIntegrity_num i | None => 0 end); (3, Cipher_num c)].
Definition MmUmtsCq_wire (v : mm_umts_cq) : list N :=
  [ mm_octet5 (c_sec v) 0 (c_drx v) (c_ksi v);
    umts_octet6 (c_quints v) (c_iov v) (c_gupii v) (c_int v) (c_uambr v) (c_sambr v);
    umts_octet7 (c_int v) (c_ciph v) ] ++
  c_ck v ++ c_ik v ++ opt (every Quintuplet_wire) (c_quints v) ++ opt (fun d => d) (c_drx v) ++
  mm_tail (c_sambr v) (c_uambr v) (c_ue v) (c_ms v) (c_mei v) (c_access v) (c_vdn v) ++
  higher_wire (c_higher v) ++ opt (num 1) (c_iov v).
Definition MmUmtsCq_fits (v : mm_umts_cq) : Prop :=
  c_ksi v < 8 /\ upto7 Quintuplet_fits (c_quints v) /\ mm_tail_fits (c_ue v) (c_ms v) (c_mei v) (c_vdn v) /\
  if_given (fun x => x < 256) (c_iov v).
Definition MmUmtsQ_wire (v : mm_umts_q) : list N :=
  [ mm_octet5 (q_sec v) 0 (q_drx v) (q_ksi v);
    umts_octet6 (q_quints v) (q_iov v) (q_gupii v) (q_int v) (q_uambr v) (q_sambr v);
    umts_octet7 (q_int v) (q_ciph v) ] ++
  q_ck v ++ q_ik v ++ opt (every Quintuplet_wire) (q_quints v) ++ opt (fun d => d) (q_drx v) ++
  mm_tail (q_sambr v) (q_uambr v) (q_ue v) (q_ms v) (q_mei v) (q_access v) (q_vdn v) ++
  higher_wire (q_higher v) ++ opt (num 1) (q_iov v) ++ ExtAccess_wire (q_ext v).
Definition MmUmtsQ_fits (v : mm_umts_q) : Prop :=
  q_ksi v < 8 /\ upto7 Quintuplet_fits (q_quints v) /\ mm_tail_fits (q_ue v) (q_ms v) (q_mei v) (q_vdn v) /\
  if_given (fun x => x < 256) (q_iov v).
Definition MmUmtsQq_wire (v : mm_umts_qq) : list N :=
  [ mm_octet5 (d_sec v) 0 (d_drx v) (d_ksi v);
    octet [(3, howmany (d_quints v)); (3, howmany (d_quads v)); (1, given (d_uambr v)); (1, given (d_sambr v))];
    0 ] ++
  d_ck v ++ d_ik v ++ opt (every Quadruplet_wire) (d_quads v) ++ opt (every Quintuplet_wire) (d_quints v) ++
  opt (fun d => d) (d_drx v) ++
  mm_tail (d_sambr v) (d_uambr v) (d_ue v) (d_ms v) (d_mei v) (d_access v) (d_vdn v) ++ Rates_wire (d_rates v).
Definition MmUmtsQq_fits (v : mm_umts_qq) : Prop :=
  d_ksi v < 8 /\ upto7 Quadruplet_fits (d_quads v) /\ upto7 Quintuplet_fits (d_quints v) /\
  mm_tail_fits (d_ue v) (d_ms v) (d_mei v) (d_vdn v) /\ Rates_fit (d_rates v).
Definition MmEps_wire (v : mm_eps) : list N :=
  [ mm_octet5 (e_sec v) (given (e_nh v)) (e_drx v) (e_ksi v);
    octet [(3, howmany (e_quints v)); (3, howmany (e_quads v)); (1, given (e_uambr v)); (1, given (e_old v))];
    octet [(1, given (e_sambr v)); (3, NasIntegrity_num (e_int v)); (4, NasCipher_num (e_ciph v))] ] ++
  num 3 (e_dl v) ++ num 3 (e_ul v) ++ e_kasme v ++
  opt (every Quadruplet_wire) (e_quads v) ++ opt (every Quintuplet_wire) (e_quints v) ++ opt (fun d => d) (e_drx v) ++
  opt (fun n => n ++ [octet [(5, 0); (3, match e_ncc v with Some c => c | None => 0 end)]]) (e_nh v) ++
  opt AmbrMm_wire (e_sambr v) ++ opt AmbrMm_wire (e_uambr v) ++
  sized0 (e_ue v) ++ sized0 (e_ms v) ++ sized0 (e_mei v) ++ Access_wire (e_access v) ++
  opt OldEps_wire (e_old v) ++ sized0 (e_vdn v) ++ sized0 (e_radio v) ++ ExtAccess_wire (e_ext v) ++
  sized0 (e_addsec v) ++ sized0 (e_nrsec v) ++ Rates_wire (e_rates v) ++ sized0 (e_core v) ++ sized0 (e_radioid v) ++
  opt (num 1) (e_ensct v).
Definition MmEps_fits (v : mm_eps) : Prop :=
  e_ksi v < 8 /\ upto7 Quadruplet_fits (e_quads v) /\ upto7 Quintuplet_fits (e_quints v) /\
  if_given (fun n => n < 8) (e_ncc v) /\ mm_tail_fits (e_ue v) (e_ms v) (e_mei v) (e_vdn v) /\
  if_given OldEps_fits (e_old v) /\ if_given short (e_radio v) /\ if_given short (e_addsec v) /\
  if_given short (e_nrsec v) /\ Rates_fit (e_rates v) /\ if_given short (e_core v) /\
  if_given short (e_radioid v) /\ if_given (fun x => x < 256) (e_ensct v).

Definition MonExt_wire (v : mon_ext) :=
  octet [(6, 0); (1, given (mx_ext v)); (1, given (mx_rmplrt v))] :: num 4 (mx_ref v) ++ sized (utf8 (mx_id v)) ++
  opt (num 3) (mx_rmplrt v) ++ opt (num 8) (mx_ext v).
Definition MonExt_fits (v : mon_ext) : Prop := short (utf8 (mx_id v)).
Definition MonInfo_wire (v : mon_info) :=
  num 4 (mi_ref v) ++ sized (utf8 (mi_id v)) ++ num 2 (mi_reports v) ++ opt (num 8) (mi_ext v).
(* the flags travel in the upper half of the instance octet *)
Definition MonInfo_instance (v : mon_info) (ins : N) : N :=
  octet [(1, given (mi_ext v)); (1, one (mi_nscf v)); (1, one (mi_nsui v)); (1, one (mi_nsur v)); (4, ins)].
Definition MonInfo_fits (v : mon_info) : Prop := short (utf8 (mi_id v)).
Definition NodeFeatures_wire (v : node_features) :=
  [row (nf_psset v) (nf_mtedt v) (nf_eth v) (nf_s1un v) (nf_ciot v) (nf_ntsr v) (nf_mabr v) (nf_prn v)].
Definition NodeIdentifier_wire (v : node_identifier) := sized (utf8 (ni_name v)) ++ sized (utf8 (ni_realm v)).
Definition NodeIdentifier_fits (v : node_identifier) : Prop := short (utf8 (ni_name v)) /\ short (utf8 (ni_realm v)).
(* TS 29.002 ISDN-AddressString: no extension, international number, E.164, then the digits *)
Definition NodeNumber_wire (v : list N) := sized (octet [(1, 1); (3, 1); (4, 1)] :: semi_octets v).
Definition NodeNumber_fits (v : list N) : Prop := digits v /\ nlen v <= 508.
Definition NodeType_wire (v : Node) : list N := [match v with Node_Mme => 0 | Node_Sgsn => 1 end].
Definition Paa_wire (v : pdn_address) : list N :=
  match v with
  | Paa_V4 a => 1 :: a
  | Paa_V6 a prefix => 2 :: prefix :: a
  | Paa_Dual a4 a6 prefix => 3 :: prefix :: a6 ++ a4
  | Paa_NonIp => [4]
  | Paa_Ethernet => [5]
  end.
Definition PacketFlow_wire (v : packet_flow) := octet [(4, 0); (4, pf_ebi v)] :: num 4 (pf_id v).
Definition PacketFlow_fits (v : packet_flow) : Prop := pf_ebi v < 16.
Definition Paging_wire (v : paging_info) :=
  octet [(4, 0); (4, pg_ebi v)] :: octet [(7, 0); (1, given (pg_policy v))] :: opt (num 1) (pg_policy v).
Definition Paging_fits (v : paging_info) : Prop := pg_ebi v < 16 /\ if_given (fun x => x < 256) (pg_policy v).
Definition Pc5Flow_wire (v : pc5_flow) :=
  octet [(7, 0); (1, given (p5_range v))] :: p5_pqi v :: num 4 (p5_gfbr v) ++ num 4 (p5_mfbr v) ++ opt (num 1) (p5_range v).
Definition Pc5Flow_fits (v : pc5_flow) : Prop := if_given (fun x => x < 256) (p5_range v).
Definition PdnType_wire (v : Pdn) : list N :=
  [match v with
   | Pdn_Ipv4 => 1 | Pdn_Ipv6 => 2 | Pdn_Ipv46 => 3 | Pdn_NonIp => 4 | Pdn_Ethernet => 5 | Pdn_Reserved => 6 end].
Definition PduNumbers_wire (v : pdu_numbers) :=
  octet [(4, 0); (4, pn_nsapi v)] :: num 2 (pn_dl v) ++ num 2 (pn_ul v) ++ num 2 (pn_send v) ++ num 2 (pn_recv v).
Definition PduNumbers_fits (v : pdu_numbers) : Prop := pn_nsapi v < 16.
(* REMARK: a home eNB is written in the form of a macro eNB *)
Definition Praa_wire (v : praa) :=
  octet [(4, 0); (1, one (pa_inapra v)); (3, pa_action v)] :: num 3 (pa_prai v) ++
  [ octet [(4, nlen (pa_tai v)); (4, nlen (pa_rai v))];
    octet [(2, 0); (6, nlen (pa_macro v))]; octet [(2, 0); (6, nlen (pa_home v))]; octet [(2, 0); (6, nlen (pa_ecgi v))];
    octet [(2, 0); (6, nlen (pa_sai v))]; octet [(2, 0); (6, nlen (pa_cgi v))] ] ++
  every Tai_wire (pa_tai v) ++ every Macro_wire (pa_macro v) ++ every Macro_wire (pa_home v) ++
  every Ecgi_wire (pa_ecgi v) ++ every Rai_wire (pa_rai v) ++ every Sai_wire (pa_sai v) ++ every Cgi_wire (pa_cgi v) ++
  octet [(2, 0); (6, nlen (pa_ext v))] :: every ExtMacro_wire (pa_ext v).
Definition Praa_fits (v : praa) : Prop :=
  pa_action v < 8 /\
  (nlen (pa_tai v) < 16 /\ Forall (fun x => plmn_fits (tai_plmn x)) (pa_tai v)) /\
  (nlen (pa_rai v) < 16 /\ Forall (fun x => plmn_fits (rai_plmn x)) (pa_rai v)) /\
  (nlen (pa_macro v) < 64 /\ Forall (fun x => plmn_fits (me_plmn x)) (pa_macro v)) /\
  (nlen (pa_home v) < 64 /\ Forall (fun x => plmn_fits (me_plmn x)) (pa_home v)) /\
  (nlen (pa_ecgi v) < 64 /\ Forall (fun x => plmn_fits (ecgi_plmn x)) (pa_ecgi v)) /\
  (nlen (pa_sai v) < 64 /\ Forall (fun x => plmn_fits (sai_plmn x)) (pa_sai v)) /\
  (nlen (pa_cgi v) < 64 /\ Forall (fun x => plmn_fits (cgi_plmn x)) (pa_cgi v)) /\
  (nlen (pa_ext v) < 64 /\ Forall ExtMacro_fits (pa_ext v)).
(* identifier; inactive, more areas follow, outside, inside *)
Definition area_wire (more : bool) (a : presence_area) : list N :=
  match a with
  | Ipra i => num 3 i ++ [row false false false false false more false true]
  | Opra i => num 3 i ++ [row false false false false false more true false]
  | Inapra i => num 3 i ++ [row false false false false true more false false]
  end.
Fixpoint areas_wire (a : presence_area) (l : list presence_area) : list N :=
  match l with [] => area_wire false a | b :: r => area_wire true a ++ areas_wire b r end.
Definition Prai_wire (v : prai) := areas_wire (pr_area v) (match pr_more v with Some l => l | None => [] end).
Definition PrivateExt_wire (v : private_ext) := num 2 (pe_id v) ++ pe_value v.
Definition Pscell_wire (v : pscell) := plmn_wire (ps_plmn v) ++ ps_cgi v.
(* a flag is set where the sequence number is zero *)
Definition Rab_wire (v : rab_ctx) :=
  octet [(1, one (rc_ulp v =? 0)); (1, one (rc_dlp v =? 0)); (1, one (rc_ulg v =? 0)); (1, one (rc_dlg v =? 0)); (4, rc_nsapi v)]
  :: num 2 (rc_dlg v) ++ num 2 (rc_ulg v) ++ num 2 (rc_dlp v) ++ num 2 (rc_ulp v).
Definition Rab_fits (v : rab_ctx) : Prop := rc_nsapi v < 16.
(* protocol type and cause type, then the cause value *)
Definition RanNas_wire (v : ran_nas_cause) : list N :=
  match v with
  | Rn_S1ap (S1_Radio i) => [octet [(4, 1); (4, 0)]; i]
  | Rn_S1ap (S1_Transport i) => [octet [(4, 1); (4, 1)]; i]
  | Rn_S1ap (S1_Nas i) => [octet [(4, 1); (4, 2)]; i]
  | Rn_S1ap (S1_Protocol i) => [octet [(4, 1); (4, 3)]; i]
  | Rn_S1ap (S1_Misc i) => [octet [(4, 1); (4, 4)]; i]
  | Rn_S1ap (S1_Spare i) => [octet [(4, 1); (4, 5)]; i]
  | Rn_Emm i => [octet [(4, 2); (4, 0)]; i]
  | Rn_Esm i => [octet [(4, 3); (4, 0)]; i]
  | Rn_Diameter i => octet [(4, 4); (4, 0)] :: num 2 i
  | Rn_Ikev2 i => octet [(4, 5); (4, 0)] :: num 2 i
  | Rn_Spare => [octet [(4, 6); (4, 0)]; 0]
  end.
Definition Rat_wire (v : Rat) : list N :=
  [match v with
   | Rat_Reserved => 0 | Rat_Utran => 1 | Rat_Geran => 2 | Rat_Wlan => 3 | Rat_Gan => 4 | Rat_HspaEvo => 5
   | Rat_Eutran => 6 | Rat_Virtual => 7 | Rat_EutranNbiot => 8 | Rat_LteM => 9 | Rat_NR => 10
   | Rat_WbEutranLeo => 11 | Rat_WbEutranMeo => 12 | Rat_WbEutranGeo => 13 | Rat_WbEutranOthersat => 14
   | Rat_EutranNbiotLeo => 15 | Rat_EutranNbiotMeo => 16 | Rat_EutranNbiotGeo => 17 | Rat_EutranNbiotOthersat => 18
   | Rat_LteMLeo => 19 | Rat_LteMMeo => 20 | Rat_LteMGeo => 21 | Rat_LteMOthersat => 22 | Rat_Spare => 23 end].
(* the prefix only: the interface identifier of an IPv6 address is not carried *)
Definition RemoteIp_wire (v : remote_ip) : list N :=
  match v with Rip_NonIp => [0] | Rip_V4 a => 1 :: a | Rip_V6 a => 2 :: firstn 8 a end.

Definition RemoteUser_wire (v : remote_user) :=
  octet [(6, 0); (1, given (ru_imei v)); (1, given (ru_msisdn v))] :: sized (semi_octets (ru_imsi v)) ++
  opt (fun d => sized (semi_octets d)) (ru_msisdn v) ++ opt (fun d => sized (semi_octets d)) (ru_imei v).
Definition few_digits (s : list N) : Prop := digits s /\ nlen s <= 510.
Definition RemoteUser_fits (v : remote_user) : Prop :=
  few_digits (ru_imsi v) /\ if_given few_digits (ru_msisdn v) /\ if_given few_digits (ru_imei v).
Definition S103_wire (v : s103_pdf) := sized (address (s3_ip v)) ++ num 4 (s3_gre v) ++ sized (s3_ebis v).
Definition S103_fits (v : s103_pdf) : Prop := address_fits (s3_ip v) /\ short (s3_ebis v).
Definition S1udf_wire (v : s1_udf) := octet [(4, 0); (4, s1_ebi v)] :: sized (address (s1_ip v)) ++ num 4 (s1_teid v).
Definition S1udf_fits (v : s1_udf) : Prop := s1_ebi v < 16 /\ address_fits (s1_ip v).
Definition RatReport_wire (v : rat_report) :=
  [octet [(5, 0); (1, given (rr_transfer v)); (1, one (rr_irsgw v)); (1, one (rr_irpgw v))]; rr_rat v;
   octet [(4, 0); (4, rr_ebi v)]] ++
  num 4 (rr_start v) ++ num 4 (rr_end v) ++ num 8 (rr_dl v) ++ num 8 (rr_ul v) ++ opt sized (rr_transfer v).
Definition RatReport_fits (v : rat_report) : Prop := rr_ebi v < 16 /\ if_given short (rr_transfer v).
Definition ServiceIndicator_wire (v : ServiceIndication) : list N :=
  [match v with ServiceIndication_Spare => 0 | ServiceIndication_CsCallIndicator => 1 | ServiceIndication_SmsIndicator => 2 end].
Definition ServicesAuth_wire (v : services_auth) := [one (sa_vehicle v); one (sa_pedestrian v)].
Definition PlmnRate_wire (v : plmn_rate) := num 2 (pc_ul v) ++ num 2 (pc_dl v).
(* port, IPv6, IPv4 *)
Definition Sgi_wire (v : sgi_tunnel) :=
  octet [(5, 0); (1, given (sg_port v)); (1, match sg_ip v with IpV6 _ => 1 | IpV4 _ => 0 end);
         (1, match sg_ip v with IpV4 _ => 1 | IpV6 _ => 0 end)] :: address (sg_ip v) ++ opt (num 2) (sg_port v).
Definition Cell_wire (v : cell_id) := plmn_wire (ce_plmn v) ++ num 2 (ce_lac v) ++ [ce_rac v] ++ num 2 (ce_ci v).
Definition SourceId_wire (v : source_id) :=
  Cell_wire (si_target v) ++
  match si_source v with
  | St_Cell c => 0 :: Cell_wire c
  | St_Rnc r => 1 :: plmn_wire (sr_plmn r) ++ num 2 (sr_id r) ++ opt (num 2) (sr_ext r)
  | St_Spare => [2]
  end.
Definition SourceId_fits (v : source_id) : Prop :=
  plmn_fits (ce_plmn (si_target v)) /\
  match si_source v with St_Cell c => plmn_fits (ce_plmn c) | St_Rnc r => plmn_fits (sr_plmn r) | St_Spare => True end.
Definition SpecialIe_wire (v : special_ie) := num 2 (sp_ext v) ++ sp_data v.
Definition SrvccCause_wire (v : SrvccCauseValues) : list N :=
  [match v with
   | SrvccCauseValues_Reserved => 0 | SrvccCauseValues_Unspecified => 1
   | SrvccCauseValues_HandoverRelocationCancelledBySourceSystem => 2
   | SrvccCauseValues_HandoverRelocationFailureWithTargetSystem => 3
   | SrvccCauseValues_HandoverRelocationTargetNotAllowed => 4 | SrvccCauseValues_UnknownTargetId => 5
   | SrvccCauseValues_TargetCellNotAvailable => 6 | SrvccCauseValues_NoRadioResourcesAvailableInTargetCell => 7
   | SrvccCauseValues_FailureInRadioInterfaceProcedure => 8
   | SrvccCauseValues_PermanentSessionLegEstablishmentError => 9
   | SrvccCauseValues_TemporarySessionLegEstablishmentError => 10 | SrvccCauseValues_Spare => 11 end].
Definition StnSr_wire (v : stn_sr) := sn_nanpi v :: semi_octets (sn_msisdn v).
Definition StnSr_fits (v : stn_sr) : Prop := digits (sn_msisdn v).
(* the type of the target, then its identity. REMARK: a home eNB is written in the form of a macro eNB,
   and a macro eNB without tracking area code is written as a spare type without content *)
Definition Target_wire (v : target_type) : list N :=
  match v with
  | Tt_Rnc r => 0 :: plmn_wire (rai_plmn (rn_rai r)) ++ num 2 (rai_lac (rn_rai r)) ++ [rai_rac (rn_rai r)] ++
                num 2 (rn_id r) ++ opt (num 2) (rn_ext r)
  | Tt_MacroeNb e => 1 :: Macro_wire (mt_enb e) ++ num 2 (mt_tac e)
  | Tt_Cell c => 2 :: Cell_wire c
  | Tt_Home e => 3 :: Macro_wire (mt_enb e) ++ num 2 (mt_tac e)
  | Tt_ExtMacro e => 4 :: ExtMacro_wire (xt_enb e) ++ num 2 (xt_tac e)
  | Tt_GNb g => 5 :: plmn_wire (gn_plmn g) ++ [octet [(2, 0); (6, gn_length g)]] ++ num 4 (gn_id g) ++ gn_etac g
  | Tt_MacroNg e => 6 :: Macro_wire (mn_enb e) ++ mn_etac e
  | Tt_ExtNg e => 7 :: ExtMacro_wire (xn_enb e) ++ xn_etac e
  | Tt_EnGNb g => 8 :: plmn_wire (eg_plmn g) ++ [octet [(1, given (eg_tac g)); (1, given (eg_etac g)); (6, eg_length g)]] ++
                  num 4 (eg_id g) ++ opt (num 2) (eg_tac g) ++ opt (fun e => e) (eg_etac g)
  | Tt_MacroEnbIdentifier _ => [9]
  | Tt_Spare => [9]
  end.
Definition Target_fits (v : target_type) : Prop :=
  match v with
  | Tt_Rnc r => plmn_fits (rai_plmn (rn_rai r))
  | Tt_MacroeNb e => plmn_fits (me_plmn (mt_enb e))
  | Tt_Cell c => plmn_fits (ce_plmn c)
  | Tt_Home e => plmn_fits (me_plmn (mt_enb e))
  | Tt_ExtMacro e => ExtMacro_fits (xt_enb e)
  | Tt_GNb g => plmn_fits (gn_plmn g) /\ gn_length g < 64
  | Tt_MacroNg e => plmn_fits (me_plmn (mn_enb e))
  | Tt_ExtNg e => ExtMacro_fits (xn_enb e)
  | Tt_EnGNb g => plmn_fits (eg_plmn g) /\ eg_length g < 64
  | Tt_MacroEnbIdentifier _ => True
  | Tt_Spare => True
  end.
Definition Throttle_wire (v : throttle) := [octet [(3, th_unit v); (5, th_value v)]; th_factor v].
Definition Throttle_fits (v : throttle) : Prop := th_unit v < 8 /\ th_value v < 32.
Definition TraceInfo_wire (v : trace_info) :=
  plmn_wire (ti_plmn v) ++ num 3 (ti_id v) ++ ti_events v ++ num 2 (ti_ne v) ++ [ti_depth v] ++ ti_ifs v ++ ti_ip v.
Definition TraceRef_wire (v : trace_ref) := plmn_wire (tr_plmn v) ++ num 3 (tr_id v).
(* REMARK: from 7 on TS 24.007 has the ones 111 in the first octet and a one in front of the second *)
Definition Transaction_wire (v : transaction_id) :=
  if tx_id v <? 7 then [octet [(1, one (tx_flag v)); (3, tx_id v); (4, 0)]]
  else [octet [(1, one (tx_flag v)); (7, 0)]; tx_id v].
Definition Twan_wire (v : twan_id) :=
  octet [(3, 0); (1, given (tw_relay v)); (1, given (tw_name v)); (1, given (tw_plmn v)); (1, given (tw_civic v));
         (1, given (tw_bssid v))] ::
  sized (tw_ssid v) ++ opt (fun b => b) (tw_bssid v) ++ opt sized (tw_civic v) ++ opt plmn_wire (tw_plmn v) ++
  opt (fun s => sized (utf8 s)) (tw_name v) ++ opt (fun r => fst r :: sized (snd r)) (tw_relay v) ++
  opt sized (tw_circuit v).
Definition Twan_fits (v : twan_id) : Prop :=
  short (tw_ssid v) /\ if_given short (tw_civic v) /\ if_given plmn_fits (tw_plmn v) /\
  if_given (fun s => short (utf8 s)) (tw_name v) /\ if_given (fun r => short (snd r)) (tw_relay v) /\
  if_given short (tw_circuit v).
Definition Twmi_wire (v : twmi) := [row false false false false false false (tm_mcm v) (tm_scm v)].
(* 27 bits of CSG identity; access mode, spare, LCSG, CMI *)
Definition Uci_wire (v : uci) :=
  plmn_wire (uc_plmn v) ++ num 4 (uc_csgid v) ++
  [octet [(2, match uc_mode v with AccessMode_ClosedMode => 0 | AccessMode_HybridMode => 1 | AccessMode_Reserved => 2 end);
          (4, 0); (1, one (uc_lcsg v));
          (1, match uc_cmi v with Cmi_NonCsgMembership => 0 | Cmi_CsgMembership => 1 end)]].
Definition Uci_fits (v : uci) : Prop := plmn_fits (uc_plmn v) /\ uc_csgid v < 2 ^ 27.
(* sign and magnitude in quarters of an hour. REMARK: TS 23.040 has two decimal digits in swapped
   halves, with the sign in bit 4 *)
Definition TimeZone_wire (v : ue_time_zone) :=
  [octet [(1, one (tz_zone v <? 0)%Z); (7, Z.to_N (Z.abs (tz_zone v)))]; octet [(6, 0); (2, tz_dst v)]].
Definition TimeZone_fits (v : ue_time_zone) : Prop := (-127 <= tz_zone v <= 127)%Z /\ tz_dst v < 4.
(* which locations are there, then the locations in the order of the standard *)
Definition loc_wire (l : location) : list N :=
  match l with
  | Loc_Cgi v => Cgi_wire v | Loc_Sai v => Sai_wire v | Loc_Rai v => Rai_wire v | Loc_Tai v => Tai_wire v
  | Loc_Ecgi v => Ecgi_wire v | Loc_Lai v => Lai_wire v | Loc_Macro v => Macro_wire v | Loc_ExtMacro v => ExtMacro_wire v
  end.
Definition is_cgi l := match l with Loc_Cgi _ => true | _ => false end.
Definition is_sai l := match l with Loc_Sai _ => true | _ => false end.
Definition is_rai l := match l with Loc_Rai _ => true | _ => false end.
Definition is_tai l := match l with Loc_Tai _ => true | _ => false end.
Definition is_ecgi l := match l with Loc_Ecgi _ => true | _ => false end.
Definition is_lai l := match l with Loc_Lai _ => true | _ => false end.
Definition is_macro l := match l with Loc_Macro _ => true | _ => false end.
Definition is_ext l := match l with Loc_ExtMacro _ => true | _ => false end.
Definition Uli_wire (v : list location) : list N :=
  row (existsb is_ext v) (existsb is_macro v) (existsb is_lai v) (existsb is_ecgi v)
      (existsb is_tai v) (existsb is_rai v) (existsb is_sai v) (existsb is_cgi v) ::
  every loc_wire (filter is_cgi v ++ filter is_sai v ++ filter is_rai v ++ filter is_tai v ++
                  filter is_ecgi v ++ filter is_lai v ++ filter is_macro v ++ filter is_ext v).
(* at most one location of each kind, in any order *)
Definition Uli_fits (v : list location) : Prop :=
  Forall (fun is => (length (filter is v) <= 1)%nat)
    [is_cgi; is_sai; is_rai; is_tai; is_ecgi; is_lai; is_macro; is_ext] /\
  Forall (fun l => match l with
    | Loc_Cgi x => plmn_fits (cgi_plmn x) | Loc_Sai x => plmn_fits (sai_plmn x) | Loc_Rai x => plmn_fits (rai_plmn x)
    | Loc_Tai x => plmn_fits (tai_plmn x) | Loc_Ecgi x => plmn_fits (ecgi_plmn x) | Loc_Lai x => plmn_fits (lai_plmn x)
    | Loc_Macro x => plmn_fits (me_plmn x) | Loc_ExtMacro x => ExtMacro_fits x end) v.
Definition UpPolicy_wire (v : UpIpPolicy) : list N :=
  [match v with UpIpPolicy_NotNeeded => 0 | UpIpPolicy_Preferred => 1 | UpIpPolicy_Required => 2 | UpIpPolicy_Spare => 3 end].
Definition Wlan_wire (v : wlan_offload) := [row false false false false false false (wo_eutran v) (wo_utran v)].

(* ------------------------------------------------------------------------- *)
(* grouped elements: members in full, one after the other *)

Definition member {A} (code : N) (w : A -> list N) (x : Tliv A) : list N := framed code (ie_ins x) (w (ie_v x)).
Definition mfits {A} (P : A -> Prop) (x : Tliv A) : Prop := P (ie_v x).
Definition octets_wire (v : list N) : list N := v.
Definition byte_wire (v : N) : list N := [v].

Definition LoadControl_wire (v : load_control) :=
  member 183 (num 4) (lc_sqn v) ++ member 182 byte_wire (lc_metric v) ++
  opt (every (member 184 ApnRelCap_wire)) (lc_list v).
Definition LoadControl_fits (v : load_control) : Prop :=
  if_given (Forall (mfits (fun x => labels_fit (arc_name x)))) (lc_list v).
Definition Overload_wire (v : overload_control) :=
  member 183 (num 4) (oc_sqn v) ++ member 182 byte_wire (oc_metric v) ++ member 156 EpcTimer_wire (oc_validity v) ++
  opt (every (member 71 labels)) (oc_list v).
Definition Overload_fits (v : overload_control) : Prop :=
  mfits EpcTimer_fits (oc_validity v) /\ if_given (Forall (mfits labels_fit)) (oc_list v).
Definition RemoteCtx_wire (v : remote_ue_context) :=
  member 192 RemoteUser_wire (re_user_id v) ++ opt (member 193 RemoteIp_wire) (re_ue_ip v).
Definition RemoteCtx_fits (v : remote_ue_context) : Prop := mfits RemoteUser_fits (re_user_id v).
Definition Pc5Params_wire (v : pc5_qos_parameters) :=
  every (member 212 Pc5Flow_wire) (p5_flows v) ++ opt (member 211 (num 4)) (p5_abrs v).
Definition Pc5Params_fits (v : pc5_qos_parameters) : Prop := Forall (mfits Pc5Flow_fits) (p5_flows v).
Definition PgwChange_wire (v : pgw_change_info) :=
  every (member 74 address) (pw_ips v) ++ every (member 215 labels) (pw_fqdns v) ++
  every (member 132 Fqcsid_wire) (pw_fqcsid v) ++ every (member 216 octets_wire) (pw_groupids v).
Definition PgwChange_fits (v : pgw_change_info) : Prop :=
  Forall (mfits labels_fit) (pw_fqdns v) /\ Forall (mfits Fqcsid_fits) (pw_fqcsid v).
Definition Scef_wire (v : scef_pdn_connections) :=
  member 71 labels (sf_apn v) ++ member 73 Ebi_wire (sf_ebi v) ++ member 176 NodeIdentifier_wire (sf_scef v).
Definition Scef_fits (v : scef_pdn_connections) : Prop :=
  mfits labels_fit (sf_apn v) /\ mfits half (sf_ebi v) /\ mfits NodeIdentifier_fits (sf_scef v).
(* REMARK: the BSS container and the transaction identifier of the struct are not written *)
Definition Bearer_wire (v : bearer_context) :=
  opt (member 2 Cause_wire) (bc_cause v) ++ member 73 Ebi_wire (bc_ebi v) ++ opt (member 84 octets_wire) (bc_tft v) ++
  every (member 87 Fteid_wire) (bc_fteids v) ++ opt (member 80 BearerQos_wire) (bc_qos v) ++
  opt (member 94 (num 4)) (bc_charging v) ++ opt (member 97 BearerFlags_wire) (bc_flags v) ++
  opt (member 78 octets_wire) (bc_pco v) ++ opt (member 163 octets_wire) (bc_apco v) ++
  opt (member 197 octets_wire) (bc_epco v) ++ opt (member 203 MaxLoss_wire) (bc_loss v) ++
  opt (member 172 RanNas_wire) (bc_ran v).
Definition Bearer_fits (v : bearer_context) : Prop :=
  mfits half (bc_ebi v) /\ Forall (mfits Fteid_fits) (bc_fteids v) /\ if_given (mfits BearerQos_fits) (bc_qos v).
Definition V2x_wire (v : v2x_information) :=
  every (member 210 ServicesAuth_wire) (vx_auth v) ++ every (member 211 (num 4)) (vx_brs v) ++
  opt (member 209 Pc5Params_wire) (vx_qos v).
Definition V2x_fits (v : v2x_information) : Prop := if_given (mfits Pc5Params_fits) (vx_qos v).
(* REMARK: the PGW change information and the user plane policy of the struct are not written *)
Definition Pdn_wire (v : pdn_connections) :=
  member 71 labels (pn_apn v) ++ opt (member 127 ApnRestriction_wire) (pn_restriction v) ++
  opt (member 128 two_bits_wire) (pn_selection v) ++ opt (member 74 address) (pn_ipv4 v) ++
  opt (member 74 address) (pn_ipv6 v) ++ member 73 Ebi_wire (pn_ebi v) ++ member 87 Fteid_wire (pn_pgw v) ++
  opt (member 136 labels) (pn_node_name v) ++ every (member 93 Bearer_wire) (pn_bearers v) ++
  member 72 Ambr_wire (pn_ambr v) ++ opt (member 95 (num 2)) (pn_charging v) ++
  opt (member 131 byte_wire) (pn_reporting v) ++ opt (member 146 byte_wire) (pn_csg v) ++
  opt (member 165 flag_wire) (pn_henb v) ++ opt (member 77 Indication_wire) (pn_indication v) ++
  opt (member 157 flag_wire) (pn_spi v) ++ opt (member 167 ChangeToReport_wire) (pn_report_flags v) ++
  opt (member 136 labels) (pn_home v) ++ opt (member 177 Praa_wire) (pn_praa v) ++
  opt (member 185 Wlan_wire) (pn_wlan v) ++ every (member 191 RemoteCtx_wire) (pn_remotes v) ++
  opt (member 99 PdnType_wire) (pn_pdn_type v) ++ opt (member 196 HdrCompr_wire) (pn_compr v).
Definition Pdn_fits (v : pdn_connections) : Prop :=
  mfits labels_fit (pn_apn v) /\ if_given (mfits quarter) (pn_selection v) /\ mfits half (pn_ebi v) /\
  mfits Fteid_fits (pn_pgw v) /\ if_given (mfits labels_fit) (pn_node_name v) /\
  Forall (mfits Bearer_fits) (pn_bearers v) /\ if_given (mfits labels_fit) (pn_home v) /\
  if_given (mfits Praa_fits) (pn_praa v) /\ Forall (mfits RemoteCtx_fits) (pn_remotes v).

(* ------------------------------------------------------------------------- *)
(* every element, with the type codes of TS 29.274 table 8.1-1 *)

Definition ie_wire (e : ie) : list N :=
  match e with
  | IE_Imsi i => member 1 semi_octets i
  | IE_Cause i => member 2 Cause_wire i
  | IE_Recovery i => member 3 byte_wire i
  | IE_StnSr i => member 51 StnSr_wire i
  | IE_SrvccCause i => member 56 SrvccCause_wire i
  | IE_Apn i => member 71 labels i
  | IE_ApnAmbr i => member 72 Ambr_wire i
  | IE_Ebi i => member 73 Ebi_wire i
  | IE_IpAddress i => member 74 address i
  | IE_Mei i => member 75 semi_octets i
  | IE_Msisdn i => member 76 semi_octets i
  | IE_Indication i => member 77 Indication_wire i
  | IE_Pco i => member 78 octets_wire i
  | IE_PdnAddressAllocation i => member 79 Paa_wire i
  | IE_BearerQos i => member 80 BearerQos_wire i
  | IE_FlowQos i => member 81 FlowQos_wire i
  | IE_RatType i => member 82 Rat_wire i
  | IE_ServingNetwork i => member 83 plmn_wire i
  | IE_BearerTft i => member 84 octets_wire i
  | IE_TrafficAggregateDescription i => member 85 octets_wire i
  | IE_Uli i => member 86 Uli_wire i
  | IE_Fteid i => member 87 Fteid_wire i
  | IE_Tmsi i => member 88 (num 4) i
  | IE_GlobalCnId i => member 89 GlobalCn_wire i
  | IE_S103pdf i => member 90 S103_wire i
  | IE_S1udf i => member 91 S1udf_wire i
  | IE_DelayValue i => member 92 byte_wire i
  | IE_BearerContext i => member 93 Bearer_wire i
  | IE_ChargingId i => member 94 (num 4) i
  | IE_ChargingCharacteristics i => member 95 (num 2) i
  | IE_TraceInformation i => member 96 TraceInfo_wire i
  | IE_BearerFlags i => member 97 BearerFlags_wire i
  | IE_PdnType i => member 99 PdnType_wire i
  | IE_Pti i => member 100 byte_wire i
  | IE_MmContext x =>
      match x with
      | MmGsmT i => member 103 MmGsmT_wire i | MmUmtsCq i => member 104 MmUmtsCq_wire i
      | MmGsmCq i => member 105 MmGsmCq_wire i | MmUmtsQ i => member 106 MmUmtsQ_wire i
      | MmEps i => member 107 MmEps_wire i | MmUmtsQq i => member 108 MmUmtsQq_wire i
      end
  | IE_PdnConnections i => member 109 Pdn_wire i
  | IE_PduNumbers i => member 110 PduNumbers_wire i
  | IE_Ptmsi i => member 111 (num 4) i
  | IE_PtmsiSignature i => member 112 (num 4) i
  | IE_HopCounter i => member 113 byte_wire i
  | IE_UeTimeZone i => member 114 TimeZone_wire i
  | IE_TraceReference i => member 115 TraceRef_wire i
  | IE_CompleteRequestMessage i => member 116 CompleteRequest_wire i
  | IE_Guti i => member 117 Guti_wire i
  | IE_Fcontainer i => member 118 Fcontainer_wire i
  | IE_Fcause i => member 119 Fcause_wire i
  | IE_PlmnId i => member 120 plmn_wire i
  | IE_TargetIdentification i => member 121 Target_wire i
  | IE_PacketFlowId i => member 123 PacketFlow_wire i
  | IE_RabContext i => member 124 Rab_wire i
  | IE_SrcRncPdcpCtxInfo i => member 125 octets_wire i
  | IE_PortNumber i => member 126 (num 2) i
  | IE_ApnRestriction i => member 127 ApnRestriction_wire i
  | IE_SelectionMode i => member 128 two_bits_wire i
  | IE_SourceIdentification i => member 129 SourceId_wire i
  | IE_ChangeReportingAction i => member 131 byte_wire i
  | IE_Fqcsid i => member 132 Fqcsid_wire i
  | IE_ChannelNeeded i => member 133 byte_wire i
  | IE_EmlppPriority i => member 134 byte_wire i
  | IE_NodeType i => member 135 NodeType_wire i
  | IE_Fqdn i => member 136 labels i
  | IE_TransactionIdentifier i => member 137 Transaction_wire i
  | IE_MbmsSa i => member 139 MbmsSa_wire i
  | IE_MbmsSd i => member 138 MbmsSd_wire i
  | IE_MbmsSessionId i => member 140 byte_wire i
  | IE_MbmsFlowId i => member 141 (num 2) i
  | IE_MbmsIpMulticastDistribution i => member 142 Multicast_wire i
  | IE_MbmsDistributionAck i => member 143 two_bits_wire i
  | IE_RfspIndex i => member 144 (num 2) i
  | IE_Uci i => member 145 Uci_wire i
  | IE_CSGInformationReportingAction i => member 146 byte_wire i
  | IE_CsgId i => member 147 (num 4) i
  | IE_CsgMembershipIndication i => member 148 CsgMembership_wire i
  | IE_ServiceIndicator i => member 149 ServiceIndicator_wire i
  | IE_DetachType i => member 150 DetachType_wire i
  | IE_Ldn i => member 151 utf8 i
  | IE_NodeFeatures i => member 152 NodeFeatures_wire i
  | IE_MbmsTimeToDataTransfer i => member 153 byte_wire i
  | IE_Throttling i => member 154 Throttle_wire i
  | IE_Arp i => member 155 Arp_wire i
  | IE_EpcTimer i => member 156 EpcTimer_wire i
  | IE_Spi i => member 157 flag_wire i
  | IE_Tmgi i => member 158 octets_wire i
  | IE_AdditionalMmContextForSrvcc i => member 159 AdditionalMm_wire i
  | IE_AdditionalFlagsSrvcc i => member 160 AdditionalFlagsSrvcc_wire i
  | IE_MdtConfiguration i => member 162 Mdt_wire i
  | IE_Apco i => member 163 octets_wire i
  | IE_AbsoluteTimeMbmsDataTransfer i => member 164 (num 8) i
  | IE_HenbInfoReporting i => member 165 flag_wire i
  | IE_Ip4Cp i => member 166 Ip4Cp_wire i
  | IE_ChangeToReportFlags i => member 167 ChangeToReport_wire i
  | IE_ActionIndication i => member 168 ActionIndication_wire i
  | IE_TwanId i => member 169 Twan_wire i
  | IE_UliTimestamp i => member 170 (num 4) i
  | IE_MbmsFlags i => member 171 MbmsFlags_wire i
  | IE_RanNasCause i => member 172 RanNas_wire i
  | IE_CnOperatorSelectionEntity i => member 173 Cnose_wire i
  | IE_Twmi i => member 174 Twmi_wire i
  | IE_NodeNumber i => member 175 NodeNumber_wire i
  | IE_NodeIdentifier i => member 176 NodeIdentifier_wire i
  | IE_PresenceReportingAreaAction i => member 177 Praa_wire i
  | IE_PresenceReportingAreaInformation i => member 178 Prai_wire i
  | IE_TwanIdTimeStamp i => member 179 (num 4) i
  | IE_OverloadControlInfo i => member 180 Overload_wire i
  | IE_LoadControlInfo i => member 181 LoadControl_wire i
  | IE_Metric i => member 182 byte_wire i
  | IE_Sqn i => member 183 (num 4) i
  | IE_ApnRelativeCapacity i => member 184 ApnRelCap_wire i
  | IE_WlanOffloadIndication i => member 185 Wlan_wire i
  | IE_PagingServiceInfo i => member 186 Paging_wire i
  | IE_IntegerNumber i => member 187 octets_wire i
  | IE_MilliSecondTimeStamp i => member 188 (num 6) i
  | IE_MonitoringEventInformation i => framed 189 (MonInfo_instance (ie_v i) (ie_ins i)) (MonInfo_wire (ie_v i))
  | IE_EcgiList i => member 190 EcgiList_wire i
  | IE_RemoteUeContext i => member 191 RemoteCtx_wire i
  | IE_RemoteUserId i => member 192 RemoteUser_wire i
  | IE_RemoteUeIpInformation i => member 193 RemoteIp_wire i
  | IE_CIoTOptimizationSupportIndication i => member 194 Ciot_wire i
  | IE_ScefPdnConnections i => member 195 Scef_wire i
  | IE_HeaderCompressionConfiguration i => member 196 HdrCompr_wire i
  | IE_Epco i => member 197 octets_wire i
  | IE_ServingPlmnRateControl i => member 198 PlmnRate_wire i
  | IE_Counter i => member 199 Counter_wire i
  | IE_MappedUeUsageType i => member 200 (num 2) i
  | IE_SecondaryRatUsageDataReport i => member 201 RatReport_wire i
  | IE_UpFunctionSelectionIndicationFlags i => member 202 flag_wire i
  | IE_MaxPacketLossRate i => member 203 MaxLoss_wire i
  | IE_ApnRateControlStatus i => member 204 ApnRate_wire i
  | IE_ExtendedTraceInformation i => member 205 ExtTrace_wire i
  | IE_MonitoringEventExtensionInfo i => member 206 MonExt_wire i
  | IE_AdditionalRrmPolicyIndex i => member 207 (num 4) i
  | IE_V2xInformation i => member 208 V2x_wire i
  | IE_PC5QosParameters i => member 209 Pc5Params_wire i
  | IE_ServicesAuthorized i => member 210 ServicesAuth_wire i
  | IE_BitRate i => member 211 (num 4) i
  | IE_PC5QosFlow i => member 212 Pc5Flow_wire i
  | IE_SgiPtpTunnelAddress i => member 213 Sgi_wire i
  | IE_PgwChangeInfo i => member 214 PgwChange_wire i
  | IE_PgwFqdn i => member 215 labels i
  | IE_GroupId i => member 216 octets_wire i
  | IE_PSCellId i => member 217 Pscell_wire i
  | IE_UpSecurityPolicy i => member 218 UpPolicy_wire i
  | IE_AlternativeImsi i => member 219 semi_octets i
  | IE_SpecialIEWithTypeExt i => member 254 SpecialIe_wire i
  | IE_PrivateExtension i => member 255 PrivateExt_wire i
  | IE_Unknown i => member (ie_t i) octets_wire i
  end.

(* the elements whose fields fit their place *)
Definition ie_fits (e : ie) : Prop :=
  match e with
  | IE_Imsi i => mfits digits i
  | IE_StnSr i => mfits StnSr_fits i
  | IE_Apn i => mfits labels_fit i
  | IE_Ebi i => mfits half i
  | IE_Mei i => mfits digits i
  | IE_Msisdn i => mfits digits i
  | IE_BearerQos i => mfits BearerQos_fits i
  | IE_ServingNetwork i => mfits plmn_fits i
  (* written with the type code of the struct *)
  | IE_Uli i => ie_t i = 86 /\ mfits Uli_fits i
  | IE_Fteid i => mfits Fteid_fits i
  | IE_GlobalCnId i => plmn_fits (gc_plmn (ie_v i))
  | IE_S103pdf i => mfits S103_fits i
  | IE_S1udf i => mfits S1udf_fits i
  | IE_BearerContext i => mfits Bearer_fits i
  | IE_TraceInformation i => plmn_fits (ti_plmn (ie_v i))
  | IE_MmContext x =>
      match x with
      | MmGsmT i => mfits MmGsmT_fits i | MmUmtsCq i => mfits MmUmtsCq_fits i | MmGsmCq i => mfits MmGsmCq_fits i
      | MmUmtsQ i => mfits MmUmtsQ_fits i | MmEps i => mfits MmEps_fits i | MmUmtsQq i => mfits MmUmtsQq_fits i
      end
  | IE_PdnConnections i => mfits Pdn_fits i
  | IE_PduNumbers i => mfits PduNumbers_fits i
  | IE_UeTimeZone i => mfits TimeZone_fits i
  (* never written with its own type code *)
  | IE_TraceReference _ => False
  | IE_Guti i => plmn_fits (gu_plmn (ie_v i))
  | IE_PlmnId i => mfits plmn_fits i
  | IE_TargetIdentification i => mfits Target_fits i
  | IE_PacketFlowId i => mfits PacketFlow_fits i
  | IE_RabContext i => mfits Rab_fits i
  | IE_SelectionMode i => mfits quarter i
  | IE_SourceIdentification i => mfits SourceId_fits i
  | IE_Fqcsid i => mfits Fqcsid_fits i
  | IE_Fqdn i => mfits labels_fit i
  | IE_MbmsSa i => mfits MbmsSa_fits i
  | IE_MbmsSd i => mfits MbmsSd_fits i
  | IE_MbmsDistributionAck i => mfits quarter i
  | IE_Uci i => mfits Uci_fits i
  | IE_Throttling i => mfits Throttle_fits i
  | IE_Arp i => mfits Arp_fits i
  | IE_EpcTimer i => mfits EpcTimer_fits i
  | IE_AdditionalMmContextForSrvcc i => mfits AdditionalMm_fits i
  | IE_MdtConfiguration i => mfits Mdt_fits i
  | IE_TwanId i => mfits Twan_fits i
  | IE_NodeNumber i => mfits NodeNumber_fits i
  | IE_NodeIdentifier i => mfits NodeIdentifier_fits i
  | IE_PresenceReportingAreaAction i => mfits Praa_fits i
  | IE_OverloadControlInfo i => mfits Overload_fits i
  | IE_LoadControlInfo i => mfits LoadControl_fits i
  | IE_ApnRelativeCapacity i => labels_fit (arc_name (ie_v i))
  | IE_PagingServiceInfo i => mfits Paging_fits i
  | IE_MonitoringEventInformation i => ie_ins i < 16 /\ mfits MonInfo_fits i
  | IE_EcgiList i => mfits EcgiList_fits i
  | IE_RemoteUeContext i => mfits RemoteCtx_fits i
  | IE_RemoteUserId i => mfits RemoteUser_fits i
  | IE_ScefPdnConnections i => mfits Scef_fits i
  | IE_SecondaryRatUsageDataReport i => mfits RatReport_fits i
  | IE_ExtendedTraceInformation i => mfits ExtTrace_fits i
  | IE_MonitoringEventExtensionInfo i => mfits MonExt_fits i
  | IE_V2xInformation i => mfits V2x_fits i
  | IE_PC5QosParameters i => mfits Pc5Params_fits i
  | IE_PC5QosFlow i => mfits Pc5Flow_fits i
  | IE_PgwChangeInfo i => mfits PgwChange_fits i
  | IE_PgwFqdn i => mfits labels_fit i
  | IE_PSCellId i => plmn_fits (ps_plmn (ie_v i))
  | IE_AlternativeImsi i => mfits digits i
  | _ => True
  end.

(* ------------------------------------------------------------------------- *)
(* header and message, TS 29.274 5.1 and 5.5.1 *)

(* version 2, piggybacking, TEID and message priority flags; type; length of what follows the fourth
   octet; the TEID if there is one; sequence number; message priority *)
Definition hdr2_wire (h : Gtpv2Header) (len : N) : list N :=
  [octet [(3, 2); (1, one (h2_piggyback h)); (1, given (h2_teid h)); (1, given (h2_prio h)); (2, 0)]; h2_msgtype h] ++
  num 2 len ++ opt (num 4) (h2_teid h) ++ num 3 (h2_sqn h) ++
  [octet [(4, match h2_prio h with Some p => p | None => 0 end); (4, 0)]].
Definition hdr2_fits (h : Gtpv2Header) : Prop := if_given (fun p => p < 16) (h2_prio h).
(* a header and the octets after it *)
Definition packet_wire (h : Gtpv2Header) (body : list N) : list N :=
  hdr2_wire h (nlen (hdr2_wire h 0 ++ body) - 4) ++ body.
