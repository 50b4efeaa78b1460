(* V2OkF.v - well-formed values of the IEs of V2IeF.v *)
From Verif Require Import Base.
From Verif Require Export V2IeSpec V2OkCommon V2IeF V2OkC V2OkE.
From Coq Require Import Sorted.
Local Open Scope N_scope.

Definition opt_ok {A} (ok : A -> Prop) (o : option A) : Prop := match o with Some i => ok i | None => True end.
(* decimal digits whose packed form fits behind a one-octet length *)
Definition short_digits (s : list N) : Prop := Forall (fun c => 48 <= c <= 57) s /\ nlen s <= 510.
Definition short_octets (s : list N) : Prop := nlen s < 256.
Definition RemoteUserId_ok (v : remote_user) : Prop :=
  short_digits (ru_imsi v) /\ opt_ok short_digits (ru_msisdn v) /\ opt_ok short_digits (ru_imei v).
Definition S103pdf_ok (v : s103_pdf) : Prop := ipaddr_ok (s3_ip v) /\ u32 (s3_gre v) /\ short_octets (s3_ebis v).
Definition S1udf_ok (v : s1_udf) : Prop := s1_ebi v < 16 /\ ipaddr_ok (s1_ip v) /\ u32 (s1_teid v).
Definition SecondaryRatUsageDataReport_ok (v : rat_report) : Prop :=
  byte (rr_rat v) /\ rr_ebi v < 16 /\ u32 (rr_start v) /\ u32 (rr_end v) /\ u64 (rr_dl v) /\ u64 (rr_ul v) /\
  opt_ok short_octets (rr_transfer v).
Definition two_bit (v : N) : Prop := v < 4.
Definition ServingPlmnRateControl_ok (v : plmn_rate) : Prop := u16 (pc_ul v) /\ u16 (pc_dl v).
Definition SgiPtpTunnelAddress_ok (v : sgi_tunnel) : Prop := ipaddr_ok (sg_ip v) /\ opt_lt 65536 (sg_port v).
Definition CellIdentifier_ok (v : cell_id) : Prop := plmn_ok (ce_plmn v) /\ u16 (ce_lac v) /\ byte (ce_rac v) /\ u16 (ce_ci v).
(* the extended RNC id must be there: without it the decoder takes the octets that follow the IE *)
Definition SourceRncIdentifier_ok (v : source_rnc) : Prop :=
  plmn_ok (sr_plmn v) /\ u16 (sr_id v) /\ exists e, sr_ext v = Some e /\ u16 e.
(* len() of the spare type is one too large *)
Definition source_type_ok (s : source_type) : Prop :=
  match s with St_Rnc i => SourceRncIdentifier_ok i | St_Cell i => CellIdentifier_ok i | St_Spare => False end.
Definition SourceIdentification_ok (v : source_id) : Prop := CellIdentifier_ok (si_target v) /\ source_type_ok (si_source v).
Definition SpecialIEWithTypeExt_ok (v : special_ie) : Prop := u16 (sp_ext v).
Definition StnSr_ok (v : stn_sr) : Prop := Forall (fun c => 48 <= c <= 57) (sn_msisdn v).
Definition etac_ok (e : list N) : Prop := length e = 3%nat.
(* as for the source type: the extended RNC id must be there, and the kinds whose len() is wrong
   (EN-gNB, spare, and the variant that is encoded as spare) are left out *)
Definition target_type_ok (t : target_type) : Prop :=
  match t with
  | Tt_Rnc v => Rai_ok (rn_rai v) /\ u16 (rn_id v) /\ exists e, rn_ext v = Some e /\ u16 e
  | Tt_MacroeNb v => MacroEnbId_ok (mt_enb v) /\ u16 (mt_tac v)
  | Tt_Cell v => CellIdentifier_ok v
  | Tt_Home v => MacroEnbId_ok (mt_enb v) /\ u16 (mt_tac v)
  | Tt_ExtMacro v => ExtMacroEnbId_ok (xt_enb v) /\ u16 (xt_tac v)
  | Tt_GNb v => plmn_ok (gn_plmn v) /\ u32 (gn_id v) /\ etac_ok (gn_etac v)
  | Tt_MacroNg v => MacroEnbId_ok (mn_enb v) /\ etac_ok (mn_etac v)
  | Tt_ExtNg v => ExtMacroEnbId_ok (xn_enb v) /\ etac_ok (xn_etac v)
  | _ => False
  end.
Definition Throttling_ok (v : throttle) : Prop := th_unit v < 5 /\ th_value v < 32 /\ th_factor v <= 100.
Definition len_six (v : list N) : Prop := length v = 6%nat.
Definition TraceInformation_ok (v : trace_info) : Prop :=
  plmn_ok (ti_plmn v) /\ ti_id v < 2 ^ 24 /\ length (ti_events v) = 9%nat /\ u16 (ti_ne v) /\
  length (ti_ifs v) = 12%nat /\ length (ti_ip v) = 4%nat.
Definition TraceReference_ok (v : trace_ref) : Prop := plmn_ok (tr_plmn v) /\ tr_id v < 2 ^ 24.
(* the circuit id is announced by the flag of the relay id: both or neither *)
Definition TwanId_ok (v : twan_id) : Prop :=
  short_octets (tw_ssid v) /\ opt_ok len_six (tw_bssid v) /\ opt_ok short_octets (tw_civic v) /\
  opt_ok plmn_ok (tw_plmn v) /\ opt_ok short_string (tw_name v) /\
  match tw_relay v, tw_circuit v with
  | Some (_, d), Some e => short_octets d /\ short_octets e
  | None, None => True
  | _, _ => False
  end.
Definition Uci_ok (v : uci) : Prop := plmn_ok (uc_plmn v) /\ uc_csgid v < 2 ^ 27.
(* -128 has no sign-magnitude form *)
Definition UeTimeZone_ok (v : ue_time_zone) : Prop := (-127 <= tz_zone v <= 127)%Z /\ tz_dst v < 4.
Definition location_ok (l : location) : Prop :=
  match l with
  | Loc_Cgi v => Cgi_ok v | Loc_Sai v => Sai_ok v | Loc_Rai v => Rai_ok v | Loc_Tai v => Tai_ok v
  | Loc_Ecgi v => Ecgi_ok v | Loc_Lai v => Lai_ok v | Loc_Macro v => MacroEnbId_ok v | Loc_ExtMacro v => ExtMacroEnbId_ok v
  end.
(* at most one location of each kind, in the order of the kinds *)
Definition Uli_ok (v : list location) : Prop :=
  Forall location_ok v /\ StronglySorted (fun a b => loc_kind a < loc_kind b) v.
Definition TransactionIdentifier_ok (v : transaction_id) : Prop := byte (tx_id v).
