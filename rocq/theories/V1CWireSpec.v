(* V1CWireSpec.v - the octets of every GTPv1-C information element as TS 29.060 7.7 lays them
   out (TS 24.008 for the parts it refers to), written with arithmetic only and independently
   of the encoders. *)
From Verif Require Import Base DigitsFacts Labels.
From Verif Require Export V1CSpec Octets.
Local Open Scope N_scope.

Definition plmn_wire (p : N * N * bool) : list N :=
  let '(mcc, mnc, three) := p in
  let m1 := mcc / 100 in let m2 := (mcc / 10) mod 10 in let m3 := mcc mod 10 in
  if three then [m2 * 16 + m1; (mnc mod 10) * 16 + m3; ((mnc / 10) mod 10) * 16 + mnc / 100]
  else [m2 * 16 + m1; 15 * 16 + m3; (mnc mod 10) * 16 + mnc / 10].
Definition ip_wire (i : IpAddr) : list N := match i with V4 a b c d => [a; b; c; d] | V6 o => o end.
(* the labels of a dotted name, each after its length *)
Definition name_wire (s : list N) : list N := concat (map (fun w => nlen w :: w) (split_dot s)).
(* flags, the first in the most significant place *)
Definition flags_wire (l : list bool) : N :=
  match map b2n l with
  | [a; b; c; d; e; f; g; h] => 128 * a + 64 * b + 32 * c + 16 * d + 8 * e + 4 * f + 2 * g + h
  | [f; g; h] => 4 * f + 2 * g + h
  | _ => 0
  end.
Definition yes (v : bool) : N := if v then 1 else 0.

(* the octets after the type code (and the length) *)
Definition ie1_value (i : ie1) : list N :=
  match i with
  | I1_Cause x => [tv_v x]
  | I1_Imsi x => tbcd_octets (tv_v x)
  | I1_Rai x => plmn_wire (rai_plmn (tv_v x)) ++ oct2 (rai_lac (tv_v x)) ++ [rai_rac (tv_v x)]
  | I1_Reordering x => [254 + yes (tv_v x)]
  | I1_Recovery x => [tv_v x]
  | I1_SelectionMode x => [252 + tv_v x]
  | I1_Teid x => oct4 (tv_v x)
  | I1_Teardown x => [254 + yes (tv_v x)]
  | I1_Nsapi x => [tv_v x]
  | I1_ChargingChar x => [tv_v x; 0]
  | I1_TraceReference x => oct2 (tv_v x)
  | I1_TraceType x => oct2 (tv_v x)
  | I1_ChargingId x => oct4 (tv_v x)
  | I1_Eua x => let v := tlv_v x in
      [240 + eua_org v; eua_nbr v] ++ opt_octets (eua_v4 v) ++ opt_octets (eua_v6 v)
  | I1_Apn x => name_wire (tlv_v x)
  | I1_Pco x | I1_Tft x | I1_TriggerId x | I1_OmcId x | I1_Camel x => tlv_v x
  | I1_Gsn x | I1_ChargingGw x => ip_wire (tlv_v x)
  | I1_Msisdn x => let v := tlv_v x in
      (ms_ext v * 128 + ms_nature v * 16 + ms_plan v) :: tbcd_octets (ms_digits v)
  | I1_Qos x => qos_arp (tlv_v x) :: qos_qos (tlv_v x)
  | I1_CommonFlags x | I1_ExtCommonFlags x | I1_DirectTunnel x | I1_ExtCommonFlagsII x => [flags_wire (tlv_v x)]
  | I1_ApnRestriction x =>
      [match tlv_v x with NoApnRestriction => 0 | Public1 => 1 | Public2 => 2 | Private1 => 3 | Private2 => 4 end]
  | I1_RatType x =>
      [match tlv_v x with Utran => 1 | Geran => 2 | Wlan => 3 | Gan => 4 | Hspaevo => 5 | Eutran => 6 end]
  | I1_Uli x => let v := tlv_v x in
      match uli_loc v with
      | Ci c => [0] ++ plmn_wire (uli_plmn v) ++ oct2 (uli_lac v) ++ oct2 c
      | Sac c => [1] ++ plmn_wire (uli_plmn v) ++ oct2 (uli_lac v) ++ oct2 c
      | Rac c => [2] ++ plmn_wire (uli_plmn v) ++ oct2 (uli_lac v) ++ [c; 255]
      end
  | I1_Tz x => let v := tlv_v x in
      [(if (tz_zone v <? 0)%Z then 128 else 0) + Z.to_N (Z.abs (tz_zone v)); tz_dst v]
  | I1_Imei x => tbcd_octets (tlv_v x)
  | I1_Ati x => let v := tlv_v x in
      oct3 (ati_ref v) ++ oct2 (ati_session v) ++ [ati_events v; ati_depth v; ati_ifs v; ati_ctl v]
  | I1_MsInfoChange x | I1_CorrelationId x | I1_BearerControlMode x | I1_CsgInfo x => [tlv_v x]
  | I1_Earp x => let v := tlv_v x in [64 * earp_cap v + 4 * earp_level v + earp_vuln v]
  | I1_Uci x => let v := tlv_v x in
      plmn_wire (uci_plmn v) ++ oct4 (uci_csgid v) ++
      [match uci_mode v with ClosedMode => 0 | HybridMode => 64 | ReservedMode => 128 end
       + match uci_cmi v with CsgMembership => 0 | NonCsgMembership => 1 end]
  | I1_Ambr x => oct4 (ambr_ul (tlv_v x)) ++ oct4 (ambr_dl (tlv_v x))
  | I1_Backoff x => [32 * bo_unit (tlv_v x) + bo_value (tlv_v x)]
  | I1_Spi x | I1_Upfsif x => [yes (tlv_v x)]
  | I1_UliTs x => oct4 (tlv_v x)
  | I1_Cnose x => [match tlv_v x with ServingNetworkSelectedbyUE => 0 | ServingNetworkSelectedbyNetwork => 1 end]
  | I1_Mueut x => oct2 (tlv_v x)
  | I1_Pe x => oct2 (pev_id (tlv_v x)) ++ pev_value (tlv_v x)
  end.

(* A type code below 128 is followed by the value; one from 128 on by a two-octet length
   first (TS 29.060 7.7). *)
Definition ie1_wire (t : N) (value : list N) : list N :=
  if t <? 128 then t :: value else t :: oct2 (nlen value) ++ value.

(* ------------------------------------------------------------------------- *)
(* The header (TS 29.060 6): version 1, protocol type 1, flags E, S, PN; message type;
   length; TEID; and, when any of the three flags is set, sequence number, N-PDU number and the
   extension headers up to a next-type octet of 0. *)
Definition cext_wire (e : CExt) : list N :=
  match e with
  | CX_NoMore => []
  | CX_PDCPPDUNumber x | CX_SuspendRequest x | CX_SuspendResponse x
  | CX_MBMSSupportIndication x | CX_MSInfoChangeReporting x => [ne_type x; ne_length x] ++ oct2 (ne_value x)
  | CX_Unknown x => [be_type x; be_length x] ++ be_container x
  end.
Definition chdr_wire (h : CHdr) : list N :=
  [48 + 4 * given (c_ext h) + 2 * given (c_sqn h) + given (c_npdu h); c_msgtype h] ++
  oct2 (c_length h) ++ oct4 (c_teid h) ++
  match c_ext h, c_sqn h, c_npdu h with
  | None, None, None => []
  | _, _, _ => oct2 (or0 (c_sqn h)) ++ [or0 (c_npdu h)] ++
               concat (map cext_wire (match c_ext h with Some l => l | None => [] end)) ++ [0]
  end.
