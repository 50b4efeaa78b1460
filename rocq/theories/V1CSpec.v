(* V1CSpec.v - what GTPv1-C users rely on, stated without the codec functions: which headers,
   elements and messages are well formed, and what the octets of an element are (TS 29.060
   7.7). *)
From Verif Require Import Base DigitsFacts Labels V1USpec.
From Verif Require Export V1CTables.
From Coq Require Import Sorted.
Local Open Scope N_scope.

(* ------------------------------------------------------------------------- *)
(* Headers *)

Definition known_cext_types : list N := [0; 1; 2; 192; 193; 194].
Definition wf_cext (e : CExt) : Prop :=
  match e with
  | CX_NoMore => False
  | CX_PDCPPDUNumber x => wf_num [192] 1 65536 x
  | CX_SuspendRequest x => wf_num [193] 1 65536 x
  | CX_SuspendResponse x => wf_num [194] 1 65536 x
  | CX_MBMSSupportIndication x => wf_num [1] 1 65536 x
  | CX_MSInfoChangeReporting x => wf_num [2] 1 65536 x
  | CX_Unknown x => ~ In (be_type x) known_cext_types /\ wf_blob x
  end.
Definition wf_chdr (h : CHdr) : Prop :=
  u16 (c_length h) /\ u32 (c_teid h) /\ wf_opt u16 (c_sqn h) /\ wf_opt (Forall wf_cext) (c_ext h).
Definition chdr_with_length (h : CHdr) (n : N) : CHdr :=
  mkCHdr (c_msgtype h) n (c_teid h) (c_sqn h) (c_npdu h) (c_ext h).

(* ------------------------------------------------------------------------- *)
(* Elements: the type code, and the value a sender may put into the fields. [size] is the
   number of octets after the length field. *)

Definition wf_tv {A} (T : N) (P : A -> Prop) (x : Tv A) : Prop := tv_t x = T /\ P (tv_v x).
Definition wf_tlv {A} (T : N) (size : A -> N) (P : A -> Prop) (x : Tlv A) : Prop :=
  tlv_t x = T /\ tlv_length x = size (tlv_v x) /\ size (tlv_v x) <= 65532 /\ P (tlv_v x).
Definition fixed {A} (n : N) : A -> N := fun _ => n.

Definition any {A} (_ : A) : Prop := True.
Definition octet (v : N) : Prop := v < 256.
(* fifteen or sixteen decimal digits, as characters: eight octets of TBCD *)
Definition number8 (s : list N) : Prop :=
  Forall digit_char s /\ (length s = 15 \/ length s = 16)%nat.
Definition plmn_ok (p : N * N * bool) : Prop :=
  let '(mcc, mnc, three) := p in mcc < 1000 /\ mnc < 1000 /\ (three = true \/ mnc < 100).
Definition rai_ok (v : RaiV) : Prop := plmn_ok (rai_plmn v) /\ u16 (rai_lac v).
Definition ip_size (i : IpAddr) : N := match i with V4 _ _ _ _ => 4 | V6 _ => 16 end.
Definition ip_ok (i : IpAddr) : Prop := match i with V4 _ _ _ _ => True | V6 o => length o = 16%nat end.
Definition pe_ok (v : PeV) : Prop := u16 (pev_id v).
Definition qos_ok (v : QosV) : Prop := (3 <= length (qos_qos v) <= 255)%nat.
Definition msisdn_ok (v : MsisdnV) : Prop :=
  ms_ext v < 2 /\ ms_nature v < 8 /\ (ms_plan v = 1 \/ ms_plan v = 6) /\ number8 (ms_digits v).
Definition eua_size (v : EuaV) : N := 2 + nlen (opt_octets (eua_v4 v)) + nlen (opt_octets (eua_v6 v)).
Definition eua_ok (v : EuaV) : Prop :=
  match eua_v4 v, eua_v6 v with
  | None, None => (eua_org v = 0 /\ (eua_nbr v = 1 \/ eua_nbr v = 2)) \/
                  (eua_org v = 1 /\ (eua_nbr v = 33 \/ eua_nbr v = 87 \/ eua_nbr v = 141))
  | Some a, None => eua_org v = 1 /\ eua_nbr v = 33 /\ length a = 4%nat
  | None, Some c => eua_org v = 1 /\ eua_nbr v = 87 /\ length c = 16%nat
  | Some a, Some c => eua_org v = 1 /\ eua_nbr v = 141 /\ length a = 4%nat /\ length c = 16%nat
  end.
Definition ati_ok (v : AtiV) : Prop := ati_ref v < 16777216 /\ u16 (ati_session v).
Definition ambr_ok (v : AmbrV) : Prop := u32 (ambr_ul v) /\ u32 (ambr_dl v).
Definition earp_ok (v : EarpV) : Prop := earp_vuln v < 2 /\ earp_level v < 16 /\ earp_cap v < 2.
Definition backoff_ok (v : BackoffV) : Prop := (bo_unit v <= 4 \/ bo_unit v = 7) /\ bo_value v < 32.
Definition tz_ok (v : TzV) : Prop := (-127 <= tz_zone v <= 127)%Z /\ tz_dst v < 4.
Definition uci_ok (v : UciV) : Prop := plmn_ok (uci_plmn v) /\ uci_csgid v < 134217728.
Definition uli_ok (v : UliV) : Prop :=
  plmn_ok (uli_plmn v) /\ u16 (uli_lac v) /\
  match uli_loc v with Ci i => u16 i | Sac i => u16 i | Rac r => octet r end.
Definition some_octets (v : list N) : Prop := v <> [].
Definition n_flags (n : nat) (v : list bool) : Prop := length v = n.

(* the number of octets of a dotted name: one per label for its length, and the label *)
Definition name_size (s : list N) : N := nlen s + 1.

Definition wf_ie1 (i : ie1) : Prop :=
  match i with
  | I1_Cause x => wf_tv 1 octet x
  | I1_Imsi x => wf_tv 2 number8 x
  | I1_Rai x => wf_tv 3 rai_ok x
  | I1_Reordering x => wf_tv 8 any x
  | I1_Recovery x => wf_tv 14 octet x
  | I1_SelectionMode x => wf_tv 15 (fun v => v < 4) x
  | I1_Teid x => wf_tv 16 u32 x \/ wf_tv 17 u32 x
  | I1_Teardown x => wf_tv 19 any x
  | I1_Nsapi x => wf_tv 20 (fun v => v < 16) x
  | I1_ChargingChar x => wf_tv 26 (fun v => v < 16) x
  | I1_TraceReference x => wf_tv 27 u16 x
  | I1_TraceType x => wf_tv 28 u16 x
  | I1_ChargingId x => wf_tv 127 (fun v => u32 v /\ v <> 0) x
  | I1_Eua x => wf_tlv 128 eua_size eua_ok x
  | I1_Apn x => wf_tlv 131 name_size name_ok x
  | I1_Pco x => wf_tlv 132 nlen some_octets x
  | I1_Gsn x => wf_tlv 133 ip_size ip_ok x
  | I1_Msisdn x => wf_tlv 134 (fixed 9) msisdn_ok x
  | I1_Qos x => wf_tlv 135 (fun v => 1 + nlen (qos_qos v)) qos_ok x
  | I1_Tft x => wf_tlv 137 nlen some_octets x
  | I1_TriggerId x => wf_tlv 142 nlen some_octets x
  | I1_OmcId x => wf_tlv 143 nlen some_octets x
  | I1_CommonFlags x => wf_tlv 148 (fixed 1) (n_flags 8) x
  | I1_ApnRestriction x => wf_tlv 149 (fixed 1) any x
  | I1_RatType x => wf_tlv 151 (fixed 1) any x
  | I1_Uli x => wf_tlv 152 (fixed 8) uli_ok x
  | I1_Tz x => wf_tlv 153 (fixed 2) tz_ok x
  | I1_Imei x => wf_tlv 154 (fixed 8) number8 x
  | I1_Camel x => wf_tlv 155 nlen any x
  | I1_Ati x => wf_tlv 162 (fixed 9) ati_ok x
  | I1_MsInfoChange x => wf_tlv 181 (fixed 1) (fun v => v <= 2) x
  | I1_DirectTunnel x => wf_tlv 182 (fixed 1) (n_flags 3) x
  | I1_CorrelationId x => wf_tlv 183 (fixed 1) octet x
  | I1_BearerControlMode x => wf_tlv 184 (fixed 1) (fun v => v <= 1) x
  | I1_Earp x => wf_tlv 191 (fixed 1) earp_ok x
  | I1_ExtCommonFlags x => wf_tlv 193 (fixed 1) (n_flags 8) x
  | I1_Uci x => wf_tlv 194 (fixed 8) uci_ok x
  | I1_CsgInfo x => wf_tlv 195 (fixed 1) (fun v => v < 8) x
  | I1_Ambr x => wf_tlv 198 (fixed 8) ambr_ok x
  | I1_Backoff x => wf_tlv 202 (fixed 1) backoff_ok x
  | I1_Spi x => wf_tlv 203 (fixed 1) any x
  | I1_UliTs x => wf_tlv 214 (fixed 4) u32 x
  | I1_Cnose x => wf_tlv 216 (fixed 1) any x
  | I1_ExtCommonFlagsII x => wf_tlv 218 (fixed 1) (n_flags 3) x
  | I1_Mueut x => wf_tlv 223 (fixed 2) u16 x
  | I1_Upfsif x => wf_tlv 224 (fixed 1) any x
  | I1_ChargingGw x => wf_tlv 251 ip_size ip_ok x
  | I1_Pe x => wf_tlv 255 (fun v => 2 + nlen (pev_value v)) pe_ok x
  end.
