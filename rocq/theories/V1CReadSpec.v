(* V1CReadSpec.v - what received octets mean as a GTPv1-C element (TS 29.060 7.7), written with
   arithmetic only and independently of the decoders: [says1 i s] is that the octets [s], from the
   type octet of an element to the end of the packet, are read as the element [i]. *)
From Verif Require Import Base Octets.
From Verif Require Export V1CSpec.
Local Open Scope N_scope.

(* ------------------------------------------------------------------------- *)
(* Digits: the lower half of an octet comes first; halves that are not decimal are skipped. *)
Definition halves (o : list N) : list N := concat (map (fun x => [x mod 16; x / 16]) o).
Definition decimals (l : list N) : list N := filter (fun d => d <? 10) l.
(* the digits as characters *)
Definition number_of (o : list N) : list N := map (fun d => 48 + d) (decimals (halves o)).
(* the digits as a number *)
Definition decimal (l : list N) : N := fold_left (fun a d => 10 * a + d) (decimals l) 0.
(* TS 24.008 10.5.1.3: MCC 1-2 / MNC 3, MCC 3 / MNC 1-2; 15 for a missing third digit of the MNC *)
Definition plmn_says (p : N * N * bool) (o : list N) : Prop :=
  exists a b c, o = [a; b; c] /\
  p = (decimal [a mod 16; a / 16; b mod 16],
       (if b / 16 =? 15 then decimal [c mod 16; c / 16] else decimal [c mod 16; c / 16; b / 16]),
       negb (b / 16 =? 15)).

(* labels joined by dots *)
Fixpoint dotted (ws : list (list N)) : list N :=
  match ws with
  | [] => []
  | [w] => w
  | w :: r => w ++ 46 :: dotted r
  end.
Definition name_says (name o : list N) : Prop :=
  exists ws, o = concat (map (fun w => nlen w :: w) ws) /\ name = dotted ws.

(* bit [n] of an octet, as a flag *)
Definition bit_of (x n : N) : bool := (x / 2 ^ n) mod 2 =? 1.

(* ------------------------------------------------------------------------- *)
(* The frame. [v] is the value the element is read from. *)

(* type and a value of known size *)
Definition tv_says {A} (T : N) (P : A -> list N -> Prop) (x : Tv A) (s : list N) : Prop :=
  tv_t x = T /\ exists ty v r, s = ty :: v ++ r /\ P (tv_v x) v.
(* type, length and a value of known size; the length does not say how much is read *)
Definition fix_says {A} (T : N) (P : A -> list N -> Prop) (x : Tlv A) (s : list N) : Prop :=
  tlv_t x = T /\ exists ty a b v r, s = ty :: a :: b :: v ++ r /\ tlv_length x = 256 * a + b /\ P (tlv_v x) v.
(* type, length and a value of this length; [least] is 0 or 1 *)
Definition var_says {A} (T least : N) (P : A -> list N -> Prop) (x : Tlv A) (s : list N) : Prop :=
  tlv_t x = T /\ exists ty a b v r, s = ty :: a :: b :: v ++ r /\
    tlv_length x = 256 * a + b /\ nlen v = 256 * a + b /\ least <= nlen v <= 65532 /\ P (tlv_v x) v.

(* ------------------------------------------------------------------------- *)
(* Values *)
Definition octet_says (v : N) (o : list N) : Prop := o = [v].
Definition raw_says (v o : list N) : Prop := o = v.
(* the value in the lowest bits; the others are spare *)
Definition low_says (n : N) (v : N) (o : list N) : Prop := exists spare, o = [n * spare + v] /\ v < n.
Definition reordering_says (v : bool) (o : list N) : Prop := low_says 2 (if v then 1 else 0) o.
Definition teardown_says (v : bool) (o : list N) : Prop := o = [if v then 255 else 254].
(* the second octet is not looked at *)
Definition cc_says (v : N) (o : list N) : Prop := exists a b, o = [16 * a + v; b] /\ v < 16.
Definition num2_says (v : N) (o : list N) : Prop := o = oct2 v /\ v < 65536.
Definition num4_says (v : N) (o : list N) : Prop := o = oct4 v /\ v < 4294967296.
Definition charging_id_says (v : N) (o : list N) : Prop := num4_says v o /\ v <> 0.
Definition at_most_says (n : N) (v : N) (o : list N) : Prop := o = [v] /\ v <= n.
Definition flags8_says (v : list bool) (o : list N) : Prop :=
  exists x, o = [x] /\ v = [bit_of x 7; bit_of x 6; bit_of x 5; bit_of x 4; bit_of x 3; bit_of x 2; bit_of x 1; bit_of x 0].
Definition flags3_says (v : list bool) (o : list N) : Prop := exists x, o = [x] /\ v = [bit_of x 2; bit_of x 1; bit_of x 0].
Definition bool_says (v : bool) (o : list N) : Prop := o = [if v then 1 else 0].
Definition digits8_says (v : list N) (o : list N) : Prop := length o = 8%nat /\ v = number_of o.
Definition rai_says (v : RaiV) (o : list N) : Prop :=
  exists p l, o = p ++ l ++ [rai_rac v] /\ plmn_says (rai_plmn v) p /\ num2_says (rai_lac v) l.
Definition ip_says (v : IpAddr) (o : list N) : Prop :=
  match v with V4 a b c d => o = [a; b; c; d] | V6 x => o = x /\ length o = 16%nat end.
Definition qos_says (v : QosV) (o : list N) : Prop := o = qos_arp v :: qos_qos v /\ (3 <= length (qos_qos v) <= 255)%nat.
Definition eua_says (v : EuaV) (o : list N) : Prop :=
  exists spare addresses, o = 16 * spare + eua_org v :: eua_nbr v :: addresses /\
  match eua_v4 v, eua_v6 v with
  | None, None => addresses = [] /\ ((eua_org v = 0 /\ (eua_nbr v = 1 \/ eua_nbr v = 2)) \/
                                     (eua_org v = 1 /\ (eua_nbr v = 33 \/ eua_nbr v = 87 \/ eua_nbr v = 141)))
  | Some a, None => addresses = a /\ length a = 4%nat /\ eua_org v = 1 /\ eua_nbr v = 33
  | None, Some c => addresses = c /\ length c = 16%nat /\ eua_org v = 1 /\ eua_nbr v = 87
  | Some a, Some c => addresses = a ++ c /\ length a = 4%nat /\ length c = 16%nat /\ eua_org v = 1 /\ eua_nbr v = 141
  end.
Definition restriction_says (v : Restriction) (o : list N) : Prop :=
  o = [match v with NoApnRestriction => 0 | Public1 => 1 | Public2 => 2 | Private1 => 3 | Private2 => 4 end].
Definition rat_says (v : Rat) (o : list N) : Prop :=
  o = [match v with Utran => 1 | Geran => 2 | Wlan => 3 | Gan => 4 | Hspaevo => 5 | Eutran => 6 end].
Definition uli_says (v : UliV) (o : list N) : Prop :=
  exists p l c d, plmn_says (uli_plmn v) p /\ num2_says (uli_lac v) l /\
  match uli_loc v with
  | Ci x => o = [0] ++ p ++ l ++ [c; d] /\ x = 256 * c + d
  | Sac x => o = [1] ++ p ++ l ++ [c; d] /\ x = 256 * c + d
  | Rac x => o = [2] ++ p ++ l ++ [c; d] /\ x = c
  end.
(* sign in the highest bit; the daylight saving time in the two lowest *)
Definition tz_says (v : TzV) (o : list N) : Prop :=
  exists sign n spare, o = [128 * sign + n; 4 * spare + tz_dst v] /\ n < 128 /\ sign < 2 /\ tz_dst v < 4 /\
    tz_zone v = (if sign =? 0 then Z.of_N n else (- Z.of_N n)%Z).
Definition ati_says (v : AtiV) (o : list N) : Prop :=
  ati_ref v < 16777216 /\ ati_session v < 65536 /\
  o = oct3 (ati_ref v) ++ oct2 (ati_session v) ++ [ati_events v; ati_depth v; ati_ifs v; ati_ctl v].
Definition ambr_says (v : AmbrV) (o : list N) : Prop :=
  ambr_ul v < 4294967296 /\ ambr_dl v < 4294967296 /\ o = oct4 (ambr_ul v) ++ oct4 (ambr_dl v).
Definition earp_says (v : EarpV) (o : list N) : Prop :=
  exists s1 s2, o = [128 * s1 + 64 * earp_cap v + 4 * earp_level v + 2 * s2 + earp_vuln v] /\
    s1 < 2 /\ s2 < 2 /\ earp_cap v < 2 /\ earp_level v < 16 /\ earp_vuln v < 2.
(* units 5 and 6 are read as 1 *)
Definition backoff_says (v : BackoffV) (o : list N) : Prop :=
  exists u, o = [32 * u + bo_value v] /\ u < 8 /\ bo_value v < 32 /\ bo_unit v = (if (u =? 5) || (u =? 6) then 1 else u).
(* all four octets make the CSG ID; the reserved modes 2 and 3 are one *)
Definition uci_says (v : UciV) (o : list N) : Prop :=
  exists p c a s m, o = p ++ c ++ [64 * a + 2 * s + m] /\ a < 4 /\ s < 32 /\ m < 2 /\
    plmn_says (uci_plmn v) p /\ num4_says (uci_csgid v) c /\
    uci_mode v = (if a =? 0 then ClosedMode else if a =? 1 then HybridMode else ReservedMode) /\
    uci_cmi v = (if m =? 0 then CsgMembership else NonCsgMembership).
(* the reserved values 2 and 3 are read as 1 *)
Definition cnose_says (v : SelectMode) (o : list N) : Prop :=
  exists x, o = [x] /\ x < 4 /\ v = (if x =? 0 then ServingNetworkSelectedbyUE else ServingNetworkSelectedbyNetwork).
(* MSISDN: eight octets of digits are read, whatever the length *)
Definition msisdn_says (x : Tlv MsisdnV) (s : list N) : Prop :=
  let v := tlv_v x in tlv_t x = 134 /\
  exists ty a b d r, s = ty :: a :: b :: (128 * ms_ext v + 16 * ms_nature v + ms_plan v) :: d ++ r /\
    ms_ext v < 2 /\ ms_nature v < 8 /\ (ms_plan v = 1 \/ ms_plan v = 6) /\ length d = 8%nat /\ ms_digits v = number_of d /\
    tlv_length x = 256 * a + b /\ 1 <= 256 * a + b <= 65532 /\ 256 * a + b + 3 <= nlen s.
(* private extension: the value runs to the end of the packet, whatever the length *)
Definition pe_says (x : Tlv PeV) (s : list N) : Prop :=
  tlv_t x = 255 /\
  exists ty a b i j, s = ty :: a :: b :: i :: j :: pev_value (tlv_v x) /\ pev_id (tlv_v x) = 256 * i + j /\
    tlv_length x = 256 * a + b /\ 1 <= 256 * a + b <= 65532 /\ 256 * a + b + 3 <= nlen s.

Definition says1 (i : ie1) (s : list N) : Prop :=
  match i with
  | I1_Cause x => tv_says 1 octet_says x s
  | I1_Imsi x => tv_says 2 digits8_says x s
  | I1_Rai x => tv_says 3 rai_says x s
  | I1_Reordering x => tv_says 8 reordering_says x s
  | I1_Recovery x => tv_says 14 octet_says x s
  | I1_SelectionMode x => tv_says 15 (low_says 4) x s
  | I1_Teid x => exists r, s = tv_t x :: oct4 (tv_v x) ++ r /\ tv_v x < 4294967296
  | I1_Teardown x => tv_says 19 teardown_says x s
  | I1_Nsapi x => tv_says 20 (low_says 16) x s
  | I1_ChargingChar x => tv_says 26 cc_says x s
  | I1_TraceReference x => tv_says 27 num2_says x s
  | I1_TraceType x => tv_says 28 num2_says x s
  | I1_ChargingId x => tv_says 127 charging_id_says x s
  | I1_Eua x => var_says 128 1 eua_says x s
  | I1_Apn x => var_says 131 1 name_says x s
  | I1_Pco x => var_says 132 1 raw_says x s
  | I1_Gsn x => var_says 133 1 ip_says x s
  | I1_Msisdn x => msisdn_says x s
  | I1_Qos x => var_says 135 1 qos_says x s
  | I1_Tft x => var_says 137 1 raw_says x s
  | I1_TriggerId x => var_says 142 1 raw_says x s
  | I1_OmcId x => var_says 143 1 raw_says x s
  | I1_CommonFlags x => fix_says 148 flags8_says x s
  | I1_ApnRestriction x => fix_says 149 restriction_says x s
  | I1_RatType x => fix_says 151 rat_says x s
  | I1_Uli x => fix_says 152 uli_says x s
  | I1_Tz x => fix_says 153 tz_says x s
  | I1_Imei x => tlv_t x = 154 /\ tlv_length x = 8 /\
      exists ty a b v r, s = ty :: a :: b :: v ++ r /\ digits8_says (tlv_v x) v
  | I1_Camel x => var_says 155 0 raw_says x s
  | I1_Ati x => fix_says 162 ati_says x s
  | I1_MsInfoChange x => fix_says 181 (at_most_says 2) x s
  | I1_DirectTunnel x => fix_says 182 flags3_says x s
  | I1_CorrelationId x => fix_says 183 octet_says x s
  | I1_BearerControlMode x => fix_says 184 (at_most_says 1) x s
  | I1_Earp x => fix_says 191 earp_says x s
  | I1_ExtCommonFlags x => fix_says 193 flags8_says x s
  | I1_Uci x => fix_says 194 uci_says x s
  | I1_CsgInfo x => fix_says 195 (low_says 8) x s
  | I1_Ambr x => fix_says 198 ambr_says x s
  | I1_Backoff x => fix_says 202 backoff_says x s
  | I1_Spi x => fix_says 203 bool_says x s
  | I1_UliTs x => fix_says 214 num4_says x s
  | I1_Cnose x => fix_says 216 cnose_says x s
  | I1_ExtCommonFlagsII x => fix_says 218 flags3_says x s
  | I1_Mueut x => fix_says 223 num2_says x s
  | I1_Upfsif x => fix_says 224 bool_says x s
  | I1_ChargingGw x => var_says 251 1 ip_says x s
  | I1_Pe x => pe_says x s
  end.
