(* V2OkC.v - well-formed values of the IEs of V2IeC.v *)
From Verif Require Import Base.
From Verif Require Export V2IeSpec V2OkCommon V2IeC.
Local Open Scope N_scope.

(* at least one address *)
Definition Fteid_ok (v : fteid) : Prop :=
  ft_if v < 64 /\ u32 (ft_teid v) /\
  match ft_v4 v with Some a => length a = 4%nat | None => True end /\
  match ft_v6 v with Some a => length a = 16%nat | None => True end /\
  (ft_v4 v = None -> ft_v6 v <> None).
Definition GlobalCnId_ok (v : global_cn) : Prop := plmn_ok (gc_plmn v) /\ u16 (gc_id v).
Definition Guti_ok (v : guti) : Prop :=
  plmn_ok (gu_plmn v) /\ u16 (gu_mmegi v) /\ byte (gu_mmec v) /\ u32 (gu_mtmsi v).
(* the profile list starts with profile 0 ("no compression"), then lists the supported
   profiles in increasing order without repetition *)
Definition HeaderCompressionConfiguration_ok (v : hdr_compr) : Prop :=
  u16 (hc_max_cid v) /\
  exists keep, hc_profiles v = 0 :: filter keep [2; 3; 4; 6; 258; 259; 260].
Definition Ip4Cp_ok (v : ip4cp) : Prop := byte (i4_prefix v) /\ length (i4_ip v) = 4%nat.
Definition ascii1 (v : list N) : Prop := v <> [] /\ Forall (fun c => c < 128) v.
Definition MaxPacketLossRate_ok (v : max_loss) : Prop :=
  match ml_ul v with Some u => u16 u | None => True end /\ match ml_dl v with Some d => u16 d | None => True end.
Definition two_bits (v : N) : Prop := v < 4.
Definition MbmsIpMulticastDistribution_ok (v : mbms_multicast) : Prop :=
  u32 (mm_teid v) /\ ipaddr_ok (mm_a1 v) /\ ipaddr_ok (mm_a2 v).
Definition MbmsServiceArea_ok (v : list N) : Prop := (1 <= length v <= 256)%nat /\ Forall u16 v.
Definition MbmsSessionDuration_ok (v : mbms_sd) : Prop := sd_seconds v < 2 ^ 17 /\ sd_days v < 128.
(* everything but the PLMN list; a PLMN list only survives at the very end of a message *)
Definition MdtConfiguration_base_ok (v : mdt_config) : Prop :=
  length (md_meas v) = 4%nat /\
  match md_area v with Some a => a <> [] /\ nlen a < 256 | None => True end.
Definition MdtConfiguration_ok (v : mdt_config) : Prop := MdtConfiguration_base_ok v /\ md_plmns v = None.
Definition MdtConfiguration_last_ok (v : mdt_config) : Prop :=
  MdtConfiguration_base_ok v /\
  match md_plmns v with Some l => (length l < 16)%nat /\ Forall plmn_ok l | None => True end.
(* an IMEI or IMEISV: 15 or 16 digits *)
Definition Mei_ok (v : list N) : Prop :=
  (length v = 15%nat \/ length v = 16%nat) /\ Forall (fun c => 48 <= c <= 57) v.
Definition percent (v : N) : Prop := v <= 100.
Definition six_octets (v : N) : Prop := v < 2 ^ 48.
