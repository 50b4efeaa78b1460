(* V2OkCommon.v - well-formed values of the types of V2Common.v *)
From Verif Require Import Base.
From Verif Require Export V2IeSpec V2Common.
Local Open Scope N_scope.

Definition any {A} (v : A) : Prop := True.
(* non-empty strings of octets / of decimal digits *)
Definition octets1 (v : list N) : Prop := v <> [].
Definition digits1 (v : list N) : Prop := v <> [] /\ Forall (fun c => 48 <= c <= 57) v.
(* a Unicode scalar value: what a Rust char can hold *)
Definition scalar (c : N) : Prop := c < 55296 \/ 57344 <= c < 1114112.

Definition plmn_ok (p : plmn) : Prop := p_mcc p < 1000 /\ p_mnc p < (if p_three p then 1000 else 100).
Definition Cgi_ok (v : cgi) : Prop := plmn_ok (cgi_plmn v) /\ u16 (cgi_lac v) /\ u16 (cgi_ci v).
Definition Sai_ok (v : sai) : Prop := plmn_ok (sai_plmn v) /\ u16 (sai_lac v) /\ u16 (sai_sac v).
Definition Rai_ok (v : rai) : Prop := plmn_ok (rai_plmn v) /\ u16 (rai_lac v) /\ byte (rai_rac v).
Definition Tai_ok (v : tai) : Prop := plmn_ok (tai_plmn v) /\ u16 (tai_tac v).
Definition Ecgi_ok (v : ecgi) : Prop := plmn_ok (ecgi_plmn v) /\ u32 (ecgi_eci v).
Definition Lai_ok (v : lai) : Prop := plmn_ok (lai_plmn v) /\ u16 (lai_lac v).
Definition MacroEnbId_ok (v : macro_enb) : Prop := plmn_ok (me_plmn v) /\ me_id v < 2 ^ 24.
(* 18 bits for a short macro eNB, otherwise 23 (the top bit says which) *)
Definition ExtMacroEnbId_ok (v : ext_macro_enb) : Prop :=
  plmn_ok (xe_plmn v) /\ xe_id v < (if xe_smenb v then 2 ^ 18 else 2 ^ 23).
Definition AuthTriplet_ok (v : auth_triplet) : Prop :=
  length (at_rand v) = 16%nat /\ length (at_sres v) = 4%nat /\ length (at_kc v) = 8%nat.
Definition AuthQuintuplet_ok (v : auth_quintuplet) : Prop :=
  length (aq_rand v) = 16%nat /\ nlen (aq_xres v) < 256 /\ length (aq_ck v) = 16%nat /\
  length (aq_ik v) = 16%nat /\ nlen (aq_autn v) < 256.
Definition AuthQuadruplet_ok (v : auth_quadruplet) : Prop :=
  length (ad_rand v) = 16%nat /\ nlen (ad_xres v) < 256 /\ nlen (ad_autn v) < 256 /\ length (ad_kasme v) = 32%nat.
Definition ApnRateControlStatusMM_ok (v : apn_rate_mm) : Prop :=
  Forall scalar (rm_apn v) /\ nlen (utf8 (rm_apn v)) < 65536 - 22 /\
  u32 (rm_ul v) /\ u32 (rm_exc v) /\ u32 (rm_dl v) /\ length (rm_validity v) = 8%nat.
Definition AmbrMM_ok (v : ambr_mm) : Prop := u32 (amm_ul v) /\ u32 (amm_dl v).
(* the next hop chaining count travels only together with the next hop *)
Definition OldEpsSecurityContext_ok (v : old_eps_ctx) : Prop :=
  oe_ksi v < 8 /\ length (oe_kasme v) = 32%nat /\
  match oe_next_hop v, oe_ncc v with
  | Some n, Some c => length n = 32%nat /\ c < 8
  | None, None => True
  | _, _ => False
  end.
Definition ipaddr_ok (a : ipaddr) : Prop :=
  match a with IpV4 o => length o = 4%nat | IpV6 o => length o = 16%nat end.
