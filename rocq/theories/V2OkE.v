(* V2OkE.v - well-formed values of the IEs of V2IeE.v *)
From Verif Require Import Base.
From Verif Require Export V2IeSpec V2OkCommon V2IeE V2OkC.
Local Open Scope N_scope.

Definition opt_lt (n : N) (o : option N) : Prop := match o with Some i => i < n | None => True end.
(* a string that fits behind a one-octet length *)
Definition short_string (s : list N) : Prop := Forall scalar s /\ nlen (utf8 s) < 256.
Definition MonitoringEventExtensionInfo_ok (v : mon_ext) : Prop :=
  u32 (mx_ref v) /\ short_string (mx_id v) /\ opt_lt (2 ^ 24) (mx_rmplrt v) /\ opt_lt (2 ^ 64) (mx_ext v).
Definition MonitoringEventInformation_ok (v : mon_info) : Prop :=
  u32 (mi_ref v) /\ short_string (mi_id v) /\ u16 (mi_reports v) /\ opt_lt (2 ^ 64) (mi_ext v).
(* the names are decoded octet by octet: ASCII only *)
Definition short_ascii (s : list N) : Prop := Forall (fun c => c < 128) s /\ nlen s < 256.
Definition NodeIdentifier_ok (v : node_identifier) : Prop := short_ascii (ni_name v) /\ short_ascii (ni_realm v).
Definition NodeNumber_ok (v : list N) : Prop := Forall (fun c => 48 <= c <= 57) v /\ nlen v <= 508.
Definition PdnAddressAllocation_ok (v : pdn_address) : Prop :=
  match v with
  | Paa_V4 a => length a = 4%nat
  | Paa_V6 a p => length a = 16%nat /\ byte p
  | Paa_Dual a4 a6 p => length a4 = 4%nat /\ length a6 = 16%nat /\ byte p
  | _ => True
  end.
Definition PacketFlowId_ok (v : packet_flow) : Prop := pf_ebi v < 16 /\ u32 (pf_id v).
Definition PagingServiceInfo_ok (v : paging_info) : Prop := byte (pg_ebi v) /\ opt_lt 256 (pg_policy v).
Definition PC5QosFlow_ok (v : pc5_flow) : Prop :=
  byte (p5_pqi v) /\ u32 (p5_gfbr v) /\ u32 (p5_mfbr v) /\ opt_lt 256 (p5_range v).
Definition PduNumbers_ok (v : pdu_numbers) : Prop :=
  pn_nsapi v < 16 /\ u16 (pn_dl v) /\ u16 (pn_ul v) /\ u16 (pn_send v) /\ u16 (pn_recv v).
(* at most 15 TAIs and RAIs, at most 63 of each other kind *)
Definition PresenceReportingAreaAction_ok (v : praa) : Prop :=
  pa_action v < 8 /\ pa_prai v < 2 ^ 24 /\
  ((length (pa_tai v) <= 15)%nat /\ Forall Tai_ok (pa_tai v)) /\
  ((length (pa_rai v) <= 15)%nat /\ Forall Rai_ok (pa_rai v)) /\
  ((length (pa_macro v) <= 63)%nat /\ Forall MacroEnbId_ok (pa_macro v)) /\
  ((length (pa_home v) <= 63)%nat /\ Forall MacroEnbId_ok (pa_home v)) /\
  ((length (pa_ecgi v) <= 63)%nat /\ Forall Ecgi_ok (pa_ecgi v)) /\
  ((length (pa_sai v) <= 63)%nat /\ Forall Sai_ok (pa_sai v)) /\
  ((length (pa_cgi v) <= 63)%nat /\ Forall Cgi_ok (pa_cgi v)) /\
  ((length (pa_ext v) <= 63)%nat /\ Forall ExtMacroEnbId_ok (pa_ext v)).
Definition presence_area_ok (a : presence_area) : Prop :=
  match a with Ipra i => i < 2 ^ 24 | Opra i => i < 2 ^ 24 | Inapra i => i < 2 ^ 24 end.
(* exactly one additional area: the only number for which len() is right *)
Definition PresenceReportingAreaInformation_ok (v : prai) : Prop :=
  presence_area_ok (pr_area v) /\ exists a, pr_more v = Some [a] /\ presence_area_ok a.
(* any positive number of additional areas decodes *)
Definition PresenceReportingAreaInformation_any_ok (v : prai) : Prop :=
  presence_area_ok (pr_area v) /\ exists l, pr_more v = Some l /\ l <> [] /\ Forall presence_area_ok l.
Definition PrivateExtension_ok (v : private_ext) : Prop := u16 (pe_id v) /\ pe_value v <> [].
Definition PSCellId_ok (v : pscell) : Prop := plmn_ok (ps_plmn v) /\ length (ps_cgi v) = 5%nat.
Definition RabContext_ok (v : rab_ctx) : Prop :=
  rc_nsapi v < 16 /\ u16 (rc_dlg v) /\ u16 (rc_ulg v) /\ u16 (rc_dlp v) /\ u16 (rc_ulp v).
Definition RanNasCause_ok (v : ran_nas_cause) : Prop :=
  match v with Rn_Diameter i => u16 i | Rn_Ikev2 i => u16 i | Rn_Emm i => byte i | Rn_Esm i => byte i | _ => True end.
(* the interface identifier (last eight octets) is not transported *)
Definition RemoteUeIpInformation_ok (v : remote_ip) : Prop :=
  match v with
  | Rip_V4 a => length a = 4%nat
  | Rip_V6 a => exists p, length p = 8%nat /\ a = p ++ [0; 0; 0; 0; 0; 0; 0; 0]
  | Rip_NonIp => True
  end.
