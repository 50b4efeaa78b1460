(* V2OkB.v - well-formed values of the IEs of V2IeB.v *)
From Verif Require Import Base.
From Verif Require Export V2IeSpec V2OkCommon V2IeB.
Local Open Scope N_scope.

Definition Counter_ok (v : counter) : Prop := u32 (ct_timestamp v) /\ byte (ct_counter v).
Definition three_bits (v : N) : Prop := v < 8.
Definition four_bits (v : N) : Prop := v < 16.
(* the empty list is written like an absent one *)
Definition EcgiList_ok (v : option (list ecgi)) : Prop :=
  match v with Some l => l <> [] /\ Forall Ecgi_ok l | None => True end.
Definition EpcTimer_ok (v : epc_timer) : Prop := (et_unit v < 5 \/ et_unit v = 7) /\ et_value v < 32.
Definition ExtendedTraceInformation_ok (v : ext_trace) : Prop :=
  plmn_ok (xt_plmn v) /\ xt_id v < 2 ^ 24 /\ nlen (xt_events v) < 256 /\ nlen (xt_ne v) < 256 /\
  byte (xt_depth v) /\ nlen (xt_ifs v) < 256 /\ ipaddr_ok (xt_ip v).
(* an unknown container starts with its own container type octet, 7 or more *)
Definition Fcontainer_ok (v : container) : Prop :=
  match v with FcUnknown i => exists t o, i = t :: o /\ 7 <= t | _ => True end.
Definition FlowQos_ok (v : flow_qos) : Prop :=
  byte (fq_qci v) /\ fq_maxbr_ul v < 2 ^ 40 /\ fq_maxbr_dl v < 2 ^ 40 /\ fq_gbr_ul v < 2 ^ 40 /\ fq_gbr_dl v < 2 ^ 40.
Definition Fqcsid_ok (v : fqcsid) : Prop :=
  match fs_node v with NodeV4 o => length o = 4%nat | NodeV6 o => length o = 16%nat | NodeNw a => u32 a end /\
  (length (fs_csid v) < 16)%nat /\ Forall u16 (fs_csid v).
