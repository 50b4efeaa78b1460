(* V2OkA.v - well-formed values of the IEs of V2IeA.v: each field fits its place in the
   wire format. *)
From Verif Require Import Base.
From Verif Require Export V2IeSpec V2OkCommon V2IeA.
Local Open Scope N_scope.


Definition AdditionalMmContextForSrvcc_ok (v : addmm_srvcc) : Prop :=
  (exists c2, am_classmark2 v = Some c2 /\ c2 <> [] /\ nlen c2 < 256) /\
  (exists c3, am_classmark3 v = Some c3 /\ c3 <> [] /\ nlen c3 < 256) /\
  match am_codecs v with Some c => c <> [] /\ nlen c < 256 | None => True end.
Definition Ambr_ok (v : ambr) : Prop := u32 (ambr_ul v) /\ u32 (ambr_dl v).
Definition ApnRateControlStatus_ok (v : apn_rate) : Prop :=
  u32 (ar_ul v) /\ u32 (ar_exc v) /\ u32 (ar_dl v) /\ u64 (ar_validity v).
Definition ApnRelativeCapacity_ok (v : apn_rel_cap) : Prop := arc_cap v <= 100 /\ name_ok (arc_name v).
Definition Arp_ok (v : arp) : Prop := arp_pl v < 16.
Definition BearerQos_ok (v : bearer_qos) : Prop :=
  bq_pvi v < 2 /\ bq_pl v < 16 /\ bq_pci v < 2 /\ byte (bq_qci v) /\
  bq_maxbr_ul v < 2 ^ 40 /\ bq_maxbr_dl v < 2 ^ 40 /\ bq_gbr_ul v < 2 ^ 40 /\ bq_gbr_dl v < 2 ^ 40.
