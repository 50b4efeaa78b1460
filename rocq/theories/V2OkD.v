(* V2OkD.v - MM contexts that survive encoding and decoding *)
From Verif Require Import Base.
From Verif Require Export V2IeSpec V2OkCommon V2IeD.
Local Open Scope N_scope.

Definition opt_ok {A} (ok : A -> Prop) (o : option A) : Prop := match o with Some x => ok x | None => True end.
(* authentication vectors: absent, or one to five *)
Definition vectors_ok {A} (ok : A -> Prop) (o : option (list A)) : Prop :=
  opt_ok (fun l => (1 <= length l <= 5)%nat /\ Forall ok l) o.
Definition drx_ok (o : option (list N)) : Prop := opt_ok (fun l => length l = 2%nat) o.
(* a capability has to be there: an absent one is encoded as one zero octet but decoded as two *)
Definition cap_ok (o : option (list N)) : Prop :=
  match o with Some l => l <> [] /\ nlen l < 256 | None => False end.
Definition optlv_ok (o : option (list N)) : Prop := opt_ok (fun l => l <> [] /\ nlen l < 256) o.

(* the fields after the extended access restriction: the decoder does not step over an absent
   restriction or an absent rate list, so the fields that follow must be absent as well *)
Definition eps_tail_ok (v : mm_eps) : Prop :=
  (e_ext v <> None \/ e_addsec v = None /\ e_nrsec v = None) /\
  optlv_ok (e_addsec v) /\ optlv_ok (e_nrsec v) /\
  e_rates v = None /\ e_core v = None /\ e_radioid v = None /\ e_ensct v = Some 0.
Definition MmContextEpsSecurityContextQuadruplets_ok (v : mm_eps) : Prop :=
  e_ksi v < 8 /\ e_dl v < 2 ^ 24 /\ e_ul v < 2 ^ 24 /\ length (e_kasme v) = 32%nat /\
  vectors_ok AuthQuadruplet_ok (e_quads v) /\ vectors_ok AuthQuintuplet_ok (e_quints v) /\
  drx_ok (e_drx v) /\
  match e_nh v, e_ncc v with
  | Some i, Some j => length i = 32%nat /\ j < 8 | None, None => True | _, _ => False end /\
  opt_ok AmbrMM_ok (e_sambr v) /\ opt_ok AmbrMM_ok (e_uambr v) /\
  cap_ok (e_ue v) /\ cap_ok (e_ms v) /\ cap_ok (e_mei v) /\
  opt_ok OldEpsSecurityContext_ok (e_old v) /\ optlv_ok (e_vdn v) /\ optlv_ok (e_radio v) /\ eps_tail_ok v.
(* a context without the "higher than 16 Mbps" flag takes the flag from the octet that follows
   it, so only contexts with the flag are sure to survive *)
Definition MmContextGsmKeyCipherQuintuplets_ok (v : mm_gsm_cq) : Prop :=
  g_cksn v < 8 /\ u64 (g_kc v) /\ vectors_ok AuthQuintuplet_ok (g_quints v) /\ drx_ok (g_drx v) /\
  opt_ok AmbrMM_ok (g_sambr v) /\ opt_ok AmbrMM_ok (g_uambr v) /\
  cap_ok (g_ue v) /\ cap_ok (g_ms v) /\ cap_ok (g_mei v) /\ optlv_ok (g_vdn v) /\ g_higher v = true.
Definition MmContextGsmKeyTriplets_ok (v : mm_gsm_t) : Prop :=
  t_cksn v < 8 /\ u64 (t_kc v) /\ vectors_ok AuthTriplet_ok (t_trips v) /\ drx_ok (t_drx v) /\
  opt_ok AmbrMM_ok (t_sambr v) /\ opt_ok AmbrMM_ok (t_uambr v) /\
  cap_ok (t_ue v) /\ cap_ok (t_ms v) /\ cap_ok (t_mei v) /\ optlv_ok (t_vdn v).
(* the IOV counter has to be there *)
Definition iov_ok (h : bool) (o : option N) : Prop :=
  match o with Some c => h = false -> c <> 1 | None => False end.
Definition MmContextUmtsKeyCipherQuintuplets_ok (v : mm_umts_cq) : Prop :=
  c_ksi v < 8 /\ length (c_ck v) = 16%nat /\ length (c_ik v) = 16%nat /\
  vectors_ok AuthQuintuplet_ok (c_quints v) /\ drx_ok (c_drx v) /\
  opt_ok AmbrMM_ok (c_sambr v) /\ opt_ok AmbrMM_ok (c_uambr v) /\
  cap_ok (c_ue v) /\ cap_ok (c_ms v) /\ cap_ok (c_mei v) /\ cap_ok (c_vdn v) /\ iov_ok (c_higher v) (c_iov v).
(* a rate list is read on beyond the end of the IE, so it must be absent *)
Definition MmContextUmtsKeyQuadrupletsQuintuplets_ok (v : mm_umts_qq) : Prop :=
  d_ksi v < 8 /\ length (d_ck v) = 16%nat /\ length (d_ik v) = 16%nat /\
  vectors_ok AuthQuadruplet_ok (d_quads v) /\ vectors_ok AuthQuintuplet_ok (d_quints v) /\ drx_ok (d_drx v) /\
  opt_ok AmbrMM_ok (d_sambr v) /\ opt_ok AmbrMM_ok (d_uambr v) /\
  cap_ok (d_ue v) /\ cap_ok (d_ms v) /\ cap_ok (d_mei v) /\ optlv_ok (d_vdn v) /\ d_rates v = None.
Definition MmContextUmtsKeyQuintuplets_ok (v : mm_umts_q) : Prop :=
  q_ksi v < 8 /\ length (q_ck v) = 16%nat /\ length (q_ik v) = 16%nat /\
  vectors_ok AuthQuintuplet_ok (q_quints v) /\ drx_ok (q_drx v) /\
  opt_ok AmbrMM_ok (q_sambr v) /\ opt_ok AmbrMM_ok (q_uambr v) /\
  cap_ok (q_ue v) /\ cap_ok (q_ms v) /\ cap_ok (q_mei v) /\ cap_ok (q_vdn v) /\ iov_ok (q_higher v) (q_iov v).
(* the six contexts share one element of the message enumeration, distinguished by their type *)
Definition MmContext_wf (x : MmContext) : Prop :=
  match x with
  | MmEps i => wf_ie 107 MmContextEpsSecurityContextQuadruplets_value MmContextEpsSecurityContextQuadruplets_ok i
  | MmUmtsQ i => wf_ie 106 MmContextUmtsKeyQuintuplets_value MmContextUmtsKeyQuintuplets_ok i
  | MmUmtsQq i => wf_ie 108 MmContextUmtsKeyQuadrupletsQuintuplets_value MmContextUmtsKeyQuadrupletsQuintuplets_ok i
  | MmUmtsCq i => wf_ie 104 MmContextUmtsKeyCipherQuintuplets_value MmContextUmtsKeyCipherQuintuplets_ok i
  | MmGsmT i => wf_ie 103 MmContextGsmKeyTriplets_value MmContextGsmKeyTriplets_ok i
  | MmGsmCq i => wf_ie 105 MmContextGsmKeyCipherQuintuplets_value MmContextGsmKeyCipherQuintuplets_ok i
  end.
