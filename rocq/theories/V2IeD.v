(* V2IeD.v - the MM Context information elements (conventions as in V2IeA.v) *)
From Verif Require Import Base.
From Verif Require Export V2Base V2Enums V2Common.
Local Open Scope N_scope.

(* ---- parts shared by the six MM contexts. T is the type code of the IE, c the cursor. *)
(* [match n { 0 => (), i if i <= 5 => { for .. }, _ => Err }], for instance
   mmctxepssecurityctxquadruplets.rs 280-297 *)
Definition auth_at {A} (dec : list N -> res A) (size : A -> nat) (T n : N) (b : list N) (c : nat)
  : res (option (list A) * nat) :=
  if n =? 0 then Ok (None, c)
  else if n <=? 5 then
    let? (l, c) := orelse (many dec size (N.to_nat n) b c) (IEIncorrect T) in Ok (Some l, c)
  else Err (IEIncorrect T).
Definition opt_list {A} (enc : A -> list N) (o : option (list A)) : list N :=
  match o with Some l => enc_all enc l | None => [] end.
Definition opt_count {A} (o : option (list A)) : N := match o with Some l => nlen l mod 256 | None => 0 end.
(* [if drxi && buffer.len() >= cursor + 2 { .. }] *)
Definition drx_at (i : bool) (b : list N) (c : nat) : res (option (list N) * nat) :=
  if i && (c + 2 <=? length b)%nat then let? s := slice b c (c + 2) in Ok (Some s, (c + 2)%nat)
  else Ok (None, c).
Definition opt_oct (o : option (list N)) : list N := match o with Some i => i | None => [] end.
(* [if ambri { if buffer.len() >= cursor + 8 { .. } else { Err } }] *)
Definition ambr_at (T : N) (i : bool) (b : list N) (c : nat) : res (option ambr_mm * nat) :=
  if i then
    need b (c + 8) (IEInvalidLength T) (
    let? t := slice_from b c in
    let? a := orelse (AmbrMM_dec t) (IEIncorrect T) in Ok (Some a, (c + 8)%nat))
  else Ok (None, c).
Definition opt_ambr (o : option ambr_mm) : list N := match o with Some a => AmbrMM_enc a | None => [] end.
(* [if let Some(i) = x { push(i.len() as u8); extend(i) } else { push(0) }] *)
Definition opt_lv (o : option (list N)) : list N := match o with Some i => lv i | None => [0] end.
(* its decoder where a zero length moves the cursor by one more octet (the network
   capabilities and the MEI) *)
Definition cap_at (T : N) (b : list N) (c : nat) : res (option (list N) * nat) :=
  let? l := at_ b c in
  if 0 <? l then let? (s, c) := lv_at b c (IEInvalidLength T) in Ok (Some s, c)
  else Ok (None, (c + 2)%nat).
(* ... and where it does not *)
Definition optlv_at (T : N) (b : list N) (c : nat) : res (option (list N) * nat) :=
  let? l := at_ b c in
  if 0 <? l then let? (s, c) := lv_at b c (IEInvalidLength T) in Ok (Some s, c)
  else Ok (None, (c + 1)%nat).
(* data.access_res = AccessRestrictionMM::from(buffer[cursor]); cursor += 1 *)
Definition access_at (b : list N) (c : nat) : res (access_restriction * nat) :=
  let? x := at_ b c in Ok (AccessRestrictionMM_of x, (c + 1)%nat).
(* the first octet: security mode, DRX flag and key set identifier *)
Definition mm_first (sec : SecurityMode) (drx : bool) (ksi : N) : N :=
  N.lor (N.lor (shl8 (SecurityMode_to sec) 5) (flag drx 8)) (N.land ksi 7).
(* match (self.used_ue_ambr.is_some(), self.subscr_ue_ambr.is_some()) *)
Definition ambr_flags (used subscr : bool) : N := flag used 2 + flag subscr 1.
(* [let len = buffer[cursor]; cursor += 1; if buffer.len() >= cursor + len { higher =
   matches!(buffer[cursor], 0x01); cursor += len; }]: the octet is read even if len is 0 *)
Definition higher_at (b : list N) (c : nat) : res (bool * nat) :=
  let? l := at_ b c in
  let c := (c + 1)%nat in
  if (c + N.to_nat l <=? length b)%nat then
    let? x := at_ b c in Ok (x =? 1, (c + N.to_nat l)%nat)
  else Ok (false, c).
Definition higher_enc (h : bool) : list N := if h then [1; 1] else [0].
(* [while let Ok(ie) = ApnRateControlStatusMM::unmarshal(&buffer[cursor..]) { .. }] *)
Fixpoint rates_loop (fuel : nat) (b : list N) (c : nat) : res (list apn_rate_mm * nat) :=
  match fuel with
  | O => Diverge
  | S f =>
      let? t := slice_from b c in
      match ApnRateControlStatusMM_dec t with
      | Ok x => let? (l, c') := rates_loop f b (c + ApnRateControlStatusMM_size x) in Ok (x :: l, c')
      | Err _ => Ok ([], c)
      | Panic => Panic
      | Diverge => Diverge
      end
  end.
(* [match len { 0 => None, _ => { cursor += 1; .. } }]: for a zero length the cursor stays *)
Definition rates_at (T : N) (b : list N) (c : nat) : res (option (list apn_rate_mm) * nat) :=
  let? l := at_ b c in
  if l =? 0 then Ok (None, c)
  else
    need b (c + 1 + N.to_nat l) (IEInvalidLength T) (
    let? (x, c) := rates_loop (S (length b)) b (c + 1) in Ok (Some x, c)).
Definition rates_enc (o : option (list apn_rate_mm)) : list N :=
  match o with Some l => nlen l mod 256 :: enc_all ApnRateControlStatusMM_enc l | None => [0] end.
(* [match len { 0x01 => { cursor += 1; .. cursor += 1 } 0x00 => (), _ => Err }]: for a zero
   length the cursor stays *)
Definition ext_access_at (T : N) (b : list N) (c : nat) : res (option ext_access_restriction * nat) :=
  let? l := at_ b c in
  if l =? 1 then
    need b (c + 1) (IEInvalidLength T) (
    let? x := at_ b (c + 1) in Ok (Some (ExtendedAccessRestrictionMM_of x), (c + 2)%nat))
  else if l =? 0 then Ok (None, c)
  else Err (IEInvalidLength T).
Definition ext_access_enc (o : option ext_access_restriction) : list N :=
  match o with Some x => [1; ExtendedAccessRestrictionMM_to x] | None => [0] end.

(* ---- mmctxepssecurityctxquadruplets.rs *)
(* 16-48 *)
Record mm_eps := mkMmEps {
  e_sec : SecurityMode; e_ksi : N; e_int : NasIntegrityProtectionValues; e_ciph : NasCipherValues;
  e_dl : N; e_ul : N; e_kasme : list N;
  e_quads : option (list auth_quadruplet); e_quints : option (list auth_quintuplet);
  e_drx : option (list N); e_nh : option (list N); e_ncc : option N;
  e_sambr : option ambr_mm; e_uambr : option ambr_mm;
  e_ue : option (list N); e_ms : option (list N); e_mei : option (list N);
  e_access : access_restriction; e_old : option old_eps_ctx;
  e_vdn : option (list N); e_radio : option (list N); e_ext : option ext_access_restriction;
  e_addsec : option (list N); e_nrsec : option (list N); e_rates : option (list apn_rate_mm);
  e_core : option (list N); e_radioid : option (list N); e_ensct : option N }.
(* 95-247 *)
Definition MmContextEpsSecurityContextQuadruplets_value (v : mm_eps) : list N :=
  [ N.lor (N.lor (N.lor (shl8 (SecurityMode_to (e_sec v)) 5) (flag (is_some (e_nh v)) 16))
      (flag (is_some (e_drx v)) 8)) (N.land (e_ksi v) 7);
    N.lor (N.lor (shl8 (opt_count (e_quints v)) 5) (shl8 (opt_count (e_quads v)) 2))
      (flag (is_some (e_uambr v)) 2 + flag (is_some (e_old v)) 1);
    N.lor (flag (is_some (e_sambr v)) 128)
      (N.lor (shl8 (NasIntegrityProtectionValues_to (e_int v)) 4) (NasCipherValues_to (e_ciph v))) ]
  ++ enc_be 3 (e_dl v) ++ enc_be 3 (e_ul v) ++ e_kasme v
  ++ opt_list AuthQuadruplet_enc (e_quads v) ++ opt_list AuthQuintuplet_enc (e_quints v)
  ++ opt_oct (e_drx v)
  ++ match e_nh v, e_ncc v with
     | Some i, Some j => i ++ [N.land j 7] | Some i, None => i ++ [0] | None, _ => [] end
  ++ opt_ambr (e_sambr v) ++ opt_ambr (e_uambr v)
  ++ opt_lv (e_ue v) ++ opt_lv (e_ms v) ++ opt_lv (e_mei v)
  ++ [AccessRestrictionMM_to (e_access v)]
  ++ match e_old v with Some o => OldEpsSecurityContext_enc o | None => [] end
  ++ opt_lv (e_vdn v) ++ opt_lv (e_radio v) ++ ext_access_enc (e_ext v)
  ++ opt_lv (e_addsec v) ++ opt_lv (e_nrsec v) ++ rates_enc (e_rates v)
  ++ opt_lv (e_core v) ++ opt_lv (e_radioid v)
  ++ match e_ensct v with Some i => [i] | None => [] end.
Definition MmContextEpsSecurityContextQuadruplets_marshal := marshal_ie 107 MmContextEpsSecurityContextQuadruplets_value.
(* [if nhi && buffer.len() >= cursor + 33] 318-325 *)
Definition nh_at (i : bool) (b : list N) (c : nat) : res (option (list N) * option N * nat) :=
  if i && (c + 33 <=? length b)%nat then
    let? s := slice b c (c + 32) in let? x := at_ b (c + 32) in Ok (Some s, Some x, (c + 33)%nat)
  else Ok (None, None, c).
(* [if osci { if let Ok(ie) = OldEpsSecurityContext::unmarshal(..) .. }] 396-403 *)
Definition old_at (T : N) (i : bool) (b : list N) (c : nat) : res (option old_eps_ctx * nat) :=
  if i then
    let? t := slice_from b c in
    let? o := orelse (OldEpsSecurityContext_dec t) (IEIncorrect T) in
    Ok (Some o, (c + OldEpsSecurityContext_size o)%nat)
  else Ok (None, c).
(* [if buffer.len() >= cursor { Some(buffer[cursor] & 0x03) }] 499-503 *)
Definition ensct_at (b : list N) (c : nat) : res (option N) :=
  if (c <=? length b)%nat then let? x := at_ b c in Ok (Some (N.land x 3)) else Ok None.
(* 249-509 *)
Definition MmContextEpsSecurityContextQuadruplets_unmarshal (m : mode) (b : list N) : res (Tliv mm_eps) :=
  need b 46 (IEInvalidLength 107) (hdr4 b (fun len ins =>
  let? x4 := at_ b 4 in let? x5 := at_ b 5 in let? x6 := at_ b 6 in
  let? dl := be_at b 7 3 in let? ul := be_at b 10 3 in
  let? kasme := slice b 13 45 in
  let? (quads, c) := auth_at AuthQuadruplet_dec AuthQuadruplet_size 107 (N.shiftr (N.land x5 28) 2) b 45 in
  let? (quints, c) := auth_at AuthQuintuplet_dec AuthQuintuplet_size 107 (N.shiftr x5 5) b c in
  let? (drx, c) := drx_at (bit x4 8) b c in
  let? (nh, ncc, c) := nh_at (bit x4 16) b c in
  let? (sambr, c) := ambr_at 107 (N.shiftr x6 7 =? 1) b c in
  let? (uambr, c) := ambr_at 107 (bit x5 2) b c in
  let? (ue, c) := cap_at 107 b c in
  let? (ms, c) := cap_at 107 b c in
  let? (mei, c) := cap_at 107 b c in
  let? (acc, c) := access_at b c in
  let? (old, c) := old_at 107 (bit x5 1) b c in
  let? (vdn, c) := optlv_at 107 b c in
  let? (radio, c) := optlv_at 107 b c in
  let? (ext, c) := ext_access_at 107 b c in
  let? (addsec, c) := optlv_at 107 b c in
  let? (nrsec, c) := optlv_at 107 b c in
  let? (rates, c) := rates_at 107 b c in
  let? (core, c) := optlv_at 107 b c in
  let? (radioid, c) := optlv_at 107 b c in
  let? ensct := ensct_at b c in
  Ok (std 107 len ins (mkMmEps (SecurityMode_of (N.shiftr x4 5)) (N.land x4 7)
    (NasIntegrityProtectionValues_of (N.land (N.shiftr x6 4) 7)) (NasCipherValues_of (N.land x6 15))
    dl ul kasme quads quints drx nh ncc sambr uambr ue ms mei acc old vdn radio ext addsec nrsec
    rates core radioid ensct)))).
(* 511-513 *)
Definition MmContextEpsSecurityContextQuadruplets_len (m : mode) (x : Tliv mm_eps) : res nat := len_usize x.

(* ---- mmctxgsmkeycipherquintuplets.rs *)
(* 15-33 *)
Record mm_gsm_cq := mkMmGsmCq {
  g_sec : SecurityMode; g_cksn : N; g_ciph : CipherValues; g_kc : N;
  g_quints : option (list auth_quintuplet); g_drx : option (list N);
  g_sambr : option ambr_mm; g_uambr : option ambr_mm;
  g_ue : option (list N); g_ms : option (list N); g_mei : option (list N);
  g_access : access_restriction; g_vdn : option (list N); g_higher : bool }.
(* 66-141 *)
Definition MmContextGsmKeyCipherQuintuplets_value (v : mm_gsm_cq) : list N :=
  [ mm_first (g_sec v) (is_some (g_drx v)) (g_cksn v);
    N.lor (shl8 (opt_count (g_quints v)) 5) (ambr_flags (is_some (g_uambr v)) (is_some (g_sambr v)));
    CipherValues_to (g_ciph v) ]
  ++ enc_be 8 (g_kc v) ++ opt_list AuthQuintuplet_enc (g_quints v) ++ opt_oct (g_drx v)
  ++ opt_ambr (g_sambr v) ++ opt_ambr (g_uambr v)
  ++ opt_lv (g_ue v) ++ opt_lv (g_ms v) ++ opt_lv (g_mei v)
  ++ [AccessRestrictionMM_to (g_access v)] ++ opt_lv (g_vdn v) ++ higher_enc (g_higher v).
Definition MmContextGsmKeyCipherQuintuplets_marshal := marshal_ie 105 MmContextGsmKeyCipherQuintuplets_value.
(* 143-270 *)
Definition MmContextGsmKeyCipherQuintuplets_unmarshal (m : mode) (b : list N) : res (Tliv mm_gsm_cq) :=
  need b 20 (IEInvalidLength 105) (hdr4 b (fun len ins =>
  let? x4 := at_ b 4 in let? x5 := at_ b 5 in let? x6 := at_ b 6 in
  let? kc := be_at b 7 8 in
  let? (quints, c) := auth_at AuthQuintuplet_dec AuthQuintuplet_size 105 (N.shiftr x5 5) b 15 in
  let? (drx, c) := drx_at (bit x4 8) b c in
  let? (sambr, c) := ambr_at 105 (bit x5 1) b c in
  let? (uambr, c) := ambr_at 105 (bit x5 2) b c in
  let? (ue, c) := cap_at 105 b c in
  let? (ms, c) := cap_at 105 b c in
  let? (mei, c) := cap_at 105 b c in
  let? (acc, c) := access_at b c in
  let? (vdn, c) := optlv_at 105 b c in
  let? (h, _) := higher_at b c in
  Ok (std 105 len ins (mkMmGsmCq (SecurityMode_of (N.shiftr x4 5)) (N.land x4 7) (CipherValues_of x6) kc
    quints drx sambr uambr ue ms mei acc vdn h)))).
(* 272-274 *)
Definition MmContextGsmKeyCipherQuintuplets_len (m : mode) (x : Tliv mm_gsm_cq) : res nat := len_usize x.

(* ---- mmctxgsmkeytriplets.rs *)
(* 16-33 *)
Record mm_gsm_t := mkMmGsmT {
  t_sec : SecurityMode; t_cksn : N; t_ciph : CipherValues; t_kc : N;
  t_trips : option (list auth_triplet); t_drx : option (list N);
  t_sambr : option ambr_mm; t_uambr : option ambr_mm;
  t_ue : option (list N); t_ms : option (list N); t_mei : option (list N);
  t_access : access_restriction; t_vdn : option (list N) }.
(* 65-134 *)
Definition MmContextGsmKeyTriplets_value (v : mm_gsm_t) : list N :=
  [ mm_first (t_sec v) (is_some (t_drx v)) (t_cksn v);
    N.lor (shl8 (opt_count (t_trips v)) 5) (ambr_flags (is_some (t_uambr v)) (is_some (t_sambr v)));
    CipherValues_to (t_ciph v) ]
  ++ enc_be 8 (t_kc v) ++ opt_list AuthTriplet_enc (t_trips v) ++ opt_oct (t_drx v)
  ++ opt_ambr (t_sambr v) ++ opt_ambr (t_uambr v)
  ++ opt_lv (t_ue v) ++ opt_lv (t_ms v) ++ opt_lv (t_mei v)
  ++ [AccessRestrictionMM_to (t_access v)] ++ opt_lv (t_vdn v).
Definition MmContextGsmKeyTriplets_marshal := marshal_ie 103 MmContextGsmKeyTriplets_value.
(* 155-176: the room for the triplets is checked first; AuthTriplet::len() is 28 *)
Definition trips_at (n : N) (b : list N) (c : nat) : res (option (list auth_triplet) * nat) :=
  if n =? 0 then Ok (None, c)
  else if n <=? 5 then
    need b (c + N.to_nat n * 28) (IEInvalidLength 103) (
    auth_at AuthTriplet_dec (fun _ => 28%nat) 103 n b c)
  else Err (IEIncorrect 103).
(* 136-259 *)
Definition MmContextGsmKeyTriplets_unmarshal (m : mode) (b : list N) : res (Tliv mm_gsm_t) :=
  need b 20 (IEInvalidLength 103) (hdr4 b (fun len ins =>
  let? x4 := at_ b 4 in let? x5 := at_ b 5 in let? x6 := at_ b 6 in
  let? kc := be_at b 7 8 in
  let? (trips, c) := trips_at (N.shiftr x5 5) b 15 in
  let? (drx, c) := drx_at (bit x4 8) b c in
  let? (sambr, c) := ambr_at 103 (bit x5 1) b c in
  let? (uambr, c) := ambr_at 103 (bit x5 2) b c in
  let? (ue, c) := cap_at 103 b c in
  let? (ms, c) := cap_at 103 b c in
  let? (mei, c) := cap_at 103 b c in
  let? (acc, c) := access_at b c in
  let? (vdn, c) := optlv_at 103 b c in
  Ok (std 103 len ins (mkMmGsmT (SecurityMode_of (N.shiftr x4 5)) (N.land x4 7) (CipherValues_of x6) kc
    trips drx sambr uambr ue ms mei acc vdn)))).
(* 261-263 *)
Definition MmContextGsmKeyTriplets_len (m : mode) (x : Tliv mm_gsm_t) : res nat := len_usize x.

(* ---- mmctxumtskeycipherquintuplets.rs *)
(* 16-38 *)
Record mm_umts_cq := mkMmUmtsCq {
  c_sec : SecurityMode; c_ksi : N; c_ciph : CipherValues; c_int : option GprsIntegrityProtectionValues;
  c_gupii : bool; c_ck : list N; c_ik : list N;
  c_quints : option (list auth_quintuplet); c_drx : option (list N);
  c_sambr : option ambr_mm; c_uambr : option ambr_mm;
  c_ue : option (list N); c_ms : option (list N); c_mei : option (list N);
  c_access : access_restriction; c_vdn : option (list N); c_higher : bool; c_iov : option N }.
(* the second and third octets (84-118), also those of mmctxumtskeyquintuplets.rs (86-120) *)
Definition umts_second (quints : option (list auth_quintuplet)) (iov gupii ugipai used subscr : bool) : N :=
  N.lor (N.lor (N.lor (N.lor (shl8 (opt_count quints) 5) (flag iov 16)) (flag gupii 8)) (flag ugipai 4))
    (ambr_flags used subscr).
Definition umts_third (int : option GprsIntegrityProtectionValues) (ciph : CipherValues) : N :=
  N.lor (match int with Some i => shl8 (GprsIntegrityProtectionValues_to i) 3 | None => 0 end) (CipherValues_to ciph).
Definition umts_int (i : bool) (x6 : N) : option GprsIntegrityProtectionValues :=
  if i then Some (GprsIntegrityProtectionValues_of (N.shiftr x6 3)) else None.
(* 75-171 *)
Definition MmContextUmtsKeyCipherQuintuplets_value (v : mm_umts_cq) : list N :=
  [ mm_first (c_sec v) (is_some (c_drx v)) (c_ksi v);
    umts_second (c_quints v) (is_some (c_iov v)) (c_gupii v) (is_some (c_int v)) (is_some (c_uambr v)) (is_some (c_sambr v));
    umts_third (c_int v) (c_ciph v) ]
  ++ c_ck v ++ c_ik v ++ opt_list AuthQuintuplet_enc (c_quints v) ++ opt_oct (c_drx v)
  ++ opt_ambr (c_sambr v) ++ opt_ambr (c_uambr v)
  ++ opt_lv (c_ue v) ++ opt_lv (c_ms v) ++ opt_lv (c_mei v)
  ++ [AccessRestrictionMM_to (c_access v)] ++ opt_lv (c_vdn v) ++ higher_enc (c_higher v)
  ++ match c_iov v with Some i => [i] | None => [] end.
Definition MmContextUmtsKeyCipherQuintuplets_marshal := marshal_ie 104 MmContextUmtsKeyCipherQuintuplets_value.
(* [if iovi && buffer.len() >= cursor { .. } else { return Err }] 304-309 *)
Definition iov_at (T : N) (i : bool) (b : list N) (c : nat) : res (option N * nat) :=
  if i && (c <=? length b)%nat then let? x := at_ b c in Ok (Some x, (c + 1)%nat)
  else Err (IEInvalidLength T).
(* 173-316 *)
Definition MmContextUmtsKeyCipherQuintuplets_unmarshal (m : mode) (b : list N) : res (Tliv mm_umts_cq) :=
  need b 40 (IEInvalidLength 104) (hdr4 b (fun len ins =>
  let? x4 := at_ b 4 in let? x5 := at_ b 5 in let? x6 := at_ b 6 in
  let? ck := slice b 7 23 in let? ik := slice b 23 39 in
  let? (quints, c) := auth_at AuthQuintuplet_dec AuthQuintuplet_size 104 (N.shiftr x5 5) b 39 in
  let? (drx, c) := drx_at (bit x4 8) b c in
  let? (sambr, c) := ambr_at 104 (bit x5 1) b c in
  let? (uambr, c) := ambr_at 104 (bit x5 2) b c in
  let? (ue, c) := cap_at 104 b c in
  let? (ms, c) := cap_at 104 b c in
  let? (mei, c) := cap_at 104 b c in
  let? (acc, c) := access_at b c in
  let? (vdn, c) := cap_at 104 b c in
  let? (h, c) := higher_at b c in
  let? (iov, c) := iov_at 104 (bit x5 16) b c in
  Ok (std 104 len ins (mkMmUmtsCq (SecurityMode_of (N.shiftr x4 5)) (N.land x4 7) (CipherValues_of (N.land x6 7))
    (umts_int (bit x5 4) x6) (bit x5 8) ck ik quints drx sambr uambr ue ms mei acc vdn h iov)))).
(* 318-320 *)
Definition MmContextUmtsKeyCipherQuintuplets_len (m : mode) (x : Tliv mm_umts_cq) : res nat := len_usize x.

(* ---- mmctxumtskeyquadrupletsquintuplets.rs *)
(* 16-35 *)
Record mm_umts_qq := mkMmUmtsQq {
  d_sec : SecurityMode; d_ksi : N; d_ck : list N; d_ik : list N;
  d_quads : option (list auth_quadruplet); d_quints : option (list auth_quintuplet); d_drx : option (list N);
  d_sambr : option ambr_mm; d_uambr : option ambr_mm;
  d_ue : option (list N); d_ms : option (list N); d_mei : option (list N);
  d_access : access_restriction; d_vdn : option (list N); d_rates : option (list apn_rate_mm) }.
(* 69-155 *)
Definition MmContextUmtsKeyQuadrupletsQuintuplets_value (v : mm_umts_qq) : list N :=
  [ mm_first (d_sec v) (is_some (d_drx v)) (d_ksi v);
    N.lor (N.lor (shl8 (opt_count (d_quints v)) 5) (shl8 (opt_count (d_quads v)) 2))
      (ambr_flags (is_some (d_uambr v)) (is_some (d_sambr v)));
    0 ]
  ++ d_ck v ++ d_ik v ++ opt_list AuthQuadruplet_enc (d_quads v) ++ opt_list AuthQuintuplet_enc (d_quints v)
  ++ opt_oct (d_drx v) ++ opt_ambr (d_sambr v) ++ opt_ambr (d_uambr v)
  ++ opt_lv (d_ue v) ++ opt_lv (d_ms v) ++ opt_lv (d_mei v)
  ++ [AccessRestrictionMM_to (d_access v)] ++ opt_lv (d_vdn v) ++ rates_enc (d_rates v).
Definition MmContextUmtsKeyQuadrupletsQuintuplets_marshal := marshal_ie 108 MmContextUmtsKeyQuadrupletsQuintuplets_value.
(* 157-314 *)
Definition MmContextUmtsKeyQuadrupletsQuintuplets_unmarshal (m : mode) (b : list N) : res (Tliv mm_umts_qq) :=
  need b 43 (IEInvalidLength 108) (hdr4 b (fun len ins =>
  let? x4 := at_ b 4 in let? x5 := at_ b 5 in
  let? ck := slice b 7 23 in let? ik := slice b 23 39 in
  let? (quads, c) := auth_at AuthQuadruplet_dec AuthQuadruplet_size 108 (N.shiftr (N.land x5 28) 2) b 39 in
  let? (quints, c) := auth_at AuthQuintuplet_dec AuthQuintuplet_size 108 (N.shiftr x5 5) b c in
  let? (drx, c) := drx_at (bit x4 8) b c in
  let? (sambr, c) := ambr_at 108 (bit x5 1) b c in
  let? (uambr, c) := ambr_at 108 (bit x5 2) b c in
  let? (ue, c) := cap_at 108 b c in
  let? (ms, c) := cap_at 108 b c in
  let? (mei, c) := cap_at 108 b c in
  let? (acc, c) := access_at b c in
  let? (vdn, c) := optlv_at 108 b c in
  let? (rates, _) := rates_at 108 b c in
  Ok (std 108 len ins (mkMmUmtsQq (SecurityMode_of (N.shiftr x4 5)) (N.land x4 7) ck ik
    quads quints drx sambr uambr ue ms mei acc vdn rates)))).
(* 316-318 *)
Definition MmContextUmtsKeyQuadrupletsQuintuplets_len (m : mode) (x : Tliv mm_umts_qq) : res nat := len_usize x.

(* ---- mmctxumtskeyquintuplets.rs *)
(* 16-39 *)
Record mm_umts_q := mkMmUmtsQ {
  q_sec : SecurityMode; q_ksi : N; q_ciph : CipherValues; q_int : option GprsIntegrityProtectionValues;
  q_gupii : bool; q_ck : list N; q_ik : list N;
  q_quints : option (list auth_quintuplet); q_drx : option (list N);
  q_sambr : option ambr_mm; q_uambr : option ambr_mm;
  q_ue : option (list N); q_ms : option (list N); q_mei : option (list N);
  q_access : access_restriction; q_vdn : option (list N); q_higher : bool; q_iov : option N;
  q_ext : option ext_access_restriction }.
(* 77-179 *)
Definition MmContextUmtsKeyQuintuplets_value (v : mm_umts_q) : list N :=
  [ mm_first (q_sec v) (is_some (q_drx v)) (q_ksi v);
    umts_second (q_quints v) (is_some (q_iov v)) (q_gupii v) (is_some (q_int v)) (is_some (q_uambr v)) (is_some (q_sambr v));
    umts_third (q_int v) (q_ciph v) ]
  ++ q_ck v ++ q_ik v ++ opt_list AuthQuintuplet_enc (q_quints v) ++ opt_oct (q_drx v)
  ++ opt_ambr (q_sambr v) ++ opt_ambr (q_uambr v)
  ++ opt_lv (q_ue v) ++ opt_lv (q_ms v) ++ opt_lv (q_mei v)
  ++ [AccessRestrictionMM_to (q_access v)] ++ opt_lv (q_vdn v) ++ higher_enc (q_higher v)
  ++ match q_iov v with Some i => [i] | None => [] end ++ ext_access_enc (q_ext v).
Definition MmContextUmtsKeyQuintuplets_marshal := marshal_ie 106 MmContextUmtsKeyQuintuplets_value.
(* 181-341 *)
Definition MmContextUmtsKeyQuintuplets_unmarshal (m : mode) (b : list N) : res (Tliv mm_umts_q) :=
  need b 41 (IEInvalidLength 106) (hdr4 b (fun len ins =>
  let? x4 := at_ b 4 in let? x5 := at_ b 5 in let? x6 := at_ b 6 in
  let? ck := slice b 7 23 in let? ik := slice b 23 39 in
  let? (quints, c) := auth_at AuthQuintuplet_dec AuthQuintuplet_size 106 (N.shiftr x5 5) b 39 in
  let? (drx, c) := drx_at (bit x4 8) b c in
  let? (sambr, c) := ambr_at 106 (bit x5 1) b c in
  let? (uambr, c) := ambr_at 106 (bit x5 2) b c in
  let? (ue, c) := cap_at 106 b c in
  let? (ms, c) := cap_at 106 b c in
  let? (mei, c) := cap_at 106 b c in
  let? (acc, c) := access_at b c in
  let? (vdn, c) := cap_at 106 b c in
  let? (h, c) := higher_at b c in
  let? (iov, c) := iov_at 106 (bit x5 16) b c in
  let? (ext, _) := ext_access_at 106 b c in
  Ok (std 106 len ins (mkMmUmtsQ (SecurityMode_of (N.shiftr x4 5)) (N.land x4 7) (CipherValues_of (N.land x6 7))
    (umts_int (bit x5 4) x6) (bit x5 8) ck ik quints drx sambr uambr ue ms mei acc vdn h iov ext)))).
(* 343-345 *)
Definition MmContextUmtsKeyQuintuplets_len (m : mode) (x : Tliv mm_umts_q) : res nat := len_usize x.

(* ---- mmctx.rs: 8-15, 79-88, 90-120, 122-131 *)
Inductive MmContext :=
| MmEps (x : Tliv mm_eps) | MmUmtsQ (x : Tliv mm_umts_q) | MmUmtsQq (x : Tliv mm_umts_qq)
| MmUmtsCq (x : Tliv mm_umts_cq) | MmGsmT (x : Tliv mm_gsm_t) | MmGsmCq (x : Tliv mm_gsm_cq).
Definition MmContext_marshal (x : MmContext) : list N :=
  match x with
  | MmEps i => MmContextEpsSecurityContextQuadruplets_marshal i
  | MmUmtsQ i => MmContextUmtsKeyQuintuplets_marshal i
  | MmUmtsQq i => MmContextUmtsKeyQuadrupletsQuintuplets_marshal i
  | MmUmtsCq i => MmContextUmtsKeyCipherQuintuplets_marshal i
  | MmGsmT i => MmContextGsmKeyTriplets_marshal i
  | MmGsmCq i => MmContextGsmKeyCipherQuintuplets_marshal i
  end.
Definition MmContext_unmarshal (m : mode) (b : list N) : res MmContext :=
  let? t := at_ b 0 in
  if t =? 107 then let? i := MmContextEpsSecurityContextQuadruplets_unmarshal m b in Ok (MmEps i)
  else if t =? 106 then let? i := MmContextUmtsKeyQuintuplets_unmarshal m b in Ok (MmUmtsQ i)
  else if t =? 108 then let? i := MmContextUmtsKeyQuadrupletsQuintuplets_unmarshal m b in Ok (MmUmtsQq i)
  else if t =? 104 then let? i := MmContextUmtsKeyCipherQuintuplets_unmarshal m b in Ok (MmUmtsCq i)
  else if t =? 103 then let? i := MmContextGsmKeyTriplets_unmarshal m b in Ok (MmGsmT i)
  else if t =? 105 then let? i := MmContextGsmKeyCipherQuintuplets_unmarshal m b in Ok (MmGsmCq i)
  else Err (IEIncorrect t).
Definition MmContext_len (m : mode) (x : MmContext) : res nat :=
  match x with
  | MmEps i => MmContextEpsSecurityContextQuadruplets_len m i
  | MmUmtsQ i => MmContextUmtsKeyQuintuplets_len m i
  | MmUmtsQq i => MmContextUmtsKeyQuadrupletsQuintuplets_len m i
  | MmUmtsCq i => MmContextUmtsKeyCipherQuintuplets_len m i
  | MmGsmT i => MmContextGsmKeyTriplets_len m i
  | MmGsmCq i => MmContextGsmKeyCipherQuintuplets_len m i
  end.
Definition MmContext_ins (x : MmContext) : N :=
  match x with
  | MmEps i => ie_ins i | MmUmtsQ i => ie_ins i | MmUmtsQq i => ie_ins i
  | MmUmtsCq i => ie_ins i | MmGsmT i => ie_ins i | MmGsmCq i => ie_ins i
  end.
