(* V2Parts.v - the structures inside GTPv2-C elements that are public themselves and can be marshalled, unmarshalled, measured and
   asked whether they are empty (commons.rs, targetid.rs, sourceid.rs). Their codecs are in V2Common.v and V2IeF.v; here are len()
   and is_empty() of each, the Default values, and all of them as one type. get_ins() and get_type() return 0 for each of them. *)
From Verif Require Import Base V2Base V2Common V2IeF.
Local Open Scope N_scope.

(* self.rand == [0; n] *)
Definition zeros (n : nat) (l : list N) : bool := (length l =? n)%nat && forallb (fun x => x =? 0) l.
Definition no_text (l : list N) : bool := (length l =? 0)%nat.
Definition plmn_zero (p : plmn) : bool := (p_mcc p =? 0) && (p_mnc p =? 0).
(* commons.rs 54-59, 102-107, 151-156, 196-201, 241-246, 287-293, 334-340, 400-406, 443-449 *)
Definition Cgi_is_empty (v : cgi) : bool := plmn_zero (cgi_plmn v) && (cgi_lac v =? 0) && (cgi_ci v =? 0).
Definition Cgi_part_len (v : cgi) : nat := 7.
Definition Sai_is_empty (v : sai) : bool := plmn_zero (sai_plmn v) && (sai_lac v =? 0) && (sai_sac v =? 0).
Definition Sai_part_len (v : sai) : nat := 7.
Definition Rai_is_empty (v : rai) : bool := plmn_zero (rai_plmn v) && (rai_lac v =? 0) && (rai_rac v =? 0).
Definition Rai_part_len (v : rai) : nat := 6.
Definition Tai_is_empty (v : tai) : bool := plmn_zero (tai_plmn v) && (tai_tac v =? 0).
Definition Tai_part_len (v : tai) : nat := 5.
Definition Ecgi_is_empty (v : ecgi) : bool := plmn_zero (ecgi_plmn v) && (ecgi_eci v =? 0).
Definition Ecgi_part_len (v : ecgi) : nat := 7.
Definition Lai_is_empty (v : lai) : bool := plmn_zero (lai_plmn v) && (lai_lac v =? 0).
Definition Lai_part_len (v : lai) : nat := 5.
Definition MacroEnbId_is_empty (v : macro_enb) : bool := plmn_zero (me_plmn v) && (me_id v =? 0).
Definition MacroEnbId_part_len (v : macro_enb) : nat := 6.
Definition ExtMacroEnbId_is_empty (v : ext_macro_enb) : bool := plmn_zero (xe_plmn v) && (xe_id v =? 0).
Definition ExtMacroEnbId_part_len (v : ext_macro_enb) : nat := 6.
Definition AuthTriplet_is_empty (v : auth_triplet) : bool := zeros 16 (at_rand v) && zeros 4 (at_sres v) && zeros 8 (at_kc v).
Definition AuthTriplet_part_len (v : auth_triplet) : nat := 28.
(* commons.rs 550-556, 680-685, 823-829, 1195-1200, 1270-1272; len() of the five is in V2Common.v but for AmbrMM *)
Definition AuthQuintuplet_is_empty (v : auth_quintuplet) : bool :=
  zeros 16 (aq_rand v) && no_text (aq_xres v) && zeros 16 (aq_ck v) && zeros 16 (aq_ik v) && no_text (aq_autn v).
Definition AuthQuadruplet_is_empty (v : auth_quadruplet) : bool :=
  zeros 16 (ad_rand v) && no_text (ad_xres v) && no_text (ad_autn v) && zeros 32 (ad_kasme v).
Definition ApnRateControlStatusMM_is_empty (v : apn_rate_mm) : bool :=
  no_text (rm_apn v) && (rm_ul v =? 0) && (rm_exc v =? 0) && (rm_dl v =? 0) && zeros 8 (rm_validity v).
Definition AmbrMM_is_empty (v : ambr_mm) : bool := (amm_ul v =? 0) && (amm_dl v =? 0).
Definition AmbrMM_part_len (v : ambr_mm) : nat := 8.
Definition OldEpsSecurityContext_is_empty (v : old_eps_ctx) : bool :=
  (oe_ksi v =? 0) && zeros 32 (oe_kasme v) && negb (is_some (oe_next_hop v)).
(* targetid.rs 68-77, 116-122, 160-166, 215-221, 283-289, 327-333, 371-377, 461-475 *)
Definition RncIdentifier_is_empty (v : rnc_id) : bool := Rai_is_empty (rn_rai v) && (rn_id v =? 0) && negb (is_some (rn_ext v)).
Definition RncIdentifier_part_len (v : rnc_id) : nat := if is_some (rn_ext v) then 10 else 8.
Definition MacroEnbIdentifier_is_empty (v : macro_enb_tac) : bool := MacroEnbId_is_empty (mt_enb v) && (mt_tac v =? 0).
Definition MacroEnbIdentifier_part_len (v : macro_enb_tac) : nat := 8.
Definition ExtendedMacroEnbIdentifier_is_empty (v : ext_enb_tac) : bool := ExtMacroEnbId_is_empty (xt_enb v) && (xt_tac v =? 0).
Definition ExtendedMacroEnbIdentifier_part_len (v : ext_enb_tac) : nat := 8.
Definition CellIdentifier_is_empty (v : cell_id) : bool :=
  plmn_zero (ce_plmn v) && (ce_lac v =? 0) && (ce_rac v =? 0) && (ce_ci v =? 0).
Definition CellIdentifier_part_len (v : cell_id) : nat := 8.
Definition GNbIdentifier_is_empty (v : gnb_id) : bool := plmn_zero (gn_plmn v) && (gn_id v =? 0) && zeros 3 (gn_etac v).
Definition GNbIdentifier_part_len (v : gnb_id) : nat := 11.
Definition MacronGeNbIdentifier_is_empty (v : macro_ng) : bool := MacroEnbId_is_empty (mn_enb v) && zeros 3 (mn_etac v).
Definition MacronGeNbIdentifier_part_len (v : macro_ng) : nat := 9.
Definition ExtendedGeNbIdentifier_is_empty (v : ext_ng) : bool := ExtMacroEnbId_is_empty (xn_enb v) && zeros 3 (xn_etac v).
Definition ExtendedGeNbIdentifier_part_len (v : ext_ng) : nat := 9.
Definition EnGNbIdentifier_is_empty (v : en_gnb) : bool :=
  plmn_zero (eg_plmn v) && (eg_id v =? 0) && negb (is_some (eg_tac v)) && negb (is_some (eg_etac v)).
(* targetid.rs 636-649; the variant MacroEnbIdentifier falls under the last arm *)
Definition target_type_is_empty (t : target_type) : bool :=
  match t with
  | Tt_Rnc i => RncIdentifier_is_empty i | Tt_MacroeNb i => MacroEnbIdentifier_is_empty i | Tt_Cell i => CellIdentifier_is_empty i
  | Tt_Home i => MacroEnbIdentifier_is_empty i | Tt_ExtMacro i => ExtendedMacroEnbIdentifier_is_empty i
  | Tt_GNb i => GNbIdentifier_is_empty i | Tt_MacroNg i => MacronGeNbIdentifier_is_empty i
  | Tt_ExtNg i => ExtendedGeNbIdentifier_is_empty i | Tt_EnGNb i => EnGNbIdentifier_is_empty i | _ => true
  end.
(* sourceid.rs 73-75, 152-158 *)
Definition SourceRncIdentifier_is_empty (v : source_rnc) : bool := plmn_zero (sr_plmn v) && (sr_id v =? 0) && negb (is_some (sr_ext v)).
Definition source_type_is_empty (s : source_type) : bool :=
  match s with St_Rnc i => SourceRncIdentifier_is_empty i | St_Cell i => CellIdentifier_is_empty i | St_Spare => true end.

(* Default: derived (all numbers 0, all arrays 0, no text, None) but for targetid.rs 241-252 and 398-410 *)
Definition plmn_none : plmn := mkPlmn 0 0 false.
Definition Rnc_default : rnc_id := mkRncId (mkRai plmn_none 0 0) 0 None.
Definition MacroTac_default : macro_enb_tac := mkMacroTac (mkMacroEnb plmn_none 0) 0.
Definition ExtTac_default : ext_enb_tac := mkExtTac (mkExtMacroEnb plmn_none false 0) 0.
Definition Cell_default : cell_id := mkCellId plmn_none 0 0 0.
Definition GNb_default : gnb_id := mkGnb plmn_none 22 0 (repeat 0 3).
Definition MacroNg_default : macro_ng := mkMacroNg (mkMacroEnb plmn_none 0) (repeat 0 3).
Definition ExtNg_default : ext_ng := mkExtNg (mkExtMacroEnb plmn_none false 0) (repeat 0 3).
Definition EnGNb_default : en_gnb := mkEnGnb plmn_none 22 0 None None.
Definition SourceRnc_default : source_rnc := mkSourceRnc plmn_none 0 None.
(* targetid.rs 517-532: impl From<u8> for TargetType; sourceid.rs 103-111: impl From<u8> for SourceType *)
Definition target_type_of (x : N) : target_type :=
  if x =? 0 then Tt_Rnc Rnc_default else if x =? 1 then Tt_MacroeNb MacroTac_default else if x =? 2 then Tt_Cell Cell_default
  else if x =? 3 then Tt_Home MacroTac_default else if x =? 4 then Tt_ExtMacro ExtTac_default else if x =? 5 then Tt_GNb GNb_default
  else if x =? 6 then Tt_MacroNg MacroNg_default else if x =? 7 then Tt_ExtNg ExtNg_default else if x =? 8 then Tt_EnGNb EnGNb_default
  else Tt_Spare.
Definition source_type_of (x : N) : source_type :=
  if x =? 0 then St_Cell Cell_default else if x =? 1 then St_Rnc SourceRnc_default else St_Spare.

(* All of them as one type: the kinds, and the values. *)
Inductive part_kind :=
| PK_Cgi | PK_Sai | PK_Rai | PK_Tai | PK_Ecgi | PK_Lai | PK_MacroEnbId | PK_ExtMacroEnbId | PK_AuthTriplet | PK_AuthQuintuplet
| PK_AuthQuadruplet | PK_ApnRateControlStatusMM | PK_AmbrMM | PK_OldEpsSecurityContext | PK_RncIdentifier | PK_MacroEnbIdentifier
| PK_ExtendedMacroEnbIdentifier | PK_CellIdentifier | PK_GNbIdentifier | PK_MacronGeNbIdentifier | PK_ExtendedGeNbIdentifier
| PK_EnGNbIdentifier | PK_TargetType | PK_SourceRncIdentifier | PK_SourceType.
Inductive part :=
| P_Cgi (v : cgi) | P_Sai (v : sai) | P_Rai (v : rai) | P_Tai (v : tai) | P_Ecgi (v : ecgi) | P_Lai (v : lai)
| P_MacroEnbId (v : macro_enb) | P_ExtMacroEnbId (v : ext_macro_enb) | P_AuthTriplet (v : auth_triplet)
| P_AuthQuintuplet (v : auth_quintuplet) | P_AuthQuadruplet (v : auth_quadruplet) | P_ApnRateControlStatusMM (v : apn_rate_mm)
| P_AmbrMM (v : ambr_mm) | P_OldEpsSecurityContext (v : old_eps_ctx) | P_RncIdentifier (v : rnc_id)
| P_MacroEnbIdentifier (v : macro_enb_tac) | P_ExtendedMacroEnbIdentifier (v : ext_enb_tac) | P_CellIdentifier (v : cell_id)
| P_GNbIdentifier (v : gnb_id) | P_MacronGeNbIdentifier (v : macro_ng) | P_ExtendedGeNbIdentifier (v : ext_ng)
| P_EnGNbIdentifier (v : en_gnb) | P_TargetType (v : target_type) | P_SourceRncIdentifier (v : source_rnc) | P_SourceType (v : source_type).
Definition part_kind_of (p : part) : part_kind :=
  match p with
  | P_Cgi _ => PK_Cgi | P_Sai _ => PK_Sai | P_Rai _ => PK_Rai | P_Tai _ => PK_Tai | P_Ecgi _ => PK_Ecgi | P_Lai _ => PK_Lai
  | P_MacroEnbId _ => PK_MacroEnbId | P_ExtMacroEnbId _ => PK_ExtMacroEnbId | P_AuthTriplet _ => PK_AuthTriplet
  | P_AuthQuintuplet _ => PK_AuthQuintuplet | P_AuthQuadruplet _ => PK_AuthQuadruplet
  | P_ApnRateControlStatusMM _ => PK_ApnRateControlStatusMM | P_AmbrMM _ => PK_AmbrMM
  | P_OldEpsSecurityContext _ => PK_OldEpsSecurityContext | P_RncIdentifier _ => PK_RncIdentifier
  | P_MacroEnbIdentifier _ => PK_MacroEnbIdentifier | P_ExtendedMacroEnbIdentifier _ => PK_ExtendedMacroEnbIdentifier
  | P_CellIdentifier _ => PK_CellIdentifier | P_GNbIdentifier _ => PK_GNbIdentifier
  | P_MacronGeNbIdentifier _ => PK_MacronGeNbIdentifier | P_ExtendedGeNbIdentifier _ => PK_ExtendedGeNbIdentifier
  | P_EnGNbIdentifier _ => PK_EnGNbIdentifier | P_TargetType _ => PK_TargetType | P_SourceRncIdentifier _ => PK_SourceRncIdentifier
  | P_SourceType _ => PK_SourceType
  end.
(* marshal, as the octets it appends *)
Definition part_marshal (p : part) : list N :=
  match p with
  | P_Cgi v => Cgi_enc v | P_Sai v => Sai_enc v | P_Rai v => Rai_enc v | P_Tai v => Tai_enc v | P_Ecgi v => Ecgi_enc v
  | P_Lai v => Lai_enc v | P_MacroEnbId v => MacroEnbId_enc v | P_ExtMacroEnbId v => ExtMacroEnbId_enc v
  | P_AuthTriplet v => AuthTriplet_enc v | P_AuthQuintuplet v => AuthQuintuplet_enc v | P_AuthQuadruplet v => AuthQuadruplet_enc v
  | P_ApnRateControlStatusMM v => ApnRateControlStatusMM_enc v | P_AmbrMM v => AmbrMM_enc v
  | P_OldEpsSecurityContext v => OldEpsSecurityContext_enc v | P_RncIdentifier v => RncIdentifier_enc v
  | P_MacroEnbIdentifier v => MacroEnbIdentifier_enc v | P_ExtendedMacroEnbIdentifier v => ExtendedMacroEnbIdentifier_enc v
  | P_CellIdentifier v => CellIdentifier_enc v | P_GNbIdentifier v => GNbIdentifier_enc v
  | P_MacronGeNbIdentifier v => MacronGeNbIdentifier_enc v | P_ExtendedGeNbIdentifier v => ExtendedGeNbIdentifier_enc v
  | P_EnGNbIdentifier v => EnGNbIdentifier_enc v | P_TargetType v => target_type_enc v
  | P_SourceRncIdentifier v => SourceRncIdentifier_enc v | P_SourceType v => source_type_enc v
  end.
(* len() *)
Definition part_len (p : part) : nat :=
  match p with
  | P_Cgi v => Cgi_part_len v | P_Sai v => Sai_part_len v | P_Rai v => Rai_part_len v | P_Tai v => Tai_part_len v
  | P_Ecgi v => Ecgi_part_len v | P_Lai v => Lai_part_len v | P_MacroEnbId v => MacroEnbId_part_len v
  | P_ExtMacroEnbId v => ExtMacroEnbId_part_len v | P_AuthTriplet v => AuthTriplet_part_len v
  | P_AuthQuintuplet v => AuthQuintuplet_size v | P_AuthQuadruplet v => AuthQuadruplet_size v
  | P_ApnRateControlStatusMM v => ApnRateControlStatusMM_size v | P_AmbrMM v => AmbrMM_part_len v
  | P_OldEpsSecurityContext v => OldEpsSecurityContext_size v | P_RncIdentifier v => RncIdentifier_part_len v
  | P_MacroEnbIdentifier v => MacroEnbIdentifier_part_len v | P_ExtendedMacroEnbIdentifier v => ExtendedMacroEnbIdentifier_part_len v
  | P_CellIdentifier v => CellIdentifier_part_len v | P_GNbIdentifier v => GNbIdentifier_part_len v
  | P_MacronGeNbIdentifier v => MacronGeNbIdentifier_part_len v | P_ExtendedGeNbIdentifier v => ExtendedGeNbIdentifier_part_len v
  | P_EnGNbIdentifier v => EnGNbIdentifier_size v | P_TargetType v => target_type_size v
  | P_SourceRncIdentifier v => SourceRncIdentifier_size v | P_SourceType v => source_type_size v
  end.
Definition part_is_empty (p : part) : bool :=
  match p with
  | P_Cgi v => Cgi_is_empty v | P_Sai v => Sai_is_empty v | P_Rai v => Rai_is_empty v | P_Tai v => Tai_is_empty v
  | P_Ecgi v => Ecgi_is_empty v | P_Lai v => Lai_is_empty v | P_MacroEnbId v => MacroEnbId_is_empty v
  | P_ExtMacroEnbId v => ExtMacroEnbId_is_empty v | P_AuthTriplet v => AuthTriplet_is_empty v
  | P_AuthQuintuplet v => AuthQuintuplet_is_empty v | P_AuthQuadruplet v => AuthQuadruplet_is_empty v
  | P_ApnRateControlStatusMM v => ApnRateControlStatusMM_is_empty v | P_AmbrMM v => AmbrMM_is_empty v
  | P_OldEpsSecurityContext v => OldEpsSecurityContext_is_empty v | P_RncIdentifier v => RncIdentifier_is_empty v
  | P_MacroEnbIdentifier v => MacroEnbIdentifier_is_empty v | P_ExtendedMacroEnbIdentifier v => ExtendedMacroEnbIdentifier_is_empty v
  | P_CellIdentifier v => CellIdentifier_is_empty v | P_GNbIdentifier v => GNbIdentifier_is_empty v
  | P_MacronGeNbIdentifier v => MacronGeNbIdentifier_is_empty v | P_ExtendedGeNbIdentifier v => ExtendedGeNbIdentifier_is_empty v
  | P_EnGNbIdentifier v => EnGNbIdentifier_is_empty v | P_TargetType v => target_type_is_empty v
  | P_SourceRncIdentifier v => SourceRncIdentifier_is_empty v | P_SourceType v => source_type_is_empty v
  end.
Definition as_part {A} (f : A -> part) (r : res A) : res part := let? v := r in Ok (f v).
(* X::unmarshal *)
Definition part_unmarshal (k : part_kind) (b : list N) : res part :=
  match k with
  | PK_Cgi => as_part P_Cgi (Cgi_dec b) | PK_Sai => as_part P_Sai (Sai_dec b) | PK_Rai => as_part P_Rai (Rai_dec b)
  | PK_Tai => as_part P_Tai (Tai_dec b) | PK_Ecgi => as_part P_Ecgi (Ecgi_dec b) | PK_Lai => as_part P_Lai (Lai_dec b)
  | PK_MacroEnbId => as_part P_MacroEnbId (MacroEnbId_dec b) | PK_ExtMacroEnbId => as_part P_ExtMacroEnbId (ExtMacroEnbId_dec b)
  | PK_AuthTriplet => as_part P_AuthTriplet (AuthTriplet_dec b) | PK_AuthQuintuplet => as_part P_AuthQuintuplet (AuthQuintuplet_dec b)
  | PK_AuthQuadruplet => as_part P_AuthQuadruplet (AuthQuadruplet_dec b)
  | PK_ApnRateControlStatusMM => as_part P_ApnRateControlStatusMM (ApnRateControlStatusMM_dec b)
  | PK_AmbrMM => as_part P_AmbrMM (AmbrMM_dec b) | PK_OldEpsSecurityContext => as_part P_OldEpsSecurityContext (OldEpsSecurityContext_dec b)
  | PK_RncIdentifier => as_part P_RncIdentifier (RncIdentifier_dec b)
  | PK_MacroEnbIdentifier => as_part P_MacroEnbIdentifier (MacroEnbIdentifier_dec b)
  | PK_ExtendedMacroEnbIdentifier => as_part P_ExtendedMacroEnbIdentifier (ExtendedMacroEnbIdentifier_dec b)
  | PK_CellIdentifier => as_part P_CellIdentifier (CellIdentifier_dec b) | PK_GNbIdentifier => as_part P_GNbIdentifier (GNbIdentifier_dec b)
  | PK_MacronGeNbIdentifier => as_part P_MacronGeNbIdentifier (MacronGeNbIdentifier_dec b)
  | PK_ExtendedGeNbIdentifier => as_part P_ExtendedGeNbIdentifier (ExtendedGeNbIdentifier_dec b)
  | PK_EnGNbIdentifier => as_part P_EnGNbIdentifier (EnGNbIdentifier_dec b) | PK_TargetType => as_part P_TargetType (target_type_dec b)
  | PK_SourceRncIdentifier => as_part P_SourceRncIdentifier (SourceRncIdentifier_dec b)
  | PK_SourceType => as_part P_SourceType (source_type_dec b)
  end.
Definition part_default (k : part_kind) : part :=
  match k with
  | PK_Cgi => P_Cgi (mkCgi plmn_none 0 0) | PK_Sai => P_Sai (mkSai plmn_none 0 0) | PK_Rai => P_Rai (mkRai plmn_none 0 0)
  | PK_Tai => P_Tai (mkTai plmn_none 0) | PK_Ecgi => P_Ecgi (mkEcgi plmn_none 0) | PK_Lai => P_Lai (mkLai plmn_none 0)
  | PK_MacroEnbId => P_MacroEnbId (mkMacroEnb plmn_none 0) | PK_ExtMacroEnbId => P_ExtMacroEnbId (mkExtMacroEnb plmn_none false 0)
  | PK_AuthTriplet => P_AuthTriplet (mkTriplet (repeat 0 16) (repeat 0 4) (repeat 0 8))
  | PK_AuthQuintuplet => P_AuthQuintuplet (mkQuint (repeat 0 16) [] (repeat 0 16) (repeat 0 16) [])
  | PK_AuthQuadruplet => P_AuthQuadruplet (mkQuad (repeat 0 16) [] [] (repeat 0 32))
  | PK_ApnRateControlStatusMM => P_ApnRateControlStatusMM (mkApnRateMm [] 0 0 0 (repeat 0 8))
  | PK_AmbrMM => P_AmbrMM (mkAmbrMm 0 0) | PK_OldEpsSecurityContext => P_OldEpsSecurityContext (mkOldEps 0 None (repeat 0 32) None)
  | PK_RncIdentifier => P_RncIdentifier Rnc_default | PK_MacroEnbIdentifier => P_MacroEnbIdentifier MacroTac_default
  | PK_ExtendedMacroEnbIdentifier => P_ExtendedMacroEnbIdentifier ExtTac_default | PK_CellIdentifier => P_CellIdentifier Cell_default
  | PK_GNbIdentifier => P_GNbIdentifier GNb_default | PK_MacronGeNbIdentifier => P_MacronGeNbIdentifier MacroNg_default
  | PK_ExtendedGeNbIdentifier => P_ExtendedGeNbIdentifier ExtNg_default | PK_EnGNbIdentifier => P_EnGNbIdentifier EnGNb_default
  | PK_TargetType => P_TargetType Tt_Spare | PK_SourceRncIdentifier => P_SourceRncIdentifier SourceRnc_default
  | PK_SourceType => P_SourceType St_Spare
  end.
