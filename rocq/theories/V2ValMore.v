(* V2ValMore.v - the remaining elements: MM contexts, locations, grouped elements; the result for all of them *)
From Verif Require Import Base BaseFacts DigitsFacts V2Base V2DecSpec V2DecFacts V2DecMore.
From Verif Require Export V2ValFacts.
From Coq Require Import Lia Permutation.
Local Open Scope N_scope.

(* ------------------------------------------------------------------------- *)
(* MM contexts *)

Lemma sec_num s : SecurityMode_to s = SecurityMode_num s.
Proof. destruct s; reflexivity. Qed.
Lemma ciph_num s : CipherValues_to s = Cipher_num s.
Proof. destruct s; reflexivity. Qed.
Lemma gint_num s : GprsIntegrityProtectionValues_to s = GprsIntegrity_num s.
Proof. destruct s; reflexivity. Qed.
Lemma nciph_num s : NasCipherValues_to s = NasCipher_num s.
Proof. destruct s; reflexivity. Qed.
Lemma nint_num s : NasIntegrityProtectionValues_to s = NasIntegrity_num s.
Proof. destruct s; reflexivity. Qed.
Lemma mm_first_bits : forall (nhi drx : bool), forallb (fun s => forallb (fun k =>
  N.lor (N.lor (N.lor (shl8 s 5) (flag nhi 16)) (flag drx 8)) k =? octet [(3, s); (1, one nhi); (1, one drx); (3, k)]) (upto 8)) (upto 8) = true.
Proof. intros [] []; vm_compute; reflexivity. Qed.
Lemma sec_lt s : SecurityMode_num s < 8.
Proof. destruct s; reflexivity. Qed.
Lemma mm_first_nhi s (nh d : option (list N)) k : k < 8 ->
  N.lor (N.lor (N.lor (shl8 (SecurityMode_to s) 5) (flag (is_some nh) 16)) (flag (is_some d) 8)) (N.land k 7)
  = mm_octet5 s (given nh) d k.
Proof.
  intros H. unfold mm_octet5. rewrite land7 by exact H. rewrite sec_num, !given_one. apply N.eqb_eq.
  exact (sweep2 8 8 _ (mm_first_bits _ _) _ k (sec_lt s) H).
Qed.
Lemma mm_first_ok s (d : option (list N)) k : k < 8 -> mm_first s (is_some d) k = mm_octet5 s 0 d k.
Proof.
  intros H. pose proof (mm_first_nhi s None d k H) as E. cbn [is_some given flag] in E. rewrite N.lor_0_r in E. exact E.
Qed.
Lemma count_ok {A} (P : A -> Prop) (o : option (list A)) : upto7 P o -> opt_count o = howmany o /\ howmany o < 8.
Proof.
  destruct o as [l|]; cbn [upto7 if_given opt_count howmany]; [|intros; split; [reflexivity|lia]].
  intros [H _]. rewrite N.mod_small by lia. auto.
Qed.
Lemma gsm_bits : forall (u s : bool), forallb (fun n =>
  N.lor (shl8 n 5) (ambr_flags u s) =? octet [(3, n); (3, 0); (1, one u); (1, one s)]) (upto 8) = true.
Proof. intros [] []; vm_compute; reflexivity. Qed.
Lemma gsm_second {A} (P : A -> Prop) (o : option (list A)) (u s : option ambr_mm) : upto7 P o ->
  N.lor (shl8 (opt_count o) 5) (ambr_flags (is_some u) (is_some s))
  = octet [(3, howmany o); (3, 0); (1, given u); (1, given s)].
Proof.
  intros H. destruct (count_ok P o H) as [-> B]. rewrite !given_one. apply N.eqb_eq. exact (sweep 8 _ (gsm_bits _ _) _ B).
Qed.
Lemma qq_bits : forall (u s : bool), forallb (fun n => forallb (fun m =>
  N.lor (N.lor (shl8 n 5) (shl8 m 2)) (flag u 2 + flag s 1) =? octet [(3, n); (3, m); (1, one u); (1, one s)]) (upto 8)) (upto 8) = true.
Proof. intros [] []; vm_compute; reflexivity. Qed.
Lemma qq_second {A B C D} (P : A -> Prop) (Q : B -> Prop) (o : option (list A)) (p : option (list B)) (u : option C) (s : option D) :
  upto7 P o -> upto7 Q p ->
  N.lor (N.lor (shl8 (opt_count o) 5) (shl8 (opt_count p) 2)) (flag (is_some u) 2 + flag (is_some s) 1)
  = octet [(3, howmany o); (3, howmany p); (1, given u); (1, given s)].
Proof.
  intros H1 H2. destruct (count_ok P o H1) as [-> B1], (count_ok Q p H2) as [-> B2]. rewrite !given_one. apply N.eqb_eq.
  exact (sweep2 8 8 _ (qq_bits _ _) _ _ B1 B2).
Qed.
Lemma umts_bits : forall (i g t u s : bool), forallb (fun n =>
  N.lor (N.lor (N.lor (N.lor (shl8 n 5) (flag i 16)) (flag g 8)) (flag t 4)) (ambr_flags u s) =?
  octet [(3, n); (1, one i); (1, one g); (1, one t); (1, one u); (1, one s)]) (upto 8) = true.
Proof. intros [] [] [] [] []; vm_compute; reflexivity. Qed.
Lemma umts_second_ok q (iov : option N) g (t : option GprsIntegrityProtectionValues) (u s : option ambr_mm) :
  upto7 Quintuplet_fits q ->
  umts_second q (is_some iov) g (is_some t) (is_some u) (is_some s) = umts_octet6 q iov g t u s.
Proof.
  intros H. unfold umts_second, umts_octet6. destruct (count_ok _ q H) as [-> B]. rewrite !given_one. apply N.eqb_eq.
  exact (sweep 8 _ (umts_bits _ _ _ _ _) _ B).
Qed.
Lemma umts_third_ok i c : umts_third i c = umts_octet7 i c.
Proof. destruct i as [[]|], c; reflexivity. Qed.
Lemma cipher_octet c : CipherValues_to c = octet [(5, 0); (3, Cipher_num c)].
Proof. destruct c; reflexivity. Qed.
Lemma opt_list_ok {A} (f g : A -> list N) (P : A -> Prop) o : (forall x, P x -> f x = g x) -> upto7 P o ->
  opt_list f o = opt (every g) o.
Proof. intros H. destruct o as [l|]; [|reflexivity]. intros [_ F]. cbn [opt_list opt]. eapply every_ext; eassumption. Qed.
Lemma opt_ambr_ok o : opt_ambr o = opt AmbrMm_wire o.
Proof. destruct o; [apply AmbrMm_w|reflexivity]. Qed.
Lemma lv0_ok o : if_given short o -> V2IeD.opt_lv o = sized0 o.
Proof. apply sized0_ok. Qed.
Lemma byte_opt o : if_given (fun x => x < 256) o -> match o with Some i => [i] | None => [] end = opt (num 1) o.
Proof. exact (opt1_w o). Qed.
Lemma MmGsmT_w v : MmGsmT_fits v -> MmContextGsmKeyTriplets_value v = MmGsmT_wire v.
Proof.
  intros (H1 & H2 & H3 & H4 & H5 & H6). unfold MmContextGsmKeyTriplets_value, MmGsmT_wire, mm_tail.
  rewrite mm_first_ok by exact H1. rewrite (gsm_second _ _ _ _ H2), cipher_octet, num_ok, opt_oct_w, !opt_ambr_ok, Access_w.
  rewrite !lv0_ok by assumption. rewrite (opt_list_ok AuthTriplet_enc Triplet_wire (fun _ => True)) by auto.
  rewrite <- ?app_assoc. reflexivity.
Qed.
Lemma MmGsmCq_w v : MmGsmCq_fits v -> MmContextGsmKeyCipherQuintuplets_value v = MmGsmCq_wire v.
Proof.
  intros (H1 & H2 & H3 & H4 & H5 & H6). unfold MmContextGsmKeyCipherQuintuplets_value, MmGsmCq_wire, mm_tail.
  rewrite mm_first_ok by exact H1. rewrite (gsm_second _ _ _ _ H2), cipher_octet, num_ok, opt_oct_w, !opt_ambr_ok, Access_w.
  rewrite !lv0_ok by assumption. rewrite (opt_list_ok _ _ _ _ Quint_w H2).
  rewrite <- ?app_assoc. reflexivity.
Qed.
Lemma MmUmtsCq_w v : MmUmtsCq_fits v -> MmContextUmtsKeyCipherQuintuplets_value v = MmUmtsCq_wire v.
Proof.
  intros (H1 & H2 & (H3 & H4 & H5 & H6) & H7). unfold MmContextUmtsKeyCipherQuintuplets_value, MmUmtsCq_wire, mm_tail.
  rewrite mm_first_ok by exact H1. rewrite (umts_second_ok _ _ _ _ _ _ H2), umts_third_ok, opt_oct_w, !opt_ambr_ok, Access_w.
  rewrite !lv0_ok by assumption. rewrite (opt_list_ok _ _ _ _ Quint_w H2). rewrite byte_opt by exact H7.
  rewrite <- ?app_assoc. reflexivity.
Qed.
Lemma MmUmtsQ_w v : MmUmtsQ_fits v -> MmContextUmtsKeyQuintuplets_value v = MmUmtsQ_wire v.
Proof.
  intros (H1 & H2 & (H3 & H4 & H5 & H6) & H7). unfold MmContextUmtsKeyQuintuplets_value, MmUmtsQ_wire, mm_tail.
  rewrite mm_first_ok by exact H1. rewrite (umts_second_ok _ _ _ _ _ _ H2), umts_third_ok, opt_oct_w, !opt_ambr_ok, Access_w, ExtAccess_w.
  rewrite !lv0_ok by assumption. rewrite (opt_list_ok _ _ _ _ Quint_w H2). rewrite byte_opt by exact H7.
  rewrite <- ?app_assoc. reflexivity.
Qed.
Lemma MmUmtsQq_w v : MmUmtsQq_fits v -> MmContextUmtsKeyQuadrupletsQuintuplets_value v = MmUmtsQq_wire v.
Proof.
  intros (H1 & H2 & H2' & (H3 & H4 & H5 & H6) & H7). unfold MmContextUmtsKeyQuadrupletsQuintuplets_value, MmUmtsQq_wire, mm_tail, ambr_flags.
  rewrite mm_first_ok by exact H1. rewrite (qq_second _ _ _ _ _ _ H2' H2), opt_oct_w, !opt_ambr_ok, Access_w.
  rewrite !lv0_ok by assumption. rewrite (opt_list_ok _ _ _ _ Quint_w H2'), (opt_list_ok _ _ _ _ Quad_w H2), Rates_w by exact H7.
  rewrite <- ?app_assoc. reflexivity.
Qed.
Lemma eps_third s i c : N.lor (flag (is_some s) 128) (N.lor (shl8 (NasIntegrityProtectionValues_to i) 4) (NasCipherValues_to c))
  = octet [(1, @given ambr_mm s); (3, NasIntegrity_num i); (4, NasCipher_num c)].
Proof. destruct s, i, c; reflexivity. Qed.
Lemma MmEps_w v : MmEps_fits v -> MmContextEpsSecurityContextQuadruplets_value v = MmEps_wire v.
Proof.
  intros (H1 & H2 & H2' & Hn & (H3 & H4 & H5 & H6) & Ho & Hr & Ha & Hs & H7 & Hc & Hi & He).
  unfold MmContextEpsSecurityContextQuadruplets_value, MmEps_wire.
  rewrite mm_first_nhi by exact H1. rewrite (qq_second _ _ _ _ _ _ H2' H2), eps_third, opt_oct_w, !opt_ambr_ok, Access_w, ExtAccess_w, !num_ok.
  rewrite !lv0_ok by assumption. rewrite (opt_list_ok _ _ _ _ Quint_w H2'), (opt_list_ok _ _ _ _ Quad_w H2), Rates_w by exact H7.
  rewrite byte_opt by exact He.
  assert (E1 : match e_old v with Some o => OldEpsSecurityContext_enc o | None => [] end = opt OldEps_wire (e_old v))
    by (destruct (e_old v); [apply OldEps_w; exact Ho|reflexivity]).
  assert (E2 : match e_nh v, e_ncc v with Some i, Some j => i ++ [N.land j 7] | Some i, None => i ++ [0] | None, _ => [] end
    = opt (fun n => n ++ [octet [(5, 0); (3, match e_ncc v with Some c => c | None => 0 end)]]) (e_nh v)).
  { destruct (e_nh v), (e_ncc v) as [j|]; cbn [opt if_given] in *; try reflexivity. rewrite land7, low3 by exact Hn. reflexivity. }
  rewrite E1, E2. reflexivity.
Qed.

(* ------------------------------------------------------------------------- *)
(* elements *)

Lemma MonExt_w v : MonExt_fits v -> MonitoringEventExtensionInfo_value v = MonExt_wire v.
Proof.
  intros H. unfold MonitoringEventExtensionInfo_value, MonExt_wire. rewrite num_ok, !opt_be_w, sized_ok, !given_one by exact H.
  f_equal. destruct (is_some (mx_ext v)), (is_some (mx_rmplrt v)); reflexivity.
Qed.
Lemma MonInfo_w v : MonInfo_fits v -> MonitoringEventInformation_value v = MonInfo_wire v.
Proof.
  intros H. unfold MonitoringEventInformation_value, MonInfo_wire. rewrite !num_ok, !opt_be_w, sized_ok by exact H. reflexivity.
Qed.
Lemma MonInfo_i v ins : ins < 16 -> N.lor (mon_flags v) (N.land ins 15) = MonInfo_instance v ins.
Proof.
  intros H. unfold mon_flags, MonInfo_instance. rewrite land15 by exact H. rewrite given_one.
  assert (S : forall a b c d : bool, forallb (fun i => N.lor (flag a 128 + flag b 64 + flag c 32 + flag d 16) i =?
    octet [(1, one a); (1, one b); (1, one c); (1, one d); (4, i)]) (upto 16) = true)
    by (intros [] [] [] []; vm_compute; reflexivity).
  apply N.eqb_eq. exact (sweep 16 _ (S _ _ _ _) _ H).
Qed.
Lemma NodeFeatures_w v : NodeFeatures_value v = NodeFeatures_wire v.
Proof. destruct v as [[] [] [] [] [] [] [] []]; reflexivity. Qed.
Lemma NodeIdentifier_w v : NodeIdentifier_fits v -> NodeIdentifier_value v = NodeIdentifier_wire v.
Proof. intros [H1 H2]. unfold NodeIdentifier_value, NodeIdentifier_wire. rewrite !sized_ok by assumption. reflexivity. Qed.
Lemma semi_short k s : nlen s <= 2 * k -> nlen (semi_octets s) <= k.
Proof.
  intros H. unfold nlen in *. rewrite semi_len.
  assert ((length s + 1) / 2 <= N.to_nat k)%nat; [|lia].
  apply Nat.lt_succ_r. apply Nat.div_lt_upper_bound; lia.
Qed.
Lemma NodeNumber_w v : NodeNumber_fits v -> NodeNumber_value v = NodeNumber_wire v.
Proof.
  intros [H1 H2]. unfold NodeNumber_value, NodeNumber_wire. rewrite semi_ok by exact H1. apply sized_ok.
  unfold short. pose proof (semi_short 254 v H2). unfold nlen in *. cbn [length]. lia.
Qed.
Lemma NodeType_w v : NodeType_value v = NodeType_wire v.
Proof. destruct v; reflexivity. Qed.
Lemma PacketFlow_w v : PacketFlow_fits v -> PacketFlowId_value v = PacketFlow_wire v.
Proof. intros H. unfold PacketFlowId_value, PacketFlow_wire. rewrite num_ok, low4 by exact H. reflexivity. Qed.
Lemma Paging_w v : Paging_fits v -> PagingServiceInfo_value v = Paging_wire v.
Proof.
  intros [H1 H2]. unfold PagingServiceInfo_value, Paging_wire. rewrite low4 by exact H1. f_equal.
  destruct (pg_policy v) as [x|]; [|reflexivity]. cbn [opt given]. rewrite num1 by exact H2. reflexivity.
Qed.
Lemma Pc5Flow_w v : Pc5Flow_fits v -> PC5QosFlow_value v = Pc5Flow_wire v.
Proof.
  intros H. unfold PC5QosFlow_value, Pc5Flow_wire. rewrite !num_ok, byte_opt, given_one by exact H.
  destruct (is_some (p5_range v)); reflexivity.
Qed.
Lemma PdnType_w v : PdnType_value v = PdnType_wire v.
Proof. destruct v; reflexivity. Qed.
Lemma PduNumbers_w v : PduNumbers_fits v -> PduNumbers_value v = PduNumbers_wire v.
Proof. intros H. unfold PduNumbers_value, PduNumbers_wire. rewrite !num_ok, low4 by exact H. reflexivity. Qed.
Lemma firstn_few {A} (l : list A) k : nlen l < N.of_nat (S k) -> firstn k l = l.
Proof. intros H. apply firstn_all2. unfold nlen in H. lia. Qed.
Lemma Praa_w v : Praa_fits v -> PresenceReportingAreaAction_value v = Praa_wire v.
Proof.
  intros (H0 & (L1 & F1) & (L2 & F2) & (L3 & F3) & (L4 & F4) & (L5 & F5) & (L6 & F6) & (L7 & F7) & (L8 & F8)).
  unfold PresenceReportingAreaAction_value, Praa_wire. cbv zeta.
  rewrite (firstn_few (pa_tai v)), (firstn_few (pa_rai v)), (firstn_few (pa_macro v)), (firstn_few (pa_home v)),
    (firstn_few (pa_ecgi v)), (firstn_few (pa_sai v)), (firstn_few (pa_cgi v)), (firstn_few (pa_ext v)) by assumption.
  rewrite !low6, oct44, num_ok by assumption. rewrite (N.mul_comm 16).
  unfold enc_all. rewrite (every_ext _ _ _ _ Tai_w F1), (every_ext _ _ _ _ Rai_w F2), (every_ext _ _ _ _ Macro_w F3),
    (every_ext _ _ _ _ Macro_w F4), (every_ext _ _ _ _ Ecgi_w F5), (every_ext _ _ _ _ Sai_w F6), (every_ext _ _ _ _ Cgi_w F7),
    (every_ext _ _ _ _ ExtMacro_w F8).
  f_equal.
  assert (S : forall a : bool, forallb (fun i => N.lor (flag a 8) i =? octet [(4, 0); (1, one a); (3, i)]) (upto 8) = true)
    by (intros []; vm_compute; reflexivity).
  apply N.eqb_eq. exact (sweep 8 _ (S _) _ H0).
Qed.
Lemma area_ok more a : presence_area_enc a more = area_wire more a.
Proof. destruct a; cbn [presence_area_enc area_wire]; rewrite num_ok; destruct more; reflexivity. Qed.
Lemma areas_ok l : forall a, presence_areas_enc (a :: l) = areas_wire a l.
Proof.
  induction l as [|b l IH]; intros a; [apply area_ok|].
  change (presence_areas_enc (a :: b :: l)) with (presence_area_enc a true ++ presence_areas_enc (b :: l)).
  rewrite IH, area_ok. reflexivity.
Qed.
Lemma Prai_w v : PresenceReportingAreaInformation_value v = Prai_wire v.
Proof. apply areas_ok. Qed.
Lemma PrivateExt_w v : PrivateExtension_value v = PrivateExt_wire v.
Proof. unfold PrivateExtension_value, PrivateExt_wire. plain. Qed.
Lemma Pscell_w v : plmn_fits (ps_plmn v) -> PSCellId_value v = Pscell_wire v.
Proof. intros. unfold PSCellId_value, Pscell_wire. plain. Qed.
Lemma Rab_w v : Rab_fits v -> RabContext_value v = Rab_wire v.
Proof.
  intros H. unfold RabContext_value, Rab_wire. rewrite !num_ok. cbn [app]. f_equal.
  assert (S : forall a b c d : bool, forallb (fun i => N.lor (flag a 128 + flag b 64 + flag c 32 + flag d 16) i =?
    octet [(1, one a); (1, one b); (1, one c); (1, one d); (4, i)]) (upto 16) = true)
    by (intros [] [] [] []; vm_compute; reflexivity).
  apply N.eqb_eq. exact (sweep 16 _ (S _ _ _ _) _ H).
Qed.
Lemma RanNas_w v : RanNasCause_value v = RanNas_wire v.
Proof. destruct v as [[]| | | | |]; cbn [RanNasCause_value RanNas_wire]; rewrite ?num_ok; reflexivity. Qed.
Lemma Rat_w v : RatType_value v = Rat_wire v.
Proof. destruct v; reflexivity. Qed.
Lemma few_short s : few_digits s -> lv (tbcd_encode s) = sized (semi_octets s).
Proof.
  intros [H1 H2]. rewrite semi_ok by exact H1. apply sized_ok. unfold short. pose proof (semi_short 255 s H2). lia.
Qed.
Lemma RemoteUser_w v : RemoteUser_fits v -> RemoteUserId_value v = RemoteUser_wire v.
Proof.
  intros (H1 & H2 & H3). unfold RemoteUserId_value, RemoteUser_wire. rewrite few_short by exact H1. rewrite !given_one.
  assert (E : forall o, if_given few_digits o -> opt_lv (opt_map tbcd_encode o) = opt (fun d => sized (semi_octets d)) o).
  { intros [s|] Hs; [|reflexivity]. apply few_short. exact Hs. }
  rewrite !E by assumption. f_equal. destruct (is_some (ru_imei v)), (is_some (ru_msisdn v)); reflexivity.
Qed.
Lemma S103_w v : S103_fits v -> S103pdf_value v = S103_wire v.
Proof. intros [H1 H2]. unfold S103pdf_value, S103_wire, addr_kind. rewrite addr_sized, num_ok, sized_ok by assumption. reflexivity. Qed.
Lemma S1udf_w v : S1udf_fits v -> S1udf_value v = S1udf_wire v.
Proof.
  intros [H1 H2]. unfold S1udf_value, S1udf_wire, addr_kind. rewrite addr_sized, num_ok, land15, low4 by assumption. reflexivity.
Qed.
Lemma opt_sized o : if_given short o -> opt_lv o = opt sized o.
Proof. destruct o as [x|]; [apply sized_ok|reflexivity]. Qed.
Lemma RatReport_w v : RatReport_fits v -> SecondaryRatUsageDataReport_value v = RatReport_wire v.
Proof.
  intros [H1 H2]. unfold SecondaryRatUsageDataReport_value, RatReport_wire.
  rewrite !num_ok, low4, opt_sized, given_one by assumption. cbn [app]. f_equal.
  destruct (is_some (rr_transfer v)), (rr_irsgw v), (rr_irpgw v); reflexivity.
Qed.
Lemma ServiceIndicator_w v : ServiceIndicator_value v = ServiceIndicator_wire v.
Proof. destruct v; reflexivity. Qed.
Lemma ServicesAuth_w v : ServicesAuthorized_value v = ServicesAuth_wire v.
Proof. destruct v as [[] []]; reflexivity. Qed.
Lemma PlmnRate_w v : ServingPlmnRateControl_value v = PlmnRate_wire v.
Proof. unfold ServingPlmnRateControl_value, PlmnRate_wire. plain. Qed.
Lemma Sgi_w v : SgiPtpTunnelAddress_value v = Sgi_wire v.
Proof.
  unfold SgiPtpTunnelAddress_value, Sgi_wire. rewrite opt_be_w, given_one.
  destruct (sg_ip v), (is_some (sg_port v)); reflexivity.
Qed.
Lemma Cell_w v : plmn_fits (ce_plmn v) -> CellIdentifier_enc v = Cell_wire v.
Proof. intros. unfold CellIdentifier_enc, Cell_wire. plain. Qed.
Lemma SourceId_w v : SourceId_fits v -> SourceIdentification_value v = SourceId_wire v.
Proof.
  intros [H1 H2]. unfold SourceIdentification_value, SourceId_wire. rewrite Cell_w by exact H1. f_equal.
  destruct (si_source v); cbn [source_type_to source_type_enc app]; [|rewrite Cell_w by exact H2; reflexivity|reflexivity].
  unfold SourceRncIdentifier_enc. rewrite opt_be_w. plain.
Qed.
Lemma SpecialIe_w v : SpecialIEWithTypeExt_value v = SpecialIe_wire v.
Proof. unfold SpecialIEWithTypeExt_value, SpecialIe_wire. plain. Qed.
Lemma SrvccCause_w v : SrvccCause_value v = SrvccCause_wire v.
Proof. destruct v; reflexivity. Qed.
Lemma StnSr_w v : StnSr_fits v -> StnSr_value v = StnSr_wire v.
Proof. intros H. unfold StnSr_value, StnSr_wire. rewrite semi_ok by exact H. reflexivity. Qed.
Lemma Target_w v : Target_fits v -> TargetIdentification_value v = Target_wire v.
Proof.
  destruct v; cbn [Target_fits Target_wire]; intros H; unfold TargetIdentification_value; cbn [target_type_to target_type_enc]; f_equal.
  - unfold RncIdentifier_enc. rewrite Rai_w, num_ok, opt_be_w by exact H. unfold Rai_wire.
    replace (plmn_wire (rai_plmn (rn_rai v)) ++ num 2 (rai_lac (rn_rai v)) ++ [rai_rac (rn_rai v); 255])
      with ((plmn_wire (rai_plmn (rn_rai v)) ++ num 2 (rai_lac (rn_rai v)) ++ [rai_rac (rn_rai v)]) ++ [255])
      by (rewrite <- !app_assoc; reflexivity).
    rewrite removelast_last, <- !app_assoc. reflexivity.
  - unfold MacroEnbIdentifier_enc. rewrite Macro_w, num_ok by exact H. reflexivity.
  - apply Cell_w, H.
  - unfold MacroEnbIdentifier_enc. rewrite Macro_w, num_ok by exact H. reflexivity.
  - unfold ExtendedMacroEnbIdentifier_enc. rewrite ExtMacro_w, num_ok by exact H. reflexivity.
  - destruct H as [H1 H2]. unfold GNbIdentifier_enc. rewrite low6 by exact H2. plain.
  - unfold MacronGeNbIdentifier_enc. rewrite Macro_w by exact H. reflexivity.
  - unfold ExtendedGeNbIdentifier_enc. rewrite ExtMacro_w by exact H. reflexivity.
  - destruct H as [H1 H2]. unfold EnGNbIdentifier_enc. rewrite opt_be_w, opt_octets_w, num_ok, !given_one, plmn_wire_ok by exact H1.
    do 2 f_equal. f_equal.
    assert (S : forall a b : bool, forallb (fun i => N.lor (flag a 128 + flag b 64) i =? octet [(1, one a); (1, one b); (6, i)]) (upto 64) = true)
      by (intros [] []; vm_compute; reflexivity).
    apply N.eqb_eq. exact (sweep 64 _ (S _ _) _ H2).
Qed.
Lemma Throttle_w v : Throttle_fits v -> Throttling_value v = Throttle_wire v.
Proof. intros [H1 H2]. unfold Throttling_value, Throttle_wire. rewrite bits35 by assumption. reflexivity. Qed.
Lemma TraceInfo_w v : plmn_fits (ti_plmn v) -> TraceInformation_value v = TraceInfo_wire v.
Proof. intros. unfold TraceInformation_value, TraceInfo_wire. plain. Qed.
Lemma TraceRef_w v : plmn_fits (tr_plmn v) -> TraceReference_value v = TraceRef_wire v.
Proof. intros. unfold TraceReference_value, TraceRef_wire. plain. Qed.
Lemma Transaction_w v : TransactionIdentifier_value v = Transaction_wire v.
Proof.
  unfold TransactionIdentifier_value, Transaction_wire. destruct (N.ltb_spec (tx_id v) 7) as [H|H].
  - f_equal. assert (S : forall a : bool, forallb (fun i => N.lor (flag a 128) (N.land (shl8 i 4) 112) =? octet [(1, one a); (3, i); (4, 0)]) (upto 7) = true)
      by (intros []; vm_compute; reflexivity).
    apply N.eqb_eq. exact (sweep 7 _ (S _) _ H).
  - destruct (tx_flag v); reflexivity.
Qed.
Lemma Twan_w v : Twan_fits v -> TwanId_value v = Twan_wire v.
Proof.
  intros (H1 & H2 & H3 & H4 & H5 & H6). unfold TwanId_value, Twan_wire.
  rewrite sized_ok, opt_octets_w, !(opt_sized (tw_civic v)), !(opt_sized (tw_circuit v)), !given_one by assumption.
  assert (E1 : match tw_plmn v with Some p => plmn_enc p | None => [] end = opt plmn_wire (tw_plmn v))
    by (destruct (tw_plmn v); [apply plmn_wire_ok; exact H3|reflexivity]).
  assert (E2 : opt_lv (opt_map utf8 (tw_name v)) = opt (fun s => sized (utf8 s)) (tw_name v))
    by (destruct (tw_name v); [apply sized_ok; exact H4|reflexivity]).
  assert (E3 : match tw_relay v with Some (i, d) => i :: lv d | None => [] end = opt (fun r => fst r :: sized (snd r)) (tw_relay v)).
  { destruct (tw_relay v) as [[i d]|]; [|reflexivity]. cbn [opt fst snd]. rewrite sized_ok by exact H5. reflexivity. }
  rewrite E1, E2, E3. f_equal.
  destruct (is_some (tw_relay v)), (is_some (tw_name v)), (is_some (tw_plmn v)), (is_some (tw_civic v)), (is_some (tw_bssid v)); reflexivity.
Qed.
Lemma Twmi_w v : Twmi_value v = Twmi_wire v.
Proof. destruct v as [[] []]; reflexivity. Qed.
Lemma Uci_w v : Uci_fits v -> Uci_value v = Uci_wire v.
Proof.
  intros [H1 H2]. unfold Uci_value, Uci_wire. rewrite plmn_wire_ok, num_ok by exact H1.
  change 134217727 with (N.ones 27). rewrite N.land_ones, N.mod_small by exact H2.
  destruct (uc_mode v), (uc_lcsg v), (uc_cmi v); reflexivity.
Qed.
Lemma TimeZone_w v : TimeZone_fits v -> UeTimeZone_value v = TimeZone_wire v.
Proof.
  intros [H1 H2]. unfold UeTimeZone_value, TimeZone_wire. rewrite low2 by exact H2. f_equal.
  destruct (Z.leb_spec 0 (tz_zone v)) as [L|L], (Z.ltb_spec (tz_zone v) 0) as [L'|L']; try lia; cbn [one].
  - rewrite Z.abs_eq by exact L. symmetry. octets_tac.
  - rewrite Z.abs_neq by lia. change 128 with (1 * 2 ^ 7). rewrite lor_add by (cbn; lia). symmetry. octets_tac.
Qed.
Lemma UpPolicy_w v : UpSecurityPolicy_value v = UpPolicy_wire v.
Proof. destruct v; reflexivity. Qed.
Lemma Wlan_w v : WlanOffloadIndication_value v = Wlan_wire v.
Proof. destruct v as [[] []]; reflexivity. Qed.

(* ------------------------------------------------------------------------- *)
(* user location *)

Lemma insert_mid x A B : Forall (fun y => loc_kind y < loc_kind x) A -> Forall (fun y => loc_kind x < loc_kind y) B ->
  loc_insert x (A ++ B) = A ++ x :: B.
Proof.
  intros HA HB. induction HA as [|y A Hy HA IH]; cbn [app loc_insert].
  - destruct HB as [|y B Hy HB]; [reflexivity|]. cbn [loc_insert]. unfold loc_key at 1 2. cbn [key_le].
    destruct (N.ltb_spec (loc_kind x) (loc_kind y)); [reflexivity|lia].
  - unfold loc_key at 1 2. cbn [key_le]. destruct (N.ltb_spec (loc_kind x) (loc_kind y)); [lia|].
    destruct (N.eqb_spec (loc_kind x) (loc_kind y)); [lia|]. rewrite IH. reflexivity.
Qed.
Lemma insert_at x L A B : L = A ++ B -> Forall (fun y => loc_kind y < loc_kind x) A -> Forall (fun y => loc_kind x < loc_kind y) B ->
  loc_insert x L = A ++ x :: B.
Proof. intros ->. apply insert_mid. Qed.
Definition in_order v := filter is_cgi v ++ filter is_sai v ++ filter is_rai v ++ filter is_tai v ++
                  filter is_ecgi v ++ filter is_lai v ++ filter is_macro v ++ filter is_ext v.
Definition kinds := [is_cgi; is_sai; is_rai; is_tai; is_ecgi; is_lai; is_macro; is_ext].
Lemma filter_kind P k v : (forall x, P x = true -> loc_kind x = k) -> Forall (fun x => loc_kind x = k) (filter P v).
Proof. intros H. apply Forall_forall. intros x Hx. apply filter_In in Hx. apply H, Hx. Qed.
Lemma none_left P (x : location) r : (length (filter P (x :: r)) <= 1)%nat -> P x = true -> filter P r = [].
Proof. intros L H. revert L. cbn [filter]. rewrite H. cbn [length]. intros L. apply length_zero_iff_nil. lia. Qed.
Lemma kind_of_filters v :
  Forall (fun x => loc_kind x = 1) (filter is_cgi v) /\ Forall (fun x => loc_kind x = 2) (filter is_sai v) /\
  Forall (fun x => loc_kind x = 3) (filter is_rai v) /\ Forall (fun x => loc_kind x = 4) (filter is_tai v) /\
  Forall (fun x => loc_kind x = 5) (filter is_ecgi v) /\ Forall (fun x => loc_kind x = 6) (filter is_lai v) /\
  Forall (fun x => loc_kind x = 7) (filter is_macro v) /\ Forall (fun x => loc_kind x = 8) (filter is_ext v).
Proof. repeat split; apply filter_kind; intros []; (reflexivity || discriminate). Qed.
Ltac sidekinds := repeat (apply Forall_app; split); try (constructor; fail);
  (eapply Forall_impl; [|eassumption]); cbv beta; intros ? ->; cbn [loc_kind]; lia.
Lemma sort_ok v : Forall (fun is => (length (filter is v) <= 1)%nat) kinds -> loc_sort v = in_order v.
Proof.
  induction v as [|x r IH]; intros H; [reflexivity|]. cbn [loc_sort].
  assert (Hr : Forall (fun is => (length (filter is r) <= 1)%nat) kinds).
  { eapply Forall_impl; [|exact H]. cbv beta. intros is L. cbn [filter] in L. destruct (is x); cbn [length] in L; lia. }
  rewrite (IH Hr). clear IH Hr. destruct (kind_of_filters r) as (K1 & K2 & K3 & K4 & K5 & K6 & K7 & K8).
  unfold in_order, kinds in *. rewrite !Forall_cons_iff in H. destruct H as (H1 & H2 & H3 & H4 & H5 & H6 & H7 & H8 & _).
  destruct x; cbn [filter is_cgi is_sai is_rai is_tai is_ecgi is_lai is_macro is_ext].
  - rewrite (none_left _ _ _ H1 eq_refl). rewrite (insert_at _ _ ([]) (filter is_sai r ++ filter is_rai r ++ filter is_tai r ++ filter is_ecgi r ++ filter is_lai r ++ filter is_macro r ++ filter is_ext r)) by (first [sidekinds | cbn [app]; rewrite <- ?app_assoc, ?app_nil_r; reflexivity]).
    cbn [app]; rewrite <- ?app_assoc; reflexivity.
  - rewrite (none_left _ _ _ H2 eq_refl). rewrite (insert_at _ _ (filter is_cgi r) (filter is_rai r ++ filter is_tai r ++ filter is_ecgi r ++ filter is_lai r ++ filter is_macro r ++ filter is_ext r)) by (first [sidekinds | cbn [app]; rewrite <- ?app_assoc, ?app_nil_r; reflexivity]).
    cbn [app]; rewrite <- ?app_assoc; reflexivity.
  - rewrite (none_left _ _ _ H3 eq_refl). rewrite (insert_at _ _ (filter is_cgi r ++ filter is_sai r) (filter is_tai r ++ filter is_ecgi r ++ filter is_lai r ++ filter is_macro r ++ filter is_ext r)) by (first [sidekinds | cbn [app]; rewrite <- ?app_assoc, ?app_nil_r; reflexivity]).
    cbn [app]; rewrite <- ?app_assoc; reflexivity.
  - rewrite (none_left _ _ _ H4 eq_refl). rewrite (insert_at _ _ (filter is_cgi r ++ filter is_sai r ++ filter is_rai r) (filter is_ecgi r ++ filter is_lai r ++ filter is_macro r ++ filter is_ext r)) by (first [sidekinds | cbn [app]; rewrite <- ?app_assoc, ?app_nil_r; reflexivity]).
    cbn [app]; rewrite <- ?app_assoc; reflexivity.
  - rewrite (none_left _ _ _ H5 eq_refl). rewrite (insert_at _ _ (filter is_cgi r ++ filter is_sai r ++ filter is_rai r ++ filter is_tai r) (filter is_lai r ++ filter is_macro r ++ filter is_ext r)) by (first [sidekinds | cbn [app]; rewrite <- ?app_assoc, ?app_nil_r; reflexivity]).
    cbn [app]; rewrite <- ?app_assoc; reflexivity.
  - rewrite (none_left _ _ _ H6 eq_refl). rewrite (insert_at _ _ (filter is_cgi r ++ filter is_sai r ++ filter is_rai r ++ filter is_tai r ++ filter is_ecgi r) (filter is_macro r ++ filter is_ext r)) by (first [sidekinds | cbn [app]; rewrite <- ?app_assoc, ?app_nil_r; reflexivity]).
    cbn [app]; rewrite <- ?app_assoc; reflexivity.
  - rewrite (none_left _ _ _ H7 eq_refl). rewrite (insert_at _ _ (filter is_cgi r ++ filter is_sai r ++ filter is_rai r ++ filter is_tai r ++ filter is_ecgi r ++ filter is_lai r) (filter is_ext r)) by (first [sidekinds | cbn [app]; rewrite <- ?app_assoc, ?app_nil_r; reflexivity]).
    cbn [app]; rewrite <- ?app_assoc; reflexivity.
  - rewrite (none_left _ _ _ H8 eq_refl). rewrite (insert_at _ _ (filter is_cgi r ++ filter is_sai r ++ filter is_rai r ++ filter is_tai r ++ filter is_ecgi r ++ filter is_lai r ++ filter is_macro r) ([])) by (first [sidekinds | cbn [app]; rewrite <- ?app_assoc, ?app_nil_r; reflexivity]).
    cbn [app]; rewrite <- ?app_assoc; reflexivity.
Qed.
Lemma first_step k F R fl : (length F <= 1)%nat -> Forall (fun x => loc_kind x = k + 1) F -> fl < 2 ^ k ->
  loc_first fl (F ++ R) = (let (g, o) := loc_first (fl + (match F with [] => 0 | _ => 1 end) * 2 ^ k) R in (g, every loc_enc F ++ o)).
Proof.
  intros L K B. destruct F as [|x [|y F]]; cbn [length] in L; [| |lia].
  - cbn [app]. rewrite N.mul_0_l, N.add_0_r. destruct (loc_first fl R); reflexivity.
  - inversion K as [|? ? Kx _]; subst. cbn [app loc_first]. cbv zeta. rewrite Kx. replace (k + 1 - 1) with k by lia.
    assert (E : N.lor fl (2 ^ k) = fl + 1 * 2 ^ k).
    { rewrite N.lor_comm. rewrite <- (N.mul_1_l (2 ^ k)) at 1. rewrite lor_add by exact B. lia. }
    assert (E0 : N.land fl (2 ^ k) = 0).
    { apply N.bits_inj_0. intros n. rewrite N.land_spec, N.pow2_bits_eqb. destruct (N.eqb_spec k n); [|apply Bool.andb_false_r].
      subst n. destruct (N.eq_dec fl 0) as [->|Hf]; [reflexivity|]. rewrite (N.bits_above_log2 fl k); [reflexivity|].
      apply N.log2_lt_pow2; lia. }
    rewrite E0, E. cbn [N.eqb]. destruct (loc_first _ R). unfold every. cbn [map concat]. rewrite app_nil_r. reflexivity.
Qed.
Lemma some_left P (v : list location) : match filter P v with [] => 0 | _ => 1 end = one (existsb P v).
Proof. induction v as [|x v IH]; [reflexivity|]. cbn [filter existsb]. destruct (P x); [reflexivity|]. exact IH. Qed.
Lemma one_lt b : one b < 2.
Proof. destruct b; reflexivity. Qed.
Lemma every_app {A} (f : A -> list N) a b : every f (a ++ b) = every f a ++ every f b.
Proof. unfold every. rewrite map_app, concat_app. reflexivity. Qed.
Lemma Uli_w v : Uli_fits v -> Uli_value v = Uli_wire v.
Proof.
  intros [H HF]. unfold Uli_value, Uli_wire. rewrite sort_ok by exact H. unfold in_order.
  destruct (kind_of_filters v) as (K1 & K2 & K3 & K4 & K5 & K6 & K7 & K8).
  rewrite !Forall_cons_iff in H. destruct H as (H1 & H2 & H3 & H4 & H5 & H6 & H7 & H8 & _).
  pose proof (one_lt (existsb is_cgi v)). pose proof (one_lt (existsb is_sai v)). pose proof (one_lt (existsb is_rai v)).
  pose proof (one_lt (existsb is_tai v)). pose proof (one_lt (existsb is_ecgi v)). pose proof (one_lt (existsb is_lai v)).
  pose proof (one_lt (existsb is_macro v)). pose proof (one_lt (existsb is_ext v)).
  rewrite (first_step 0 (filter is_cgi v)) by (assumption || (cbn; lia)). rewrite some_left. change (2 ^ 0) with 1.
  rewrite (first_step 1 (filter is_sai v)) by (assumption || (change (2 ^ 1) with 2; lia)). rewrite some_left. change (2 ^ 1) with 2.
  rewrite (first_step 2 (filter is_rai v)) by (assumption || (change (2 ^ 2) with 4; lia)). rewrite some_left. change (2 ^ 2) with 4.
  rewrite (first_step 3 (filter is_tai v)) by (assumption || (change (2 ^ 3) with 8; lia)). rewrite some_left. change (2 ^ 3) with 8.
  rewrite (first_step 4 (filter is_ecgi v)) by (assumption || (change (2 ^ 4) with 16; lia)). rewrite some_left. change (2 ^ 4) with 16.
  rewrite (first_step 5 (filter is_lai v)) by (assumption || (change (2 ^ 5) with 32; lia)). rewrite some_left. change (2 ^ 5) with 32.
  rewrite (first_step 6 (filter is_macro v)) by (assumption || (change (2 ^ 6) with 64; lia)). rewrite some_left. change (2 ^ 6) with 64.
  rewrite <- (app_nil_r (filter is_ext v)).
  rewrite (first_step 7 (filter is_ext v)) by (assumption || (change (2 ^ 7) with 128; lia)). rewrite some_left. change (2 ^ 7) with 128.
  cbn [loc_first]. rewrite !app_nil_r. f_equal.
  - destruct (existsb is_cgi v), (existsb is_sai v), (existsb is_rai v), (existsb is_tai v), (existsb is_ecgi v), (existsb is_lai v),
      (existsb is_macro v), (existsb is_ext v); reflexivity.
  - rewrite <- !every_app. symmetry. unfold every at 1. symmetry. eapply every_ext; [|].
    2: { repeat (apply Forall_app; split); apply Forall_forall; intros y Hy; apply filter_In in Hy; destruct Hy as [Hy _];
         rewrite Forall_forall in HF; exact (HF y Hy). }
    cbv beta. intros [] Hy; cbn [loc_enc loc_wire];
      [apply Cgi_w|apply Sai_w|apply Rai_w|apply Tai_w|apply Ecgi_w|apply Lai_w|apply Macro_w|apply ExtMacro_w]; exact Hy.
Qed.

(* ------------------------------------------------------------------------- *)
(* framing and grouped elements *)

Lemma member_ok {A} T (value w : A -> list N) x : value (ie_v x) = w (ie_v x) -> marshal_ie T value x = member T w x.
Proof. intros H. unfold marshal_ie, member. rewrite tliv_framed, H. reflexivity. Qed.
Lemma opt_m {A} T (value w : A -> list N) (P : A -> Prop) o : (forall v, P v -> value v = w v) -> if_given (mfits P) o ->
  opt_enc (marshal_ie T value) o = opt (member T w) o.
Proof. intros H. destruct o as [x|]; [|reflexivity]. intros F. apply member_ok, H, F. Qed.
Lemma opt_m0 {A} T (value w : A -> list N) o : (forall v, value v = w v) ->
  opt_enc (marshal_ie T value) o = opt (member T w) o.
Proof. intros H. destruct o as [x|]; [|reflexivity]. apply member_ok, H. Qed.
Lemma many_m {A} T (value w : A -> list N) (P : A -> Prop) l : (forall v, P v -> value v = w v) -> Forall (mfits P) l ->
  many_enc (marshal_ie T value) l = every (member T w) l.
Proof. intros H F. eapply every_ext; [|exact F]. intros x Hx. apply member_ok, H, Hx. Qed.
Lemma many_m0 {A} T (value w : A -> list N) l : (forall v, value v = w v) ->
  many_enc (marshal_ie T value) l = every (member T w) l.
Proof. intros H. apply every_all. intros x. apply member_ok, H. Qed.
Lemma octets_w (v : list N) : v = octets_wire v.
Proof. reflexivity. Qed.
Lemma byte_w (v : N) : [v] = byte_wire v.
Proof. reflexivity. Qed.
Lemma address_w v : IpAddress_value v = address v.
Proof. destruct v; reflexivity. Qed.
Ltac group := repeat (apply f_equal2); first
  [ apply member_ok; auto | apply opt_m0; auto | apply many_m0; auto | idtac ].

Lemma LoadControl_w v : LoadControl_fits v -> LoadControl_value v = LoadControl_wire v.
Proof.
  intros H. unfold LoadControl_value, LoadControl_wire. apply f_equal2; [apply member_ok, num_ok|]. apply f_equal2; [apply member_ok, byte_w|].
  unfold LoadControl_fits in H. destruct (lc_list v) as [l|]; [|reflexivity]. cbn [if_given opt] in *.
  eapply (many_m _ _ _ _ _ ApnRelCap_w H).
Qed.
Lemma Overload_w v : Overload_fits v -> OverloadControlInfo_value v = Overload_wire v.
Proof.
  intros [H1 H2]. unfold OverloadControlInfo_value, Overload_wire. apply f_equal2; [apply member_ok, num_ok|]. apply f_equal2; [apply member_ok, byte_w|].
  apply f_equal2; [apply member_ok, EpcTimer_w, H1|].
  destruct (oc_list v) as [l|]; [|reflexivity]. cbn [if_given opt] in *. eapply (many_m _ _ _ _ _ labels_ok H2).
Qed.
Lemma RemoteCtx_w v : RemoteCtx_fits v -> RemoteUeContext_value v = RemoteCtx_wire v.
Proof.
  intros H. unfold RemoteUeContext_value, RemoteCtx_wire. apply f_equal2; [apply member_ok, RemoteUser_w, H|]. apply opt_m0. reflexivity.
Qed.
Lemma Pc5Params_w v : Pc5Params_fits v -> PC5QosParameters_value v = Pc5Params_wire v.
Proof.
  intros H. unfold PC5QosParameters_value, Pc5Params_wire. apply f_equal2; [eapply (many_m _ _ _ _ _ Pc5Flow_w H)|].
  apply opt_m0. intros; apply num_ok.
Qed.
Lemma PgwChange_w v : PgwChange_fits v -> PgwChangeInfo_value v = PgwChange_wire v.
Proof.
  intros [H1 H2]. unfold PgwChangeInfo_value, PgwChange_wire. apply f_equal2; [apply many_m0, address_w|].
  apply f_equal2; [eapply (many_m _ _ _ _ _ labels_ok H1)|]. apply f_equal2; [eapply (many_m _ _ _ _ _ Fqcsid_w H2)|].
  apply many_m0, octets_w.
Qed.
Lemma Scef_w v : Scef_fits v -> ScefPdnConnections_value v = Scef_wire v.
Proof.
  intros (H1 & H2 & H3). unfold ScefPdnConnections_value, Scef_wire. apply f_equal2; [apply member_ok, labels_ok, H1|].
  apply f_equal2; [apply member_ok, Ebi_w, H2|]. apply member_ok, NodeIdentifier_w, H3.
Qed.
Lemma Bearer_w v : Bearer_fits v -> BearerContext_value v = Bearer_wire v.
Proof.
  intros (H1 & H2 & H3). unfold BearerContext_value, Bearer_wire. apply f_equal2; [apply opt_m0, Cause_w|].
  apply f_equal2; [apply member_ok, Ebi_w, H1|]. apply f_equal2; [apply opt_m0, octets_w|].
  apply f_equal2; [eapply (many_m _ _ _ _ _ Fteid_w H2)|]. apply f_equal2; [eapply (opt_m _ _ _ _ _ BearerQos_w H3)|].
  apply f_equal2; [apply opt_m0; intros; apply num_ok|]. apply f_equal2; [apply opt_m0, BearerFlags_w|].
  apply f_equal2; [apply opt_m0, octets_w|]. apply f_equal2; [apply opt_m0, octets_w|]. apply f_equal2; [apply opt_m0, octets_w|].
  apply f_equal2; [apply opt_m0, MaxLoss_w|]. apply opt_m0, RanNas_w.
Qed.
Lemma V2x_w v : V2x_fits v -> V2xInformation_value v = V2x_wire v.
Proof.
  intros H. unfold V2xInformation_value, V2x_wire. apply f_equal2; [apply many_m0, ServicesAuth_w|].
  apply f_equal2; [apply many_m0; intros; apply num_ok|]. eapply (opt_m _ _ _ _ _ Pc5Params_w H).
Qed.
Lemma Pdn_w v : Pdn_fits v -> PdnConnections_value v = Pdn_wire v.
Proof.
  intros (H1 & H2 & H3 & H4 & H5 & H6 & H7 & H8 & H9). unfold PdnConnections_value, Pdn_wire.
  apply f_equal2; [apply member_ok, labels_ok, H1|]. apply f_equal2; [apply opt_m0, ApnRestriction_w|].
  apply f_equal2; [eapply (opt_m _ _ _ _ _ two_bits_w H2)|]. apply f_equal2; [apply opt_m0, address_w|]. apply f_equal2; [apply opt_m0, address_w|].
  apply f_equal2; [apply member_ok, Ebi_w, H3|]. apply f_equal2; [apply member_ok, Fteid_w, H4|].
  apply f_equal2; [eapply (opt_m _ _ _ _ _ labels_ok H5)|]. apply f_equal2; [eapply (many_m _ _ _ _ _ Bearer_w H6)|].
  apply f_equal2; [apply member_ok, Ambr_w|]. apply f_equal2; [apply opt_m0; intros; apply num_ok|].
  apply f_equal2; [apply opt_m0, byte_w|]. apply f_equal2; [apply opt_m0, byte_w|]. apply f_equal2; [apply opt_m0, flag_w|].
  apply f_equal2; [apply opt_m0, Indication_w|]. apply f_equal2; [apply opt_m0, flag_w|]. apply f_equal2; [apply opt_m0, ChangeToReport_w|].
  apply f_equal2; [eapply (opt_m _ _ _ _ _ labels_ok H7)|]. apply f_equal2; [eapply (opt_m _ _ _ _ _ Praa_w H8)|].
  apply f_equal2; [apply opt_m0, Wlan_w|]. apply f_equal2; [eapply (many_m _ _ _ _ _ RemoteCtx_w H9)|].
  apply f_equal2; [apply opt_m0, PdnType_w|]. apply opt_m0, HdrCompr_w.
Qed.

(* ------------------------------------------------------------------------- *)
(* all elements *)

Theorem ie_wire_ok e : ie_fits e -> ie_marshal e = ie_wire e.
Proof.
  destruct e as [i|i|i|i|i|i|i|i|i|i|i|i|i|i|i|i|i|i|i|i|i|i|i|i|i|i|i|i|i|i|i|i|i|i|x|i|i|i|i|i|i|i|i|i|i|i|i|i|i|i|i|i|i|i|i|i|i|i|i|i|i|i|i|i|i|i|i|i|i|i|i|i|i|i|i|i|i|i|i|i|i|i|i|i|i|i|i|i|i|i|i|i|i|i|i|i|i|i|i|i|i|i|i|i|i|i|i|i|i|i|i|i|i|i|i|i|i|i|i|i|i|i|i|i|i|i|i|i|i|i|i|i|i|i|i|i|i|i|i|i|i|i|i|i|i|i]; cbn [ie_fits ie_marshal ie_wire]; unfold mfits; intros F.
  - apply member_ok, semi_ok, F. (* IE_Imsi *)
  - apply member_ok, Cause_w. (* IE_Cause *)
  - apply member_ok, byte_w. (* IE_Recovery *)
  - apply member_ok, StnSr_w, F. (* IE_StnSr *)
  - apply member_ok, SrvccCause_w. (* IE_SrvccCause *)
  - apply member_ok, labels_ok, F. (* IE_Apn *)
  - apply member_ok, Ambr_w. (* IE_ApnAmbr *)
  - apply member_ok, Ebi_w, F. (* IE_Ebi *)
  - apply member_ok, address_w. (* IE_IpAddress *)
  - apply member_ok, semi_ok, F. (* IE_Mei *)
  - apply member_ok, semi_ok, F. (* IE_Msisdn *)
  - apply member_ok, Indication_w. (* IE_Indication *)
  - apply member_ok, octets_w. (* IE_Pco *)
  - apply member_ok. reflexivity. (* IE_PdnAddressAllocation *)
  - apply member_ok, BearerQos_w, F. (* IE_BearerQos *)
  - apply member_ok, FlowQos_w. (* IE_FlowQos *)
  - apply member_ok, Rat_w. (* IE_RatType *)
  - apply member_ok, plmn_wire_ok, F. (* IE_ServingNetwork *)
  - apply member_ok, octets_w. (* IE_BearerTft *)
  - apply member_ok, octets_w. (* IE_TrafficAggregateDescription *)
  - destruct F as [E F]. change (marshal_ie (ie_t i) Uli_value i = member 86 Uli_wire i). rewrite E. apply member_ok, Uli_w, F.
  - apply member_ok, Fteid_w, F. (* IE_Fteid *)
  - apply member_ok, num_ok. (* IE_Tmsi *)
  - apply member_ok, GlobalCn_w, F. (* IE_GlobalCnId *)
  - apply member_ok, S103_w, F. (* IE_S103pdf *)
  - apply member_ok, S1udf_w, F. (* IE_S1udf *)
  - apply member_ok, byte_w. (* IE_DelayValue *)
  - apply member_ok, Bearer_w, F. (* IE_BearerContext *)
  - apply member_ok, num_ok. (* IE_ChargingId *)
  - apply member_ok, num_ok. (* IE_ChargingCharacteristics *)
  - apply member_ok, TraceInfo_w, F. (* IE_TraceInformation *)
  - apply member_ok, BearerFlags_w. (* IE_BearerFlags *)
  - apply member_ok, PdnType_w. (* IE_PdnType *)
  - apply member_ok, byte_w. (* IE_Pti *)
  - destruct x; [apply member_ok, MmEps_w, F|apply member_ok, MmUmtsQ_w, F|apply member_ok, MmUmtsQq_w, F|apply member_ok, MmUmtsCq_w, F|apply member_ok, MmGsmT_w, F|apply member_ok, MmGsmCq_w, F].
  - apply member_ok, Pdn_w, F. (* IE_PdnConnections *)
  - apply member_ok, PduNumbers_w, F. (* IE_PduNumbers *)
  - apply member_ok, num_ok. (* IE_Ptmsi *)
  - apply member_ok, num_ok. (* IE_PtmsiSignature *)
  - apply member_ok, byte_w. (* IE_HopCounter *)
  - apply member_ok, TimeZone_w, F. (* IE_UeTimeZone *)
  - destruct F.
  - apply member_ok, CompleteRequest_w. (* IE_CompleteRequestMessage *)
  - apply member_ok, Guti_w, F. (* IE_Guti *)
  - apply member_ok, Fcontainer_w. (* IE_Fcontainer *)
  - apply member_ok, Fcause_w. (* IE_Fcause *)
  - apply member_ok, plmn_wire_ok, F. (* IE_PlmnId *)
  - apply member_ok, Target_w, F. (* IE_TargetIdentification *)
  - apply member_ok, PacketFlow_w, F. (* IE_PacketFlowId *)
  - apply member_ok, Rab_w, F. (* IE_RabContext *)
  - apply member_ok, octets_w. (* IE_SrcRncPdcpCtxInfo *)
  - apply member_ok, num_ok. (* IE_PortNumber *)
  - apply member_ok, ApnRestriction_w. (* IE_ApnRestriction *)
  - apply member_ok, two_bits_w, F. (* IE_SelectionMode *)
  - apply member_ok, SourceId_w, F. (* IE_SourceIdentification *)
  - apply member_ok, byte_w. (* IE_ChangeReportingAction *)
  - apply member_ok, Fqcsid_w, F. (* IE_Fqcsid *)
  - apply member_ok, byte_w. (* IE_ChannelNeeded *)
  - apply member_ok, byte_w. (* IE_EmlppPriority *)
  - apply member_ok, NodeType_w. (* IE_NodeType *)
  - apply member_ok, labels_ok, F. (* IE_Fqdn *)
  - apply member_ok, Transaction_w. (* IE_TransactionIdentifier *)
  - apply member_ok, MbmsSa_w, F. (* IE_MbmsSa *)
  - apply member_ok, MbmsSd_w, F. (* IE_MbmsSd *)
  - apply member_ok, byte_w. (* IE_MbmsSessionId *)
  - apply member_ok, num_ok. (* IE_MbmsFlowId *)
  - apply member_ok, Multicast_w. (* IE_MbmsIpMulticastDistribution *)
  - apply member_ok, MbmsAck_w, F. (* IE_MbmsDistributionAck *)
  - apply member_ok, num_ok. (* IE_RfspIndex *)
  - apply member_ok, Uci_w, F. (* IE_Uci *)
  - apply member_ok, byte_w. (* IE_CSGInformationReportingAction *)
  - apply member_ok, num_ok. (* IE_CsgId *)
  - apply member_ok, CsgMembership_w. (* IE_CsgMembershipIndication *)
  - apply member_ok, ServiceIndicator_w. (* IE_ServiceIndicator *)
  - apply member_ok, DetachType_w. (* IE_DetachType *)
  - apply member_ok. reflexivity.
  - apply member_ok, NodeFeatures_w. (* IE_NodeFeatures *)
  - apply member_ok, byte_w. (* IE_MbmsTimeToDataTransfer *)
  - apply member_ok, Throttle_w, F. (* IE_Throttling *)
  - apply member_ok, Arp_w, F. (* IE_Arp *)
  - apply member_ok, EpcTimer_w, F. (* IE_EpcTimer *)
  - apply member_ok, flag_w. (* IE_Spi *)
  - apply member_ok, octets_w. (* IE_Tmgi *)
  - apply member_ok, AdditionalMm_w, F. (* IE_AdditionalMmContextForSrvcc *)
  - apply member_ok, AdditionalFlagsSrvcc_w. (* IE_AdditionalFlagsSrvcc *)
  - apply member_ok, Mdt_w, F. (* IE_MdtConfiguration *)
  - apply member_ok, octets_w. (* IE_Apco *)
  - apply member_ok, num_ok. (* IE_AbsoluteTimeMbmsDataTransfer *)
  - apply member_ok, flag_w. (* IE_HenbInfoReporting *)
  - apply member_ok. reflexivity. (* IE_Ip4Cp *)
  - apply member_ok, ChangeToReport_w. (* IE_ChangeToReportFlags *)
  - apply member_ok, ActionIndication_w. (* IE_ActionIndication *)
  - apply member_ok, Twan_w, F. (* IE_TwanId *)
  - apply member_ok, num_ok. (* IE_UliTimestamp *)
  - apply member_ok, MbmsFlags_w. (* IE_MbmsFlags *)
  - apply member_ok, RanNas_w. (* IE_RanNasCause *)
  - apply member_ok, Cnose_w. (* IE_CnOperatorSelectionEntity *)
  - apply member_ok, Twmi_w. (* IE_Twmi *)
  - apply member_ok, NodeNumber_w, F. (* IE_NodeNumber *)
  - apply member_ok, NodeIdentifier_w, F. (* IE_NodeIdentifier *)
  - apply member_ok, Praa_w, F. (* IE_PresenceReportingAreaAction *)
  - apply member_ok, Prai_w. (* IE_PresenceReportingAreaInformation *)
  - apply member_ok, num_ok. (* IE_TwanIdTimeStamp *)
  - apply member_ok, Overload_w, F. (* IE_OverloadControlInfo *)
  - apply member_ok, LoadControl_w, F. (* IE_LoadControlInfo *)
  - apply member_ok, byte_w. (* IE_Metric *)
  - apply member_ok, num_ok. (* IE_Sqn *)
  - apply member_ok, ApnRelCap_w, F. (* IE_ApnRelativeCapacity *)
  - apply member_ok, Wlan_w. (* IE_WlanOffloadIndication *)
  - apply member_ok, Paging_w, F. (* IE_PagingServiceInfo *)
  - apply member_ok, octets_w. (* IE_IntegerNumber *)
  - apply member_ok, num_ok. (* IE_MilliSecondTimeStamp *)
  - destruct F as [E F]. etransitivity; [apply tliv_framed|]. rewrite MonInfo_i, MonInfo_w by assumption. reflexivity.
  - apply member_ok, EcgiList_w, F. (* IE_EcgiList *)
  - apply member_ok, RemoteCtx_w, F. (* IE_RemoteUeContext *)
  - apply member_ok, RemoteUser_w, F. (* IE_RemoteUserId *)
  - apply member_ok. reflexivity. (* IE_RemoteUeIpInformation *)
  - apply member_ok, Ciot_w. (* IE_CIoTOptimizationSupportIndication *)
  - apply member_ok, Scef_w, F. (* IE_ScefPdnConnections *)
  - apply member_ok, HdrCompr_w. (* IE_HeaderCompressionConfiguration *)
  - apply member_ok, octets_w. (* IE_Epco *)
  - apply member_ok, PlmnRate_w. (* IE_ServingPlmnRateControl *)
  - apply member_ok, Counter_w. (* IE_Counter *)
  - apply member_ok, num_ok. (* IE_MappedUeUsageType *)
  - apply member_ok, RatReport_w, F. (* IE_SecondaryRatUsageDataReport *)
  - apply member_ok, flag_w. (* IE_UpFunctionSelectionIndicationFlags *)
  - apply member_ok, MaxLoss_w. (* IE_MaxPacketLossRate *)
  - apply member_ok, ApnRate_w. (* IE_ApnRateControlStatus *)
  - apply member_ok, ExtTrace_w, F. (* IE_ExtendedTraceInformation *)
  - apply member_ok, MonExt_w, F. (* IE_MonitoringEventExtensionInfo *)
  - apply member_ok, num_ok. (* IE_AdditionalRrmPolicyIndex *)
  - apply member_ok, V2x_w, F. (* IE_V2xInformation *)
  - apply member_ok, Pc5Params_w, F. (* IE_PC5QosParameters *)
  - apply member_ok, ServicesAuth_w. (* IE_ServicesAuthorized *)
  - apply member_ok, num_ok. (* IE_BitRate *)
  - apply member_ok, Pc5Flow_w, F. (* IE_PC5QosFlow *)
  - apply member_ok, Sgi_w. (* IE_SgiPtpTunnelAddress *)
  - apply member_ok, PgwChange_w, F. (* IE_PgwChangeInfo *)
  - apply member_ok, labels_ok, F. (* IE_PgwFqdn *)
  - apply member_ok, octets_w. (* IE_GroupId *)
  - apply member_ok, Pscell_w, F. (* IE_PSCellId *)
  - apply member_ok, UpPolicy_w. (* IE_UpSecurityPolicy *)
  - apply member_ok, semi_ok, F. (* IE_AlternativeImsi *)
  - apply member_ok, SpecialIe_w. (* IE_SpecialIEWithTypeExt *)
  - apply member_ok, PrivateExt_w. (* IE_PrivateExtension *)
  - apply member_ok, octets_w.
Qed.
