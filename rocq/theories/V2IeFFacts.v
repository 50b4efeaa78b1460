(* V2IeFFacts.v - round trip, size and crash freedom of the IEs of V2IeF.v *)
From Verif Require Export V2IeEFacts V2OkF.
From Coq Require Import Sorted.
Local Open Scope N_scope.

Lemma reads_digits o : opt_ok short_digits o -> reads (user_digits (is_some o)) (opt_lv (opt_map tbcd_encode o)) o.
Proof.
  intros H B c R P. destruct o as [s|]; cbn [is_some user_digits opt_lv opt_map opt_ok] in *.
  - destruct H as [Hd Hn]. pose proof (tbcd_encode_length s Hd) as HL. pose proof (at_pos_len _ _ _ P) as L. rewrite app_length, lv_len in L.
    unfold user_digits. rewrite need_ok by lia. rewrite (reads_lv (tbcd_encode s) (IEInvalidLength 192) ltac:(unfold nlen in *; lia) B _ _ P). rewrite bindOk. cbv beta iota.
    rewrite tbcd_decode_encode, digits_only_filter by exact Hd. reflexivity.
  - cbn. rewrite Nat.add_0_r. reflexivity.
Qed.

(* RemoteUserId *)
Lemma RemoteUserId_rt : forall m x r, wf_ie 192 RemoteUserId_value RemoteUserId_ok x ->
  RemoteUserId_unmarshal m (RemoteUserId_marshal x ++ r) = Ok x.
Proof.
  ie_rt. destruct v as [i ms im]. destruct Hv as ([Hd Hc] & Hms & Him). unfold RemoteUserId_value in *. cbn [ru_imsi ru_msisdn ru_imei] in *.
  pose proof (tbcd_encode_length i Hd) as HL.
  destruct (two_flags (is_some im) (is_some ms)) as [F1 F2]. set (fl := flag (is_some im) 2 + flag (is_some ms) 1) in *. clearbody fl.
  rewrite need_ok by lens2. rewrite hdr4_cons, Hbe. cbn [app]. rewrite <- !app_assoc.
  set (B := 192 :: h :: l :: ins :: fl :: _). change (@at_ GTPV2Error B 4) with (Ok (E:=GTPV2Error) fl). bk.
  assert (P : at_pos B 5 (lv (tbcd_encode i) ++ opt_lv (opt_map tbcd_encode ms) ++ opt_lv (opt_map tbcd_encode im) ++ r)) by (exists [192; h; l; ins; fl]; split; reflexivity).
  clearbody B. rewrite (at_pos_at B 5 _ _ P). bk. rewrite N.mod_small by (unfold nlen in *; lia).
  replace (N.to_nat (nlen (tbcd_encode i))) with (length (tbcd_encode i)) by (unfold nlen; lia).
  apply at_pos_cons in P. change (5 + 1)%nat with 6%nat in P.
  change (at_pos B 6 (tbcd_encode i ++ (opt_lv (opt_map tbcd_encode ms) ++ opt_lv (opt_map tbcd_encode im) ++ r))) in P.
  rewrite (at_pos_slice B 6 _ _ _ P) by reflexivity. bk. apply at_pos_next in P. rewrite F1, F2.
  rewrite (reads_digits ms Hms B _ _ P). bk. cbv iota. apply at_pos_next in P.
  rewrite (reads_digits im Him B _ _ P). bk. cbv iota. rewrite tbcd_decode_encode, digits_only_filter by exact Hd. fin.
Qed.
Lemma RemoteUserId_lenok : forall m x, wf_ie 192 RemoteUserId_value RemoteUserId_ok x -> RemoteUserId_len m x = Ok (length (RemoteUserId_marshal x)).
Proof. intros m x H. exact (len_usize_exact _ _ _ x H). Qed.

(* RfspIndex *)
Lemma RfspIndex_rt : forall m x r, wf_ie 144 RfspIndex_value u16 x ->
  RfspIndex_unmarshal m (RfspIndex_marshal x ++ r) = Ok x.
Proof.
  ie_rt. unfold RfspIndex_value. hd. rd. fin.
Qed.
Lemma RfspIndex_lenok : forall m x, wf_ie 144 RfspIndex_value u16 x -> RfspIndex_len m x = Ok (length (RfspIndex_marshal x)).
Proof. intros m x H. destruct x as [t ln i v]. destruct H as (_ & _ & Hl & Hn & Hv). apply len_const_exact. cbn [ie_v] in *. unfold RfspIndex_value in *. lens. Qed.
Lemma RfspIndex_safe : forall m b, returns (RfspIndex_unmarshal m b).
Proof. ie_safe2. Qed.

(* S103pdf *)
Lemma S103pdf_rt : forall m x r, wf_ie 90 S103pdf_value S103pdf_ok x ->
  S103pdf_unmarshal m (S103pdf_marshal x ++ r) = Ok x.
Proof.
  ie_rt. destruct v as [a g e]. destruct Hv as (Ha & Hg & He). unfold S103pdf_value, short_octets in *. cbn [s3_ip s3_gre s3_ebis] in *.
  destruct a as [o|o]; cbn [ipaddr_ok addr_kind] in *; (rewrite need_ok by lens2; rewrite hdr4_cons, Hbe; ckl Hl Hn); cbn [app]; rewrite <- !app_assoc.
  - set (B := 90 :: h :: l :: ins :: 4 :: _). change (@at_ GTPV2Error B 4) with (Ok (E:=GTPV2Error) 4). bk. eqbs.
    assert (P : at_pos B 5 (o ++ enc_be 4 g ++ lv e ++ r)) by (exists [90; h; l; ins; 4]; split; reflexivity).
    clearbody B. rewrite (at_pos_slice B 5 _ _ _ P) by lia. bk. apply at_pos_next in P. rewrite Ha in P. change (5 + 4)%nat with 9%nat in P.
    rewrite (at_pos_be B 9 4 g _ P) by bnd. bk. apply at_pos_next in P. rewrite enc_be_length in P. change (9 + 4)%nat with 13%nat in P.
    rewrite (at_pos_at B 13 _ _ P). bk. rewrite N.mod_small by assumption. replace (N.to_nat (nlen e)) with (length e) by (unfold nlen; lia).
    pose proof (at_pos_len _ _ _ P) as L. rewrite app_length, lv_len in L. rewrite need_ok by lia.
    apply at_pos_cons in P. change (13 + 1)%nat with 14%nat in P. change (at_pos B 14 (e ++ r)) in P.
    rewrite (at_pos_slice B 14 _ _ _ P) by reflexivity. bk. fin.
  - set (B := 90 :: h :: l :: ins :: 16 :: _). change (@at_ GTPV2Error B 4) with (Ok (E:=GTPV2Error) 16). bk. eqbs.
    assert (P : at_pos B 5 (o ++ enc_be 4 g ++ lv e ++ r)) by (exists [90; h; l; ins; 16]; split; reflexivity).
    clearbody B. pose proof (at_pos_len _ _ _ P) as L. rewrite !app_length, lv_len, enc_be_length in L. rewrite need_ok by lia.
    rewrite (at_pos_slice B 5 _ _ _ P) by lia. bk. apply at_pos_next in P. rewrite Ha in P. change (5 + 16)%nat with 21%nat in P.
    rewrite (at_pos_be B 21 4 g _ P) by bnd. bk. apply at_pos_next in P. rewrite enc_be_length in P. change (21 + 4)%nat with 25%nat in P.
    rewrite (at_pos_at B 25 _ _ P). bk. rewrite N.mod_small by assumption. replace (N.to_nat (nlen e)) with (length e) by (unfold nlen; lia).
    rewrite need_ok by lia.
    apply at_pos_cons in P. change (25 + 1)%nat with 26%nat in P. change (at_pos B 26 (e ++ r)) in P.
    rewrite (at_pos_slice B 26 _ _ _ P) by reflexivity. bk. fin.
Qed.
Lemma S103pdf_lenok : forall m x, wf_ie 90 S103pdf_value S103pdf_ok x -> S103pdf_len m x = Ok (length (S103pdf_marshal x)).
Proof. intros m x H. exact (len_usize_exact _ _ _ x H). Qed.

(* S1udf *)
Lemma S1udf_rt : forall m x r, wf_ie 91 S1udf_value S1udf_ok x ->
  S1udf_unmarshal m (S1udf_marshal x ++ r) = Ok x.
Proof.
  ie_rt. destruct v as [e a t]. destruct Hv as (He & Ha & Ht). unfold S1udf_value in *. cbn [s1_ebi s1_ip s1_teid] in *.
  rewrite (land15 e He) in *.
  destruct a as [o|o]; cbn [ipaddr_ok addr_kind] in *; (rewrite need_ok by lens2; rewrite hdr4_cons, Hbe; ckl Hl Hn); cbn [app]; rewrite <- !app_assoc.
  - rewrite !at_cons, !at_0. bk. rewrite ?at_cons, ?at_0. bk. eqbs. rewrite !slice_cons, slice_here by lia. bk. rewrite !be_at_cons, be_at_skip by lia. rewrite Ha. cbn [Nat.sub].
    rewrite be_at_enc by bnd. bk. rewrite (land15 e He). fin.
  - rewrite !at_cons, !at_0. bk. rewrite ?at_cons, ?at_0. bk. eqbs. rewrite need_ok by lens2. rewrite !slice_cons, slice_here by lia. bk. rewrite !be_at_cons, be_at_skip by lia. rewrite Ha. cbn [Nat.sub].
    rewrite be_at_enc by bnd. bk. rewrite (land15 e He). fin.
Qed.
Lemma S1udf_lenok : forall m x, wf_ie 91 S1udf_value S1udf_ok x -> S1udf_len m x = Ok (length (S1udf_marshal x)).
Proof. intros m x H. exact (len_usize_exact _ _ _ x H). Qed.

Lemma three_flags a b c : let x := flag a 4 + flag b 2 + flag c 1 in bit x 4 = a /\ bit x 2 = b /\ bit x 1 = c.
Proof. destruct a, b, c; repeat split; reflexivity. Qed.

(* SecondaryRatUsageDataReport *)
Lemma SecondaryRatUsageDataReport_rt : forall m x r, wf_ie 201 SecondaryRatUsageDataReport_value SecondaryRatUsageDataReport_ok x ->
  SecondaryRatUsageDataReport_unmarshal m (SecondaryRatUsageDataReport_marshal x ++ r) = Ok x.
Proof.
  ie_rt. destruct v as [a b t e st en dl ul tr]. destruct Hv as (H1 & H2 & H3 & H4 & H5 & H6 & H7). unfold SecondaryRatUsageDataReport_value in *.
  cbn [rr_irsgw rr_irpgw rr_rat rr_ebi rr_start rr_end rr_dl rr_ul rr_transfer] in *.
  destruct (three_flags (is_some tr) a b) as (F1 & F2 & F3). set (fl := flag (is_some tr) 4 + flag a 2 + flag b 1) in *. clearbody fl.
  rewrite need_ok by lens2. rewrite hdr4_cons, Hbe. cbn [app]. rewrite <- !app_assoc.
  set (B := 201 :: h :: l :: ins :: fl :: _). change (@at_ GTPV2Error B 4) with (Ok (E:=GTPV2Error) fl). bk.
  change (@at_ GTPV2Error B 5) with (Ok (E:=GTPV2Error) t). bk. change (@at_ GTPV2Error B 6) with (Ok (E:=GTPV2Error) e). bk.
  assert (P : at_pos B 7 (enc_be 4 st ++ enc_be 4 en ++ enc_be 8 dl ++ enc_be 8 ul ++ opt_lv tr ++ r)) by (exists [201; h; l; ins; fl; t; e]; split; reflexivity).
  clearbody B.
  rewrite (at_pos_be B 7 4 _ _ P) by bnd. bk. apply at_pos_next in P. rewrite enc_be_length in P. change (7 + 4)%nat with 11%nat in P.
  rewrite (at_pos_be B 11 4 _ _ P) by bnd. bk. apply at_pos_next in P. rewrite enc_be_length in P. change (11 + 4)%nat with 15%nat in P.
  rewrite (at_pos_be B 15 8 _ _ P) by bnd. bk. apply at_pos_next in P. rewrite enc_be_length in P. change (15 + 8)%nat with 23%nat in P.
  rewrite (at_pos_be B 23 8 _ _ P) by bnd. bk. apply at_pos_next in P. rewrite enc_be_length in P. change (23 + 8)%nat with 31%nat in P.
  rewrite F1, F2, F3. destruct tr as [s|]; cbn [is_some opt_lv opt_ok] in *.
  - pose proof (at_pos_len _ _ _ P) as L. rewrite app_length, lv_len in L. rewrite need_ok by lia.
    rewrite (reads_lv s (IEIncorrect 201) H7 B _ _ P). bk. cbv iota. bk. rewrite (land15 e) by assumption. fin.
  - bk. rewrite (land15 e) by assumption. fin.
Qed.
Lemma SecondaryRatUsageDataReport_lenok : forall m x, wf_ie 201 SecondaryRatUsageDataReport_value SecondaryRatUsageDataReport_ok x -> SecondaryRatUsageDataReport_len m x = Ok (length (SecondaryRatUsageDataReport_marshal x)).
Proof. intros m x H. exact (len_usize_exact _ _ _ x H). Qed.
Lemma SecondaryRatUsageDataReport_safe : forall m b, returns (SecondaryRatUsageDataReport_unmarshal m b).
Proof. ie_safe2. Qed.

Lemma land3 a : a < 4 -> N.land a 3 = a.
Proof. intros H. cases_lt 4%nat H. Qed.

(* SelectionMode *)
Lemma SelectionMode_rt : forall m x r, wf_ie 128 SelectionMode_value two_bit x ->
  SelectionMode_unmarshal m (SelectionMode_marshal x ++ r) = Ok x.
Proof.
  ie_rt. unfold SelectionMode_value. unfold two_bit in Hv. hd. rd. rewrite land3 by assumption. fin.
Qed.
Lemma SelectionMode_lenok : forall m x, wf_ie 128 SelectionMode_value two_bit x -> SelectionMode_len m x = Ok (length (SelectionMode_marshal x)).
Proof. intros m x H. destruct x as [t ln i v]. destruct H as (_ & _ & Hl & Hn & Hv). apply len_const_exact. cbn [ie_v] in *. unfold SelectionMode_value in *. lens. Qed.
Lemma SelectionMode_safe : forall m b, returns (SelectionMode_unmarshal m b).
Proof. ie_safe2. Qed.

(* ServiceIndicator *)
Lemma ServiceIndicator_rt : forall m x r, wf_ie 149 ServiceIndicator_value any x ->
  ServiceIndicator_unmarshal m (ServiceIndicator_marshal x ++ r) = Ok x.
Proof.
  ie_rt. unfold ServiceIndicator_value. hd. rd. fin; destruct v; reflexivity.
Qed.
Lemma ServiceIndicator_lenok : forall m x, wf_ie 149 ServiceIndicator_value any x -> ServiceIndicator_len m x = Ok (length (ServiceIndicator_marshal x)).
Proof. intros m x H. destruct x as [t ln i v]. destruct H as (_ & _ & Hl & Hn & Hv). apply len_const_exact. cbn [ie_v] in *. unfold ServiceIndicator_value in *. lens. Qed.
Lemma ServiceIndicator_safe : forall m b, returns (ServiceIndicator_unmarshal m b).
Proof. ie_safe2. Qed.

Lemma bool_of_flag b e : bool_of (flag b 1) e = Ok b.
Proof. destruct b; reflexivity. Qed.
Lemma returns_bool_of {A} x e (k : bool -> res A) : (forall b, returns (k b)) -> returns (bind (bool_of x e) k).
Proof. intros K. unfold bool_of. destruct (x =? 0); [apply K|]. destruct (x =? 1); [apply K|exact I]. Qed.

(* ServicesAuthorized *)
Lemma ServicesAuthorized_rt : forall m x r, wf_ie 210 ServicesAuthorized_value any x ->
  ServicesAuthorized_unmarshal m (ServicesAuthorized_marshal x ++ r) = Ok x.
Proof.
  ie_rt. destruct v as [a1 a2]. unfold ServicesAuthorized_value. cbn [sa_vehicle sa_pedestrian]. hd. rd. rewrite !bool_of_flag. rd. rewrite ?bool_of_flag. rd. fin.
Qed.
Lemma ServicesAuthorized_lenok : forall m x, wf_ie 210 ServicesAuthorized_value any x -> ServicesAuthorized_len m x = Ok (length (ServicesAuthorized_marshal x)).
Proof. intros m x H. destruct x as [t ln i v]. destruct H as (_ & _ & Hl & Hn & Hv). apply len_const_exact. cbn [ie_v] in *. unfold ServicesAuthorized_value in *. lens. Qed.
Lemma ServicesAuthorized_safe : forall m b,  returns (ServicesAuthorized_unmarshal m b).
Proof.
  intros. match goal with |- returns (?f _ _) => unfold f end. safe2; try (apply returns_bool_of; intros; safe2); try (apply returns_bool_of; intros; safe2).
Qed.

(* ServingNetwork *)
Lemma ServingNetwork_rt : forall m x r, wf_ie 83 ServingNetwork_value plmn_ok x ->
  ServingNetwork_unmarshal m (ServingNetwork_marshal x ++ r) = Ok x.
Proof.
  ie_rt. unfold ServingNetwork_value. hdp. rdx. fin.
Qed.
Lemma ServingNetwork_lenok : forall m x, wf_ie 83 ServingNetwork_value plmn_ok x -> ServingNetwork_len m x = Ok (length (ServingNetwork_marshal x)).
Proof. intros m x H. destruct x as [t ln i v]. destruct H as (_ & _ & Hl & Hn & Hv). apply len_const_exact. cbn [ie_v] in *. unfold ServingNetwork_value in *. lensp. Qed.
Lemma ServingNetwork_safe : forall m b, returns (ServingNetwork_unmarshal m b).
Proof. ie_safe2. Qed.

(* ServingPlmnRateControl *)
Lemma ServingPlmnRateControl_rt : forall m x r, wf_ie 198 ServingPlmnRateControl_value ServingPlmnRateControl_ok x ->
  ServingPlmnRateControl_unmarshal m (ServingPlmnRateControl_marshal x ++ r) = Ok x.
Proof.
  ie_rt. destruct v. unfold ServingPlmnRateControl_value. unfold ServingPlmnRateControl_ok in Hv. cbn in Hv |- *. decompose [and] Hv. clear Hv. rewrite <- ?app_assoc. hd. rd. fin; bools.
Qed.
Lemma ServingPlmnRateControl_lenok : forall m x, wf_ie 198 ServingPlmnRateControl_value ServingPlmnRateControl_ok x -> ServingPlmnRateControl_len m x = Ok (length (ServingPlmnRateControl_marshal x)).
Proof. intros m x H. destruct x as [t ln i v]. destruct H as (_ & _ & Hl & Hn & Hv). apply len_const_exact. cbn [ie_v] in *. unfold ServingPlmnRateControl_value in *. lens. Qed.
Lemma ServingPlmnRateControl_safe : forall m b, returns (ServingPlmnRateControl_unmarshal m b).
Proof. ie_safe2. Qed.

(* SgiPtpTunnelAddress *)
Lemma SgiPtpTunnelAddress_rt : forall m x r, wf_ie 213 SgiPtpTunnelAddress_value SgiPtpTunnelAddress_ok x ->
  SgiPtpTunnelAddress_unmarshal m (SgiPtpTunnelAddress_marshal x ++ r) = Ok x.
Proof.
  ie_rt. destruct v as [a p]. destruct Hv as (Ha & Hp). unfold SgiPtpTunnelAddress_value in *. cbn [sg_ip sg_port] in *.
  destruct a as [o|o]; cbn [ipaddr_ok] in *; (rewrite need_ok by lens2; rewrite hdr4_cons, Hbe; ckl Hl Hn); cbn [app]; rewrite <- !app_assoc.
  - assert (F : N.land (flag (is_some p) 4 + 1) 3 = 1 /\ bit (flag (is_some p) 4 + 1) 4 = is_some p) by (destruct p; split; reflexivity). destruct F as [F1 F2].
    set (fl := flag (is_some p) 4 + 1) in *. clearbody fl.
    set (B := 213 :: h :: l :: ins :: fl :: _). change (@at_ GTPV2Error B 4) with (Ok (E:=GTPV2Error) fl). bk. rewrite F1, F2. eqbs.
    assert (P : at_pos B 5 (o ++ opt_be 2 p ++ r)) by (exists [213; h; l; ins; fl]; split; reflexivity). clearbody B.
    pose proof (at_pos_len _ _ _ P) as L. rewrite app_length in L. rewrite need_ok by lia.
    rewrite (at_pos_slice B 5 _ _ _ P) by lia. bk. apply at_pos_next in P. rewrite Ha in P. change (5 + 4)%nat with 9%nat in P.
    rewrite (reads_opt_be 2 (IEInvalidLength 213) p Hp B _ _ P). bk. cbv iota. fin.
  - assert (F : N.land (flag (is_some p) 4 + 2) 3 = 2 /\ bit (flag (is_some p) 4 + 2) 4 = is_some p) by (destruct p; split; reflexivity). destruct F as [F1 F2].
    set (fl := flag (is_some p) 4 + 2) in *. clearbody fl.
    set (B := 213 :: h :: l :: ins :: fl :: _). change (@at_ GTPV2Error B 4) with (Ok (E:=GTPV2Error) fl). bk. rewrite F1, F2. eqbs.
    assert (P : at_pos B 5 (o ++ opt_be 2 p ++ r)) by (exists [213; h; l; ins; fl]; split; reflexivity). clearbody B.
    pose proof (at_pos_len _ _ _ P) as L. rewrite app_length in L. rewrite need_ok by lia.
    rewrite (at_pos_slice B 5 _ _ _ P) by lia. bk. apply at_pos_next in P. rewrite Ha in P. change (5 + 16)%nat with 21%nat in P.
    rewrite (reads_opt_be 2 (IEInvalidLength 213) p Hp B _ _ P). bk. cbv iota. fin.
Qed.
Lemma SgiPtpTunnelAddress_lenok : forall m x, wf_ie 213 SgiPtpTunnelAddress_value SgiPtpTunnelAddress_ok x -> SgiPtpTunnelAddress_len m x = Ok (length (SgiPtpTunnelAddress_marshal x)).
Proof. intros m x H. exact (len_usize_exact _ _ _ x H). Qed.
Lemma SgiPtpTunnelAddress_safe : forall m b, declared b <= 65531 -> returns (SgiPtpTunnelAddress_unmarshal m b).
Proof.
  intros m b Hd. unfold SgiPtpTunnelAddress_unmarshal. safe2; (apply returns_opt_be; [lia|]; intros; exact I).
Qed.

Lemma CellIdentifier_rt v r : CellIdentifier_ok v -> CellIdentifier_dec (CellIdentifier_enc v ++ r) = Ok v.
Proof.
  destruct v as [p la ra c]. intros (H1 & H2 & H3 & H4). unfold CellIdentifier_dec, CellIdentifier_enc. cbn [ce_plmn ce_lac ce_rac ce_ci] in *.
  rewrite <- !app_assoc. rewrite need_ok by lensp. rdx. fin.
Qed.
Lemma CellIdentifier_size v : length (CellIdentifier_enc v) = 8%nat.
Proof. unfold CellIdentifier_enc. lensp. Qed.
Lemma CellIdentifier_dec_returns : forall b, returns (CellIdentifier_dec b). Proof. cdec. Qed.
Lemma SourceRncIdentifier_rt v r : SourceRncIdentifier_ok v -> SourceRncIdentifier_dec (SourceRncIdentifier_enc v ++ r) = Ok v.
Proof.
  destruct v as [p i o]. intros (H1 & H2 & e & E & H3). cbn [sr_plmn sr_id sr_ext] in *. subst o. unfold SourceRncIdentifier_dec, SourceRncIdentifier_enc. cbn [sr_plmn sr_id sr_ext opt_be].
  rewrite <- !app_assoc.
  assert (L : (7 <= length (plmn_enc p ++ enc_be 2 i ++ enc_be 2 e ++ r))%nat) by lensp.
  destruct (Nat.ltb_spec (length (plmn_enc p ++ enc_be 2 i ++ enc_be 2 e ++ r)) 6) as [Q|_]; [lia|].
  destruct (Nat.leb_spec 7 (length (plmn_enc p ++ enc_be 2 i ++ enc_be 2 e ++ r))) as [_|Q]; [|lia]. clear L. rdx. fin.
Qed.

(* SourceIdentification *)
Lemma SourceIdentification_rt : forall m x r, wf_ie 129 SourceIdentification_value SourceIdentification_ok x ->
  SourceIdentification_unmarshal m (SourceIdentification_marshal x ++ r) = Ok x.
Proof.
  ie_rt. destruct v as [c s]. destruct Hv as [Hc Hs]. unfold SourceIdentification_value in *. cbn [si_target si_source] in *.
  rewrite need_ok by (cbn [length]; rewrite !app_length, CellIdentifier_size; cbn [length]; lia). rewrite hdr4_cons, Hbe. rewrite <- !app_assoc.
  set (B := 129 :: h :: l :: ins :: _).
  assert (P : at_pos B 4 (CellIdentifier_enc c ++ [source_type_to s] ++ source_type_enc s ++ r)) by (exists [129; h; l; ins]; split; reflexivity). clearbody B.
  rewrite (at_pos_slice B 4 _ _ _ P) by (rewrite CellIdentifier_size; reflexivity). bk.
  rewrite <- (app_nil_r (CellIdentifier_enc c)) at 1. rewrite CellIdentifier_rt by assumption. cbn [orelse]. bk.
  apply at_pos_next in P. rewrite CellIdentifier_size in P. change (4 + 8)%nat with 12%nat in P.
  rewrite (at_pos_from B 12 _ P). bk. cbn [app]. unfold source_type_dec. rewrite at_0. bk.
  change (slice_from (source_type_to s :: source_type_enc s ++ r) 1) with (Ok (E:=GTPV2Error) (source_type_enc s ++ r)). bk.
  destruct s as [i|i|]; cbn [source_type_to source_type_enc source_type_ok] in *; [| |contradiction]; eqbs.
  - rewrite SourceRncIdentifier_rt by assumption. cbn [orelse]. bk. cbn [orelse]. bk. reflexivity.
  - rewrite CellIdentifier_rt by assumption. cbn [orelse]. bk. cbn [orelse]. bk. reflexivity.
Qed.
Lemma SourceIdentification_lenok : forall m x, wf_ie 129 SourceIdentification_value SourceIdentification_ok x -> SourceIdentification_len m x = Ok (length (SourceIdentification_marshal x)).
Proof. intros m x H. destruct x as [t ln i v]. destruct H as (_ & _ & Hl & Hn & Hv). apply len_const_exact. cbn [ie_v] in *. unfold SourceIdentification_value in *. destruct v as [c s]; destruct Hv as [Hc Hs]; cbn [si_source si_target] in *; rewrite !app_length, CellIdentifier_size; cbn [length]; destruct s as [w|w|]; cbn [source_type_ok source_type_enc source_type_size] in *; [|rewrite CellIdentifier_size; reflexivity|contradiction]; destruct w as [p w o]; destruct Hs as (_ & _ & e & E & _); cbn [sr_ext] in E; subst o; unfold SourceRncIdentifier_enc, SourceRncIdentifier_size; cbn [sr_plmn sr_id sr_ext opt_be is_some]; rewrite !app_length, plmn_len, !enc_be_length; reflexivity. Qed.

(* SpecialIEWithTypeExt *)
Lemma SpecialIEWithTypeExt_rt : forall m x r, wf_ie 254 SpecialIEWithTypeExt_value SpecialIEWithTypeExt_ok x ->
  SpecialIEWithTypeExt_unmarshal m (SpecialIEWithTypeExt_marshal x ++ r) = Ok x.
Proof.
  ie_rt. destruct v as [e d]. unfold SpecialIEWithTypeExt_ok in Hv. unfold SpecialIEWithTypeExt_value in *. cbn [sp_ext sp_data] in *. rewrite <- app_assoc.
  rewrite need_ok by lens2. rewrite hdr4_cons, Hbe. rewrite !be_at_cons, be_at_enc by bnd. bk. ckl Hl Hn.
  replace (4 + N.to_nat len)%nat with (6 + length d)%nat by (rewrite Hl; lens2). cbn [Nat.add]. rewrite !slice_cons.
  rewrite (slice_skip (enc_be 2 e)) by (rewrite enc_be_length; lia). rewrite enc_be_length. cbn [Nat.sub]. rewrite slice_here by lia. bk. fin.
Qed.
Lemma SpecialIEWithTypeExt_lenok : forall m x, wf_ie 254 SpecialIEWithTypeExt_value SpecialIEWithTypeExt_ok x -> SpecialIEWithTypeExt_len m x = Ok (length (SpecialIEWithTypeExt_marshal x)).
Proof. intros m x H. exact (len_usize_exact _ _ _ x H). Qed.

(* Spi *)
Lemma Spi_rt : forall m x r, wf_ie 157 Spi_value any x ->
  Spi_unmarshal m (Spi_marshal x ++ r) = Ok x.
Proof.
  ie_rt. unfold Spi_value. hd. rd. rewrite bool_of_flag. rd. fin.
Qed.
Lemma Spi_lenok : forall m x, wf_ie 157 Spi_value any x -> Spi_len m x = Ok (length (Spi_marshal x)).
Proof. intros m x H. destruct x as [t ln i v]. destruct H as (_ & _ & Hl & Hn & Hv). apply len_const_exact. cbn [ie_v] in *. unfold Spi_value in *. lens. Qed.
Lemma Spi_safe : forall m b,  returns (Spi_unmarshal m b).
Proof.
  intros. match goal with |- returns (?f _ _) => unfold f end. safe2; try (apply returns_bool_of; intros; safe2); try (apply returns_bool_of; intros; safe2).
Qed.

(* Sqn *)
Lemma Sqn_rt : forall m x r, wf_ie 183 Sqn_value u32 x ->
  Sqn_unmarshal m (Sqn_marshal x ++ r) = Ok x.
Proof.
  ie_rt. unfold Sqn_value. hd. rd. fin.
Qed.
Lemma Sqn_lenok : forall m x, wf_ie 183 Sqn_value u32 x -> Sqn_len m x = Ok (length (Sqn_marshal x)).
Proof. intros m x H. destruct x as [t ln i v]. destruct H as (_ & _ & Hl & Hn & Hv). apply len_const_exact. cbn [ie_v] in *. unfold Sqn_value in *. lens. Qed.
Lemma Sqn_safe : forall m b, returns (Sqn_unmarshal m b).
Proof. ie_safe2. Qed.

(* SourceRncPdcpContextInfo *)
Lemma SourceRncPdcpContextInfo_rt : forall m x r, wf_ie 125 SourceRncPdcpContextInfo_value octets1 x ->
  SourceRncPdcpContextInfo_unmarshal m (SourceRncPdcpContextInfo_marshal x ++ r) = Ok x.
Proof.
  ie_rt. unfold SourceRncPdcpContextInfo_value in *. apply nonempty_len in Hv. hd. rewrite checked_ok by lens. rewrite end16_ok by lia. rewrite bindOk. cbv beta. rewrite slice4 by lens. cbn [bind]. fin.
Qed.
Lemma SourceRncPdcpContextInfo_lenok : forall m x, wf_ie 125 SourceRncPdcpContextInfo_value octets1 x -> SourceRncPdcpContextInfo_len m x = Ok (length (SourceRncPdcpContextInfo_marshal x)).
Proof. intros m x H. exact (len_u16_exact _ _ _ m x H). Qed.
Lemma SourceRncPdcpContextInfo_safe : forall m b, declared b <= 65531 -> returns (SourceRncPdcpContextInfo_unmarshal m b).
Proof. ie_safe2. Qed.

(* SrvccCause *)
Lemma SrvccCause_rt : forall m x r, wf_ie 56 SrvccCause_value any x ->
  SrvccCause_unmarshal m (SrvccCause_marshal x ++ r) = Ok x.
Proof.
  ie_rt. unfold SrvccCause_value. hd. rd. fin; destruct v; reflexivity.
Qed.
Lemma SrvccCause_lenok : forall m x, wf_ie 56 SrvccCause_value any x -> SrvccCause_len m x = Ok (length (SrvccCause_marshal x)).
Proof. intros m x H. destruct x as [t ln i v]. destruct H as (_ & _ & Hl & Hn & Hv). apply len_const_exact. cbn [ie_v] in *. unfold SrvccCause_value in *. lens. Qed.
Lemma SrvccCause_safe : forall m b, returns (SrvccCause_unmarshal m b).
Proof. ie_safe2. Qed.

(* StnSr *)
Lemma StnSr_rt : forall m x r, wf_ie 51 StnSr_value StnSr_ok x ->
  StnSr_unmarshal m (StnSr_marshal x ++ r) = Ok x.
Proof.
  ie_rt. destruct v as [n s]. unfold StnSr_ok in Hv. unfold StnSr_value in *. cbn [sn_nanpi sn_msisdn] in *.
  rewrite need_ok by lens2. rewrite hdr4_cons, Hbe. ckl Hl Hn. cbn [app]. rewrite !at_cons, at_0. bk. rewrite end16_ok by lia. bk.
  replace (N.to_nat (len + 4)) with (5 + length (tbcd_encode s))%nat by (rewrite Hl; lens2). cbn [Nat.add]. rewrite !slice_cons, slice_here by lia. bk.
  rewrite tbcd_decode_encode, digits_only_filter by exact Hv. fin.
Qed.
Lemma StnSr_lenok : forall m x, wf_ie 51 StnSr_value StnSr_ok x -> StnSr_len m x = Ok (length (StnSr_marshal x)).
Proof. intros m x H. exact (len_usize_exact _ _ _ x H). Qed.
Lemma StnSr_safe : forall m b, declared b <= 65531 -> returns (StnSr_unmarshal m b).
Proof. ie_safe2. Qed.

(* TrafficAggregateDescription *)
Lemma TrafficAggregateDescription_rt : forall m x r, wf_ie 85 TrafficAggregateDescription_value octets1 x ->
  TrafficAggregateDescription_unmarshal m (TrafficAggregateDescription_marshal x ++ r) = Ok x.
Proof.
  ie_rt. unfold TrafficAggregateDescription_value in *. apply nonempty_len in Hv. hd. octs. fin.
Qed.
Lemma TrafficAggregateDescription_lenok : forall m x, wf_ie 85 TrafficAggregateDescription_value octets1 x -> TrafficAggregateDescription_len m x = Ok (length (TrafficAggregateDescription_marshal x)).
Proof. intros m x H. exact (len_usize_exact _ _ _ x H). Qed.
Lemma TrafficAggregateDescription_safe : forall m b, declared b <= 65531 -> returns (TrafficAggregateDescription_unmarshal m b).
Proof. ie_safe2. Qed.

Lemma removelast_rai v : removelast (Rai_enc v) = plmn_enc (rai_plmn v) ++ enc_be 2 (rai_lac v) ++ [rai_rac v].
Proof. unfold Rai_enc. replace (plmn_enc (rai_plmn v) ++ enc_be 2 (rai_lac v) ++ [rai_rac v; 255]) with ((plmn_enc (rai_plmn v) ++ enc_be 2 (rai_lac v) ++ [rai_rac v]) ++ [255]) by (rewrite <- !app_assoc; reflexivity). apply removelast_last. Qed.
Lemma Rai_short v : Rai_ok v -> Rai_dec (removelast (Rai_enc v)) = Ok v.
Proof.
  destruct v as [p la ra]. intros (H1 & H2 & H3). rewrite removelast_rai. unfold Rai_dec. cbn [rai_plmn rai_lac rai_rac] in *.
  rewrite need_ok by lensp. rdx. fin.
Qed.
Lemma Rai_short_len v : length (removelast (Rai_enc v)) = 6%nat.
Proof. rewrite removelast_rai. lensp. Qed.
Lemma RncIdentifier_rt v r : target_type_ok (Tt_Rnc v) -> RncIdentifier_dec (RncIdentifier_enc v ++ r) = Ok v.
Proof.
  destruct v as [ra i o]. intros (H1 & H2 & e & E & H3). cbn [rn_rai rn_id rn_ext] in *. subst o. unfold RncIdentifier_dec, RncIdentifier_enc. cbn [rn_rai rn_id rn_ext opt_be].
  rewrite <- !app_assoc. pose proof (Rai_short ra H1) as HR. pose proof (Rai_short_len ra) as HL. set (s := removelast (Rai_enc ra)) in *. clearbody s.
  assert (L : (10 <= length (s ++ enc_be 2 i ++ enc_be 2 e ++ r))%nat) by lens.
  destruct (Nat.leb_spec 8 (length (s ++ enc_be 2 i ++ enc_be 2 e ++ r))) as [_|Q]; [|lia].
  destruct (Nat.ltb_spec (length (s ++ enc_be 2 i ++ enc_be 2 e ++ r)) 10) as [Q|_]; [lia|]. cbn [andb].
  destruct (Nat.leb_spec 10 (length (s ++ enc_be 2 i ++ enc_be 2 e ++ r))) as [_|Q]; [|lia]. clear L.
  rewrite slice_here by lia. bk. rewrite HR. cbn [orelse]. bk. rewrite !(be_at_skip s) by lia. rewrite HL. cbn [Nat.sub].
  rewrite be_at_enc by bnd. bk. rewrite be_at_skip by (rewrite enc_be_length; lia). rewrite enc_be_length. cbn [Nat.sub]. rewrite be_at_enc by bnd. bk. reflexivity.
Qed.
Lemma MacroEnbIdentifier_rt v r : MacroEnbId_ok (mt_enb v) /\ u16 (mt_tac v) -> MacroEnbIdentifier_dec (MacroEnbIdentifier_enc v ++ r) = Ok v.
Proof.
  destruct v as [e t]. intros (H1 & H2). unfold MacroEnbIdentifier_dec, MacroEnbIdentifier_enc. cbn [mt_enb mt_tac] in *. rewrite <- app_assoc.
  rewrite need_ok by (rewrite !app_length, MacroEnbId_size, enc_be_length; lia). rewrite slice_here by (rewrite MacroEnbId_size; lia). bk.
  rewrite <- (app_nil_r (MacroEnbId_enc e)) at 1. rewrite MacroEnbId_rt by assumption. cbn [orelse]. bk.
  rewrite be_at_skip by (rewrite MacroEnbId_size; lia). rewrite MacroEnbId_size. cbn [Nat.sub]. rewrite be_at_enc by bnd. bk. reflexivity.
Qed.
Lemma ExtendedMacroEnbIdentifier_rt v r : ExtMacroEnbId_ok (xt_enb v) /\ u16 (xt_tac v) -> ExtendedMacroEnbIdentifier_dec (ExtendedMacroEnbIdentifier_enc v ++ r) = Ok v.
Proof.
  destruct v as [e t]. intros (H1 & H2). unfold ExtendedMacroEnbIdentifier_dec, ExtendedMacroEnbIdentifier_enc. cbn [xt_enb xt_tac] in *. rewrite <- app_assoc.
  rewrite need_ok by (rewrite !app_length, ExtMacroEnbId_size, enc_be_length; lia). rewrite slice_here by (rewrite ExtMacroEnbId_size; lia). bk.
  rewrite <- (app_nil_r (ExtMacroEnbId_enc e)) at 1. rewrite ExtMacroEnbId_rt by assumption. cbn [orelse]. bk.
  rewrite be_at_skip by (rewrite ExtMacroEnbId_size; lia). rewrite ExtMacroEnbId_size. cbn [Nat.sub]. rewrite be_at_enc by bnd. bk. reflexivity.
Qed.
Lemma GNbIdentifier_rt v r : target_type_ok (Tt_GNb v) -> GNbIdentifier_dec (GNbIdentifier_enc v ++ r) = Ok v.
Proof.
  destruct v as [p n i e]. intros (H1 & H2 & H3). unfold GNbIdentifier_dec, GNbIdentifier_enc, etac_ok in *. cbn [gn_plmn gn_length gn_id gn_etac] in *. rewrite <- !app_assoc.
  rewrite need_ok by lensp. cbn [app]. rdx. rewrite slice_here by lia. bk. reflexivity.
Qed.
Lemma MacronGeNbIdentifier_rt v r : MacroEnbId_ok (mn_enb v) /\ etac_ok (mn_etac v) -> MacronGeNbIdentifier_dec (MacronGeNbIdentifier_enc v ++ r) = Ok v.
Proof.
  destruct v as [e t]. intros (H1 & H2). unfold MacronGeNbIdentifier_dec, MacronGeNbIdentifier_enc, etac_ok in *. cbn [mn_enb mn_etac] in *. rewrite <- app_assoc.
  rewrite need_ok by (rewrite !app_length, MacroEnbId_size; lia). rewrite slice_here by (rewrite MacroEnbId_size; lia). bk.
  rewrite <- (app_nil_r (MacroEnbId_enc e)) at 1. rewrite MacroEnbId_rt by assumption. cbn [orelse]. bk.
  rewrite slice_skip by (rewrite MacroEnbId_size; lia). rewrite MacroEnbId_size. cbn [Nat.sub]. rewrite slice_here by lia. bk. reflexivity.
Qed.
Lemma ExtendedGeNbIdentifier_rt v r : ExtMacroEnbId_ok (xn_enb v) /\ etac_ok (xn_etac v) -> ExtendedGeNbIdentifier_dec (ExtendedGeNbIdentifier_enc v ++ r) = Ok v.
Proof.
  destruct v as [e t]. intros (H1 & H2). unfold ExtendedGeNbIdentifier_dec, ExtendedGeNbIdentifier_enc, etac_ok in *. cbn [xn_enb xn_etac] in *. rewrite <- app_assoc.
  rewrite need_ok by (rewrite !app_length, ExtMacroEnbId_size; lia). rewrite slice_here by (rewrite ExtMacroEnbId_size; lia). bk.
  rewrite <- (app_nil_r (ExtMacroEnbId_enc e)) at 1. rewrite ExtMacroEnbId_rt by assumption. cbn [orelse]. bk.
  rewrite slice_skip by (rewrite ExtMacroEnbId_size; lia). rewrite ExtMacroEnbId_size. cbn [Nat.sub]. rewrite slice_here by lia. bk. reflexivity.
Qed.
Lemma target_type_rt t r : target_type_ok t -> target_type_dec (target_type_to t :: target_type_enc t ++ r) = Ok t.
Proof.
  intros H. unfold target_type_dec. rewrite at_0. bk.
  change (slice_from (target_type_to t :: target_type_enc t ++ r) 1) with (Ok (E:=GTPV2Error) (target_type_enc t ++ r)). bk.
  destruct t as [v|v|v|v|v|v|v|v|v|v|]; try contradiction; cbn [target_type_to target_type_enc]; eqbs; unfold tt_of.
  - rewrite RncIdentifier_rt by exact H. reflexivity.
  - rewrite MacroEnbIdentifier_rt by exact H. reflexivity.
  - rewrite CellIdentifier_rt by exact H. reflexivity.
  - rewrite MacroEnbIdentifier_rt by exact H. reflexivity.
  - rewrite ExtendedMacroEnbIdentifier_rt by exact H. reflexivity.
  - rewrite GNbIdentifier_rt by exact H. reflexivity.
  - rewrite MacronGeNbIdentifier_rt by exact H. reflexivity.
  - rewrite ExtendedGeNbIdentifier_rt by exact H. reflexivity.
Qed.
Lemma target_type_size_ok t : target_type_ok t -> length (target_type_enc t) = target_type_size t.
Proof.
  destruct t as [v|v|v|v|v|v|v|v|v|v|]; intros H; try contradiction; cbn [target_type_enc target_type_size].
  - destruct v as [ra i o]. destruct H as (_ & _ & e & E & _). cbn [rn_ext] in E. subst o. unfold RncIdentifier_enc. cbn [rn_rai rn_id rn_ext opt_be is_some]. rewrite !app_length, Rai_short_len, !enc_be_length. reflexivity.
  - unfold MacroEnbIdentifier_enc. rewrite app_length, MacroEnbId_size, enc_be_length. reflexivity.
  - apply CellIdentifier_size.
  - unfold MacroEnbIdentifier_enc. rewrite app_length, MacroEnbId_size, enc_be_length. reflexivity.
  - unfold ExtendedMacroEnbIdentifier_enc. rewrite app_length, ExtMacroEnbId_size, enc_be_length. reflexivity.
  - destruct H as (_ & _ & H). unfold GNbIdentifier_enc. rewrite !app_length, plmn_len, enc_be_length, H. reflexivity.
  - destruct H as (_ & H). unfold MacronGeNbIdentifier_enc. rewrite !app_length, MacroEnbId_size, H. reflexivity.
  - destruct H as (_ & H). unfold ExtendedGeNbIdentifier_enc. rewrite !app_length, ExtMacroEnbId_size, H. reflexivity.
Qed.
Lemma returns_orelse_bind {A B} (r : res A) e (k : A -> res B) : returns r -> (forall x, returns (k x)) -> returns (bind (orelse r e) k).
Proof. intros H K. destruct r; cbn in *; auto. Qed.
Ltac cdec2 := intros b; match goal with |- returns (?f _) => unfold f end;
  repeat first [ match goal with |- returns (bind (plmn_at _ _) _) => apply returns_plmn_at; [lia|intros] end
               | match goal with |- returns (bind (orelse _ _) _) => apply returns_orelse_bind;
                   [solve [apply Rai_dec_returns|apply MacroEnbId_dec_returns|apply ExtMacroEnbId_dec_returns]|intros] end
               | safe1 ].
Lemma MacroEnbIdentifier_dec_returns : forall b, returns (MacroEnbIdentifier_dec b). Proof. cdec2. Qed.
Lemma ExtendedMacroEnbIdentifier_dec_returns : forall b, returns (ExtendedMacroEnbIdentifier_dec b). Proof. cdec2. Qed.
Lemma GNbIdentifier_dec_returns : forall b, returns (GNbIdentifier_dec b). Proof. cdec2. Qed.
Lemma MacronGeNbIdentifier_dec_returns : forall b, returns (MacronGeNbIdentifier_dec b). Proof. cdec2. Qed.
Lemma ExtendedGeNbIdentifier_dec_returns : forall b, returns (ExtendedGeNbIdentifier_dec b). Proof. cdec2. Qed.
Lemma EnGNbIdentifier_dec_returns : forall b, returns (EnGNbIdentifier_dec b). Proof. cdec2. Qed.
Lemma RncIdentifier_dec_returns : forall b, returns (RncIdentifier_dec b).
Proof.
  intros b. unfold RncIdentifier_dec. destruct (Nat.leb_spec 8 (length b)), (Nat.ltb_spec (length b) 10); cbn [andb];
    try (destruct (Nat.leb_spec 10 (length b)); [|exact I]);
  repeat first [ match goal with |- returns (bind (orelse _ _) _) => apply returns_orelse_bind; [apply Rai_dec_returns|intros] end | safe1 ].
Qed.
Lemma target_type_dec_returns b : b <> [] -> returns (target_type_dec b).
Proof.
  intros H. destruct b as [|x b]; [contradiction|]. unfold target_type_dec. rewrite at_0. bk.
  change (slice_from (x :: b) 1) with (Ok (E:=GTPV2Error) b). bk.
  repeat (match goal with |- returns (if ?c then _ else _) => destruct c end; [unfold tt_of; apply returns_orelse_bind; [|intros; exact I];
    first [apply RncIdentifier_dec_returns|apply MacroEnbIdentifier_dec_returns|apply CellIdentifier_dec_returns|apply ExtendedMacroEnbIdentifier_dec_returns
      |apply GNbIdentifier_dec_returns|apply MacronGeNbIdentifier_dec_returns|apply ExtendedGeNbIdentifier_dec_returns|apply EnGNbIdentifier_dec_returns]|]). exact I.
Qed.

(* TargetIdentification *)
Lemma TargetIdentification_rt : forall m x r, wf_ie 121 TargetIdentification_value target_type_ok x ->
  TargetIdentification_unmarshal m (TargetIdentification_marshal x ++ r) = Ok x.
Proof.
  ie_rt. unfold TargetIdentification_value in *. rewrite need_ok by (cbn [length app]; lia). rewrite hdr4_cons, Hbe.
  change (slice_from (121 :: h :: l :: ins :: (target_type_to v :: target_type_enc v) ++ r) 4) with (Ok (E:=GTPV2Error) (target_type_to v :: target_type_enc v ++ r)). bk.
  rewrite target_type_rt by exact Hv. cbn [orelse]. bk. reflexivity.
Qed.
Lemma TargetIdentification_lenok : forall m x, wf_ie 121 TargetIdentification_value target_type_ok x -> TargetIdentification_len m x = Ok (length (TargetIdentification_marshal x)).
Proof. intros m x H. destruct x as [t ln i v]. destruct H as (_ & _ & Hl & Hn & Hv). apply len_const_exact. cbn [ie_v] in *. unfold TargetIdentification_value in *. cbn [length]; rewrite target_type_size_ok by exact Hv; reflexivity. Qed.
Lemma TargetIdentification_safe : forall m b,  returns (TargetIdentification_unmarshal m b).
Proof.
  intros m b. unfold TargetIdentification_unmarshal. safe2. apply returns_orelse_bind; [|intros; exact I]. apply target_type_dec_returns. intros ->. cbn in *. lia.
Qed.

Lemma throttle_sweep : forallb (fun u => forallb (fun d => let x := N.lor (shl8 u 5) d in (N.shiftr x 5 =? u) && (N.land x 31 =? d)) (upto 32)) (upto 5) = true.
Proof. vm_compute. reflexivity. Qed.
Lemma throttle_octet u d : u < 5 -> d < 32 -> let x := N.lor (shl8 u 5) d in N.shiftr x 5 = u /\ N.land x 31 = d.
Proof.
  intros Hu Hd. pose proof throttle_sweep as H. rewrite forallb_forall in H. specialize (H u (in_upto 5 u Hu)).
  rewrite forallb_forall in H. specialize (H d (in_upto 32 d Hd)). cbv zeta in *. apply andb_true_iff in H. destruct H as [H1 H2].
  apply N.eqb_eq in H1, H2. auto.
Qed.

(* Throttling *)
Lemma Throttling_rt : forall m x r, wf_ie 154 Throttling_value Throttling_ok x ->
  Throttling_unmarshal m (Throttling_marshal x ++ r) = Ok x.
Proof.
  ie_rt. destruct v as [u d f]. destruct Hv as (H1 & H2 & H3). unfold Throttling_value. cbn [th_unit th_value th_factor] in *. hd. rd.
  destruct (throttle_octet u d H1 H2) as [E1 E2]. cbv zeta. rewrite E1, E2. destruct (N.ltb_spec u 5); [|lia]. destruct (N.ltb_spec f 101); [|lia]. fin.
Qed.
Lemma Throttling_lenok : forall m x, wf_ie 154 Throttling_value Throttling_ok x -> Throttling_len m x = Ok (length (Throttling_marshal x)).
Proof. intros m x H. destruct x as [t ln i v]. destruct H as (_ & _ & Hl & Hn & Hv). apply len_const_exact. cbn [ie_v] in *. unfold Throttling_value in *. lens. Qed.
Lemma Throttling_safe : forall m b, returns (Throttling_unmarshal m b).
Proof. ie_safe2. Qed.

(* Tmgi *)
Lemma Tmgi_rt : forall m x r, wf_ie 158 Tmgi_value len_six x ->
  Tmgi_unmarshal m (Tmgi_marshal x ++ r) = Ok x.
Proof.
  ie_rt. unfold Tmgi_value, len_six in *. rewrite need_ok by (cbn [length]; rewrite app_length; lia). rewrite hdr4_cons, Hbe. rewrite slice4 by lia. bk. reflexivity.
Qed.
Lemma Tmgi_lenok : forall m x, wf_ie 158 Tmgi_value len_six x -> Tmgi_len m x = Ok (length (Tmgi_marshal x)).
Proof. intros m x H. destruct x as [t ln i v]. destruct H as (_ & _ & Hl & Hn & Hv). apply len_const_exact. cbn [ie_v] in *. unfold Tmgi_value in *. unfold len_six in Hv. lia. Qed.
Lemma Tmgi_safe : forall m b, returns (Tmgi_unmarshal m b).
Proof. ie_safe2. Qed.

(* Tmsi *)
Lemma Tmsi_rt : forall m x r, wf_ie 88 Tmsi_value u32 x ->
  Tmsi_unmarshal m (Tmsi_marshal x ++ r) = Ok x.
Proof.
  ie_rt. unfold Tmsi_value. hd. rd. fin.
Qed.
Lemma Tmsi_lenok : forall m x, wf_ie 88 Tmsi_value u32 x -> Tmsi_len m x = Ok (length (Tmsi_marshal x)).
Proof. intros m x H. exact (len_usize_exact _ _ _ x H). Qed.
Lemma Tmsi_safe : forall m b, returns (Tmsi_unmarshal m b).
Proof. ie_safe2. Qed.

(* TraceInformation *)
Lemma TraceInformation_rt : forall m x r, wf_ie 96 TraceInformation_value TraceInformation_ok x ->
  TraceInformation_unmarshal m (TraceInformation_marshal x ++ r) = Ok x.
Proof.
  ie_rt. destruct v as [p i e n d f a]. destruct Hv as (H1 & H2 & H3 & H4 & H5 & H6). unfold TraceInformation_value in *. cbn [ti_plmn ti_id ti_events ti_ne ti_depth ti_ifs ti_ip] in *.
  rewrite <- !app_assoc. rewrite need_ok by lensp. rewrite hdr4_cons, Hbe. set (B := 96 :: h :: l :: ins :: _).
  assert (P : at_pos B 7 (enc_be 3 i ++ e ++ enc_be 2 n ++ [d] ++ f ++ a ++ r)).
  { exists ([96; h; l; ins] ++ plmn_enc p). split; [rewrite <- app_assoc; reflexivity|rewrite app_length, plmn_len; reflexivity]. }
  assert (P4 : plmn_at B 4 = Ok p) by (unfold B; rewrite !plmn_at_cons; apply plmn_at_here; assumption). rewrite P4. bk. clear P4. clearbody B.
  rewrite (at_pos_be B 7 3 _ _ P) by bnd. bk. apply at_pos_next in P. rewrite enc_be_length in P. change (7 + 3)%nat with 10%nat in P.
  rewrite (at_pos_slice B 10 _ _ _ P) by lia. bk. apply at_pos_next in P. rewrite H3 in P. change (10 + 9)%nat with 19%nat in P.
  rewrite (at_pos_be B 19 2 _ _ P) by bnd. bk. apply at_pos_next in P. rewrite enc_be_length in P. change (19 + 2)%nat with 21%nat in P.
  rewrite (at_pos_at B 21 _ _ P). bk. apply at_pos_next in P. change (21 + length [d])%nat with 22%nat in P.
  rewrite (at_pos_slice B 22 _ _ _ P) by lia. bk. apply at_pos_next in P. rewrite H5 in P. change (22 + 12)%nat with 34%nat in P.
  rewrite (at_pos_slice B 34 _ _ _ P) by lia. bk. fin.
Qed.
Lemma TraceInformation_lenok : forall m x, wf_ie 96 TraceInformation_value TraceInformation_ok x -> TraceInformation_len m x = Ok (length (TraceInformation_marshal x)).
Proof. intros m x H. destruct x as [t ln i v]. destruct H as (_ & _ & Hl & Hn & Hv). apply len_const_exact. cbn [ie_v] in *. unfold TraceInformation_value in *. destruct Hv as (_ & _ & H1 & _ & H2 & H3). rewrite !app_length, plmn_len, !enc_be_length, H1, H2, H3. reflexivity. Qed.
Lemma TraceInformation_safe : forall m b, returns (TraceInformation_unmarshal m b).
Proof. ie_safe2. Qed.

(* TraceReference *)
Lemma TraceReference_rt : forall m x r, wf_ie 83 TraceReference_value TraceReference_ok x ->
  TraceReference_unmarshal m (TraceReference_marshal x ++ r) = Ok x.
Proof.
  ie_rt. destruct v. unfold TraceReference_value. unfold TraceReference_ok in Hv. cbn in Hv |- *. decompose [and] Hv. clear Hv. rewrite <- ?app_assoc. hdp. rdx. fin; bools.
Qed.
Lemma TraceReference_lenok : forall m x, wf_ie 83 TraceReference_value TraceReference_ok x -> TraceReference_len m x = Ok (length (TraceReference_marshal x)).
Proof. intros m x H. destruct x as [t ln i v]. destruct H as (_ & _ & Hl & Hn & Hv). apply len_const_exact. cbn [ie_v] in *. unfold TraceReference_value in *. lensp. Qed.
Lemma TraceReference_safe : forall m b, returns (TraceReference_unmarshal m b).
Proof. ie_safe2. Qed.

Lemma transaction_sweep : forallb (fun f => forallb (fun i => let x := N.lor (flag f 128) (N.land (shl8 i 4) 112) in Bool.eqb (N.shiftr x 7 =? 1) f && (N.land (N.shiftr x 4) 7 =? i)) (upto 7)) [true; false] = true.
Proof. vm_compute. reflexivity. Qed.
Lemma transaction_octet f i : i < 7 -> let x := N.lor (flag f 128) (N.land (shl8 i 4) 112) in (N.shiftr x 7 =? 1) = f /\ N.land (N.shiftr x 4) 7 = i.
Proof.
  intros Hi. pose proof transaction_sweep as H. rewrite forallb_forall in H. specialize (H f ltac:(destruct f; cbn; auto)).
  rewrite forallb_forall in H. specialize (H i (in_upto 7 i Hi)). cbv zeta in *. apply andb_true_iff in H. destruct H as [H1 H2].
  apply Bool.eqb_prop in H1. apply N.eqb_eq in H2. auto.
Qed.

(* TransactionIdentifier *)
Lemma TransactionIdentifier_rt : forall m x r, wf_ie 137 TransactionIdentifier_value TransactionIdentifier_ok x ->
  TransactionIdentifier_unmarshal m (TransactionIdentifier_marshal x ++ r) = Ok x.
Proof.
  ie_rt. destruct v as [f i]. unfold TransactionIdentifier_ok in Hv. unfold TransactionIdentifier_value in *. cbn [tx_flag tx_id] in *.
  destruct (N.ltb_spec i 7) as [H|H].
  - hd. rd.
    destruct (transaction_octet f i H) as [E1 E2]. cbv zeta in *. rewrite E1, E2. subst len. eqbs. fin.
  - hd. rd. subst len. change (1 <? nlen [flag f 128; i]) with true. cbv iota zeta. rewrite need_ok by lens. rd. fin. destruct f; reflexivity.
Qed.
Lemma TransactionIdentifier_lenok : forall m x, wf_ie 137 TransactionIdentifier_value TransactionIdentifier_ok x -> TransactionIdentifier_len m x = Ok (length (TransactionIdentifier_marshal x)).
Proof. intros m x H. exact (len_usize_exact _ _ _ x H). Qed.
Lemma TransactionIdentifier_safe : forall m b, returns (TransactionIdentifier_unmarshal m b).
Proof. ie_safe2. Qed.

Lemma twan_flags a b c d e : let x := flag a 16 + flag b 8 + flag c 4 + flag d 2 + flag e 1 in
  bit x 16 = a /\ bit x 8 = b /\ bit x 4 = c /\ bit x 2 = d /\ bit x 1 = e.
Proof. destruct a, b, c, d, e; repeat split; reflexivity. Qed.
Lemma reads_lv_raw x : nlen x < 256 -> reads lv_raw (lv x) x.
Proof.
  intros H B c R P. unfold lv_raw. unfold lv in P. cbn [app] in P. rewrite (at_pos_at B c _ _ P). bk. rewrite N.mod_small by assumption.
  apply at_pos_cons in P. rewrite (at_pos_slice B _ _ _ _ P) by (unfold nlen; lia). bk. rewrite lv_len. do 2 f_equal. unfold nlen. lia.
Qed.

(* TwanId *)
Lemma TwanId_rt : forall m x r, wf_ie 169 TwanId_value TwanId_ok x ->
  TwanId_unmarshal m (TwanId_marshal x ++ r) = Ok x.
Proof.
  ie_rt. destruct v as [ss bs cv pl nm rl ci]. destruct Hv as (H1 & H2 & H3 & H4 & H5 & H6). unfold TwanId_value in *.
  cbn [tw_ssid tw_bssid tw_civic tw_plmn tw_name tw_relay tw_circuit] in *.
  destruct (twan_flags (is_some rl) (is_some nm) (is_some pl) (is_some cv) (is_some bs)) as (F1 & F2 & F3 & F4 & F5).
  set (fl := flag (is_some rl) 16 + flag (is_some nm) 8 + flag (is_some pl) 4 + flag (is_some cv) 2 + flag (is_some bs) 1) in *. clearbody fl.
  rewrite need_ok by lens2. rewrite hdr4_cons, Hbe. cbn [app]. rewrite <- !app_assoc.
  set (B := 169 :: h :: l :: ins :: fl :: _). change (@at_ GTPV2Error B 4) with (Ok (E:=GTPV2Error) fl). bk. rewrite F1, F2, F3, F4, F5.
  match type of B with list N => match eval unfold B in B with _ :: _ :: _ :: _ :: _ :: ?t => assert (P : at_pos B 5 t) by (exists [169; h; l; ins; fl]; split; reflexivity) end end.
  clearbody B. rewrite (reads_lv_raw ss H1 B _ _ P). bk. cbv iota. apply at_pos_next in P.
  match type of P with at_pos B ?c _ => set (c1 := c) in *; clearbody c1 end.
  assert (S1 : exists c2, (if is_some bs then let? s := slice B c1 (c1 + 6) in Ok (Some s, (c1 + 6)%nat) else Ok (None, c1)) = Ok (E:=GTPV2Error) (bs, c2) /\
     at_pos B c2 (opt_lv cv ++ match pl with Some p => plmn_enc p | None => [] end ++ opt_lv (opt_map utf8 nm) ++ match rl with Some (i, d) => i :: lv d | None => [] end ++ opt_lv ci ++ r)).
  { destruct bs as [s|]; cbn [is_some opt_octets opt_ok] in *; [|exists c1; split; [reflexivity|exact P]].
    rewrite (at_pos_slice B c1 _ _ _ P) by (rewrite H2; reflexivity). bk. eexists. split; [reflexivity|]. apply at_pos_next in P. rewrite H2 in P. exact P. }
  destruct S1 as (c2 & S1 & P2). rewrite S1. bk. cbv iota. clear S1 P.
  assert (S1 : exists c3, (if is_some cv then if (c2 <=? length B)%nat then let? (s, c) := lv_raw B c2 in Ok (Some s, c) else Err (IEInvalidLength 169) else Ok (None, c2)) = Ok (E:=GTPV2Error) (cv, c3) /\
     at_pos B c3 (match pl with Some p => plmn_enc p | None => [] end ++ opt_lv (opt_map utf8 nm) ++ match rl with Some (i, d) => i :: lv d | None => [] end ++ opt_lv ci ++ r)).
  { pose proof (at_pos_len _ _ _ P2) as L. destruct cv as [s|]; cbn [is_some opt_lv opt_ok] in *; [|exists c2; split; [reflexivity|exact P2]].
    destruct (Nat.leb_spec c2 (length B)); [|lia].
    rewrite (reads_lv_raw s H3 B _ _ P2). bk. cbv iota. eexists. split; [reflexivity|]. apply at_pos_next in P2. exact P2. }
  destruct S1 as (c3 & S1 & P3). rewrite S1. bk. cbv iota. clear S1 P2.
  assert (S1 : exists c4, (if is_some pl then let? p := plmn_at B c3 in Ok (Some p, (c3 + 3)%nat) else Ok (None, c3)) = Ok (E:=GTPV2Error) (pl, c4) /\
     at_pos B c4 (opt_lv (opt_map utf8 nm) ++ match rl with Some (i, d) => i :: lv d | None => [] end ++ opt_lv ci ++ r)).
  { destruct pl as [s|]; cbn [is_some opt_ok] in *; [|exists c3; split; [reflexivity|exact P3]].
    assert (E : plmn_at B c3 = Ok s) by (destruct P3 as (q & -> & ->); rewrite plmn_at_skip, Nat.sub_diag by lia; apply plmn_at_here; assumption).
    rewrite E. bk. eexists. split; [reflexivity|]. apply at_pos_next in P3. rewrite plmn_len in P3. exact P3. }
  destruct S1 as (c4 & S1 & P4). rewrite S1. bk. cbv iota. clear S1 P3.
  assert (S1 : exists c5, (if is_some nm then if (c4 <=? length B)%nat then let? (s, c) := lv_raw B c4 in let? n := utf8_or s (IEIncorrect 169) in Ok (Some n, c) else Err (IEInvalidLength 169) else Ok (None, c4)) = Ok (E:=GTPV2Error) (nm, c5) /\
     at_pos B c5 (match rl with Some (i, d) => i :: lv d | None => [] end ++ opt_lv ci ++ r)).
  { pose proof (at_pos_len _ _ _ P4) as L. destruct nm as [s|]; cbn [is_some opt_lv opt_ok opt_map] in *; [|exists c4; split; [reflexivity|exact P4]].
    destruct (Nat.leb_spec c4 (length B)); [|lia]. destruct H5 as [Hs1 Hs2].
    rewrite (reads_lv_raw (utf8 s) Hs2 B _ _ P4). bk. cbv iota. rewrite utf8_or_utf8 by assumption. bk. eexists. split; [reflexivity|]. apply at_pos_next in P4. exact P4. }
  destruct S1 as (c5 & S1 & P5). rewrite S1. bk. cbv iota. clear S1 P4.
  destruct rl as [[i d]|]; destruct ci as [e|]; try contradiction; cbn [is_some opt_lv] in *; [|fin].
  destruct H6 as [H6 H7]. pose proof (at_pos_len _ _ _ P5) as L. cbn [app length] in L. destruct (Nat.ltb_spec c5 (length B)); [|lia].
  cbn [app] in P5. rewrite (at_pos_at B c5 _ _ P5). bk. apply at_pos_cons in P5.
  rewrite (reads_lv d (IEInvalidLength 169) H6 B _ _ P5). bk. cbv iota. apply at_pos_next in P5.
  pose proof (at_pos_len _ _ _ P5) as L2. destruct (Nat.leb_spec (c5 + 1 + length (lv d)) (length B)); [|lia].
  rewrite (reads_lv e (IEInvalidLength 169) H7 B _ _ P5). bk. cbv iota. fin.
Qed.
Lemma TwanId_lenok : forall m x, wf_ie 169 TwanId_value TwanId_ok x -> TwanId_len m x = Ok (length (TwanId_marshal x)).
Proof. intros m x H. exact (len_usize_exact _ _ _ x H). Qed.

(* TwanIdTimeStamp *)
Lemma TwanIdTimeStamp_rt : forall m x r, wf_ie 179 TwanIdTimeStamp_value u32 x ->
  TwanIdTimeStamp_unmarshal m (TwanIdTimeStamp_marshal x ++ r) = Ok x.
Proof.
  ie_rt. unfold TwanIdTimeStamp_value. hd. rd. fin.
Qed.
Lemma TwanIdTimeStamp_lenok : forall m x, wf_ie 179 TwanIdTimeStamp_value u32 x -> TwanIdTimeStamp_len m x = Ok (length (TwanIdTimeStamp_marshal x)).
Proof. intros m x H. destruct x as [t ln i v]. destruct H as (_ & _ & Hl & Hn & Hv). apply len_const_exact. cbn [ie_v] in *. unfold TwanIdTimeStamp_value in *. lens. Qed.
Lemma TwanIdTimeStamp_safe : forall m b, returns (TwanIdTimeStamp_unmarshal m b).
Proof. ie_safe2. Qed.

(* Twmi *)
Lemma Twmi_rt : forall m x r, wf_ie 174 Twmi_value any x ->
  Twmi_unmarshal m (Twmi_marshal x ++ r) = Ok x.
Proof.
  ie_rt. destruct v. unfold Twmi_value. cbn in Hv |- *. decompose [and] Hv. clear Hv. rewrite <- ?app_assoc. hd. rd. fin; bools.
Qed.
Lemma Twmi_lenok : forall m x, wf_ie 174 Twmi_value any x -> Twmi_len m x = Ok (length (Twmi_marshal x)).
Proof. intros m x H. destruct x as [t ln i v]. destruct H as (_ & _ & Hl & Hn & Hv). apply len_const_exact. cbn [ie_v] in *. unfold Twmi_value in *. lens. Qed.
Lemma Twmi_safe : forall m b, returns (Twmi_unmarshal m b).
Proof. ie_safe2. Qed.

Lemma uci_octet a b c : let x := N.lor (N.lor (shl8 (AccessMode_to a) 6) (flag b 2)) (Cmi_to c) in
  AccessMode_of (N.shiftr (N.land x 192) 6) = a /\ negb (N.shiftr (N.land x 2) 1 =? 0) = b /\ Cmi_of (N.land x 1) = c.
Proof. destruct a, b, c; repeat split; reflexivity. Qed.
Lemma land27 v : v < 2 ^ 27 -> N.land v 134217727 = v.
Proof. intros. change 134217727 with (N.ones 27). rewrite N.land_ones. apply N.mod_small. assumption. Qed.

(* Uci *)
Lemma Uci_rt : forall m x r, wf_ie 145 Uci_value Uci_ok x ->
  Uci_unmarshal m (Uci_marshal x ++ r) = Ok x.
Proof.
  ie_rt. destruct v as [p c a b k]. destruct Hv as [Hp Hc]. unfold Uci_value. cbn [uc_plmn uc_csgid uc_mode uc_lcsg uc_cmi] in *. rewrite land27 by assumption.
  destruct (uci_octet a b k) as (E1 & E2 & E3). cbv zeta in *. set (x := N.lor (N.lor (shl8 (AccessMode_to a) 6) (flag b 2)) (Cmi_to k)) in *. clearbody x.
  assert (Hc4 : u32 c) by (unfold u32; change (2 ^ 27) with 134217728 in Hc; lia). clear Hc.
  rewrite <- !app_assoc. hdp. rdx. rewrite E1, E2, E3. fin.
Qed.
Lemma Uci_lenok : forall m x, wf_ie 145 Uci_value Uci_ok x -> Uci_len m x = Ok (length (Uci_marshal x)).
Proof. intros m x H. destruct x as [t ln i v]. destruct H as (_ & _ & Hl & Hn & Hv). apply len_const_exact. cbn [ie_v] in *. unfold Uci_value in *. lensp. Qed.
Lemma Uci_safe : forall m b, returns (Uci_unmarshal m b).
Proof. ie_safe2. Qed.

Lemma tz_sweep : forallb (fun a => (N.shiftr a 7 =? 0) && (N.land a 127 =? a) && (N.shiftr (N.lor 128 a) 7 =? 1) && (N.land (N.lor 128 a) 127 =? a)) (upto 128) = true.
Proof. vm_compute. reflexivity. Qed.
Lemma tz_octet a : a < 128 -> N.shiftr a 7 = 0 /\ N.land a 127 = a /\ N.shiftr (N.lor 128 a) 7 = 1 /\ N.land (N.lor 128 a) 127 = a.
Proof.
  intros Ha. pose proof tz_sweep as H. rewrite forallb_forall in H. specialize (H a (in_upto 128 a Ha)).
  rewrite !andb_true_iff, !N.eqb_eq in H. tauto.
Qed.

(* UeTimeZone *)
Lemma UeTimeZone_rt : forall m x r, wf_ie 114 UeTimeZone_value UeTimeZone_ok x ->
  UeTimeZone_unmarshal m (UeTimeZone_marshal x ++ r) = Ok x.
Proof.
  ie_rt. destruct v as [z d]. destruct Hv as [Hz Hd]. unfold UeTimeZone_value. cbn [tz_zone tz_dst] in *. hd. rd. rewrite land3 by assumption.
  destruct (Z.leb_spec 0 z) as [H|H].
  - destruct (tz_octet (Z.to_N z) ltac:(lia)) as (E1 & E2 & _). cbv zeta. rewrite E1, E2. eqbs. rewrite Z2N.id by lia. fin.
  - destruct (tz_octet (Z.to_N (- z)) ltac:(lia)) as (_ & _ & E1 & E2). cbv zeta. rewrite E1, E2. eqbs. rewrite Z2N.id by lia. rewrite Z.opp_involutive. fin.
Qed.
Lemma UeTimeZone_lenok : forall m x, wf_ie 114 UeTimeZone_value UeTimeZone_ok x -> UeTimeZone_len m x = Ok (length (UeTimeZone_marshal x)).
Proof. intros m x H. destruct x as [t ln i v]. destruct H as (_ & _ & Hl & Hn & Hv). apply len_const_exact. cbn [ie_v] in *. unfold UeTimeZone_value in *. lens. Qed.
Lemma UeTimeZone_safe : forall m b, returns (UeTimeZone_unmarshal m b).
Proof. ie_safe2. Qed.

(* Uli *)
Lemma loc_key_lt a b : loc_kind a < loc_kind b -> key_le (loc_key a) (loc_key b) = true.
Proof. intros H. unfold loc_key. cbn [key_le]. apply N.ltb_lt in H. rewrite H. reflexivity. Qed.
Lemma loc_sort_id v : StronglySorted (fun a b => loc_kind a < loc_kind b) v -> loc_sort v = v.
Proof.
  induction 1 as [|a v Hs IH Hf]; [reflexivity|]. cbn [loc_sort]. rewrite IH. destruct v as [|b v]; [reflexivity|].
  cbn [loc_insert]. inversion Hf; subst. rewrite loc_key_lt by assumption. reflexivity.
Qed.
Lemma land_pow2 x k : (N.land x (2 ^ k) =? 0) = negb (N.testbit x k).
Proof.
  destruct (N.testbit x k) eqn:E; cbn [negb].
  - apply N.eqb_neq. intros H. assert (T : N.testbit (N.land x (2 ^ k)) k = true) by (rewrite N.land_spec, E, N.pow2_bits_true; reflexivity).
    rewrite H in T. rewrite N.bits_0 in T. discriminate.
  - apply N.eqb_eq. apply N.bits_inj. intros j. rewrite N.land_spec, N.bits_0. destruct (N.eq_dec k j) as [->|H]; [rewrite E; reflexivity|].
    rewrite N.pow2_bits_false by exact H. apply andb_false_r.
Qed.
Lemma bit_pow2 x k : bit x (2 ^ k) = N.testbit x k.
Proof.
  unfold bit. destruct (N.testbit x k) eqn:E.
  - apply N.eqb_eq. apply N.bits_inj. intros j. rewrite N.land_spec. destruct (N.eq_dec k j) as [->|H]; [rewrite E; reflexivity|].
    rewrite N.pow2_bits_false by exact H. apply andb_false_r.
  - apply N.eqb_neq. intros H. assert (T : N.testbit (N.land x (2 ^ k)) k = true) by (rewrite H, N.pow2_bits_true; reflexivity).
    rewrite N.land_spec, E in T. discriminate.
Qed.
Definition kinds_flags (fl : N) (ks : list N) : N := fold_left (fun f k => N.lor f (2 ^ (k - 1))) ks fl.
Lemma loc_kind_range l : 1 <= loc_kind l <= 8.
Proof. destruct l; cbn; lia. Qed.
Lemma loc_first_all v : StronglySorted (fun a b => loc_kind a < loc_kind b) v -> forall fl,
  (forall x, In x v -> N.testbit fl (loc_kind x - 1) = false) ->
  loc_first fl v = (kinds_flags fl (map loc_kind v), enc_all loc_enc v).
Proof.
  induction 1 as [|a v Hs IH Hf]; intros fl H; [reflexivity|]. cbn [loc_first]. rewrite land_pow2, H by (left; reflexivity). cbn [negb].
  rewrite IH; [reflexivity|]. intros x Hx. rewrite N.lor_spec, H by (right; exact Hx). cbn [orb].
  rewrite Forall_forall in Hf. specialize (Hf x Hx). pose proof (loc_kind_range a). apply N.pow2_bits_false. lia.
Qed.
Fixpoint sublists (l : list N) : list (list N) :=
  match l with [] => [[]] | x :: r => map (cons x) (sublists r) ++ sublists r end.
Lemma sublists_in n : forall a ks, StronglySorted N.lt ks -> Forall (fun k => a <= k /\ k < a + N.of_nat n) ks ->
  In ks (sublists (map (fun i => a + N.of_nat i) (seq 0 n))).
Proof.
  induction n as [|n IH]; intros a ks Hs Hf.
  - destruct Hf as [|k ks Hk]; [left; reflexivity|lia].
  - cbn [seq map sublists]. rewrite <- seq_shift, map_map.
    replace (map (fun x => a + N.of_nat (S x)) (seq 0 n)) with (map (fun i => (a + 1) + N.of_nat i) (seq 0 n)) by (apply map_ext; intros; lia).
    apply in_or_app. destruct ks as [|k ks].
    + right. apply IH; constructor.
    + inversion Hs as [|? ? Hs' Hlt]; subst. inversion Hf as [|? ? Hk Hks]; subst. 
      assert (G : Forall (fun j => a + 1 <= j /\ j < a + 1 + N.of_nat n) ks).
      { rewrite Forall_forall in *. intros j Hj. specialize (Hlt j Hj). specialize (Hks j Hj). lia. }
      destruct (N.eq_dec k (a + N.of_nat 0)) as [->|Hne].
      * left. apply in_map. apply IH; assumption.
      * right. apply IH; [assumption|]. constructor; [lia|assumption].
Qed.
Lemma kinds_sweep : forallb (fun ks => if list_eq_dec N.eq_dec (to_flags (kinds_flags 0 ks)) ks then true else false) (sublists (map (fun i => 1 + N.of_nat i) (seq 0 8))) = true.
Proof. vm_compute. reflexivity. Qed.
Lemma kinds_back ks : StronglySorted N.lt ks -> Forall (fun k => 1 <= k <= 8) ks -> to_flags (kinds_flags 0 ks) = ks.
Proof.
  intros Hs Hf. pose proof kinds_sweep as H. rewrite forallb_forall in H. specialize (H ks).
  assert (G : In ks (sublists (map (fun i => 1 + N.of_nat i) (seq 0 8)))) by (apply sublists_in; [exact Hs|eapply Forall_impl; [|exact Hf]; cbn; intros; lia]).
  specialize (H G). destruct (list_eq_dec N.eq_dec (to_flags (kinds_flags 0 ks)) ks); [assumption|discriminate].
Qed.
Lemma kinds_sorted v : StronglySorted (fun a b => loc_kind a < loc_kind b) v -> StronglySorted N.lt (map loc_kind v).
Proof.
  induction 1 as [|a v Hs IH Hf]; [constructor|]. cbn [map]. constructor; [exact IH|]. rewrite Forall_forall in *. intros k Hk.
  apply in_map_iff in Hk. destruct Hk as (x & <- & Hx). apply Hf, Hx.
Qed.
Lemma loc_rt x r : location_ok x -> loc_dec (loc_kind x) (loc_enc x ++ r) = Ok x.
Proof.
  intros H. destruct x; cbn [loc_kind loc_enc location_ok] in *; unfold loc_dec; eqbs.
  - rewrite Cgi_rt by exact H. reflexivity.
  - rewrite Sai_rt by exact H. reflexivity.
  - rewrite Rai_rt by exact H. reflexivity.
  - rewrite Tai_rt by exact H. reflexivity.
  - rewrite Ecgi_rt by exact H. reflexivity.
  - rewrite Lai_rt by exact H. reflexivity.
  - rewrite MacroEnbId_rt by exact H. reflexivity.
  - rewrite ExtMacroEnbId_rt by exact H. reflexivity.
Qed.
Lemma loc_size x : length (loc_enc x) = loc_step (loc_kind x).
Proof.
  destruct x; cbn [loc_kind loc_enc]; unfold loc_step; eqbs;
  auto using Cgi_size, Sai_size, Rai_size, Tai_size, Ecgi_size, Lai_size, MacroEnbId_size, ExtMacroEnbId_size.
Qed.
Lemma loc_loop_rt v : Forall location_ok v -> forall B c R, at_pos B c (enc_all loc_enc v ++ R) -> loc_loop (map loc_kind v) B c = Ok v.
Proof.
  induction 1 as [|x v Hx Hv IH]; intros B c R P; [reflexivity|]. cbn [map loc_loop]. unfold enc_all in P. cbn [map concat] in P. rewrite <- app_assoc in P.
  rewrite (at_pos_from B c _ P). bk. rewrite loc_rt by assumption. bk. apply at_pos_next in P. rewrite loc_size in P.
  rewrite (IH B _ R P). bk. reflexivity.
Qed.
Lemma Uli_value_ok v : Uli_ok v -> Uli_value v = kinds_flags 0 (map loc_kind v) :: enc_all loc_enc v.
Proof.
  intros [Hf Hs]. unfold Uli_value. rewrite loc_sort_id by exact Hs. rewrite loc_first_all; [reflexivity|exact Hs|]. intros. apply N.bits_0.
Qed.
Lemma Uli_rt : forall m x r, wf_ie 86 Uli_value Uli_ok x -> Uli_unmarshal m (Uli_marshal x ++ r) = Ok x.
Proof.
  intros m x r H. assert (E : Uli_marshal x = marshal_ie 86 Uli_value x) by (unfold Uli_marshal; destruct H as [-> _]; reflexivity). rewrite E. clear E.
  destruct (ie_open _ _ _ x r H) as (h & l & E & Hbe). rewrite E. clear E. destruct H as (Ht & Hi & Hl & Hn & Hv). destruct x as [t len ins v]. cbn [ie_t ie_length ie_ins ie_v] in *. subst t.
  rewrite (Uli_value_ok v Hv) in *. destruct Hv as [Hf Hs]. unfold Uli_unmarshal.
  rewrite need_ok by lens2. rewrite hdr4_cons, Hbe. ckl Hl Hn. cbn [app]. rewrite !at_cons, at_0. bk.
  rewrite kinds_back; [|apply kinds_sorted, Hs|apply Forall_forall; intros k Hk; apply in_map_iff in Hk; destruct Hk as (y & <- & _); apply loc_kind_range].
  rewrite (loc_loop_rt v Hf _ 5 r) by (exists [86; h; l; ins; kinds_flags 0 (map loc_kind v)]; split; reflexivity). bk. fin.
Qed.
Lemma Uli_lenok : forall m x, wf_ie 86 Uli_value Uli_ok x -> Uli_len m x = Ok (length (Uli_marshal x)).
Proof. intros m x (Ht & Hi & Hl & Hn & Hv). unfold Uli_len, len_usize, Uli_marshal, marshal_ie. rewrite tliv_length, Hl. unfold nlen. f_equal. lia. Qed.

(* UliTimestamp *)
Lemma UliTimestamp_rt : forall m x r, wf_ie 170 UliTimestamp_value u32 x ->
  UliTimestamp_unmarshal m (UliTimestamp_marshal x ++ r) = Ok x.
Proof.
  ie_rt. unfold UliTimestamp_value. hd. rd. fin.
Qed.
Lemma UliTimestamp_lenok : forall m x, wf_ie 170 UliTimestamp_value u32 x -> UliTimestamp_len m x = Ok (length (UliTimestamp_marshal x)).
Proof. intros m x H. destruct x as [t ln i v]. destruct H as (_ & _ & Hl & Hn & Hv). apply len_const_exact. cbn [ie_v] in *. unfold UliTimestamp_value in *. lens. Qed.
Lemma UliTimestamp_safe : forall m b, returns (UliTimestamp_unmarshal m b).
Proof. ie_safe2. Qed.

(* Unknown: the type code is lost *)
Lemma Unknown_rt : forall m x r, wf_ie (ie_t x) Unknown_value octets1 x ->
  Unknown_unmarshal m (Unknown_marshal x ++ r) = Ok (mkIe 0 (ie_length x) (ie_ins x) (ie_v x)).
Proof.
  intros m x r H. unfold Unknown_marshal. destruct (ie_open _ _ _ x r H) as (h & l & E & Hbe). rewrite E. clear E. destruct H as (Ht & Hi & Hl & Hn & Hv). destruct x as [t len ins v]. cbn [ie_t ie_length ie_ins ie_v] in *.
  unfold Unknown_value, Unknown_unmarshal in *. apply nonempty_len in Hv. cbn [length Nat.leb]. rewrite hdr4_cons, Hbe. rewrite checked_ok by lens. rewrite end16_ok by lia. bk. rewrite slice4 by lens. bk. reflexivity.
Qed.
Lemma Unknown_lenok : forall m x, wf_ie (ie_t x) Unknown_value octets1 x -> Unknown_len m x = Ok (length (Unknown_marshal x)).
Proof. intros m x (Ht & Hi & Hl & Hn & Hv). unfold Unknown_len, len_usize, Unknown_marshal, marshal_ie. rewrite tliv_length, Hl. unfold nlen. f_equal. lia. Qed.
Lemma Unknown_safe : forall m b, b <> [] -> declared b <= 65531 -> returns (Unknown_unmarshal m b).
Proof.
  intros m b Hb Hd. unfold Unknown_unmarshal. destruct (Nat.leb_spec 4 (length b)); [safe2|]. destruct b; [contradiction|]. exact I.
Qed.

(* UpFunctionSelectionIndicationFlags *)
Lemma UpFunctionSelectionIndicationFlags_rt : forall m x r, wf_ie 202 UpFunctionSelectionIndicationFlags_value any x ->
  UpFunctionSelectionIndicationFlags_unmarshal m (UpFunctionSelectionIndicationFlags_marshal x ++ r) = Ok x.
Proof.
  ie_rt. unfold UpFunctionSelectionIndicationFlags_value. hd. rd. rewrite bool_of_flag. rd. fin.
Qed.
Lemma UpFunctionSelectionIndicationFlags_lenok : forall m x, wf_ie 202 UpFunctionSelectionIndicationFlags_value any x -> UpFunctionSelectionIndicationFlags_len m x = Ok (length (UpFunctionSelectionIndicationFlags_marshal x)).
Proof. intros m x H. destruct x as [t ln i v]. destruct H as (_ & _ & Hl & Hn & Hv). apply len_const_exact. cbn [ie_v] in *. unfold UpFunctionSelectionIndicationFlags_value in *. lens. Qed.
Lemma UpFunctionSelectionIndicationFlags_safe : forall m b,  returns (UpFunctionSelectionIndicationFlags_unmarshal m b).
Proof.
  intros. match goal with |- returns (?f _ _) => unfold f end. safe2; try (apply returns_bool_of; intros; safe2); try (apply returns_bool_of; intros; safe2).
Qed.

(* UpSecurityPolicy *)
Lemma UpSecurityPolicy_rt : forall m x r, wf_ie 218 UpSecurityPolicy_value any x ->
  UpSecurityPolicy_unmarshal m (UpSecurityPolicy_marshal x ++ r) = Ok x.
Proof.
  ie_rt. unfold UpSecurityPolicy_value. hd. rd. fin; destruct v; reflexivity.
Qed.
Lemma UpSecurityPolicy_lenok : forall m x, wf_ie 218 UpSecurityPolicy_value any x -> UpSecurityPolicy_len m x = Ok (length (UpSecurityPolicy_marshal x)).
Proof. intros m x H. destruct x as [t ln i v]. destruct H as (_ & _ & Hl & Hn & Hv). apply len_const_exact. cbn [ie_v] in *. unfold UpSecurityPolicy_value in *. lens. Qed.
Lemma UpSecurityPolicy_safe : forall m b, returns (UpSecurityPolicy_unmarshal m b).
Proof. ie_safe2. Qed.

(* WlanOffloadIndication *)
Lemma WlanOffloadIndication_rt : forall m x r, wf_ie 185 WlanOffloadIndication_value any x ->
  WlanOffloadIndication_unmarshal m (WlanOffloadIndication_marshal x ++ r) = Ok x.
Proof.
  ie_rt. destruct v. unfold WlanOffloadIndication_value. cbn in Hv |- *. decompose [and] Hv. clear Hv. rewrite <- ?app_assoc. hd. rd. fin; bools.
Qed.
Lemma WlanOffloadIndication_lenok : forall m x, wf_ie 185 WlanOffloadIndication_value any x -> WlanOffloadIndication_len m x = Ok (length (WlanOffloadIndication_marshal x)).
Proof. intros m x H. destruct x as [t ln i v]. destruct H as (_ & _ & Hl & Hn & Hv). apply len_const_exact. cbn [ie_v] in *. unfold WlanOffloadIndication_value in *. lens. Qed.
Lemma WlanOffloadIndication_safe : forall m b, returns (WlanOffloadIndication_unmarshal m b).
Proof. ie_safe2. Qed.
