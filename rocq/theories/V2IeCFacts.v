(* V2IeCFacts.v - round trip, size and crash freedom of the IEs of V2IeC.v *)
From Verif Require Export V2CommonFacts V2OkC.
Local Open Scope N_scope.

Lemma fteid_flags k i : i < 64 -> k < 4 ->
  N.land (N.lor (64 * k) i) 63 = i /\ N.shiftr (N.lor (64 * k) i) 7 = k / 2 /\
  N.land (N.shiftr (N.lor (64 * k) i) 6) 1 = k mod 2.
Proof. intros Hi Hk. cases_lt 4%nat Hk; cases_lt 64%nat Hi; repeat split; reflexivity. Qed.

(* Fteid *)
Lemma Fteid_rt : forall m x r, wf_ie 87 Fteid_value Fteid_ok x ->
  Fteid_unmarshal m (Fteid_marshal x ++ r) = Ok x.
Proof.
  ie_rt. destruct v as [i t a4 a6]. destruct Hv as (Hif & Ht & H4 & H6 & Hs). unfold Fteid_value in *. cbn [ft_if ft_teid ft_v4 ft_v6] in *.
  assert (E2 : forall k, k < 4 -> N.land (N.lor (64 * k) i) 63 = i /\ N.shiftr (N.lor (64 * k) i) 7 = k / 2 /\
     N.land (N.shiftr (N.lor (64 * k) i) 6) 1 = k mod 2) by (intros; apply fteid_flags; assumption).
  destruct (E2 3 eq_refl) as (A3 & B3 & C3). destruct (E2 2 eq_refl) as (A2 & B2 & C2). destruct (E2 1 eq_refl) as (A1 & B1 & C1).
  change (64 * 3) with 192 in *. change (64 * 2) with 128 in *. change (64 * 1) with 64 in *. clear E2.
  rewrite need_ok by lens. rewrite hdr4_cons, Hbe.
  rewrite checked_ok by (revert Hl Hn; unfold nlen; cbn [app length]; rewrite ?app_length, ?enc_be_length; lia).
  cbn [app]. rewrite !at_cons, at_0. cbn [bind]. rewrite <- !app_assoc. rewrite !be_at_cons, be_at_enc by bnd. cbn [bind]. cbv zeta.
  destruct a4 as [a4|], a6 as [a6|]; cbn [opt_octets app]; [| | |exfalso; apply Hs; reflexivity];
    rewrite ?A3, ?B3, ?C3, ?A2, ?B2, ?C2, ?A1, ?B1, ?C1; eqbs; cbn [andb]; rewrite !slice_cons.
  - rewrite !(slice_skip (enc_be 4 t)) by (rewrite enc_be_length; lia). rewrite enc_be_length. cbn [Nat.sub].
    rewrite slice_here by lia. cbn [bind]. rewrite slice_mid by lia. cbn [bind]. fin.
  - rewrite !(slice_skip (enc_be 4 t)) by (rewrite enc_be_length; lia). rewrite enc_be_length. cbn [Nat.sub].
    rewrite slice_here by lia. cbn [bind]. fin.
  - rewrite !(slice_skip (enc_be 4 t)) by (rewrite enc_be_length; lia). rewrite enc_be_length. cbn [Nat.sub].
    rewrite slice_here by lia. cbn [bind]. fin.
Qed.
Lemma Fteid_lenok : forall m x, wf_ie 87 Fteid_value Fteid_ok x -> Fteid_len m x = Ok (length (Fteid_marshal x)).
Proof. intros m x H. exact (len_u16_exact _ _ _ m x H). Qed.

(* GlobalCnId *)
Lemma GlobalCnId_rt : forall m x r, wf_ie 89 GlobalCnId_value GlobalCnId_ok x ->
  GlobalCnId_unmarshal m (GlobalCnId_marshal x ++ r) = Ok x.
Proof.
  ie_rt. destruct v. unfold GlobalCnId_value. unfold GlobalCnId_ok in Hv. cbn in Hv |- *. decompose [and] Hv. clear Hv. rewrite <- ?app_assoc. hdp. rdx. fin; bools.
Qed.
Lemma GlobalCnId_lenok : forall m x, wf_ie 89 GlobalCnId_value GlobalCnId_ok x -> GlobalCnId_len m x = Ok (length (GlobalCnId_marshal x)).
Proof. intros m x H. destruct x as [t ln i v]. destruct H as (_ & _ & Hl & Hn & Hv). apply len_const_exact. cbn [ie_v] in *. unfold GlobalCnId_value in *. lensp. Qed.
Lemma GlobalCnId_safe : forall m b, returns (GlobalCnId_unmarshal m b).
Proof. ie_safe2. Qed.

(* GroupId *)
Lemma GroupId_rt : forall m x r, wf_ie 216 GroupId_value octets1 x ->
  GroupId_unmarshal m (GroupId_marshal x ++ r) = Ok x.
Proof.
  ie_rt. unfold GroupId_value in *. apply nonempty_len in Hv. hd. octs. fin.
Qed.
Lemma GroupId_lenok : forall m x, wf_ie 216 GroupId_value octets1 x -> GroupId_len m x = Ok (length (GroupId_marshal x)).
Proof. intros m x H. exact (len_usize_exact _ _ _ x H). Qed.
Lemma GroupId_safe : forall m b, declared b <= 65531 -> returns (GroupId_unmarshal m b).
Proof. ie_safe2. Qed.

(* Guti *)
Lemma Guti_rt : forall m x r, wf_ie 117 Guti_value Guti_ok x ->
  Guti_unmarshal m (Guti_marshal x ++ r) = Ok x.
Proof.
  ie_rt. destruct v. unfold Guti_value. unfold Guti_ok in Hv. cbn in Hv |- *. decompose [and] Hv. clear Hv. rewrite <- ?app_assoc. hdp. rdx. fin; bools.
Qed.
Lemma Guti_lenok : forall m x, wf_ie 117 Guti_value Guti_ok x -> Guti_len m x = Ok (length (Guti_marshal x)).
Proof. intros m x H. destruct x as [t ln i v]. destruct H as (_ & _ & Hl & Hn & Hv). apply len_const_exact. cbn [ie_v] in *. unfold Guti_value in *. lensp. Qed.
Lemma Guti_safe : forall m b, returns (Guti_unmarshal m b).
Proof. ie_safe2. Qed.

(* HeaderCompressionConfiguration *)
Lemma HeaderCompressionConfiguration_rt : forall m x r, wf_ie 196 HeaderCompressionConfiguration_value HeaderCompressionConfiguration_ok x ->
  HeaderCompressionConfiguration_unmarshal m (HeaderCompressionConfiguration_marshal x ++ r) = Ok x.
Proof.
  ie_rt. destruct v as [l0 c]. destruct Hv as (Hc & keep & Hk). unfold HeaderCompressionConfiguration_value. cbn [hc_profiles hc_max_cid] in *. subst l0.
  rewrite <- app_assoc. hd. cbn [app]. rd. cbv zeta. fin.
  unfold filter. destruct (keep 2), (keep 3), (keep 4), (keep 6), (keep 258), (keep 259), (keep 260); reflexivity.
Qed.
Lemma HeaderCompressionConfiguration_lenok : forall m x, wf_ie 196 HeaderCompressionConfiguration_value HeaderCompressionConfiguration_ok x -> HeaderCompressionConfiguration_len m x = Ok (length (HeaderCompressionConfiguration_marshal x)).
Proof. intros m x H. destruct x as [t ln i v]. destruct H as (_ & _ & Hl & Hn & Hv). apply len_const_exact. cbn [ie_v] in *. unfold HeaderCompressionConfiguration_value in *. lens. Qed.
Lemma HeaderCompressionConfiguration_safe : forall m b, returns (HeaderCompressionConfiguration_unmarshal m b).
Proof. ie_safe2. Qed.

(* HenbInfoReporting *)
Lemma HenbInfoReporting_rt : forall m x r, wf_ie 165 HenbInfoReporting_value any x ->
  HenbInfoReporting_unmarshal m (HenbInfoReporting_marshal x ++ r) = Ok x.
Proof.
  ie_rt. unfold HenbInfoReporting_value. hd. cbn [app]. rd. destruct v; fin.
Qed.
Lemma HenbInfoReporting_lenok : forall m x, wf_ie 165 HenbInfoReporting_value any x -> HenbInfoReporting_len m x = Ok (length (HenbInfoReporting_marshal x)).
Proof. intros m x H. destruct x as [t ln i v]. destruct H as (_ & _ & Hl & Hn & Hv). apply len_const_exact. cbn [ie_v] in *. unfold HenbInfoReporting_value in *. lens. Qed.
Lemma HenbInfoReporting_safe : forall m b, returns (HenbInfoReporting_unmarshal m b).
Proof. ie_safe2. Qed.

(* HopCounter *)
Lemma HopCounter_rt : forall m x r, wf_ie 113 HopCounter_value byte x ->
  HopCounter_unmarshal m (HopCounter_marshal x ++ r) = Ok x.
Proof.
  ie_rt. unfold HopCounter_value. hd. rd. fin.
Qed.
Lemma HopCounter_lenok : forall m x, wf_ie 113 HopCounter_value byte x -> HopCounter_len m x = Ok (length (HopCounter_marshal x)).
Proof. intros m x H. exact (len_usize_exact _ _ _ x H). Qed.
Lemma HopCounter_safe : forall m b, returns (HopCounter_unmarshal m b).
Proof. ie_safe2. Qed.

(* Imsi *)
Lemma Imsi_rt : forall m x r, wf_ie 1 Imsi_value digits1 x ->
  Imsi_unmarshal m (Imsi_marshal x ++ r) = Ok x.
Proof.
  ie_rt. destruct Hv as [Hne Hd]. unfold Imsi_value in *.
  pose proof (tbcd_pos v Hne Hd).
  hd. octs. fin. rewrite tbcd_decode_encode, digits_only_filter by exact Hd. reflexivity.
Qed.
Lemma Imsi_lenok : forall m x, wf_ie 1 Imsi_value digits1 x -> Imsi_len m x = Ok (length (Imsi_marshal x)).
Proof. intros m x H. exact (len_usize_exact _ _ _ x H). Qed.
Lemma Imsi_safe : forall m b, declared b <= 65531 -> returns (Imsi_unmarshal m b).
Proof. ie_safe2. Qed.

Lemma indication_convert v r : Indication_convert (Indication_value v ++ r) = v.
Proof.
  destruct v. unfold Indication_convert, Indication_value.
  cbn -[flag bit N.add].
  repeat match goal with |- context [flag ?a 128 + flag ?b 64 + flag ?c 32 + flag ?d 16 + flag ?e 8 + flag ?f 4 + flag ?g 2 + flag ?h 1] =>
    change (flag a 128 + flag b 64 + flag c 32 + flag d 16 + flag e 8 + flag f 4 + flag g 2 + flag h 1) with (oct8 a b c d e f g h);
    destruct (oct8_bits a b c d e f g h) as (-> & -> & -> & -> & -> & -> & -> & ->) end.
  f_equal; match goal with |- bit (flag ?a 4 + flag ?b 2 + flag ?c 1) _ = _ => destruct a, b, c; reflexivity end.
Qed.
Lemma indication_len v : length (Indication_value v) = 10%nat.
Proof. reflexivity. Qed.

(* Indication *)
Lemma Indication_rt : forall m x r, wf_ie 77 Indication_value any x ->
  Indication_unmarshal m (Indication_marshal x ++ r) = Ok x.
Proof.
  ie_rt. pose proof (indication_len v). rewrite need_ok by lens. rewrite hdr4_cons, Hbe.
  replace (N.to_nat len + 4)%nat with (4 + length (Indication_value v))%nat by (rewrite Hl; unfold nlen; lia).
  rewrite slice4 by reflexivity. cbn [bind]. fin. rewrite <- (app_nil_r (Indication_value v)), indication_convert. reflexivity.
Qed.
Lemma Indication_lenok : forall m x, wf_ie 77 Indication_value any x -> Indication_len m x = Ok (length (Indication_marshal x)).
Proof. intros m x H. exact (len_usize_exact _ _ _ x H). Qed.

(* IntegerNumber *)
Lemma IntegerNumber_rt : forall m x r, wf_ie 187 IntegerNumber_value octets1 x ->
  IntegerNumber_unmarshal m (IntegerNumber_marshal x ++ r) = Ok x.
Proof.
  ie_rt. unfold IntegerNumber_value in *. apply nonempty_len in Hv. hd. octs. fin.
Qed.
Lemma IntegerNumber_lenok : forall m x, wf_ie 187 IntegerNumber_value octets1 x -> IntegerNumber_len m x = Ok (length (IntegerNumber_marshal x)).
Proof. intros m x H. exact (len_usize_exact _ _ _ x H). Qed.
Lemma IntegerNumber_safe : forall m b, declared b <= 65531 -> returns (IntegerNumber_unmarshal m b).
Proof. ie_safe2. Qed.

(* Ip4Cp *)
Lemma Ip4Cp_rt : forall m x r, wf_ie 166 Ip4Cp_value Ip4Cp_ok x ->
  Ip4Cp_unmarshal m (Ip4Cp_marshal x ++ r) = Ok x.
Proof.
  ie_rt. destruct v as [p a]. destruct Hv as [Hp Ha]. unfold Ip4Cp_value. cbn [i4_prefix i4_ip] in *. hd. cbn [app]. rewrite !at_cons, at_0. cbn [bind].
  rewrite !slice_cons, slice_here by lia. cbn [bind]. fin.
Qed.
Lemma Ip4Cp_lenok : forall m x, wf_ie 166 Ip4Cp_value Ip4Cp_ok x -> Ip4Cp_len m x = Ok (length (Ip4Cp_marshal x)).
Proof. intros m x H. destruct x as [t ln i v]. destruct H as (_ & _ & Hl & Hn & Hv). apply len_const_exact. cbn [ie_v] in *. unfold Ip4Cp_value in *. destruct Hv. lens. Qed.
Lemma Ip4Cp_safe : forall m b, returns (Ip4Cp_unmarshal m b).
Proof. ie_safe2. Qed.

(* IpAddress *)
Lemma IpAddress_rt : forall m x r, wf_ie 74 IpAddress_value ipaddr_ok x ->
  IpAddress_unmarshal m (IpAddress_marshal x ++ r) = Ok x.
Proof.
  ie_rt. unfold IpAddress_value in *. destruct v as [o|o]; cbn [ipaddr_ok] in *; unfold nlen in Hl, Hn; rewrite Hv in Hl; cbn in Hl; subst len;
    rewrite !need_ok by lens; rewrite hdr4_cons, Hbe; rewrite checked_ok by lens; eqbs; rewrite ?need_ok by lens; rewrite slice4 by lia; cbn [bind]; fin.
Qed.
Lemma IpAddress_lenok : forall m x, wf_ie 74 IpAddress_value ipaddr_ok x -> IpAddress_len m x = Ok (length (IpAddress_marshal x)).
Proof. intros m x H. exact (len_usize_exact _ _ _ x H). Qed.
Lemma IpAddress_safe : forall m b, declared b <= 65531 -> returns (IpAddress_unmarshal m b).
Proof. ie_safe2. Qed.

(* Ldn *)
Lemma Ldn_rt : forall m x r, wf_ie 151 Ldn_value ascii1 x ->
  Ldn_unmarshal m (Ldn_marshal x ++ r) = Ok x.
Proof.
  ie_rt. destruct Hv as [Hne Ha]. unfold Ldn_value in *. rewrite utf8_ascii in * by assumption. apply nonempty_len in Hne. hd. octs. fin.
Qed.
Lemma Ldn_lenok : forall m x, wf_ie 151 Ldn_value ascii1 x -> Ldn_len m x = Ok (length (Ldn_marshal x)).
Proof. intros m x H. exact (len_u16_exact _ _ _ m x H). Qed.
Lemma Ldn_safe : forall m b, declared b <= 65531 -> returns (Ldn_unmarshal m b).
Proof. ie_safe2. Qed.

(* MaxPacketLossRate *)
Lemma MaxPacketLossRate_rt : forall m x r, wf_ie 203 MaxPacketLossRate_value MaxPacketLossRate_ok x ->
  MaxPacketLossRate_unmarshal m (MaxPacketLossRate_marshal x ++ r) = Ok x.
Proof.
  ie_rt. destruct v as [u d]. destruct Hv as [Hu Hd]. unfold MaxPacketLossRate_value in *. cbn [ml_ul ml_dl] in *.
  destruct u as [u|], d as [d|]; cbn [app]; rewrite <- ?app_assoc; hd; cbn [app]; rewrite !at_cons, at_0; cbn [bind]; cbv zeta;
  match goal with |- context [N.land ?a 3] => let c := eval vm_compute in (N.land a 3) in change (N.land a 3) with c end; eqbs;
  rewrite ?checked_ok by lens; rd; fin.
Qed.
Lemma MaxPacketLossRate_lenok : forall m x, wf_ie 203 MaxPacketLossRate_value MaxPacketLossRate_ok x -> MaxPacketLossRate_len m x = Ok (length (MaxPacketLossRate_marshal x)).
Proof. intros m x H. exact (len_usize_exact _ _ _ x H). Qed.
Lemma MaxPacketLossRate_safe : forall m b, returns (MaxPacketLossRate_unmarshal m b).
Proof. ie_safe2. Qed.

(* MbmsDistributionAck *)
Lemma MbmsDistributionAck_rt : forall m x r, wf_ie 143 MbmsDistributionAck_value two_bits x ->
  MbmsDistributionAck_unmarshal m (MbmsDistributionAck_marshal x ++ r) = Ok x.
Proof.
  ie_rt. unfold two_bits in Hv. unfold MbmsDistributionAck_value. hd. rd. fin. cases_lt 4%nat Hv.
Qed.
Lemma MbmsDistributionAck_lenok : forall m x, wf_ie 143 MbmsDistributionAck_value two_bits x -> MbmsDistributionAck_len m x = Ok (length (MbmsDistributionAck_marshal x)).
Proof. intros m x H. destruct x as [t ln i v]. destruct H as (_ & _ & Hl & Hn & Hv). apply len_const_exact. cbn [ie_v] in *. unfold MbmsDistributionAck_value in *. lens. Qed.
Lemma MbmsDistributionAck_safe : forall m b, returns (MbmsDistributionAck_unmarshal m b).
Proof. ie_safe2. Qed.

(* MbmsFlags *)
Lemma MbmsFlags_rt : forall m x r, wf_ie 171 MbmsFlags_value any x ->
  MbmsFlags_unmarshal m (MbmsFlags_marshal x ++ r) = Ok x.
Proof.
  ie_rt. destruct v. unfold MbmsFlags_value. cbn in Hv |- *. decompose [and] Hv. clear Hv. rewrite <- ?app_assoc. hd. rd. fin; bools.
Qed.
Lemma MbmsFlags_lenok : forall m x, wf_ie 171 MbmsFlags_value any x -> MbmsFlags_len m x = Ok (length (MbmsFlags_marshal x)).
Proof. intros m x H. destruct x as [t ln i v]. destruct H as (_ & _ & Hl & Hn & Hv). apply len_const_exact. cbn [ie_v] in *. unfold MbmsFlags_value in *. lens. Qed.
Lemma MbmsFlags_safe : forall m b, returns (MbmsFlags_unmarshal m b).
Proof. ie_safe2. Qed.

(* MbmsFlowId *)
Lemma MbmsFlowId_rt : forall m x r, wf_ie 141 MbmsFlowId_value u16 x ->
  MbmsFlowId_unmarshal m (MbmsFlowId_marshal x ++ r) = Ok x.
Proof.
  ie_rt. unfold MbmsFlowId_value. hd. rd. fin.
Qed.
Lemma MbmsFlowId_lenok : forall m x, wf_ie 141 MbmsFlowId_value u16 x -> MbmsFlowId_len m x = Ok (length (MbmsFlowId_marshal x)).
Proof. intros m x H. destruct x as [t ln i v]. destruct H as (_ & _ & Hl & Hn & Hv). apply len_const_exact. cbn [ie_v] in *. unfold MbmsFlowId_value in *. lens. Qed.
Lemma MbmsFlowId_safe : forall m b, returns (MbmsFlowId_unmarshal m b).
Proof. ie_safe2. Qed.

Lemma multicast_ip_rt p a r i : ipaddr_ok a -> i = length p ->
  multicast_ip_at (p ++ multicast_ip a ++ r) i = Ok (a, length (p ++ multicast_ip a)).
Proof.
  intros Ha ->. unfold multicast_ip_at. rewrite at_skip by lia. rewrite Nat.sub_diag.
  destruct a as [o|o]; cbn [multicast_ip app ipaddr_ok] in *; rewrite at_0; cbn [bind]; eqbs;
    rewrite need_ok by (rewrite app_length; cbn [length]; rewrite app_length; lia).
  - change (p ++ 4 :: o ++ r) with (p ++ [4] ++ o ++ r). rewrite (app_assoc p), slice_mid by (rewrite app_length; cbn [length]; lia).
    cbn [bind]. rewrite app_length. cbn [length]. do 2 f_equal. lia.
  - change (p ++ 80 :: o ++ r) with (p ++ [80] ++ o ++ r). rewrite (app_assoc p), slice_mid by (rewrite app_length; cbn [length]; lia).
    cbn [bind]. rewrite app_length. cbn [length]. do 2 f_equal. lia.
Qed.

(* MbmsIpMulticastDistribution *)
Lemma MbmsIpMulticastDistribution_rt : forall m x r, wf_ie 142 MbmsIpMulticastDistribution_value MbmsIpMulticastDistribution_ok x ->
  MbmsIpMulticastDistribution_unmarshal m (MbmsIpMulticastDistribution_marshal x ++ r) = Ok x.
Proof.
  ie_rt. destruct v as [t a1 a2 hc]. destruct Hv as (Ht & H1 & H2). unfold MbmsIpMulticastDistribution_value in *. cbn [mm_teid mm_a1 mm_a2 mm_hc] in *.
  rewrite <- !app_assoc. rewrite need_ok by lens. rewrite hdr4_cons, Hbe. rd.
  rewrite checked_ok by (revert Hl Hn; unfold nlen; cbn [length]; rewrite ?app_length, ?enc_be_length; cbn [length]; lia).
  rewrite cons4_app, app_assoc. rewrite multicast_ip_rt by (assumption || (rewrite app_length, enc_be_length; reflexivity)). cbn [bind].
  rewrite (app_assoc _ (multicast_ip a1)). rewrite multicast_ip_rt by (assumption || reflexivity). cbn [bind].
  rewrite (app_assoc _ (multicast_ip a2)). rewrite need_ok by (rewrite (app_length _ (_ :: r)); lia).
  rewrite at_skip by lia. rewrite Nat.sub_diag. rewrite at_0. cbn [bind]. destruct hc; eqbs; reflexivity.
Qed.
Lemma MbmsIpMulticastDistribution_lenok : forall m x, wf_ie 142 MbmsIpMulticastDistribution_value MbmsIpMulticastDistribution_ok x -> MbmsIpMulticastDistribution_len m x = Ok (length (MbmsIpMulticastDistribution_marshal x)).
Proof. intros m x H. exact (len_usize_exact _ _ _ x H). Qed.

Lemma enc16s_len l : length (enc_all (enc_be 2) l) = (2 * length l)%nat.
Proof. apply enc_all_len, Forall_forall. intros. apply enc_be_length. Qed.

(* MbmsServiceArea *)
Lemma MbmsServiceArea_rt : forall m x r, wf_ie 139 MbmsServiceArea_value MbmsServiceArea_ok x ->
  MbmsServiceArea_unmarshal m (MbmsServiceArea_marshal x ++ r) = Ok x.
Proof.
  ie_rt. destruct Hv as [Hc Hu]. unfold MbmsServiceArea_value in *.
  destruct (Nat.eqb_spec (length v) 0) as [E|_]; [lia|]. pose proof (enc16s_len v) as HL.
  revert Hl Hn. rewrite (N.mod_small (nlen v - 1)) by (unfold nlen; lia). intros Hl Hn.
  rewrite need_ok by lens. rewrite hdr4_cons, Hbe.
  rewrite checked_ok by (revert Hl Hn; unfold nlen; cbn [length app]; rewrite ?app_length, ?HL; lia).
  cbn [app]. rewrite !at_cons, at_0. cbn [bind]. cbv zeta.
  replace (N.to_nat (nlen v - 1) + 1)%nat with (length v) by (unfold nlen; lia).
  rewrite need_ok by (cbn [length]; rewrite app_length, HL; lia).
  cbn [Nat.add]. rewrite !slice_cons, slice_here by lia. cbn [bind]. rewrite chunks16_enc by assumption. fin.
Qed.
Lemma MbmsServiceArea_lenok : forall m x, wf_ie 139 MbmsServiceArea_value MbmsServiceArea_ok x -> MbmsServiceArea_len m x = Ok (length (MbmsServiceArea_marshal x)).
Proof. intros m x H. exact (len_usize_exact _ _ _ x H). Qed.
Lemma MbmsServiceArea_safe : forall m b, declared b <= 65531 -> returns (MbmsServiceArea_unmarshal m b).
Proof. ie_safe2. Qed.

Lemma land_shl a b : b < 128 -> N.lor (N.shiftl a 7) b = a * 128 + b.
Proof.
  intros H. rewrite N.shiftl_mul_pow2. change (2 ^ 7) with 128. rewrite N.lor_comm, <- N.lxor_lor, <- N.add_nocarry_lxor; [lia| |].
  all: change 128 with (2 ^ 7); apply N.bits_inj; intros k; rewrite N.land_spec, N.bits_0.
  all: destruct (N.ltb_spec k 7) as [Hk|Hk]; [rewrite (N.mul_pow2_bits_low a 7 k) by assumption; apply andb_false_r|].
  all: replace (N.testbit b k) with false; [reflexivity|symmetry].
  all: destruct (N.eq_dec b 0) as [->|Hb]; [apply N.bits_0|]; apply N.bits_above_log2.
  all: apply N.lt_le_trans with 7; [|assumption]; apply N.log2_lt_pow2; [lia|exact H].
Qed.
Lemma land127 a b : b < 128 -> N.land (a * 128 + b) 127 = b.
Proof. intros. change 127 with (N.ones 7). rewrite N.land_ones. change (2 ^ 7) with 128. lia. Qed.

(* MbmsSessionDuration *)
Lemma MbmsSessionDuration_rt : forall m x r, wf_ie 138 MbmsSessionDuration_value MbmsSessionDuration_ok x ->
  MbmsSessionDuration_unmarshal m (MbmsSessionDuration_marshal x ++ r) = Ok x.
Proof.
  ie_rt. destruct v as [s d]. destruct Hv as [Hs Hd]. unfold MbmsSessionDuration_value in *. cbn [sd_seconds sd_days] in *.
  change (2 ^ 17) with 131072 in Hs. rewrite N.mod_small by (rewrite N.shiftl_mul_pow2; change (2 ^ 7) with 128; lia).
  rewrite land_shl by assumption. hd. rd.
  change (enc_be 3 ?x) with [(x / 256 ^ N.of_nat 2) mod 256; (x / 256 ^ N.of_nat 1) mod 256; (x / 256 ^ N.of_nat 0) mod 256].
  cbn [app]. rewrite !at_cons, at_0. cbn [bind]. fin. rewrite N.shiftr_div_pow2. change (2 ^ 7) with 128. change (256 ^ N.of_nat 0) with 1.
  do 2 f_equal. f_equal; [lia|].
  replace (((s * 128 + d) / 1) mod 256) with ((s mod 2) * 128 + d) by lia. apply land127. assumption.
Qed.
Lemma MbmsSessionDuration_lenok : forall m x, wf_ie 138 MbmsSessionDuration_value MbmsSessionDuration_ok x -> MbmsSessionDuration_len m x = Ok (length (MbmsSessionDuration_marshal x)).
Proof. intros m x H. destruct x as [t ln i v]. destruct H as (_ & _ & Hl & Hn & Hv). apply len_const_exact. cbn [ie_v] in *. unfold MbmsSessionDuration_value in *. lens. Qed.
Lemma MbmsSessionDuration_safe : forall m b, returns (MbmsSessionDuration_unmarshal m b).
Proof. ie_safe2. Qed.

(* MbmsSessionId *)
Lemma MbmsSessionId_rt : forall m x r, wf_ie 140 MbmsSessionId_value byte x ->
  MbmsSessionId_unmarshal m (MbmsSessionId_marshal x ++ r) = Ok x.
Proof.
  ie_rt. unfold MbmsSessionId_value. hd. rd. fin.
Qed.
Lemma MbmsSessionId_lenok : forall m x, wf_ie 140 MbmsSessionId_value byte x -> MbmsSessionId_len m x = Ok (length (MbmsSessionId_marshal x)).
Proof. intros m x H. destruct x as [t ln i v]. destruct H as (_ & _ & Hl & Hn & Hv). apply len_const_exact. cbn [ie_v] in *. unfold MbmsSessionId_value in *. lens. Qed.
Lemma MbmsSessionId_safe : forall m b, returns (MbmsSessionId_unmarshal m b).
Proof. ie_safe2. Qed.

(* MbmsTimeToDataTransfer *)
Lemma MbmsTimeToDataTransfer_rt : forall m x r, wf_ie 153 MbmsTimeToDataTransfer_value byte x ->
  MbmsTimeToDataTransfer_unmarshal m (MbmsTimeToDataTransfer_marshal x ++ r) = Ok x.
Proof.
  ie_rt. unfold MbmsTimeToDataTransfer_value. hd. rd. fin.
Qed.
Lemma MbmsTimeToDataTransfer_lenok : forall m x, wf_ie 153 MbmsTimeToDataTransfer_value byte x -> MbmsTimeToDataTransfer_len m x = Ok (length (MbmsTimeToDataTransfer_marshal x)).
Proof. intros m x H. destruct x as [t ln i v]. destruct H as (_ & _ & Hl & Hn & Hv). apply len_const_exact. cbn [ie_v] in *. unfold MbmsTimeToDataTransfer_value in *. lens. Qed.
Lemma MbmsTimeToDataTransfer_safe : forall m b, returns (MbmsTimeToDataTransfer_unmarshal m b).
Proof. ie_safe2. Qed.

Lemma MdtJobType_rt j : MdtJobType_of (MdtJobType_to j) = j.
Proof. destruct j; reflexivity. Qed.
Lemma opt_at_rt p o r i : i = length p ->
  opt_at (is_some o) (p ++ opt1 o ++ r) i = Ok (o, length (p ++ opt1 o)).
Proof.
  intros ->. unfold opt_at. destruct o as [x|]; cbn [is_some opt1 andb app].
  - destruct (Nat.ltb_spec (length p) (length (p ++ x :: r))) as [H|H]; [|rewrite app_length in H; cbn [length] in H; lia].
    rewrite at_skip, Nat.sub_diag, at_0 by lia. cbn [bind]. rewrite app_length. cbn [length]. do 2 f_equal. lia.
  - rewrite app_nil_r. reflexivity.
Qed.
Lemma plmns_len l : length (enc_all plmn_enc l) = (3 * length l)%nat.
Proof. apply enc_all_len, Forall_forall. intros. apply plmn_len. Qed.
Lemma mdt_loop_rt l : Forall plmn_ok l -> forall p f, (length l <= f)%nat ->
  mdt_plmns_loop f (p ++ enc_all plmn_enc l) (length p) = Ok l.
Proof.
  induction 1 as [|x l Hx Hl IH]; intros p f Hf.
  - unfold enc_all. cbn [map concat]. rewrite app_nil_r. destruct f; cbn [mdt_plmns_loop]; rewrite Nat.ltb_irrefl; reflexivity.
  - destruct f as [|f]; [cbn in Hf; lia|]. cbn [mdt_plmns_loop]. unfold enc_all. cbn [map concat].
    assert (Hq : length (p ++ plmn_enc x ++ concat (map plmn_enc l)) = (length p + 3 + 3 * length l)%nat).
    { rewrite !app_length, plmn_len. pose proof (plmns_len l) as E. unfold enc_all in E. rewrite E. lia. }
    rewrite Hq. destruct (Nat.ltb_spec (length p) (length p + 3 + 3 * length l)); [|lia].
    rewrite need_ok by lia. rewrite plmn_at_skip by lia. rewrite Nat.sub_diag, plmn_at_here by assumption. cbn [bind].
    rewrite app_assoc. replace (length p + 3)%nat with (length (p ++ plmn_enc x)) by (rewrite app_length, plmn_len; lia).
    change (concat (map plmn_enc l)) with (enc_all plmn_enc l). rewrite IH by (cbn in Hf; lia). reflexivity.
Qed.
Lemma mdt_flags a b c d :
  let f := flag a 1 + flag b 2 + flag c 4 + flag d 8 in
  (N.shiftr f 3 =? 1) = d /\ (N.land (N.shiftr f 2) 1 =? 1) = c /\ (N.land (N.shiftr f 1) 1 =? 1) = b /\ (N.land f 1 =? 1) = a.
Proof. destruct a, b, c, d; repeat split; reflexivity. Qed.
Lemma mdt_general m len ins v r h l : ins < 16 -> be16 h l = len -> MdtConfiguration_last_ok v ->
  (md_plmns v = None \/ r = []) ->
  MdtConfiguration_unmarshal m (162 :: h :: l :: ins :: MdtConfiguration_value v ++ r) = Ok (mkIe 162 len ins v).
Proof.
  intros Hi Hbe Hv Hr. destruct v as [j ms t i a rp rq area rrm lte pos pl]. destruct Hv as ((Hms & Har) & Hpl).
  cbn [md_meas md_area md_plmns] in *. unfold MdtConfiguration_value, MdtConfiguration_unmarshal.
  cbn [md_job md_meas md_trigger md_interval md_amount md_rsrp md_rsrq md_area md_rrm md_lte md_pos md_plmns].
  set (fl := flag (is_some rrm) 1 + flag (is_some lte) 2 + flag (is_some pos) 4 + flag (is_some pl) 8).
  destruct ms as [|m0 [|m1 [|m2 [|m3 [|? ?]]]]]; try discriminate Hms.
  rewrite <- !app_assoc. cbn [app].
  set (ar := match area with Some i0 => lv i0 | None => [0] end).
  set (pr := match pl with Some l0 => nlen l0 mod 256 :: enc_all plmn_enc l0 | None => [] end).
  assert (Hal : (1 <= length ar)%nat) by (unfold ar; destruct area; rewrite ?lv_len; cbn [length]; lia).
  rewrite need_ok by (cbn [length]; rewrite app_length; cbn [length]; lia).
  rewrite hdr4_cons, Hbe.
  set (pre := [162; h; l; ins; MdtJobType_to j; m0; m1; m2; m3; t; i; a; rp; rq]).
  set (tl := opt1 rrm ++ opt1 lte ++ opt1 pos ++ pr ++ r).
  match goal with |- context [at_ ?x 4] => change x with (pre ++ ar ++ fl :: tl) end.
  set (B := pre ++ ar ++ fl :: tl).
  change (at_ B 4) with (Ok (E:=GTPV2Error) (MdtJobType_to j)). change (slice B 5 9) with (Ok (E:=GTPV2Error) [m0; m1; m2; m3]).
  change (at_ B 9) with (Ok (E:=GTPV2Error) t). change (at_ B 10) with (Ok (E:=GTPV2Error) i). change (at_ B 11) with (Ok (E:=GTPV2Error) a).
  change (at_ B 12) with (Ok (E:=GTPV2Error) rp). change (at_ B 13) with (Ok (E:=GTPV2Error) rq). cbn [bind].
  assert (EA : (let? al := @at_ GTPV2Error B 14 in
     if al =? 0 then Ok (None, 15%nat)
     else let? s := slice B 15 (15 + N.to_nat al) in Ok (Some s, (15 + N.to_nat al)%nat)) = (Ok (area, length (pre ++ ar)) : res (option (list N) * nat))).
  { unfold B. rewrite at_skip by (cbn [length pre]; lia). change (14 - length pre)%nat with 0%nat. unfold ar. destruct area as [x|].
    - destruct Har as [Hx1 Hx2]. unfold lv. cbn [app]. rewrite at_0. cbn [bind]. rewrite (N.mod_small (nlen x)) by assumption.
      apply nonempty_len in Hx1. destruct (N.eqb_spec (nlen x) 0); [contradiction|].
      replace (N.to_nat (nlen x)) with (length x) by (unfold nlen; lia).
      change (pre ++ nlen x :: x ++ fl :: tl) with ((pre ++ [nlen x]) ++ x ++ fl :: tl).
      rewrite slice_mid by reflexivity. cbn [bind]. rewrite app_length. cbn [length pre]. reflexivity.
    - cbn [app]. rewrite at_0. cbn [bind]. reflexivity. }
  match goal with |- (let? al := at_ B 14 in let? (x, y) := @?q al in @?k x y) = _ =>
    assert (EB : forall (r0 : res N), (let? al := r0 in let? (x, y) := q al in k x y) = (let? (x, y) := (let? al := r0 in q al) in k x y))
    by (intros [| | |]; reflexivity); rewrite EB; clear EB end.
  cbv beta. rewrite EA. cbn [bind]. clear EA.
  unfold B. rewrite app_assoc. rewrite at_skip by lia. rewrite Nat.sub_diag, at_0. cbn [bind].
  destruct (mdt_flags (is_some rrm) (is_some lte) (is_some pos) (is_some pl)) as (F1 & F2 & F3 & F4). fold fl in F1, F2, F3, F4.
  rewrite F1, F2, F3, F4. clear F1 F2 F3 F4.
  change ((pre ++ ar) ++ fl :: tl) with ((pre ++ ar) ++ [fl] ++ tl). rewrite (app_assoc (pre ++ ar)). set (p1 := (pre ++ ar) ++ [fl]).
  unfold tl. rewrite (opt_at_rt p1 rrm) by (unfold p1; rewrite ?(app_length (pre ++ ar)); cbn [length]; lia). cbn [bind].
  rewrite (app_assoc p1). rewrite (opt_at_rt (p1 ++ opt1 rrm) lte) by reflexivity. cbn [bind].
  rewrite (app_assoc (p1 ++ opt1 rrm)). rewrite (opt_at_rt ((p1 ++ opt1 rrm) ++ opt1 lte) pos) by reflexivity. cbn [bind].
  rewrite (app_assoc ((p1 ++ opt1 rrm) ++ opt1 lte)). set (p2 := ((p1 ++ opt1 rrm) ++ opt1 lte) ++ opt1 pos).
  rewrite MdtJobType_rt. unfold pr. destruct pl as [pl|]; cbn [is_some].
  - destruct Hr as [Hr|Hr]; [discriminate Hr|]. subst r. rewrite app_nil_r. destruct Hpl as [Hc Hf].
    rewrite at_skip by lia. rewrite Nat.sub_diag, at_0. cbn [bind]. rewrite (N.mod_small (nlen pl)) by (unfold nlen; lia).
    destruct (N.ltb_spec (nlen pl) 16) as [_|H16]; [|unfold nlen in H16; lia].
    replace (N.to_nat (nlen pl)) with (length pl) by (unfold nlen; lia).
    rewrite need_ok by (rewrite app_length; cbn [length]; rewrite plmns_len; lia).
    change (p2 ++ nlen pl :: enc_all plmn_enc pl) with (p2 ++ [nlen pl] ++ enc_all plmn_enc pl). rewrite (app_assoc p2).
    replace (length p2 + 1)%nat with (length (p2 ++ [nlen pl])) by (rewrite app_length; reflexivity).
    rewrite mdt_loop_rt by (assumption || (rewrite app_length, plmns_len; lia)). cbn [bind]. fin.
  - cbn [bind]. fin.
Qed.

(* MdtConfiguration *)
Lemma MdtConfiguration_rt : forall m x r, wf_ie 162 MdtConfiguration_value MdtConfiguration_ok x ->
  MdtConfiguration_unmarshal m (MdtConfiguration_marshal x ++ r) = Ok x.
Proof.
  intros m x r H. destruct (ie_open _ _ _ x r H) as (h & l & E & Hbe). unfold MdtConfiguration_marshal. rewrite E.
  destruct H as (Ht & Hi & Hl & Hn & Hv & Hp). destruct x as [t len ins v]. cbn [ie_t ie_length ie_ins ie_v] in *. subst t.
  apply mdt_general; [assumption..| |left; assumption]. split; [assumption|]. rewrite Hp. exact I.
Qed.
Lemma MdtConfiguration_lenok : forall m x, wf_ie 162 MdtConfiguration_value MdtConfiguration_ok x -> MdtConfiguration_len m x = Ok (length (MdtConfiguration_marshal x)).
Proof. intros m x H. exact (len_usize_exact _ _ _ x H). Qed.

(* with a PLMN list, when nothing follows *)
Lemma MdtConfiguration_last_rt : forall m x, wf_ie 162 MdtConfiguration_value MdtConfiguration_last_ok x ->
  MdtConfiguration_unmarshal m (MdtConfiguration_marshal x) = Ok x.
Proof.
  intros m x H. destruct (ie_open _ _ _ x [] H) as (h & l & E & Hbe). rewrite app_nil_r in E. unfold MdtConfiguration_marshal. rewrite E.
  destruct H as (Ht & Hi & Hl & Hn & Hv). destruct x as [t len ins v]. cbn [ie_t ie_length ie_ins ie_v] in *. subst t.
  apply mdt_general; [assumption..|right; reflexivity].
Qed.

(* Mei *)
Lemma Mei_rt : forall m x r, wf_ie 75 Mei_value Mei_ok x ->
  Mei_unmarshal m (Mei_marshal x ++ r) = Ok x.
Proof.
  ie_rt. destruct Hv as [Hq Hd]. unfold Mei_value in *.
  assert (HL : length (tbcd_encode v) = 8%nat) by (rewrite tbcd_encode_length by exact Hd; destruct Hq as [-> | ->]; reflexivity).
  hd. rewrite checked_ok by lens. rewrite end16_ok by lens. cbn [bind]. rewrite slice4 by lens. cbn [bind]. fin.
  rewrite tbcd_decode_encode, digits_only_filter by exact Hd. reflexivity.
Qed.
Lemma Mei_lenok : forall m x, wf_ie 75 Mei_value Mei_ok x -> Mei_len m x = Ok (length (Mei_marshal x)).
Proof. intros m x H. destruct x as [t ln i v]. destruct H as (_ & _ & Hl & Hn & Hv). apply len_const_exact. cbn [ie_v] in *. unfold Mei_value in *. destruct Hv as [Hq Hd]. rewrite tbcd_encode_length by exact Hd. destruct Hq as [-> | ->]; reflexivity. Qed.
Lemma Mei_safe : forall m b, declared b <= 65531 -> returns (Mei_unmarshal m b).
Proof. ie_safe2. Qed.

(* Metric *)
Lemma Metric_rt : forall m x r, wf_ie 182 Metric_value percent x ->
  Metric_unmarshal m (Metric_marshal x ++ r) = Ok x.
Proof.
  ie_rt. unfold percent in Hv. unfold Metric_value. hd. cbn [app]. rd. destruct (N.ltb_spec 100 v); [lia|]. fin.
Qed.
Lemma Metric_lenok : forall m x, wf_ie 182 Metric_value percent x -> Metric_len m x = Ok (length (Metric_marshal x)).
Proof. intros m x H. destruct x as [t ln i v]. destruct H as (_ & _ & Hl & Hn & Hv). apply len_const_exact. cbn [ie_v] in *. unfold Metric_value in *. lens. Qed.
Lemma Metric_safe : forall m b, returns (Metric_unmarshal m b).
Proof. ie_safe2. Qed.

(* MilliSecondTimeStamp *)
Lemma MilliSecondTimeStamp_rt : forall m x r, wf_ie 188 MilliSecondTimeStamp_value six_octets x ->
  MilliSecondTimeStamp_unmarshal m (MilliSecondTimeStamp_marshal x ++ r) = Ok x.
Proof.
  ie_rt. unfold six_octets in Hv. change (2 ^ 48) with 281474976710656 in Hv. unfold MilliSecondTimeStamp_value. hd. rd. fin.
Qed.
Lemma MilliSecondTimeStamp_lenok : forall m x, wf_ie 188 MilliSecondTimeStamp_value six_octets x -> MilliSecondTimeStamp_len m x = Ok (length (MilliSecondTimeStamp_marshal x)).
Proof. intros m x H. destruct x as [t ln i v]. destruct H as (_ & _ & Hl & Hn & Hv). apply len_const_exact. cbn [ie_v] in *. unfold MilliSecondTimeStamp_value in *. lens. Qed.
Lemma MilliSecondTimeStamp_safe : forall m b, returns (MilliSecondTimeStamp_unmarshal m b).
Proof. ie_safe2. Qed.
