(* V2IeAFacts.v - round trip, size and crash freedom of the IEs of V2IeA.v *)
From Verif Require Export V2IeFacts V2OkA.
Local Open Scope N_scope.

Lemma amm_opt_field b c i : i <> [] -> nlen i < 256 ->
  amm_field (b ++ amm_opt (Some i) ++ c) (length b) = Ok (Some i, (length b + 1 + length i)%nat).
Proof.
  intros Hi Hl. unfold amm_field. rewrite at_skip by lia. rewrite Nat.sub_diag. cbn [amm_opt app]. rewrite at_0. cbn [bind].
  rewrite N.mod_small by assumption. unfold nlen. rewrite Nat2N.id. cbv zeta.
  destruct i as [|x i]; [contradiction|]. destruct (Nat.ltb_spec 0 (length (x :: i))); [|cbn in *; lia].
  destruct (Nat.leb_spec (length b + 1 + length (x :: i)) (length (b ++ N.of_nat (length (x :: i)) :: (x :: i) ++ c)))
    as [H1|H1]; [|rewrite !app_length in H1; cbn [length] in H1; rewrite app_length in H1; cbn [length] in H1; lia].
  change (b ++ N.of_nat (length (x :: i)) :: (x :: i) ++ c) with (b ++ [N.of_nat (length (x :: i))] ++ (x :: i) ++ c).
  rewrite app_assoc. rewrite slice_mid by (rewrite app_length; cbn [length]; lia). reflexivity.
Qed.

(* AbsoluteTimeMbmsDataTransfer *)
Lemma AbsoluteTimeMbmsDataTransfer_rt : forall m x r, wf_ie 164 AbsoluteTimeMbmsDataTransfer_value u64 x ->
  AbsoluteTimeMbmsDataTransfer_unmarshal m (AbsoluteTimeMbmsDataTransfer_marshal x ++ r) = Ok x.
Proof.
  ie_rt. unfold AbsoluteTimeMbmsDataTransfer_value. hd. rd. fin.
Qed.
Lemma AbsoluteTimeMbmsDataTransfer_lenok : forall m x, wf_ie 164 AbsoluteTimeMbmsDataTransfer_value u64 x -> AbsoluteTimeMbmsDataTransfer_len m x = Ok (length (AbsoluteTimeMbmsDataTransfer_marshal x)).
Proof. intros m x H. destruct x as [t ln i v]. destruct H as (_ & _ & Hl & Hn & Hv). apply len_const_exact. cbn [ie_v] in *. unfold AbsoluteTimeMbmsDataTransfer_value in *. lens. Qed.
Lemma AbsoluteTimeMbmsDataTransfer_safe : forall m b, returns (AbsoluteTimeMbmsDataTransfer_unmarshal m b).
Proof. ie_safe. Qed.

(* ActionIndication *)
Lemma ActionIndication_rt : forall m x r, wf_ie 168 ActionIndication_value any x ->
  ActionIndication_unmarshal m (ActionIndication_marshal x ++ r) = Ok x.
Proof.
  ie_rt. unfold ActionIndication_value. hd. rd. fin; destruct v; reflexivity.
Qed.
Lemma ActionIndication_lenok : forall m x, wf_ie 168 ActionIndication_value any x -> ActionIndication_len m x = Ok (length (ActionIndication_marshal x)).
Proof. intros m x H. exact (len_usize_exact _ _ _ x H). Qed.
Lemma ActionIndication_safe : forall m b, returns (ActionIndication_unmarshal m b).
Proof. ie_safe. Qed.

(* AdditionalFlagsSrvcc *)
Lemma AdditionalFlagsSrvcc_rt : forall m x r, wf_ie 160 AdditionalFlagsSrvcc_value any x ->
  AdditionalFlagsSrvcc_unmarshal m (AdditionalFlagsSrvcc_marshal x ++ r) = Ok x.
Proof.
  ie_rt. destruct v. unfold AdditionalFlagsSrvcc_value. cbn in Hv |- *. decompose [and] Hv. clear Hv. rewrite <- ?app_assoc. hd. rd. fin; bools.
Qed.
Lemma AdditionalFlagsSrvcc_lenok : forall m x, wf_ie 160 AdditionalFlagsSrvcc_value any x -> AdditionalFlagsSrvcc_len m x = Ok (length (AdditionalFlagsSrvcc_marshal x)).
Proof. intros m x H. destruct x as [t ln i v]. destruct H as (_ & _ & Hl & Hn & Hv). apply len_const_exact. cbn [ie_v] in *. unfold AdditionalFlagsSrvcc_value in *. lens. Qed.
Lemma AdditionalFlagsSrvcc_safe : forall m b, returns (AdditionalFlagsSrvcc_unmarshal m b).
Proof. ie_safe. Qed.

(* AdditionalMmContextForSrvcc *)
Lemma AdditionalMmContextForSrvcc_rt : forall m x r, wf_ie 159 AdditionalMmContextForSrvcc_value AdditionalMmContextForSrvcc_ok x ->
  AdditionalMmContextForSrvcc_unmarshal m (AdditionalMmContextForSrvcc_marshal x ++ r) = Ok x.
Proof.
  ie_rt. destruct v as [c2 c3 cl]. destruct Hv as ((i2 & E2 & N2 & L2) & (i3 & E3 & N3 & L3) & Hcl).
  cbn [am_classmark2 am_classmark3 am_codecs] in *. subst c2 c3.
  unfold AdditionalMmContextForSrvcc_value. cbn [am_classmark2 am_classmark3 am_codecs].
  rewrite need_ok by (cbn [length app amm_opt]; lia). rewrite hdr4_cons, Hbe.
  rewrite <- !app_assoc. rewrite (cons4_app 159 h l ins). set (p := [159; h; l; ins]).
  rewrite (amm_opt_field p) by assumption. cbn [bind].
  rewrite app_assoc.
  replace (length p + 1 + length i2)%nat with (length (p ++ amm_opt (Some i2)))
    by (rewrite app_length; cbn [amm_opt length]; lia).
  rewrite amm_opt_field by assumption. cbn [bind].
  rewrite app_assoc.
  replace (length (p ++ amm_opt (Some i2)) + 1 + length i3)%nat
    with (length ((p ++ amm_opt (Some i2)) ++ amm_opt (Some i3)))
    by (rewrite (app_length _ (amm_opt (Some i3))); cbn [amm_opt length]; lia).
  destruct cl as [cl|].
  - rewrite amm_opt_field by apply Hcl. cbn [bind]. fin.
  - unfold amm_field at 1. rewrite at_skip by lia. rewrite Nat.sub_diag. cbn [amm_opt app]. rewrite at_0. cbn [bind]. fin.
Qed.
Lemma AdditionalMmContextForSrvcc_lenok : forall m x, wf_ie 159 AdditionalMmContextForSrvcc_value AdditionalMmContextForSrvcc_ok x -> AdditionalMmContextForSrvcc_len m x = Ok (length (AdditionalMmContextForSrvcc_marshal x)).
Proof. intros m x H. exact (len_usize_exact _ _ _ x H). Qed.

(* AlternativeImsi *)
Lemma AlternativeImsi_rt : forall m x r, wf_ie 219 AlternativeImsi_value digits1 x ->
  AlternativeImsi_unmarshal m (AlternativeImsi_marshal x ++ r) = Ok x.
Proof.
  ie_rt. destruct Hv as [Hne Hd]. unfold AlternativeImsi_value in *.
  pose proof (tbcd_pos v Hne Hd).
  hd. octs. fin. rewrite tbcd_decode_encode, digits_only_filter by exact Hd. reflexivity.
Qed.
Lemma AlternativeImsi_lenok : forall m x, wf_ie 219 AlternativeImsi_value digits1 x -> AlternativeImsi_len m x = Ok (length (AlternativeImsi_marshal x)).
Proof. intros m x H. exact (len_usize_exact _ _ _ x H). Qed.
Lemma AlternativeImsi_safe : forall m b, declared b <= 65531 -> returns (AlternativeImsi_unmarshal m b).
Proof. ie_safe. Qed.

(* Ambr *)
Lemma Ambr_rt : forall m x r, wf_ie 72 Ambr_value Ambr_ok x ->
  Ambr_unmarshal m (Ambr_marshal x ++ r) = Ok x.
Proof.
  ie_rt. destruct v. unfold Ambr_value. unfold Ambr_ok in Hv. cbn in Hv |- *. decompose [and] Hv. clear Hv. rewrite <- ?app_assoc. hd. rd. fin; bools.
Qed.
Lemma Ambr_lenok : forall m x, wf_ie 72 Ambr_value Ambr_ok x -> Ambr_len m x = Ok (length (Ambr_marshal x)).
Proof. intros m x H. destruct x as [t ln i v]. destruct H as (_ & _ & Hl & Hn & Hv). apply len_const_exact. cbn [ie_v] in *. unfold Ambr_value in *. lens. Qed.
Lemma Ambr_safe : forall m b, returns (Ambr_unmarshal m b).
Proof. ie_safe. Qed.

(* Apco *)
Lemma Apco_rt : forall m x r, wf_ie 163 Apco_value octets1 x ->
  Apco_unmarshal m (Apco_marshal x ++ r) = Ok x.
Proof.
  ie_rt. unfold Apco_value in *. apply nonempty_len in Hv. hd. octs. fin.
Qed.
Lemma Apco_lenok : forall m x, wf_ie 163 Apco_value octets1 x -> Apco_len m x = Ok (length (Apco_marshal x)).
Proof. intros m x H. exact (len_usize_exact _ _ _ x H). Qed.
Lemma Apco_safe : forall m b, declared b <= 65531 -> returns (Apco_unmarshal m b).
Proof. ie_safe. Qed.

(* Apn *)
Lemma Apn_rt : forall m x r, wf_ie 71 Apn_value name_ok x ->
  Apn_unmarshal m (Apn_marshal x ++ r) = Ok x.
Proof.
  ie_rt. unfold Apn_value in *. pose proof (labels_encode_pos v). hd. octs. rewrite labels_roundtrip by assumption. fin.
Qed.
Lemma Apn_lenok : forall m x, wf_ie 71 Apn_value name_ok x -> Apn_len m x = Ok (length (Apn_marshal x)).
Proof. intros m x H. exact (len_u16_exact _ _ _ m x H). Qed.

(* ApnRateControlStatus *)
Lemma ApnRateControlStatus_rt : forall m x r, wf_ie 204 ApnRateControlStatus_value ApnRateControlStatus_ok x ->
  ApnRateControlStatus_unmarshal m (ApnRateControlStatus_marshal x ++ r) = Ok x.
Proof.
  ie_rt. destruct v. unfold ApnRateControlStatus_value. unfold ApnRateControlStatus_ok in Hv. cbn in Hv |- *. decompose [and] Hv. clear Hv. rewrite <- ?app_assoc. hd. rd. fin; bools.
Qed.
Lemma ApnRateControlStatus_lenok : forall m x, wf_ie 204 ApnRateControlStatus_value ApnRateControlStatus_ok x -> ApnRateControlStatus_len m x = Ok (length (ApnRateControlStatus_marshal x)).
Proof. intros m x H. exact (len_usize_exact _ _ _ x H). Qed.
Lemma ApnRateControlStatus_safe : forall m b, returns (ApnRateControlStatus_unmarshal m b).
Proof. ie_safe. Qed.

(* ApnRelativeCapacity *)
Lemma ApnRelativeCapacity_rt : forall m x r, wf_ie 184 ApnRelativeCapacity_value ApnRelativeCapacity_ok x ->
  ApnRelativeCapacity_unmarshal m (ApnRelativeCapacity_marshal x ++ r) = Ok x.
Proof.
  ie_rt. destruct v as [c n]. destruct Hv as [H1 H2]. unfold ApnRelativeCapacity_value in *. cbn [arc_cap arc_name] in *.
  pose proof (labels_encode_pos n). hd. rewrite checked_ok by lens. cbn [app]. rd.
  replace (4 + N.to_nat len)%nat with (5 + length (labels_encode n))%nat by lens. cbn [Nat.add]. rewrite !slice_cons.
  rewrite slice_here by reflexivity. cbn [bind]. rewrite labels_roundtrip by assumption. fin. cbn [bind].
  destruct (N.leb_spec c 100); [|lia]. fin.
Qed.
Lemma ApnRelativeCapacity_lenok : forall m x, wf_ie 184 ApnRelativeCapacity_value ApnRelativeCapacity_ok x -> ApnRelativeCapacity_len m x = Ok (length (ApnRelativeCapacity_marshal x)).
Proof. intros m x H. exact (len_usize_exact _ _ _ x H). Qed.

(* ApnRestriction *)
Lemma ApnRestriction_rt : forall m x r, wf_ie 127 ApnRestriction_value any x ->
  ApnRestriction_unmarshal m (ApnRestriction_marshal x ++ r) = Ok x.
Proof.
  ie_rt. unfold ApnRestriction_value. hd. rd. fin; destruct v; reflexivity.
Qed.
Lemma ApnRestriction_lenok : forall m x, wf_ie 127 ApnRestriction_value any x -> ApnRestriction_len m x = Ok (length (ApnRestriction_marshal x)).
Proof. intros m x H. destruct x as [t ln i v]. destruct H as (_ & _ & Hl & Hn & Hv). apply len_const_exact. cbn [ie_v] in *. unfold ApnRestriction_value in *. lens. Qed.
Lemma ApnRestriction_safe : forall m b, returns (ApnRestriction_unmarshal m b).
Proof. ie_safe. Qed.

(* Arp *)
Lemma Arp_rt : forall m x r, wf_ie 155 Arp_value Arp_ok x ->
  Arp_unmarshal m (Arp_marshal x ++ r) = Ok x.
Proof.
  ie_rt. destruct v as [pci pl pvi]. unfold Arp_ok in Hv. unfold Arp_value. cbn in Hv |- *. hd. rd. fin.
  destruct pci, pvi; cases_lt 16%nat Hv.
Qed.
Lemma Arp_lenok : forall m x, wf_ie 155 Arp_value Arp_ok x -> Arp_len m x = Ok (length (Arp_marshal x)).
Proof. intros m x H. exact (len_usize_exact _ _ _ x H). Qed.
Lemma Arp_safe : forall m b, returns (Arp_unmarshal m b).
Proof. ie_safe. Qed.

(* AdditionalRrmPolicyIndex *)
Lemma AdditionalRrmPolicyIndex_rt : forall m x r, wf_ie 207 AdditionalRrmPolicyIndex_value u32 x ->
  AdditionalRrmPolicyIndex_unmarshal m (AdditionalRrmPolicyIndex_marshal x ++ r) = Ok x.
Proof.
  ie_rt. unfold AdditionalRrmPolicyIndex_value. hd. rd. fin.
Qed.
Lemma AdditionalRrmPolicyIndex_lenok : forall m x, wf_ie 207 AdditionalRrmPolicyIndex_value u32 x -> AdditionalRrmPolicyIndex_len m x = Ok (length (AdditionalRrmPolicyIndex_marshal x)).
Proof. intros m x H. destruct x as [t ln i v]. destruct H as (_ & _ & Hl & Hn & Hv). apply len_const_exact. cbn [ie_v] in *. unfold AdditionalRrmPolicyIndex_value in *. lens. Qed.
Lemma AdditionalRrmPolicyIndex_safe : forall m b, returns (AdditionalRrmPolicyIndex_unmarshal m b).
Proof. ie_safe. Qed.

(* BearerFlags *)
Lemma BearerFlags_rt : forall m x r, wf_ie 97 BearerFlags_value any x ->
  BearerFlags_unmarshal m (BearerFlags_marshal x ++ r) = Ok x.
Proof.
  ie_rt. destruct v. unfold BearerFlags_value. cbn in Hv |- *. decompose [and] Hv. clear Hv. rewrite <- ?app_assoc. hd. rd. fin; bools.
Qed.
Lemma BearerFlags_lenok : forall m x, wf_ie 97 BearerFlags_value any x -> BearerFlags_len m x = Ok (length (BearerFlags_marshal x)).
Proof. intros m x H. exact (len_usize_exact _ _ _ x H). Qed.
Lemma BearerFlags_safe : forall m b, returns (BearerFlags_unmarshal m b).
Proof. ie_safe. Qed.

(* BearerQos *)
Lemma BearerQos_rt : forall m x r, wf_ie 80 BearerQos_value BearerQos_ok x ->
  BearerQos_unmarshal m (BearerQos_marshal x ++ r) = Ok x.
Proof.
  ie_rt. destruct v as [pvi pl pci qci a b c d]. unfold BearerQos_ok in Hv. unfold BearerQos_value. cbn in Hv |- *.
  decompose [and] Hv. rewrite <- !app_assoc. hd. rd. fin.
  match goal with A : pvi < 2, B : pl < 16, C : pci < 2 |- _ => cases_lt 2%nat A; cases_lt 2%nat C; cases_lt 16%nat B end.
Qed.
Lemma BearerQos_lenok : forall m x, wf_ie 80 BearerQos_value BearerQos_ok x -> BearerQos_len m x = Ok (length (BearerQos_marshal x)).
Proof. intros m x H. destruct x as [t ln i v]. destruct H as (_ & _ & Hl & Hn & Hv). apply len_const_exact. cbn [ie_v] in *. unfold BearerQos_value in *. lens. Qed.
Lemma BearerQos_safe : forall m b, returns (BearerQos_unmarshal m b).
Proof. ie_safe. Qed.

(* BearerTft *)
Lemma BearerTft_rt : forall m x r, wf_ie 84 BearerTft_value octets1 x ->
  BearerTft_unmarshal m (BearerTft_marshal x ++ r) = Ok x.
Proof.
  ie_rt. unfold BearerTft_value in *. apply nonempty_len in Hv. hd. octs. fin.
Qed.
Lemma BearerTft_lenok : forall m x, wf_ie 84 BearerTft_value octets1 x -> BearerTft_len m x = Ok (length (BearerTft_marshal x)).
Proof. intros m x H. exact (len_usize_exact _ _ _ x H). Qed.
Lemma BearerTft_safe : forall m b, declared b <= 65531 -> returns (BearerTft_unmarshal m b).
Proof. ie_safe. Qed.

(* BitRate *)
Lemma BitRate_rt : forall m x r, wf_ie 211 BitRate_value u32 x ->
  BitRate_unmarshal m (BitRate_marshal x ++ r) = Ok x.
Proof.
  ie_rt. unfold BitRate_value. hd. rd. fin.
Qed.
Lemma BitRate_lenok : forall m x, wf_ie 211 BitRate_value u32 x -> BitRate_len m x = Ok (length (BitRate_marshal x)).
Proof. intros m x H. destruct x as [t ln i v]. destruct H as (_ & _ & Hl & Hn & Hv). apply len_const_exact. cbn [ie_v] in *. unfold BitRate_value in *. lens. Qed.
Lemma BitRate_safe : forall m b, returns (BitRate_unmarshal m b).
Proof. ie_safe. Qed.

(* Cause *)
Lemma Cause_rt : forall m x r, wf_ie 2 Cause_value any x ->
  Cause_unmarshal m (Cause_marshal x ++ r) = Ok x.
Proof.
  ie_rt. destruct v as [c p b s o]. unfold Cause_value in *. cbn in Hl, Hn |- *. destruct o as [o|]; rewrite Hl in *.
  - hd. cbn [nlen length N.of_nat]. change (nlen _) with 6. cbn [N.eqb]. rewrite need_ok by lens. rd. fin. bools.
  - hd. change (nlen _) with 2. cbn [N.eqb]. rewrite need_ok by lens. rd. fin. bools.
Qed.
Lemma Cause_lenok : forall m x, wf_ie 2 Cause_value any x -> Cause_len m x = Ok (length (Cause_marshal x)).
Proof. intros m x H. exact (len_u16_exact _ _ _ m x H). Qed.
Lemma Cause_safe : forall m b, returns (Cause_unmarshal m b).
Proof. ie_safe. Qed.

(* ChangeReportingAction *)
Lemma ChangeReportingAction_rt : forall m x r, wf_ie 131 ChangeReportingAction_value byte x ->
  ChangeReportingAction_unmarshal m (ChangeReportingAction_marshal x ++ r) = Ok x.
Proof.
  ie_rt. unfold ChangeReportingAction_value. hd. rd. fin.
Qed.
Lemma ChangeReportingAction_lenok : forall m x, wf_ie 131 ChangeReportingAction_value byte x -> ChangeReportingAction_len m x = Ok (length (ChangeReportingAction_marshal x)).
Proof. intros m x H. destruct x as [t ln i v]. destruct H as (_ & _ & Hl & Hn & Hv). apply len_const_exact. cbn [ie_v] in *. unfold ChangeReportingAction_value in *. lens. Qed.
Lemma ChangeReportingAction_safe : forall m b, returns (ChangeReportingAction_unmarshal m b).
Proof. ie_safe. Qed.

(* ChangeToReportFlags *)
Lemma ChangeToReportFlags_rt : forall m x r, wf_ie 167 ChangeToReportFlags_value any x ->
  ChangeToReportFlags_unmarshal m (ChangeToReportFlags_marshal x ++ r) = Ok x.
Proof.
  ie_rt. destruct v. unfold ChangeToReportFlags_value. cbn in Hv |- *. decompose [and] Hv. clear Hv. rewrite <- ?app_assoc. hd. rd. fin; bools.
Qed.
Lemma ChangeToReportFlags_lenok : forall m x, wf_ie 167 ChangeToReportFlags_value any x -> ChangeToReportFlags_len m x = Ok (length (ChangeToReportFlags_marshal x)).
Proof. intros m x H. destruct x as [t ln i v]. destruct H as (_ & _ & Hl & Hn & Hv). apply len_const_exact. cbn [ie_v] in *. unfold ChangeToReportFlags_value in *. lens. Qed.
Lemma ChangeToReportFlags_safe : forall m b, returns (ChangeToReportFlags_unmarshal m b).
Proof. ie_safe. Qed.

(* ChannelNeeded *)
Lemma ChannelNeeded_rt : forall m x r, wf_ie 133 ChannelNeeded_value byte x ->
  ChannelNeeded_unmarshal m (ChannelNeeded_marshal x ++ r) = Ok x.
Proof.
  ie_rt. unfold ChannelNeeded_value. hd. rd. fin.
Qed.
Lemma ChannelNeeded_lenok : forall m x, wf_ie 133 ChannelNeeded_value byte x -> ChannelNeeded_len m x = Ok (length (ChannelNeeded_marshal x)).
Proof. intros m x H. destruct x as [t ln i v]. destruct H as (_ & _ & Hl & Hn & Hv). apply len_const_exact. cbn [ie_v] in *. unfold ChannelNeeded_value in *. lens. Qed.
Lemma ChannelNeeded_safe : forall m b, returns (ChannelNeeded_unmarshal m b).
Proof. ie_safe. Qed.

(* ChargingCharacteristics *)
Lemma ChargingCharacteristics_rt : forall m x r, wf_ie 95 ChargingCharacteristics_value u16 x ->
  ChargingCharacteristics_unmarshal m (ChargingCharacteristics_marshal x ++ r) = Ok x.
Proof.
  ie_rt. unfold ChargingCharacteristics_value. hd. rd. fin.
Qed.
Lemma ChargingCharacteristics_lenok : forall m x, wf_ie 95 ChargingCharacteristics_value u16 x -> ChargingCharacteristics_len m x = Ok (length (ChargingCharacteristics_marshal x)).
Proof. intros m x H. destruct x as [t ln i v]. destruct H as (_ & _ & Hl & Hn & Hv). apply len_const_exact. cbn [ie_v] in *. unfold ChargingCharacteristics_value in *. lens. Qed.
Lemma ChargingCharacteristics_safe : forall m b, returns (ChargingCharacteristics_unmarshal m b).
Proof. ie_safe. Qed.

(* ChargingId *)
Lemma ChargingId_rt : forall m x r, wf_ie 94 ChargingId_value u32 x ->
  ChargingId_unmarshal m (ChargingId_marshal x ++ r) = Ok x.
Proof.
  ie_rt. unfold ChargingId_value. hd. rd. fin.
Qed.
Lemma ChargingId_lenok : forall m x, wf_ie 94 ChargingId_value u32 x -> ChargingId_len m x = Ok (length (ChargingId_marshal x)).
Proof. intros m x H. destruct x as [t ln i v]. destruct H as (_ & _ & Hl & Hn & Hv). apply len_const_exact. cbn [ie_v] in *. unfold ChargingId_value in *. lens. Qed.
Lemma ChargingId_safe : forall m b, returns (ChargingId_unmarshal m b).
Proof. ie_safe. Qed.

(* CIoTOptimizationSupportIndication *)
Lemma CIoTOptimizationSupportIndication_rt : forall m x r, wf_ie 194 CIoTOptimizationSupportIndication_value any x ->
  CIoTOptimizationSupportIndication_unmarshal m (CIoTOptimizationSupportIndication_marshal x ++ r) = Ok x.
Proof.
  ie_rt. destruct v. unfold CIoTOptimizationSupportIndication_value. cbn in Hv |- *. decompose [and] Hv. clear Hv. rewrite <- ?app_assoc. hd. rd. fin; bools.
Qed.
Lemma CIoTOptimizationSupportIndication_lenok : forall m x, wf_ie 194 CIoTOptimizationSupportIndication_value any x -> CIoTOptimizationSupportIndication_len m x = Ok (length (CIoTOptimizationSupportIndication_marshal x)).
Proof. intros m x H. destruct x as [t ln i v]. destruct H as (_ & _ & Hl & Hn & Hv). apply len_const_exact. cbn [ie_v] in *. unfold CIoTOptimizationSupportIndication_value in *. lens. Qed.
Lemma CIoTOptimizationSupportIndication_safe : forall m b, returns (CIoTOptimizationSupportIndication_unmarshal m b).
Proof. ie_safe. Qed.

(* CsgMembershipIndication *)
Lemma CsgMembershipIndication_rt : forall m x r, wf_ie 148 CsgMembershipIndication_value any x ->
  CsgMembershipIndication_unmarshal m (CsgMembershipIndication_marshal x ++ r) = Ok x.
Proof.
  ie_rt. unfold CsgMembershipIndication_value. hd. rd. fin; destruct v; reflexivity.
Qed.
Lemma CsgMembershipIndication_lenok : forall m x, wf_ie 148 CsgMembershipIndication_value any x -> CsgMembershipIndication_len m x = Ok (length (CsgMembershipIndication_marshal x)).
Proof. intros m x H. destruct x as [t ln i v]. destruct H as (_ & _ & Hl & Hn & Hv). apply len_const_exact. cbn [ie_v] in *. unfold CsgMembershipIndication_value in *. lens. Qed.
Lemma CsgMembershipIndication_safe : forall m b, returns (CsgMembershipIndication_unmarshal m b).
Proof. ie_safe. Qed.

(* CnOperatorSelectionEntity *)
Lemma CnOperatorSelectionEntity_rt : forall m x r, wf_ie 173 CnOperatorSelectionEntity_value any x ->
  CnOperatorSelectionEntity_unmarshal m (CnOperatorSelectionEntity_marshal x ++ r) = Ok x.
Proof.
  ie_rt. unfold CnOperatorSelectionEntity_value. hd. rd. fin; destruct v; reflexivity.
Qed.
Lemma CnOperatorSelectionEntity_lenok : forall m x, wf_ie 173 CnOperatorSelectionEntity_value any x -> CnOperatorSelectionEntity_len m x = Ok (length (CnOperatorSelectionEntity_marshal x)).
Proof. intros m x H. destruct x as [t ln i v]. destruct H as (_ & _ & Hl & Hn & Hv). apply len_const_exact. cbn [ie_v] in *. unfold CnOperatorSelectionEntity_value in *. lens. Qed.
Lemma CnOperatorSelectionEntity_safe : forall m b, returns (CnOperatorSelectionEntity_unmarshal m b).
Proof. ie_safe. Qed.
