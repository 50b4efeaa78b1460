(* V2IeBFacts.v - round trip, size and crash freedom of the IEs of V2IeB.v *)
From Verif Require Export V2CommonFacts V2OkB.
Local Open Scope N_scope.

(* CompleteRequestMessage *)
Lemma CompleteRequestMessage_rt : forall m x r, wf_ie 116 CompleteRequestMessage_value any x ->
  CompleteRequestMessage_unmarshal m (CompleteRequestMessage_marshal x ++ r) = Ok x.
Proof.
  ie_rt. unfold CompleteRequestMessage_value in *. destruct v as [|o|o]; hd; rewrite checked_ok by lens; cbn [app]; rd; cbn [N.eqb]; try fin.
  all: replace (4 + N.to_nat len)%nat with (5 + length o)%nat by lens; cbn [Nat.add N.eqb Pos.eqb]; rewrite !slice_cons, slice_here by reflexivity; cbn [bind]; fin.
Qed.
Lemma CompleteRequestMessage_lenok : forall m x, wf_ie 116 CompleteRequestMessage_value any x -> CompleteRequestMessage_len m x = Ok (length (CompleteRequestMessage_marshal x)).
Proof. intros m x H. exact (len_u16_exact _ _ _ m x H). Qed.
Lemma CompleteRequestMessage_safe : forall m b, declared b <= 65531 -> returns (CompleteRequestMessage_unmarshal m b).
Proof. ie_safe. Qed.

(* Counter *)
Lemma Counter_rt : forall m x r, wf_ie 199 Counter_value Counter_ok x ->
  Counter_unmarshal m (Counter_marshal x ++ r) = Ok x.
Proof.
  ie_rt. destruct v. unfold Counter_value. unfold Counter_ok in Hv. cbn in Hv |- *. decompose [and] Hv. clear Hv. rewrite <- ?app_assoc. hd. rd. fin; bools.
Qed.
Lemma Counter_lenok : forall m x, wf_ie 199 Counter_value Counter_ok x -> Counter_len m x = Ok (length (Counter_marshal x)).
Proof. intros m x H. destruct x as [t ln i v]. destruct H as (_ & _ & Hl & Hn & Hv). apply len_const_exact. cbn [ie_v] in *. unfold Counter_value in *. lens. Qed.
Lemma Counter_safe : forall m b, returns (Counter_unmarshal m b).
Proof. ie_safe. Qed.

(* CsgId *)
Lemma CsgId_rt : forall m x r, wf_ie 147 CsgId_value u32 x ->
  CsgId_unmarshal m (CsgId_marshal x ++ r) = Ok x.
Proof.
  ie_rt. unfold CsgId_value. hd. rd. fin.
Qed.
Lemma CsgId_lenok : forall m x, wf_ie 147 CsgId_value u32 x -> CsgId_len m x = Ok (length (CsgId_marshal x)).
Proof. intros m x H. destruct x as [t ln i v]. destruct H as (_ & _ & Hl & Hn & Hv). apply len_const_exact. cbn [ie_v] in *. unfold CsgId_value in *. lens. Qed.
Lemma CsgId_safe : forall m b, returns (CsgId_unmarshal m b).
Proof. ie_safe. Qed.

(* CSGInformationReportingAction *)
Lemma CSGInformationReportingAction_rt : forall m x r, wf_ie 146 CSGInformationReportingAction_value three_bits x ->
  CSGInformationReportingAction_unmarshal m (CSGInformationReportingAction_marshal x ++ r) = Ok x.
Proof.
  ie_rt. unfold three_bits in Hv. unfold CSGInformationReportingAction_value. hd. rd. fin. cases_lt 8%nat Hv.
Qed.
Lemma CSGInformationReportingAction_lenok : forall m x, wf_ie 146 CSGInformationReportingAction_value three_bits x -> CSGInformationReportingAction_len m x = Ok (length (CSGInformationReportingAction_marshal x)).
Proof. intros m x H. destruct x as [t ln i v]. destruct H as (_ & _ & Hl & Hn & Hv). apply len_const_exact. cbn [ie_v] in *. unfold CSGInformationReportingAction_value in *. lens. Qed.
Lemma CSGInformationReportingAction_safe : forall m b, returns (CSGInformationReportingAction_unmarshal m b).
Proof. ie_safe. Qed.

(* DelayValue *)
Lemma DelayValue_rt : forall m x r, wf_ie 92 DelayValue_value byte x ->
  DelayValue_unmarshal m (DelayValue_marshal x ++ r) = Ok x.
Proof.
  ie_rt. unfold DelayValue_value. hd. rd. fin.
Qed.
Lemma DelayValue_lenok : forall m x, wf_ie 92 DelayValue_value byte x -> DelayValue_len m x = Ok (length (DelayValue_marshal x)).
Proof. intros m x H. destruct x as [t ln i v]. destruct H as (_ & _ & Hl & Hn & Hv). apply len_const_exact. cbn [ie_v] in *. unfold DelayValue_value in *. lens. Qed.
Lemma DelayValue_safe : forall m b, returns (DelayValue_unmarshal m b).
Proof. ie_safe. Qed.

(* DetachType *)
Lemma DetachType_rt : forall m x r, wf_ie 150 DetachType_value any x ->
  DetachType_unmarshal m (DetachType_marshal x ++ r) = Ok x.
Proof.
  ie_rt. unfold DetachType_value. hd. rd. fin; destruct v; reflexivity.
Qed.
Lemma DetachType_lenok : forall m x, wf_ie 150 DetachType_value any x -> DetachType_len m x = Ok (length (DetachType_marshal x)).
Proof. intros m x H. destruct x as [t ln i v]. destruct H as (_ & _ & Hl & Hn & Hv). apply len_const_exact. cbn [ie_v] in *. unfold DetachType_value in *. lens. Qed.
Lemma DetachType_safe : forall m b, returns (DetachType_unmarshal m b).
Proof. ie_safe. Qed.

(* Ebi *)
Lemma Ebi_rt : forall m x r, wf_ie 73 Ebi_value four_bits x ->
  Ebi_unmarshal m (Ebi_marshal x ++ r) = Ok x.
Proof.
  ie_rt. unfold four_bits in Hv. unfold Ebi_value. hd. rd. fin.
Qed.
Lemma Ebi_lenok : forall m x, wf_ie 73 Ebi_value four_bits x -> Ebi_len m x = Ok (length (Ebi_marshal x)).
Proof. intros m x H. destruct x as [t ln i v]. destruct H as (_ & _ & Hl & Hn & Hv). apply len_const_exact. cbn [ie_v] in *. unfold Ebi_value in *. lens. Qed.
Lemma Ebi_safe : forall m b, returns (Ebi_unmarshal m b).
Proof. ie_safe. Qed.

Lemma ecgi_all_len l : length (enc_all Ecgi_enc l) = (7 * length l)%nat.
Proof. apply enc_all_len, Forall_forall. intros. apply Ecgi_size. Qed.

(* EcgiList *)
Lemma EcgiList_rt : forall m x r, wf_ie 190 EcgiList_value EcgiList_ok x ->
  EcgiList_unmarshal m (EcgiList_marshal x ++ r) = Ok x.
Proof.
  ie_rt. unfold EcgiList_value, EcgiList_ok in *. destruct v as [l0|].
  - destruct Hv as [Hne Hf]. pose proof (ecgi_all_len l0) as HL. apply nonempty_len in Hne.
    assert (Hs : nlen l0 < 65536) by (revert Hn; unfold nlen; rewrite app_length, HL, enc_be_length; lia).
    rewrite N.mod_small by assumption. rewrite <- app_assoc. hd. rd.
    destruct (N.eqb_spec (nlen l0) 0) as [|_]; [contradiction|].
    replace (N.to_nat (nlen l0)) with (length l0) by (unfold nlen; lia).
    rewrite need_ok by (cbn [length]; rewrite !app_length, HL, enc_be_length; lia).
    rewrite cons4_app, app_assoc. rewrite (many_rt _ _ Ecgi_enc); [cbn [bind]; fin| |rewrite app_length, enc_be_length; reflexivity].
    eapply Forall_impl; [|exact Hf]. intros e He. split; [intros r0; rewrite Ecgi_rt by assumption; reflexivity|symmetry; apply Ecgi_size].
  - hd. cbn [app]. change (0 :: 0 :: r) with (enc_be 2 0 ++ r). rd. change (0 =? 0) with true. cbv iota. fin.
Qed.
Lemma EcgiList_lenok : forall m x, wf_ie 190 EcgiList_value EcgiList_ok x -> EcgiList_len m x = Ok (length (EcgiList_marshal x)).
Proof.
  intros m x H. destruct x as [t ln i v]. unfold EcgiList_len, EcgiList_marshal, marshal_ie. rewrite tliv_length. cbn [ie_v].
  unfold EcgiList_value. destruct v as [l|]; [|reflexivity]. rewrite app_length, ecgi_all_len, enc_be_length. f_equal. lia.
Qed.
Lemma EcgiList_safe : forall m b, returns (EcgiList_unmarshal m b).
Proof.
  ie_safe. apply (returns_many_fixed (fun t => orelse (Ecgi_dec t) (IEIncorrect 190)) 7).
  - intros t. apply returns_orelse, Ecgi_dec_returns.
  - lia.
  - intros. exact I.
Qed.

(* EmlppPriority *)
Lemma EmlppPriority_rt : forall m x r, wf_ie 134 EmlppPriority_value three_bits x ->
  EmlppPriority_unmarshal m (EmlppPriority_marshal x ++ r) = Ok x.
Proof.
  ie_rt. unfold three_bits in Hv. unfold EmlppPriority_value. hd. rd. fin. cases_lt 8%nat Hv.
Qed.
Lemma EmlppPriority_lenok : forall m x, wf_ie 134 EmlppPriority_value three_bits x -> EmlppPriority_len m x = Ok (length (EmlppPriority_marshal x)).
Proof. intros m x H. destruct x as [t ln i v]. destruct H as (_ & _ & Hl & Hn & Hv). apply len_const_exact. cbn [ie_v] in *. unfold EmlppPriority_value in *. lens. Qed.
Lemma EmlppPriority_safe : forall m b, returns (EmlppPriority_unmarshal m b).
Proof. ie_safe. Qed.

(* Epco *)
Lemma Epco_rt : forall m x r, wf_ie 197 Epco_value octets1 x ->
  Epco_unmarshal m (Epco_marshal x ++ r) = Ok x.
Proof.
  ie_rt. unfold Epco_value in *. apply nonempty_len in Hv. hd. rewrite checked_ok by lens. rewrite end16_ok by lens. cbn [bind]. rewrite slice4 by lens. cbn [bind]. fin.
Qed.
Lemma Epco_lenok : forall m x, wf_ie 197 Epco_value octets1 x -> Epco_len m x = Ok (length (Epco_marshal x)).
Proof. intros m x H. exact (len_usize_exact _ _ _ x H). Qed.
Lemma Epco_safe : forall m b, declared b <= 65531 -> returns (Epco_unmarshal m b).
Proof. ie_safe. Qed.

(* EpcTimer *)
Lemma EpcTimer_rt : forall m x r, wf_ie 156 EpcTimer_value EpcTimer_ok x ->
  EpcTimer_unmarshal m (EpcTimer_marshal x ++ r) = Ok x.
Proof.
  ie_rt. destruct v as [u w]. destruct Hv as [Hu Hw]. unfold EpcTimer_value. cbn [et_unit et_value] in *. hd. cbn [app]. rd.
  destruct (N.ltb_spec w 127); [|lia]. cbv zeta.
  assert (Hu' : u < 8) by lia. assert (Hx : u <> 5 /\ u <> 6) by lia. clear Hu. revert Hx.
  cases_lt 8%nat Hu'; intros [Hx1 Hx2]; try contradiction; clear Hx1 Hx2; cases_lt 32%nat Hw; fin.
Qed.
Lemma EpcTimer_lenok : forall m x, wf_ie 156 EpcTimer_value EpcTimer_ok x -> EpcTimer_len m x = Ok (length (EpcTimer_marshal x)).
Proof. intros m x H. destruct x as [t ln i v]. destruct H as (_ & _ & Hl & Hn & Hv). apply len_const_exact. cbn [ie_v] in *. unfold EpcTimer_value in *. lens. Qed.
Lemma EpcTimer_safe : forall m b, returns (EpcTimer_unmarshal m b).
Proof. ie_safe. Qed.

Lemma lv_at4 p x r e i : nlen x < 256 -> i = length p -> lv_at (p ++ lv x ++ r) i e = Ok (x, length (p ++ lv x)).
Proof. intros. rewrite lv_at_here by assumption. rewrite app_length, lv_len. subst. do 2 f_equal. lia. Qed.

(* ExtendedTraceInformation *)
Lemma ExtendedTraceInformation_rt : forall m x r, wf_ie 205 ExtendedTraceInformation_value ExtendedTraceInformation_ok x ->
  ExtendedTraceInformation_unmarshal m (ExtendedTraceInformation_marshal x ++ r) = Ok x.
Proof.
  ie_rt. destruct v as [p id ev ne dp ifs ip]. destruct Hv as (Hp & Hid & Hev & Hne & Hdp & Hif & Hip).
  unfold ExtendedTraceInformation_value. cbn [xt_plmn xt_id xt_events xt_ne xt_depth xt_ifs xt_ip] in *.
  rewrite <- !app_assoc. rewrite need_ok by (cbn [length]; rewrite !app_length, plmn_len, enc_be_length, lv_len; lia).
  rewrite hdr4_cons, Hbe. rewrite !be_at_cons. rewrite be_at_skip by (rewrite plmn_len; lia). rewrite plmn_len. cbn [Nat.sub].
  rewrite be_at_enc by bnd. cbn [bind]. rewrite !plmn_at_cons, plmn_at_here by assumption. cbn [bind].
  rewrite cons4_app, (app_assoc _ (plmn_enc p)), (app_assoc _ (enc_be 3 id)). set (q := (_ ++ plmn_enc p) ++ enc_be 3 id).
  assert (Hq : length q = 10%nat) by (unfold q; rewrite !app_length, plmn_len, enc_be_length; reflexivity).
  rewrite lv_at4 by (assumption || lia). cbn [bind]. rewrite (app_assoc q).
  rewrite lv_at4 by (assumption || reflexivity). cbn [bind]. rewrite (app_assoc _ (lv ne)). set (q2 := (q ++ lv ev) ++ lv ne).
  rewrite need_ok by (rewrite (app_length q2); cbn [app length]; lia).
  rewrite at_skip by lia. rewrite Nat.sub_diag. cbn [app]. rewrite at_0. cbn [bind].
  change (dp :: lv ifs ++ ip_lv ip ++ r) with ([dp] ++ lv ifs ++ ip_lv ip ++ r). rewrite (app_assoc q2).
  rewrite lv_at4 by (assumption || (rewrite app_length; reflexivity)). cbn [bind]. rewrite (app_assoc _ (lv ifs)). set (q3 := (q2 ++ [dp]) ++ lv ifs).
  rewrite at_skip by lia. rewrite Nat.sub_diag. destruct ip as [o|o]; cbn [ip_lv app ipaddr_ok] in *; rewrite at_0; cbn [bind];
    [change (4 =? 4) with true|change (16 =? 4) with false; change (16 =? 16) with true]; cbv iota;
    (rewrite need_ok by (rewrite (app_length q3); cbn [length]; rewrite app_length; lia));
    [change (4 :: o ++ r) with ([4] ++ o ++ r)|change (16 :: o ++ r) with ([16] ++ o ++ r)]; rewrite (app_assoc q3);
    (rewrite slice_mid by (rewrite ?app_length; cbn [length]; lia)); cbn [bind]; reflexivity.
Qed.
Lemma ExtendedTraceInformation_lenok : forall m x, wf_ie 205 ExtendedTraceInformation_value ExtendedTraceInformation_ok x -> ExtendedTraceInformation_len m x = Ok (length (ExtendedTraceInformation_marshal x)).
Proof. intros m x H. exact (len_u16_exact _ _ _ m x H). Qed.

(* Fcause *)
Lemma Fcause_rt : forall m x r, wf_ie 119 Fcause_value any x ->
  Fcause_unmarshal m (Fcause_marshal x ++ r) = Ok x.
Proof.
  ie_rt. destruct v as [c o]. unfold Fcause_value in *. cbn [fc_type fc_field] in *. hd. cbn [app]. rd. rewrite checked_ok by lens.
  replace (4 + N.to_nat len)%nat with (5 + length o)%nat by lens. cbn [Nat.add]. rewrite !slice_cons, slice_here by reflexivity. cbn [bind]. fin. destruct c; reflexivity.
Qed.
Lemma Fcause_lenok : forall m x, wf_ie 119 Fcause_value any x -> Fcause_len m x = Ok (length (Fcause_marshal x)).
Proof. intros m x H. exact (len_usize_exact _ _ _ x H). Qed.
Lemma Fcause_safe : forall m b, declared b <= 65531 -> returns (Fcause_unmarshal m b).
Proof. ie_safe. Qed.

(* Fcontainer *)
Lemma Fcontainer_rt : forall m x r, wf_ie 118 Fcontainer_value Fcontainer_ok x ->
  Fcontainer_unmarshal m (Fcontainer_marshal x ++ r) = Ok x.
Proof.
  ie_rt. unfold Fcontainer_value, Fcontainer_ok in *. destruct v as [|o|o|o|o|o|o|o].
  8: { destruct Hv as (t & q & -> & Ht). hd. rewrite checked_ok by lens. cbn [app]. rewrite !at_cons, at_0. cbn [bind]. cbv zeta.
    repeat match goal with |- context [t =? ?n] => destruct (N.eqb_spec t n); [lia|] end.
    replace (4 + N.to_nat len)%nat with (4 + length (t :: q))%nat by lens. change (t :: q ++ r) with ((t :: q) ++ r).
    cbn [Nat.add]. rewrite !slice_cons, slice_here by reflexivity. cbn [bind]. fin. }
  all: hd; rewrite checked_ok by lens; cbn [app]; rewrite !at_cons, at_0; cbn [bind]; cbv zeta; eqbs; try (cbn [bind]; fin; fail).
  all: replace (4 + N.to_nat len)%nat with (5 + length o)%nat by lens; cbn [Nat.add]; rewrite !slice_cons, slice_here by reflexivity; cbn [bind]; fin.
Qed.
Lemma Fcontainer_lenok : forall m x, wf_ie 118 Fcontainer_value Fcontainer_ok x -> Fcontainer_len m x = Ok (length (Fcontainer_marshal x)).
Proof. intros m x H. exact (len_u16_exact _ _ _ m x H). Qed.
Lemma Fcontainer_safe : forall m b, declared b <= 65531 -> returns (Fcontainer_unmarshal m b).
Proof. ie_safe. Qed.

(* FlowQos *)
Lemma FlowQos_rt : forall m x r, wf_ie 81 FlowQos_value FlowQos_ok x ->
  FlowQos_unmarshal m (FlowQos_marshal x ++ r) = Ok x.
Proof.
  ie_rt. destruct v. unfold FlowQos_value. unfold FlowQos_ok in Hv. cbn in Hv |- *. decompose [and] Hv. clear Hv. rewrite <- ?app_assoc. hd. rd. fin; bools.
Qed.
Lemma FlowQos_lenok : forall m x, wf_ie 81 FlowQos_value FlowQos_ok x -> FlowQos_len m x = Ok (length (FlowQos_marshal x)).
Proof. intros m x H. destruct x as [t ln i v]. destruct H as (_ & _ & Hl & Hn & Hv). apply len_const_exact. cbn [ie_v] in *. unfold FlowQos_value in *. lens. Qed.
Lemma FlowQos_safe : forall m b, returns (FlowQos_unmarshal m b).
Proof. ie_safe. Qed.

Lemma csid_len l : length (enc_all (enc_be 2) l) = (2 * length l)%nat.
Proof. apply enc_all_len, Forall_forall. intros. apply enc_be_length. Qed.
Lemma land15_lt x : N.land x 15 < 16.
Proof. change 15 with (N.ones 4). rewrite N.land_ones. change (2 ^ 4) with 16. lia. Qed.
Lemma csid_nibble n k : n < 16 -> k < 16 -> N.land (N.lor (16 * k) n) 15 = n /\ N.shiftr (N.lor (16 * k) n) 4 = k.
Proof. intros H1 H2. cases_lt 16%nat H2; cases_lt 16%nat H1; split; reflexivity. Qed.

(* Fqcsid *)
Lemma Fqcsid_rt : forall m x r, wf_ie 132 Fqcsid_value Fqcsid_ok x ->
  Fqcsid_unmarshal m (Fqcsid_marshal x ++ r) = Ok x.
Proof.
  ie_rt. destruct v as [nd cs]. destruct Hv as (Hnd & Hc & Hu). cbn [fs_node fs_csid] in *. unfold Fqcsid_value in *. cbn [fs_node fs_csid] in *. cbv zeta in *.
  pose proof (csid_len cs) as HL. assert (Hc' : nlen cs < 16) by (unfold nlen; lia).
  revert Hl Hn. rewrite (N.mod_small (nlen cs)) by lia. rewrite land15 by assumption. intros Hl Hn.
  destruct (csid_nibble (nlen cs) 0 Hc' eq_refl) as [A0 B0]. destruct (csid_nibble (nlen cs) 1 Hc' eq_refl) as [A1 B1].
  destruct (csid_nibble (nlen cs) 2 Hc' eq_refl) as [A2 B2]. rewrite N.lor_0_l in A0, B0.
  change (16 * 1) with 16 in *. change (16 * 2) with 32 in *.
  assert (Hto : N.to_nat (nlen cs) = length cs) by (unfold nlen; lia).
  destruct nd as [o|o|a]; rewrite <- app_assoc; cbn [app]; (rewrite need_ok by (cbn [length]; lia)); rewrite hdr4_cons, Hbe;
    (rewrite checked_ok by (revert Hl Hn; unfold nlen; cbn [length app]; rewrite ?app_length, ?HL, ?enc_be_length; cbn [length]; rewrite ?app_length, ?HL, ?enc_be_length; lia));
    rewrite !at_cons, at_0; cbn [bind]; cbv zeta; rewrite ?A0, ?B0, ?A1, ?B1, ?A2, ?B2; eqbs;
    rewrite Hto;
    (rewrite checked_ok by (try (unfold nlen; cbn [length app]; rewrite ?app_length, ?HL, ?enc_be_length; cbn [length]); lia)).
  - rewrite !(slice_cons (E := GTPV2Error)). cbn [Nat.add]. rewrite !slice_cons. rewrite slice_here by lia. cbn [bind].
    rewrite slice_mid by lia. cbn [bind]. rewrite chunks16_enc by assumption. fin.
  - rewrite !slice_cons. cbn [Nat.add]. rewrite !slice_cons. rewrite slice_here by lia. cbn [bind].
    rewrite slice_mid by lia. cbn [bind]. rewrite chunks16_enc by assumption. fin.
  - rewrite !be_at_cons. rewrite be_at_enc by bnd. cbn [bind Nat.add]. rewrite !slice_cons.
    rewrite slice_mid by (rewrite enc_be_length; lia). cbn [bind]. rewrite chunks16_enc by assumption. fin.
Qed.
Lemma Fqcsid_lenok : forall m x, wf_ie 132 Fqcsid_value Fqcsid_ok x -> Fqcsid_len m x = Ok (length (Fqcsid_marshal x)).
Proof. intros m x H. exact (len_u16_exact _ _ _ m x H). Qed.
Lemma Fqcsid_safe : forall m b, declared b <= 65531 -> returns (Fqcsid_unmarshal m b).
Proof.
  ie_safe;
  match goal with |- context [N.land ?x 15] => pose proof (land15_lt x) | _ => idtac end; try lia.
  all: apply returns_checked; [lia|intros; safe].
Qed.

(* Fqdn *)
Lemma Fqdn_rt : forall m x r, wf_ie 136 Fqdn_value name_ok x ->
  Fqdn_unmarshal m (Fqdn_marshal x ++ r) = Ok x.
Proof.
  ie_rt. unfold Fqdn_value in *. pose proof (labels_encode_pos v). hd. octs. rewrite labels_roundtrip by assumption. fin.
Qed.
Lemma Fqdn_lenok : forall m x, wf_ie 136 Fqdn_value name_ok x -> Fqdn_len m x = Ok (length (Fqdn_marshal x)).
Proof. intros m x H. exact (len_u16_exact _ _ _ m x H). Qed.
