(* V2IeEFacts.v - round trip, size and crash freedom of the IEs of V2IeE.v *)
From Verif Require Export V2Cursor V2OkE.
Local Open Scope N_scope.
#[global] Arguments enc_all : simpl never.

Ltac lens2 := unfold nlen in *; cbn [length app]; repeat (progress (rewrite ?app_length, ?lv_len, ?enc_be_length, ?plmn_len; cbn [length app])); try lia.
Ltac ckl HL HN := rewrite checked_ok by (revert HL HN; lens2).
(* strict UTF-8 *)
Lemma strict1 a r : a < 128 -> utf8_strict (a :: r) = ocons a (utf8_strict r).
Proof. intros H. cbn [utf8_strict]. apply N.ltb_lt in H. rewrite H. reflexivity. Qed.
Lemma strict2 a d r : (a <? 128) = false -> (194 <=? a) && (a <=? 223) = true -> cont d = true ->
  utf8_strict (a :: d :: r) = ocons ((a - 192) * 64 + (d - 128)) (utf8_strict r).
Proof. intros H1 H2 H3. cbn [utf8_strict]. rewrite H1, H2, H3. reflexivity. Qed.
Lemma strict3 a d e r : (a <? 128) = false -> (194 <=? a) && (a <=? 223) = false -> (224 <=? a) && (a <=? 239) = true ->
  second_ok a d = true -> cont e = true ->
  utf8_strict (a :: d :: e :: r) = ocons ((a - 224) * 4096 + (d - 128) * 64 + (e - 128)) (utf8_strict r).
Proof. intros H1 H2 H3 H4 H5. cbn [utf8_strict]. rewrite H1, H2, H3, H4, H5. reflexivity. Qed.
Lemma strict4 a d e f r : (a <? 128) = false -> (194 <=? a) && (a <=? 223) = false -> (224 <=? a) && (a <=? 239) = false ->
  (240 <=? a) && (a <=? 244) = true ->
  second_ok a d = true -> cont e = true -> cont f = true ->
  utf8_strict (a :: d :: e :: f :: r) = ocons ((a - 240) * 262144 + (d - 128) * 4096 + (e - 128) * 64 + (f - 128)) (utf8_strict r).
Proof. intros H1 H2 H3 H4 H5 H6 H7. cbn [utf8_strict]. rewrite H1, H2, H3, H4, H5, H6, H7. reflexivity. Qed.
Lemma utf8_strict_char c r : scalar c -> utf8_strict (utf8_char c ++ r) = ocons c (utf8_strict r).
Proof.
  intros H. unfold scalar in H. unfold utf8_char.
  destruct (N.ltb_spec c 128) as [H1|H1]; [apply strict1; assumption|].
  destruct (N.ltb_spec c 2048) as [H2|H2].
  { assert (A : 2 <= c / 64 <= 31) by lia. assert (B : c mod 64 < 64) by lia. assert (D : c = c / 64 * 64 + c mod 64) by lia.
    generalize dependent (c / 64). intros q A D. generalize dependent (c mod 64). intros w B D. clear H.
    cbn [app]. rewrite strict2; unfold cont; [f_equal; lia|ifs; reflexivity..]. }
  destruct (N.ltb_spec c 65536) as [H3|H3].
  { assert (A : c / 4096 < 16) by (clear H; lia). assert (B : c mod 64 < 64) by (clear; lia). assert (C : (c / 64) mod 64 < 64) by (clear; lia).
    assert (D : c = c / 4096 * 4096 + ((c / 64) mod 64) * 64 + c mod 64) by (clear; lia).
    generalize dependent (c / 4096). intros q A D. generalize dependent (c mod 64). intros w B D.
    generalize dependent ((c / 64) mod 64). intros z C D.
    cbn [app]. rewrite strict3; unfold second_ok, cont; [f_equal; lia|ifs; reflexivity..]. }
  { assert (A : c / 262144 <= 4) by (clear -H H3; lia). assert (A2 : c / 262144 = 4 -> (c / 4096) mod 64 < 16) by (clear -H H3; lia).
    assert (A1 : c / 262144 = 0 -> 16 <= (c / 4096) mod 64) by (clear -H H3; lia).
    assert (B : c mod 64 < 64) by (clear; lia). assert (C : (c / 64) mod 64 < 64) by (clear; lia). assert (C' : (c / 4096) mod 64 < 64) by (clear; lia).
    assert (D : c = c / 262144 * 262144 + ((c / 4096) mod 64) * 4096 + ((c / 64) mod 64) * 64 + c mod 64) by (clear; lia).
    generalize dependent (c / 262144). intros q A A2 A1 D. generalize dependent (c mod 64). intros w B D.
    generalize dependent ((c / 64) mod 64). intros z C D. generalize dependent ((c / 4096) mod 64). intros y A2 A1 C' D.
    clear H H1 H2 H3. cbn [app]. rewrite strict4; unfold second_ok, cont; [f_equal; lia|clear D; ifs; reflexivity..]. }
Qed.
Lemma utf8_strict_utf8 s : Forall scalar s -> utf8_strict (utf8 s) = Some s.
Proof.
  unfold utf8. induction 1 as [|c s Hc Hs IH]; [reflexivity|]. cbn [map concat]. rewrite utf8_strict_char, IH by assumption. reflexivity.
Qed.
Lemma utf8_or_utf8 s e : Forall scalar s -> utf8_or (utf8 s) e = Ok s.
Proof. intros. unfold utf8_or. rewrite utf8_strict_utf8 by assumption. reflexivity. Qed.
Lemma returns_utf8_or {A} s e (k : list N -> res A) : (forall x, returns (k x)) -> returns (bind (utf8_or s e) k).
Proof. intros K. unfold utf8_or. destruct (utf8_strict s); [apply K|exact I]. Qed.
Lemma reads_opt_be k e o : opt_lt (256 ^ N.of_nat k) o -> reads (opt_be_at (is_some o) k e) (opt_be k o) o.
Proof.
  intros H B c R Hp. unfold opt_be_at. destruct o as [x|]; cbn in H; cbn [is_some opt_be] in *.
  - pose proof (at_pos_len _ _ _ Hp) as L. rewrite app_length, enc_be_length in L. rewrite need_ok by lia.
    rewrite (at_pos_be B c k x R Hp H). cbn [bind]. rewrite enc_be_length. reflexivity.
  - cbn. rewrite Nat.add_0_r. reflexivity.
Qed.
Lemma returns_opt_be {A} f k e b c (q : option N * nat -> res A) : (c <= length b)%nat ->
  (forall o c', (c' <= length b)%nat -> returns (q (o, c'))) -> returns (bind (opt_be_at f k e b c) q).
Proof.
  intros Hc K. unfold opt_be_at. destruct f; [|apply K, Hc]. unfold need. destruct (Nat.leb_spec (c + k) (length b)); [|exact I].
  unfold be_at. rewrite slice_ok by lia. cbn [bind]. apply K. lia.
Qed.
Lemma two_flags a b : bit (flag a 2 + flag b 1) 1 = b /\ bit (flag a 2 + flag b 1) 2 = a.
Proof. destruct a, b; split; reflexivity. Qed.

(* MonitoringEventExtensionInfo *)
Lemma MonitoringEventExtensionInfo_rt : forall m x r, wf_ie 206 MonitoringEventExtensionInfo_value MonitoringEventExtensionInfo_ok x ->
  MonitoringEventExtensionInfo_unmarshal m (MonitoringEventExtensionInfo_marshal x ++ r) = Ok x.
Proof.
  ie_rt. destruct v as [ref id rm ext]. destruct Hv as (Hr & [Hs Hs2] & H3 & H4). unfold MonitoringEventExtensionInfo_value in *. cbn [mx_ref mx_id mx_rmplrt mx_ext] in *.
  rewrite need_ok by lens. rewrite hdr4_cons, Hbe. ckl Hl Hn. cbn [app]. rewrite <- !app_assoc.
  destruct (two_flags (is_some ext) (is_some rm)) as [F1 F2]. set (fl := flag (is_some ext) 2 + flag (is_some rm) 1) in *. clearbody fl.
  rewrite !be_at_cons, be_at_enc by bnd. rewrite bindOk. cbv beta.
  set (B := 206 :: h :: l :: ins :: fl :: enc_be 4 ref ++ lv (utf8 id) ++ opt_be 3 rm ++ opt_be 8 ext ++ r).
  assert (P : at_pos B 9 (lv (utf8 id) ++ opt_be 3 rm ++ opt_be 8 ext ++ r)) by (exists (206 :: h :: l :: ins :: fl :: enc_be 4 ref); split; [reflexivity|reflexivity]).
  rewrite (at_pos_at B 9 _ _ P), bindOk. cbv beta zeta. rewrite N.mod_small by assumption.
  replace (N.to_nat (nlen (utf8 id))) with (length (utf8 id)) by (unfold nlen; lia).
  pose proof (at_pos_len _ _ _ P) as L. rewrite app_length, lv_len in L. rewrite need_ok by lia.
  pose proof (at_pos_cons B 9 _ _ P) as P1. change (9 + 1)%nat with 10%nat in P1. change (utf8 id ++ opt_be 3 rm ++ opt_be 8 ext ++ r) with (utf8 id ++ (opt_be 3 rm ++ opt_be 8 ext ++ r)) in P1.
  rewrite (at_pos_slice B 10 _ _ _ P1) by reflexivity. rewrite bindOk. cbv beta. rewrite utf8_or_utf8 by assumption. rewrite bindOk. cbv beta.
  change (@at_ GTPV2Error B 4) with (Ok (E:=GTPV2Error) fl). rewrite bindOk. cbv beta. rewrite F1, F2.
  apply at_pos_next in P1. clear P.
  rewrite (reads_opt_be 3 (IEInvalidLength 206) rm H3 B _ _ P1). rewrite bindOk. cbv beta iota. apply at_pos_next in P1.
  rewrite (reads_opt_be 8 (IEInvalidLength 206) ext H4 B _ _ P1). rewrite bindOk. cbv beta iota. fin.
Qed.
Lemma MonitoringEventExtensionInfo_lenok : forall m x, wf_ie 206 MonitoringEventExtensionInfo_value MonitoringEventExtensionInfo_ok x -> MonitoringEventExtensionInfo_len m x = Ok (length (MonitoringEventExtensionInfo_marshal x)).
Proof. intros m x H. exact (len_usize_exact _ _ _ x H). Qed.

Lemma mon_flags_ok v i : i < 16 ->
  let f := N.lor (mon_flags v) i in
  bit f 128 = is_some (mi_ext v) /\ bit f 64 = mi_nscf v /\ bit f 32 = mi_nsui v /\ bit f 16 = mi_nsur v /\ N.land f 15 = i.
Proof.
  intros Hi. unfold mon_flags. destruct (is_some _), (mi_nscf v), (mi_nsui v), (mi_nsur v); cases_lt 16%nat Hi; repeat split; reflexivity.
Qed.
(* MonitoringEventInformation *)
Lemma MonitoringEventInformation_rt : forall m x r, wf_ie 189 MonitoringEventInformation_value MonitoringEventInformation_ok x ->
  MonitoringEventInformation_unmarshal m (MonitoringEventInformation_marshal x ++ r) = Ok x.
Proof.
  intros m x r (Ht & Hi & Hl & Hn & Hv). unfold MonitoringEventInformation_marshal, MonitoringEventInformation_unmarshal.
  destruct x as [t len ins v]. cbn [ie_t ie_length ie_ins ie_v] in *. subst t.
  rewrite land15 by assumption. pose proof (mon_flags_ok v ins Hi) as F. cbv zeta in F. set (fl := N.lor (mon_flags v) ins) in *. clearbody fl.
  destruct F as (F1 & F2 & F3 & F4 & F5).
  destruct (tliv_shape 189 len fl (MonitoringEventInformation_value v)) as (h & l & E & _ & _ & Hbe). rewrite E. clear E.
  rewrite N.mod_small in Hbe by lia. rewrite <- Hl in Hbe.
  destruct v as [sui sur scf ref id n ext]. destruct Hv as (Hr & [Hs Hs2] & H3 & H4). unfold MonitoringEventInformation_value in *. cbn [mi_nsui mi_nsur mi_nscf mi_ref mi_id mi_reports mi_ext] in *.
  cbn [app]. rewrite <- !app_assoc. rewrite need_ok by lens2. rewrite hdr4_cons, Hbe.
  rewrite !be_at_cons, be_at_enc by bnd. rewrite bindOk. cbv beta.
  set (B := 189 :: h :: l :: fl :: enc_be 4 ref ++ lv (utf8 id) ++ enc_be 2 n ++ opt_be 8 ext ++ r).
  assert (P : at_pos B 8 (lv (utf8 id) ++ enc_be 2 n ++ opt_be 8 ext ++ r)) by (exists (189 :: h :: l :: fl :: enc_be 4 ref); split; [reflexivity|reflexivity]).
  rewrite (reads_lv (utf8 id) (IEInvalidLength 189) Hs2 B _ _ P). rewrite bindOk. cbv beta iota. rewrite utf8_or_utf8 by assumption. rewrite bindOk. cbv beta.
  apply at_pos_next in P. pose proof (at_pos_len _ _ _ P) as L. rewrite app_length, enc_be_length in L. rewrite need_ok by lia.
  rewrite (at_pos_be B _ 2 n _ P) by bnd. rewrite bindOk. cbv beta. apply at_pos_next in P. rewrite enc_be_length in P.
  rewrite F1. rewrite (reads_opt_be 8 (IEInvalidLength 189) ext H4 B _ _ P). rewrite bindOk. cbv beta iota.
  unfold std. rewrite F2, F3, F4, F5. reflexivity.
Qed.
Lemma MonitoringEventInformation_lenok : forall m x, wf_ie 189 MonitoringEventInformation_value MonitoringEventInformation_ok x ->
  MonitoringEventInformation_len m x = Ok (length (MonitoringEventInformation_marshal x)).
Proof. intros m x (Ht & Hi & Hl & Hn & Hv). unfold MonitoringEventInformation_len, len_usize, MonitoringEventInformation_marshal. rewrite tliv_length, Hl. unfold nlen. f_equal. lia. Qed.
Lemma MonitoringEventInformation_safe : forall m b, returns (MonitoringEventInformation_unmarshal m b).
Proof.
  intros. unfold MonitoringEventInformation_unmarshal. safe2. apply returns_utf8_or. intros. safe2. apply returns_opt_be; [lia|]. intros. exact I.
Qed.

(* Msisdn *)
Lemma Msisdn_rt : forall m x r, wf_ie 76 Msisdn_value digits1 x ->
  Msisdn_unmarshal m (Msisdn_marshal x ++ r) = Ok x.
Proof.
  ie_rt. destruct Hv as [Hne Hd]. unfold Msisdn_value in *.
  pose proof (tbcd_pos v Hne Hd).
  hd. rewrite checked_ok by lens. rewrite end16_ok by lia. rewrite bindOk. cbv beta. rewrite slice4 by lens. cbn [bind]. fin.
  rewrite tbcd_decode_encode, digits_only_filter by exact Hd. reflexivity.
Qed.
Lemma Msisdn_lenok : forall m x, wf_ie 76 Msisdn_value digits1 x -> Msisdn_len m x = Ok (length (Msisdn_marshal x)).
Proof. intros m x H. exact (len_usize_exact _ _ _ x H). Qed.
Lemma Msisdn_safe : forall m b, declared b <= 65531 -> returns (Msisdn_unmarshal m b).
Proof. ie_safe2. Qed.

(* MappedUeUsageType *)
Lemma MappedUeUsageType_rt : forall m x r, wf_ie 200 MappedUeUsageType_value u16 x ->
  MappedUeUsageType_unmarshal m (MappedUeUsageType_marshal x ++ r) = Ok x.
Proof.
  ie_rt. unfold MappedUeUsageType_value. hd. rd. fin.
Qed.
Lemma MappedUeUsageType_lenok : forall m x, wf_ie 200 MappedUeUsageType_value u16 x -> MappedUeUsageType_len m x = Ok (length (MappedUeUsageType_marshal x)).
Proof. intros m x H. destruct x as [t ln i v]. destruct H as (_ & _ & Hl & Hn & Hv). apply len_const_exact. cbn [ie_v] in *. unfold MappedUeUsageType_value in *. lens. Qed.
Lemma MappedUeUsageType_safe : forall m b, returns (MappedUeUsageType_unmarshal m b).
Proof. ie_safe2. Qed.

(* NodeFeatures *)
Lemma NodeFeatures_rt : forall m x r, wf_ie 152 NodeFeatures_value any x ->
  NodeFeatures_unmarshal m (NodeFeatures_marshal x ++ r) = Ok x.
Proof.
  ie_rt. destruct v. unfold NodeFeatures_value. cbn in Hv |- *. decompose [and] Hv. clear Hv. rewrite <- ?app_assoc. hd. rd. fin; bools.
Qed.
Lemma NodeFeatures_lenok : forall m x, wf_ie 152 NodeFeatures_value any x -> NodeFeatures_len m x = Ok (length (NodeFeatures_marshal x)).
Proof. intros m x H. destruct x as [t ln i v]. destruct H as (_ & _ & Hl & Hn & Hv). apply len_const_exact. cbn [ie_v] in *. unfold NodeFeatures_value in *. lens. Qed.
Lemma NodeFeatures_safe : forall m b, returns (NodeFeatures_unmarshal m b).
Proof. ie_safe2. Qed.

(* NodeIdentifier *)
Lemma NodeIdentifier_rt : forall m x r, wf_ie 176 NodeIdentifier_value NodeIdentifier_ok x ->
  NodeIdentifier_unmarshal m (NodeIdentifier_marshal x ++ r) = Ok x.
Proof.
  ie_rt. destruct v as [n q]. destruct Hv as [[Hn1 Hn2] [Hq1 Hq2]]. unfold NodeIdentifier_value in *. cbn [ni_name ni_realm] in *.
  rewrite !utf8_ascii in * by assumption. rewrite need_ok by lens2. rewrite hdr4_cons, Hbe. ckl Hl Hn. rewrite <- app_assoc.
  set (B := 176 :: h :: l :: ins :: lv n ++ lv q ++ r).
  assert (P : at_pos B 4 (lv n ++ lv q ++ r)) by (exists [176; h; l; ins]; split; reflexivity).
  rewrite (at_pos_at B 4 _ _ P), bindOk. cbv beta zeta. rewrite N.mod_small by assumption.
  replace (N.to_nat (nlen n)) with (length n) by (unfold nlen; lia).
  pose proof (at_pos_len _ _ _ P) as L. rewrite !app_length, !lv_len in L. rewrite need_ok by lia.
  pose proof (at_pos_cons B 4 _ _ P) as P1. change (4 + 1)%nat with 5%nat in P1. change (n ++ lv q ++ r) with (n ++ (lv q ++ r)) in P1.
  rewrite (at_pos_slice B 5 _ _ _ P1) by reflexivity. rewrite bindOk. cbv beta. apply at_pos_next in P1.
  rewrite (reads_lv q (IEInvalidLength 176) Hq2 B _ _ P1). rewrite bindOk. cbv beta iota. fin.
Qed.
Lemma NodeIdentifier_lenok : forall m x, wf_ie 176 NodeIdentifier_value NodeIdentifier_ok x -> NodeIdentifier_len m x = Ok (length (NodeIdentifier_marshal x)).
Proof. intros m x H. exact (len_usize_exact _ _ _ x H). Qed.
Lemma NodeIdentifier_safe : forall m b, declared b <= 65531 -> returns (NodeIdentifier_unmarshal m b).
Proof. ie_safe2. Qed.

(* NodeNumber *)
Lemma NodeNumber_rt : forall m x r, wf_ie 175 NodeNumber_value NodeNumber_ok x ->
  NodeNumber_unmarshal m (NodeNumber_marshal x ++ r) = Ok x.
Proof.
  ie_rt. destruct Hv as [Hd Hc]. unfold NodeNumber_value in *.
  pose proof (tbcd_encode_length v Hd) as HL. set (d := tbcd_encode v) in *.
  assert (Hd2 : (length d < 255)%nat) by (unfold nlen in Hc; lia).
  rewrite need_ok by lens2. rewrite hdr4_cons, Hbe. ckl Hl Hn. unfold lv at 1 2. cbn [app]. rewrite !at_cons, at_0. rewrite bindOk. cbv beta.
  rewrite N.mod_small by (unfold nlen; cbn [length]; lia).
  replace (N.to_nat (nlen (145%N :: d)) + 5)%nat with (5 + S (length d))%nat by (unfold nlen; cbn [length]; lia). cbn [Nat.add]. rewrite !slice_cons.
  change (145 :: d ++ r) with ((145 :: d) ++ r). rewrite slice_here by reflexivity. rewrite bindOk. cbv beta.
  change (slice_from (145 :: d) 1) with (Ok (E:=GTPV2Error) d). rewrite bindOk. cbv beta. fin.
  unfold d. rewrite tbcd_decode_encode, digits_only_filter by exact Hd. reflexivity.
Qed.
Lemma NodeNumber_lenok : forall m x, wf_ie 175 NodeNumber_value NodeNumber_ok x -> NodeNumber_len m x = Ok (length (NodeNumber_marshal x)).
Proof. intros m x H. exact (len_usize_exact _ _ _ x H). Qed.

(* NodeType *)
Lemma NodeType_rt : forall m x r, wf_ie 135 NodeType_value any x ->
  NodeType_unmarshal m (NodeType_marshal x ++ r) = Ok x.
Proof.
  ie_rt. unfold NodeType_value. hd. rd. destruct v; reflexivity.
Qed.
Lemma NodeType_lenok : forall m x, wf_ie 135 NodeType_value any x -> NodeType_len m x = Ok (length (NodeType_marshal x)).
Proof. intros m x H. destruct x as [t ln i v]. destruct H as (_ & _ & Hl & Hn & Hv). apply len_const_exact. cbn [ie_v] in *. unfold NodeType_value in *. lens. Qed.
Lemma NodeType_safe : forall m b, returns (NodeType_unmarshal m b).
Proof. ie_safe2. Qed.

(* PdnAddressAllocation *)
Lemma PdnAddressAllocation_rt : forall m x r, wf_ie 79 PdnAddressAllocation_value PdnAddressAllocation_ok x ->
  PdnAddressAllocation_unmarshal m (PdnAddressAllocation_marshal x ++ r) = Ok x.
Proof.
  ie_rt. destruct v as [a|a p|a4 a6 p| |]; cbn [PdnAddressAllocation_ok PdnAddressAllocation_value] in *.
  - rewrite need_ok by lens2. rewrite hdr4_cons, Hbe. ckl Hl Hn. cbn [app]. rewrite !at_cons, at_0. cbn [bind]. eqbs.
    destruct (N.leb_spec 5 len) as [_|Q]; [|revert Hl Q; lens2]. rewrite !slice_cons, slice_here by lia. cbn [bind]. fin.
  - destruct Hv as [Ha Hp]. rewrite need_ok by lens2. rewrite hdr4_cons, Hbe. ckl Hl Hn. cbn [app]. rewrite !at_cons, !at_0. cbn [bind]. eqbs.
    destruct (N.leb_spec 18 len) as [_|Q]; [|revert Hl Q; lens2]. rewrite !slice_cons, slice_here by lia. cbn [bind]. fin.
  - destruct Hv as (H4 & H6 & Hp). rewrite need_ok by lens2. rewrite hdr4_cons, Hbe. ckl Hl Hn. cbn [app]. rewrite !at_cons, !at_0. cbn [bind]. eqbs.
    destruct (N.leb_spec 22 len) as [_|Q]; [|revert Hl Q; lens2]. rewrite <- app_assoc. rewrite !slice_cons, slice_here by lia. cbn [bind]. rewrite slice_mid by lia. cbn [bind]. fin.
  - rewrite need_ok by lens2. rewrite hdr4_cons, Hbe. ckl Hl Hn. cbn [app]. rewrite !at_cons, !at_0. cbn [bind]. eqbs. fin.
  - rewrite need_ok by lens2. rewrite hdr4_cons, Hbe. ckl Hl Hn. cbn [app]. rewrite !at_cons, !at_0. cbn [bind]. eqbs. fin.
Qed.
Lemma PdnAddressAllocation_lenok : forall m x, wf_ie 79 PdnAddressAllocation_value PdnAddressAllocation_ok x -> PdnAddressAllocation_len m x = Ok (length (PdnAddressAllocation_marshal x)).
Proof. intros m x H. exact (len_usize_exact _ _ _ x H). Qed.
Lemma PdnAddressAllocation_safe : forall m b, declared b <= 65531 -> returns (PdnAddressAllocation_unmarshal m b).
Proof. ie_safe2. Qed.

(* PacketFlowId *)
Lemma PacketFlowId_rt : forall m x r, wf_ie 123 PacketFlowId_value PacketFlowId_ok x ->
  PacketFlowId_unmarshal m (PacketFlowId_marshal x ++ r) = Ok x.
Proof.
  ie_rt. destruct v as [e i]. destruct Hv as [He Hf]. unfold PacketFlowId_value. cbn [pf_ebi pf_id] in *. hd. rd. fin.
Qed.
Lemma PacketFlowId_lenok : forall m x, wf_ie 123 PacketFlowId_value PacketFlowId_ok x -> PacketFlowId_len m x = Ok (length (PacketFlowId_marshal x)).
Proof. intros m x H. destruct x as [t ln i v]. destruct H as (_ & _ & Hl & Hn & Hv). apply len_const_exact. cbn [ie_v] in *. unfold PacketFlowId_value in *. lens. Qed.
Lemma PacketFlowId_safe : forall m b, returns (PacketFlowId_unmarshal m b).
Proof. ie_safe2. Qed.

(* PagingServiceInfo *)
Lemma PagingServiceInfo_rt : forall m x r, wf_ie 186 PagingServiceInfo_value PagingServiceInfo_ok x ->
  PagingServiceInfo_unmarshal m (PagingServiceInfo_marshal x ++ r) = Ok x.
Proof.
  ie_rt. destruct v as [e [p|]]; unfold PagingServiceInfo_value; cbn [pg_ebi pg_policy]; hd; rd; eqbs; rd; fin.
Qed.
Lemma PagingServiceInfo_lenok : forall m x, wf_ie 186 PagingServiceInfo_value PagingServiceInfo_ok x -> PagingServiceInfo_len m x = Ok (length (PagingServiceInfo_marshal x)).
Proof. intros m x H. destruct x as [t ln i v]. destruct H as (_ & _ & Hl & Hn & Hv). apply len_const_exact. cbn [ie_v] in *. unfold PagingServiceInfo_value in *. destruct (pg_policy v); reflexivity. Qed.

(* PC5QosFlow *)
Lemma PC5QosFlow_rt : forall m x r, wf_ie 212 PC5QosFlow_value PC5QosFlow_ok x ->
  PC5QosFlow_unmarshal m (PC5QosFlow_marshal x ++ r) = Ok x.
Proof.
  ie_rt. destruct v as [p g f o]. destruct Hv as (H1 & H2 & H3 & H4). unfold PC5QosFlow_value in *. cbn [p5_pqi p5_gfbr p5_mfbr p5_range] in *.
  cbn [app]. rewrite <- !app_assoc. rewrite need_ok by lens2. rewrite hdr4_cons, Hbe. ckl Hl Hn. cbn [app]. rd.
  destruct o as [q|]; cbn [is_some]; unfold flag, bit; cbn [N.land N.eqb Pos.land Pos.eqb]; rd; fin.
Qed.
Lemma PC5QosFlow_lenok : forall m x, wf_ie 212 PC5QosFlow_value PC5QosFlow_ok x -> PC5QosFlow_len m x = Ok (length (PC5QosFlow_marshal x)).
Proof. intros m x H. exact (len_usize_exact _ _ _ x H). Qed.

(* Pco *)
Lemma Pco_rt : forall m x r, wf_ie 78 Pco_value octets1 x ->
  Pco_unmarshal m (Pco_marshal x ++ r) = Ok x.
Proof.
  ie_rt. unfold Pco_value in *. apply nonempty_len in Hv. hd. rewrite checked_ok by lens. rewrite end16_ok by lia. rewrite bindOk. cbv beta. rewrite slice4 by lens. cbn [bind]. fin.
Qed.
Lemma Pco_lenok : forall m x, wf_ie 78 Pco_value octets1 x -> Pco_len m x = Ok (length (Pco_marshal x)).
Proof. intros m x H. exact (len_usize_exact _ _ _ x H). Qed.
Lemma Pco_safe : forall m b, declared b <= 65531 -> returns (Pco_unmarshal m b).
Proof. ie_safe2. Qed.

(* PdnType *)
Lemma PdnType_rt : forall m x r, wf_ie 99 PdnType_value any x ->
  PdnType_unmarshal m (PdnType_marshal x ++ r) = Ok x.
Proof.
  ie_rt. unfold PdnType_value. hd. rd. fin; destruct v; reflexivity.
Qed.
Lemma PdnType_lenok : forall m x, wf_ie 99 PdnType_value any x -> PdnType_len m x = Ok (length (PdnType_marshal x)).
Proof. intros m x H. destruct x as [t ln i v]. destruct H as (_ & _ & Hl & Hn & Hv). apply len_const_exact. cbn [ie_v] in *. unfold PdnType_value in *. lens. Qed.
Lemma PdnType_safe : forall m b, returns (PdnType_unmarshal m b).
Proof. ie_safe2. Qed.

(* PduNumbers *)
Lemma PduNumbers_rt : forall m x r, wf_ie 110 PduNumbers_value PduNumbers_ok x ->
  PduNumbers_unmarshal m (PduNumbers_marshal x ++ r) = Ok x.
Proof.
  ie_rt. destruct v as [n d u s q]. destruct Hv as (H1 & H2 & H3 & H4 & H5). unfold PduNumbers_value. cbn [pn_nsapi pn_dl pn_ul pn_send pn_recv] in *. rewrite <- !app_assoc. hd. rd. fin.
Qed.
Lemma PduNumbers_lenok : forall m x, wf_ie 110 PduNumbers_value PduNumbers_ok x -> PduNumbers_len m x = Ok (length (PduNumbers_marshal x)).
Proof. intros m x H. exact (len_usize_exact _ _ _ x H). Qed.
Lemma PduNumbers_safe : forall m b, returns (PduNumbers_unmarshal m b).
Proof. ie_safe2. Qed.

(* PgwFqdn *)
Lemma PgwFqdn_rt : forall m x r, wf_ie 215 PgwFqdn_value name_ok x ->
  PgwFqdn_unmarshal m (PgwFqdn_marshal x ++ r) = Ok x.
Proof.
  ie_rt. unfold PgwFqdn_value in *. pose proof (labels_encode_pos v). hd. octs. rewrite labels_roundtrip by assumption. fin.
Qed.
Lemma PgwFqdn_lenok : forall m x, wf_ie 215 PgwFqdn_value name_ok x -> PgwFqdn_len m x = Ok (length (PgwFqdn_marshal x)).
Proof. intros m x H. exact (len_usize_exact _ _ _ x H). Qed.

(* PlmnId *)
Lemma PlmnId_rt : forall m x r, wf_ie 120 PlmnId_value plmn_ok x ->
  PlmnId_unmarshal m (PlmnId_marshal x ++ r) = Ok x.
Proof.
  ie_rt. unfold PlmnId_value. hdp. rdx. fin.
Qed.
Lemma PlmnId_lenok : forall m x, wf_ie 120 PlmnId_value plmn_ok x -> PlmnId_len m x = Ok (length (PlmnId_marshal x)).
Proof. intros m x H. destruct x as [t ln i v]. destruct H as (_ & _ & Hl & Hn & Hv). apply len_const_exact. cbn [ie_v] in *. unfold PlmnId_value in *. lensp. Qed.
Lemma PlmnId_safe : forall m b, returns (PlmnId_unmarshal m b).
Proof. ie_safe2. Qed.

(* PortNumber *)
Lemma PortNumber_rt : forall m x r, wf_ie 126 PortNumber_value u16 x ->
  PortNumber_unmarshal m (PortNumber_marshal x ++ r) = Ok x.
Proof.
  ie_rt. unfold PortNumber_value. hd. rd. fin.
Qed.
Lemma PortNumber_lenok : forall m x, wf_ie 126 PortNumber_value u16 x -> PortNumber_len m x = Ok (length (PortNumber_marshal x)).
Proof. intros m x H. destruct x as [t ln i v]. destruct H as (_ & _ & Hl & Hn & Hv). apply len_const_exact. cbn [ie_v] in *. unfold PortNumber_value in *. lens. Qed.
Lemma PortNumber_safe : forall m b, returns (PortNumber_unmarshal m b).
Proof. ie_safe2. Qed.

Lemma reads_many_checked {A} (dec : list N -> res A) s e enc xs :
  Forall (fun x => (forall r, dec (enc x ++ r) = Ok x) /\ length (enc x) = s) xs ->
  reads (many_checked dec s e (length xs)) (enc_all enc xs) xs.
Proof.
  induction 1 as [|x xs [Hx Hs] Hxs IH]; intros B c R Hp; [cbn; rewrite Nat.add_0_r; reflexivity|].
  cbn [length many_checked]. unfold enc_all in *. cbn [map concat] in *. rewrite <- app_assoc in Hp.
  pose proof (at_pos_len _ _ _ Hp) as L. rewrite need_ok by lia. rewrite (at_pos_from B c _ Hp). cbn [bind]. rewrite Hx. cbn [orelse bind].
  apply at_pos_next in Hp. rewrite Hs in Hp. rewrite (IH B _ R Hp). cbn [bind]. rewrite app_length, Hs. do 2 f_equal. lia.
Qed.
Lemma firstn_le {A} n (l : list A) : (length l <= n)%nat -> firstn n l = l.
Proof. apply firstn_all2. Qed.
Lemma praa_flag i a : a < 8 ->
  let x := N.lor (flag i 8) a in negb (N.land (N.shiftr x 3) 1 =? 0) = i /\ N.land x 7 = a.
Proof. intros Ha. destruct i; cases_lt 8%nat Ha; split; reflexivity. Qed.
Lemma praa_counts a b : a < 16 -> b < 16 -> N.shiftr (16 * a + b) 4 = a /\ N.land (16 * a + b) 15 = b.
Proof.
  intros Ha Hb. rewrite N.shiftr_div_pow2. change 15 with (N.ones 4). rewrite N.land_ones. change (2 ^ 4) with 16. lia.
Qed.
Lemma land63 a : a < 64 -> N.land a 63 = a.
Proof. intros. change 63 with (N.ones 6). rewrite N.land_ones. change (2 ^ 6) with 64. lia. Qed.

Lemma MACROL (xs : list macro_enb) : Forall MacroEnbId_ok xs -> Forall (fun x => (forall r, MacroEnbId_dec (MacroEnbId_enc x ++ r) = Ok x) /\ length (MacroEnbId_enc x) = 6%nat) xs.
Proof. intros F. eapply Forall_impl; [|exact F]. intros a Hx. split; [intros; apply MacroEnbId_rt, Hx|apply MacroEnbId_size]. Qed.
Lemma ECGIL (xs : list ecgi) : Forall Ecgi_ok xs -> Forall (fun x => (forall r, Ecgi_dec (Ecgi_enc x ++ r) = Ok x) /\ length (Ecgi_enc x) = 7%nat) xs.
Proof. intros F. eapply Forall_impl; [|exact F]. intros a Hx. split; [intros; apply Ecgi_rt, Hx|apply Ecgi_size]. Qed.
Lemma RAIL (xs : list rai) : Forall Rai_ok xs -> Forall (fun x => (forall r, Rai_dec (Rai_enc x ++ r) = Ok x) /\ length (Rai_enc x) = 7%nat) xs.
Proof. intros F. eapply Forall_impl; [|exact F]. intros a Hx. split; [intros; apply Rai_rt, Hx|apply Rai_size]. Qed.
Lemma SAIL (xs : list sai) : Forall Sai_ok xs -> Forall (fun x => (forall r, Sai_dec (Sai_enc x ++ r) = Ok x) /\ length (Sai_enc x) = 7%nat) xs.
Proof. intros F. eapply Forall_impl; [|exact F]. intros a Hx. split; [intros; apply Sai_rt, Hx|apply Sai_size]. Qed.
Lemma CGIL (xs : list cgi) : Forall Cgi_ok xs -> Forall (fun x => (forall r, Cgi_dec (Cgi_enc x ++ r) = Ok x) /\ length (Cgi_enc x) = 7%nat) xs.
Proof. intros F. eapply Forall_impl; [|exact F]. intros a Hx. split; [intros; apply Cgi_rt, Hx|apply Cgi_size]. Qed.
Lemma XMACROL (xs : list ext_macro_enb) : Forall ExtMacroEnbId_ok xs -> Forall (fun x => (forall r, ExtMacroEnbId_dec (ExtMacroEnbId_enc x ++ r) = Ok x) /\ length (ExtMacroEnbId_enc x) = 6%nat) xs.
Proof. intros F. eapply Forall_impl; [|exact F]. intros a Hx. split; [intros; apply ExtMacroEnbId_rt, Hx|apply ExtMacroEnbId_size]. Qed.
(* PresenceReportingAreaAction *)
Lemma PresenceReportingAreaAction_rt : forall m x r, wf_ie 177 PresenceReportingAreaAction_value PresenceReportingAreaAction_ok x ->
  PresenceReportingAreaAction_unmarshal m (PresenceReportingAreaAction_marshal x ++ r) = Ok x.
Proof.
  ie_rt. destruct v as [ia ac pr ta ra ma ho ec sa cg ex].
  destruct Hv as (Ha & Hp & [Ct Ft] & [Cr Fr] & [Cm Fm] & [Ch Fh] & [Ce Fe] & [Cs Fs] & [Cc Fc] & [Cx Fx]).
  unfold PresenceReportingAreaAction_value in *.
  cbn [pa_inapra pa_action pa_prai pa_tai pa_rai pa_macro pa_home pa_ecgi pa_sai pa_cgi pa_ext] in *. cbv zeta in *.
  rewrite !firstn_le in * by assumption.
  destruct (praa_flag ia ac Ha) as [F1 F2]. set (fl := N.lor (flag ia 8) ac) in *. clearbody fl.
  destruct (praa_counts (nlen ta) (nlen ra) ltac:(unfold nlen; lia) ltac:(unfold nlen; lia)) as [F3 F4].
  set (cn := 16 * nlen ta + nlen ra) in *. clearbody cn.
  rewrite need_ok by lens2. rewrite hdr4_cons, Hbe. ckl Hl Hn.
  cbn [app]. rewrite <- !app_assoc. cbn [app]. rewrite <- !app_assoc. cbn [app].
  rewrite !at_cons, at_0, bindOk. cbv beta. rewrite !be_at_cons, be_at_enc by bnd. rewrite bindOk. cbv beta.
  repeat (rewrite at_skip by (rewrite enc_be_length; lia); rewrite enc_be_length; cbn [Nat.sub]; rewrite ?at_cons, at_0, bindOk; cbv beta).
  cbv zeta.
  match goal with |- need ?b _ _ _ = _ => set (B := b) end.
  assert (P : at_pos B 14 (enc_all Tai_enc ta ++ enc_all MacroEnbId_enc ma ++ enc_all MacroEnbId_enc ho ++ enc_all Ecgi_enc ec ++
    enc_all Rai_enc ra ++ enc_all Sai_enc sa ++ enc_all Cgi_enc cg ++ nlen ex :: enc_all ExtMacroEnbId_enc ex ++ r)).
  { exists ([177; h; l; ins; fl] ++ enc_be 3 pr ++ [cn; nlen ma; nlen ho; nlen ec; nlen sa; nlen cg]). split; [|reflexivity].
    rewrite <- !app_assoc. reflexivity. }
  clearbody B. pose proof (at_pos_len _ _ _ P) as L. rewrite need_ok by lia. clear L.
  rewrite F3, F4, !land63 by (unfold nlen; lia). unfold nlen. rewrite !Nat2N.id.
  rewrite (reads_many_checked Tai_dec 5 (IEInvalidLength 177) Tai_enc ta) with (R := enc_all MacroEnbId_enc ma ++ enc_all MacroEnbId_enc ho ++ enc_all Ecgi_enc ec ++
    enc_all Rai_enc ra ++ enc_all Sai_enc sa ++ enc_all Cgi_enc cg ++ nlen ex :: enc_all ExtMacroEnbId_enc ex ++ r); [|eapply Forall_impl; [|exact Ft]; intros a Hx; split; [intros; apply Tai_rt, Hx|apply Tai_size]|exact P].
  rewrite bindOk. cbv beta iota. apply at_pos_next in P. match goal with P : at_pos B ?c _ |- _ => set (c1 := c) in *; clearbody c1 end.
  rewrite (reads_many_checked MacroEnbId_dec 6 (IEInvalidLength 177) MacroEnbId_enc ma) with (1 := MACROL ma Fm) (2 := P).
  rewrite bindOk. cbv beta iota. apply at_pos_next in P. match goal with P : at_pos B ?c _ |- _ => set (c2 := c) in *; clearbody c2 end.
  rewrite (reads_many_checked MacroEnbId_dec 6 (IEInvalidLength 177) MacroEnbId_enc ho) with (1 := MACROL ho Fh) (2 := P).
  rewrite bindOk. cbv beta iota. apply at_pos_next in P. match goal with P : at_pos B ?c _ |- _ => set (c3 := c) in *; clearbody c3 end.
  rewrite (reads_many_checked Ecgi_dec 7 (IEInvalidLength 177) Ecgi_enc ec) with (1 := ECGIL ec Fe) (2 := P).
  rewrite bindOk. cbv beta iota. apply at_pos_next in P. match goal with P : at_pos B ?c _ |- _ => set (c4 := c) in *; clearbody c4 end.
  rewrite (reads_many_checked Rai_dec 7 (IEInvalidLength 177) Rai_enc ra) with (1 := RAIL ra Fr) (2 := P).
  rewrite bindOk. cbv beta iota. apply at_pos_next in P. match goal with P : at_pos B ?c _ |- _ => set (c5 := c) in *; clearbody c5 end.
  rewrite (reads_many_checked Sai_dec 7 (IEInvalidLength 177) Sai_enc sa) with (1 := SAIL sa Fs) (2 := P).
  rewrite bindOk. cbv beta iota. apply at_pos_next in P. match goal with P : at_pos B ?c _ |- _ => set (c6 := c) in *; clearbody c6 end.
  rewrite (reads_many_checked Cgi_dec 7 (IEInvalidLength 177) Cgi_enc cg) with (1 := CGIL cg Fc) (2 := P).
  rewrite bindOk. cbv beta iota. apply at_pos_next in P. match goal with P : at_pos B ?c _ |- _ => set (c7 := c) in *; clearbody c7 end.
  pose proof (at_pos_len _ _ _ P) as L. destruct (Nat.leb_spec c7 (length B)) as [_|Q]; [|lia].
  rewrite (at_pos_at B c7 _ _ P). rewrite !bindOk. cbv beta. unfold nlen. rewrite Nat2N.id. apply at_pos_cons in P.
  rewrite (reads_many_checked ExtMacroEnbId_dec 6 (IEInvalidLength 177) ExtMacroEnbId_enc ex) with (1 := XMACROL ex Fx) (2 := P).
  rewrite !bindOk. cbv beta iota. rewrite F1, F2. fin.
Qed.
Lemma PresenceReportingAreaAction_lenok : forall m x, wf_ie 177 PresenceReportingAreaAction_value PresenceReportingAreaAction_ok x -> PresenceReportingAreaAction_len m x = Ok (length (PresenceReportingAreaAction_marshal x)).
Proof. intros m x H. exact (len_usize_exact _ _ _ x H). Qed.

Lemma presence_area_rt a more p r c : presence_area_ok a -> c = length p ->
  presence_area_at (p ++ presence_area_enc a more ++ r) c = Ok a /\
  exists x, @at_ GTPV2Error (p ++ presence_area_enc a more ++ r) (c + 3) = Ok x /\ bit x 4 = more.
Proof.
  intros Ha ->. unfold presence_area_at.
  assert (G : forall i f, i < 2 ^ 24 -> 
    be_at (p ++ (enc_be 3 i ++ [f]) ++ r) (length p) 3 = Ok i /\ @at_ GTPV2Error (p ++ (enc_be 3 i ++ [f]) ++ r) (length p + 3) = Ok f).
  { intros i f Hi. rewrite <- app_assoc. rewrite be_at_skip, Nat.sub_diag by lia. rewrite at_skip by lia. replace (length p + 3 - length p)%nat with 3%nat by lia.
    rewrite be_at_enc by (change (256 ^ N.of_nat 3) with (2 ^ 24); exact Hi). rewrite at_skip by (rewrite enc_be_length; lia). rewrite enc_be_length. split; reflexivity. }
  destruct a as [i|i|i]; cbn [presence_area_ok presence_area_enc] in *;
    match goal with |- context [enc_be 3 i ++ [?f]] => destruct (G i f Ha) as [G1 G2] end; rewrite G1, G2, !bindOk; cbv beta;
    (split; [destruct more; reflexivity|eexists; split; [reflexivity|destruct more; reflexivity]]).
Qed.
Lemma presence_area_len a more : length (presence_area_enc a more) = 4%nat.
Proof. destruct a; reflexivity. Qed.
Lemma presence_areas_loop_rt l : l <> [] -> Forall presence_area_ok l -> forall p r f, (length l <= f)%nat ->
  presence_areas_loop f (p ++ presence_areas_enc l ++ r) (length p) = Ok l.
Proof.
  induction l as [|a l IH]; intros Hne Hf p r f Hlf; [contradiction|]. inversion Hf as [|? ? Ha Hl]; subst.
  destruct f as [|f]; [cbn in Hlf; lia|]. cbn [length] in Hlf. destruct l as [|a2 l].
  - cbn [presence_areas_enc presence_areas_loop].
    destruct (Nat.ltb_spec (length (p ++ presence_area_enc a false ++ r)) (length p + 4)) as [Q|_]; [rewrite !app_length, presence_area_len in Q; lia|].
    destruct (presence_area_rt a false p r _ Ha eq_refl) as [E (x & E2 & E3)]. rewrite E, E2, !bindOk. cbv beta. rewrite E3. reflexivity.
  - cbn [presence_areas_loop]. change (presence_areas_enc (a :: a2 :: l)) with (presence_area_enc a true ++ presence_areas_enc (a2 :: l)).
    rewrite <- app_assoc.
    destruct (Nat.ltb_spec (length (p ++ presence_area_enc a true ++ presence_areas_enc (a2 :: l) ++ r)) (length p + 4)) as [Q|_]; [rewrite !app_length, presence_area_len in Q; lia|].
    destruct (presence_area_rt a true p (presence_areas_enc (a2 :: l) ++ r) _ Ha eq_refl) as [E (x & E2 & E3)]. rewrite E, E2, !bindOk. cbv beta. rewrite E3.
    rewrite app_assoc. replace (length p + 4)%nat with (length (p ++ presence_area_enc a true)) by (rewrite app_length, presence_area_len; reflexivity).
    rewrite IH by (discriminate || assumption || lia). reflexivity.
Qed.
Lemma presence_areas_len l : length (presence_areas_enc l) = (4 * length l)%nat.
Proof.
  induction l as [|a [|a2 l] IH]; [reflexivity|apply presence_area_len|].
  change (presence_areas_enc (a :: a2 :: l)) with (presence_area_enc a true ++ presence_areas_enc (a2 :: l)).
  rewrite app_length, IH, presence_area_len. cbn [length]. lia.
Qed.
(* any positive number of additional areas decodes *)
Lemma PresenceReportingAreaInformation_any_rt : forall m x r, wf_ie 178 PresenceReportingAreaInformation_value PresenceReportingAreaInformation_any_ok x ->
  PresenceReportingAreaInformation_unmarshal m (PresenceReportingAreaInformation_marshal x ++ r) = Ok x.
Proof.
  ie_rt. destruct v as [a o]. destruct Hv as (Ha & l0 & Ho & Hne & Hf). cbn [pr_area pr_more] in *. subst o.
  unfold PresenceReportingAreaInformation_value in *. cbn [pr_area pr_more] in *.
  destruct l0 as [|a2 l0]; [contradiction|].
  change (presence_areas_enc (a :: a2 :: l0)) with (presence_area_enc a true ++ presence_areas_enc (a2 :: l0)) in *.
  pose proof (presence_areas_len (a2 :: l0)) as HL. cbn [length] in HL.
  rewrite need_ok by (cbn [length]; rewrite !app_length, HL, presence_area_len; lia). rewrite hdr4_cons, Hbe.
  rewrite <- app_assoc. rewrite cons4_app.
  destruct (presence_area_rt a true [178; h; l; ins] (presence_areas_enc (a2 :: l0) ++ r) 4 Ha eq_refl) as [E (x & E2 & E3)].
  rewrite E, bindOk. cbv beta. change (4 + 3)%nat with 7%nat in E2. rewrite E2, bindOk. cbv beta. rewrite E3.
  rewrite app_assoc. 
  assert (E8 : length ([178; h; l; ins] ++ presence_area_enc a true) = 8%nat) by (rewrite app_length, presence_area_len; reflexivity).
  match goal with |- context [presence_areas_loop ?f ?b 8] => replace (presence_areas_loop f b 8) with (presence_areas_loop f b (length ([178; h; l; ins] ++ presence_area_enc a true))) by (rewrite E8; reflexivity) end.
  rewrite presence_areas_loop_rt; [|discriminate|assumption|rewrite !app_length, HL, presence_area_len; cbn [length]; lia].
  rewrite bindOk. cbv beta. fin.
Qed.

(* PresenceReportingAreaInformation *)
Lemma PresenceReportingAreaInformation_rt : forall m x r, wf_ie 178 PresenceReportingAreaInformation_value PresenceReportingAreaInformation_ok x ->
  PresenceReportingAreaInformation_unmarshal m (PresenceReportingAreaInformation_marshal x ++ r) = Ok x.
Proof.
  intros m x r (Ht & Hi & Hl & Hn & Hv). apply PresenceReportingAreaInformation_any_rt. repeat split; try assumption.
  - apply Hv.
  - destruct Hv as (_ & a & E & Ha). exists [a]. repeat split; [exact E|discriminate|constructor; [exact Ha|constructor]].
Qed.
Lemma PresenceReportingAreaInformation_lenok : forall m x, wf_ie 178 PresenceReportingAreaInformation_value PresenceReportingAreaInformation_ok x -> PresenceReportingAreaInformation_len m x = Ok (length (PresenceReportingAreaInformation_marshal x)).
Proof. intros m x H. destruct x as [t ln i v]. destruct H as (_ & _ & Hl & Hn & Hv). apply len_const_exact. cbn [ie_v] in *. unfold PresenceReportingAreaInformation_value in *. destruct Hv as (_ & a & -> & _). rewrite presence_areas_len. reflexivity. Qed.
Lemma PresenceReportingAreaInformation_safe : forall m b,  returns (PresenceReportingAreaInformation_unmarshal m b).
Proof.
    intros m b. unfold PresenceReportingAreaInformation_unmarshal. apply returns_need. intros H. rewrite hdr4_eq by lia.
  assert (G : forall c, (c + 4 <= length b)%nat -> exists a x, presence_area_at b c = Ok a /\ @at_ GTPV2Error b (c + 3) = Ok x).
  { intros c Hc. unfold presence_area_at. destruct (at_lt (E := GTPV2Error) b (c + 3) ltac:(lia)) as (x & E & _). rewrite E, bindOk. cbv beta.
    unfold be_at. rewrite slice_ok by lia. rewrite !bindOk. cbv beta.
    destruct (bit x 8); [eauto|]. destruct (bit x 2 && negb (bit x 1)); [eauto|]. destruct (negb (bit x 2) && bit x 1); eauto. }
  destruct (G 4%nat ltac:(lia)) as (a & x & E1 & E2). change (4 + 3)%nat with 7%nat in E2. rewrite E1, bindOk. cbv beta. rewrite E2, bindOk. cbv beta.
  destruct (bit x 4); [|exact I]. apply returns_bind; [|intros; exact I].
  assert (L : forall f c, (length b <= f + c)%nat -> returns (presence_areas_loop f b c)).
  { induction f as [|f IH]; intros c Hc; cbn [presence_areas_loop].
    - destruct (Nat.ltb_spec (length b) (c + 4)); [exact I|lia].
    - destruct (Nat.ltb_spec (length b) (c + 4)); [exact I|]. destruct (G c ltac:(lia)) as (a1 & x1 & E3 & E4). rewrite E3, bindOk. cbv beta. rewrite E4, bindOk. cbv beta.
      destruct (bit x1 4); [|exact I]. specialize (IH (c + 4)%nat ltac:(lia)). apply returns_bind; [exact IH|intros; exact I]. }
  apply L. lia.
Qed.

(* PrivateExtension *)
Lemma PrivateExtension_rt : forall m x r, wf_ie 255 PrivateExtension_value PrivateExtension_ok x ->
  PrivateExtension_unmarshal m (PrivateExtension_marshal x ++ r) = Ok x.
Proof.
  ie_rt. destruct v as [i s]. destruct Hv as [Hd Hs]. unfold PrivateExtension_value in *. cbn [pe_id pe_value] in *. apply nonempty_len in Hs.
  rewrite <- app_assoc. rewrite need_ok by lens2. rewrite hdr4_cons, Hbe. ckl Hl Hn. rd. rewrite end16_ok by lia. rewrite bindOk. cbv beta.
  replace (N.to_nat (len + 4)) with (6 + length s)%nat by (rewrite Hl; lens2). cbn [Nat.add]. rewrite !slice_cons.
  rewrite (slice_skip (enc_be 2 i)) by (rewrite enc_be_length; lia). rewrite enc_be_length. cbn [Nat.sub]. rewrite slice_here by lia. cbn [bind]. fin.
Qed.
Lemma PrivateExtension_lenok : forall m x, wf_ie 255 PrivateExtension_value PrivateExtension_ok x -> PrivateExtension_len m x = Ok (length (PrivateExtension_marshal x)).
Proof. intros m x H. exact (len_usize_exact _ _ _ x H). Qed.

(* PSCellId *)
Lemma PSCellId_rt : forall m x r, wf_ie 217 PSCellId_value PSCellId_ok x ->
  PSCellId_unmarshal m (PSCellId_marshal x ++ r) = Ok x.
Proof.
  ie_rt. destruct v as [p c]. destruct Hv as [Hp Hc]. unfold PSCellId_value. cbn [ps_plmn ps_cgi] in *. rewrite <- app_assoc. hdp. rdx.
  rewrite slice_here by lia. cbn [bind]. fin.
Qed.
Lemma PSCellId_lenok : forall m x, wf_ie 217 PSCellId_value PSCellId_ok x -> PSCellId_len m x = Ok (length (PSCellId_marshal x)).
Proof. intros m x H. destruct x as [t ln i v]. destruct H as (_ & _ & Hl & Hn & Hv). apply len_const_exact. cbn [ie_v] in *. unfold PSCellId_value in *. destruct Hv. lensp. Qed.
Lemma PSCellId_safe : forall m b, returns (PSCellId_unmarshal m b).
Proof. ie_safe2. Qed.

(* Pti *)
Lemma Pti_rt : forall m x r, wf_ie 100 Pti_value byte x ->
  Pti_unmarshal m (Pti_marshal x ++ r) = Ok x.
Proof.
  ie_rt. unfold Pti_value. hd. rd. fin.
Qed.
Lemma Pti_lenok : forall m x, wf_ie 100 Pti_value byte x -> Pti_len m x = Ok (length (Pti_marshal x)).
Proof. intros m x H. destruct x as [t ln i v]. destruct H as (_ & _ & Hl & Hn & Hv). apply len_const_exact. cbn [ie_v] in *. unfold Pti_value in *. lens. Qed.
Lemma Pti_safe : forall m b, returns (Pti_unmarshal m b).
Proof. ie_safe2. Qed.

(* Ptmsi *)
Lemma Ptmsi_rt : forall m x r, wf_ie 111 Ptmsi_value u32 x ->
  Ptmsi_unmarshal m (Ptmsi_marshal x ++ r) = Ok x.
Proof.
  ie_rt. unfold Ptmsi_value. hd. rd. fin.
Qed.
Lemma Ptmsi_lenok : forall m x, wf_ie 111 Ptmsi_value u32 x -> Ptmsi_len m x = Ok (length (Ptmsi_marshal x)).
Proof. intros m x H. destruct x as [t ln i v]. destruct H as (_ & _ & Hl & Hn & Hv). apply len_const_exact. cbn [ie_v] in *. unfold Ptmsi_value in *. lens. Qed.
Lemma Ptmsi_safe : forall m b, returns (Ptmsi_unmarshal m b).
Proof. ie_safe2. Qed.

(* PtmsiSignature *)
Lemma PtmsiSignature_rt : forall m x r, wf_ie 112 PtmsiSignature_value u32 x ->
  PtmsiSignature_unmarshal m (PtmsiSignature_marshal x ++ r) = Ok x.
Proof.
  ie_rt. unfold PtmsiSignature_value. hd. rd. fin.
Qed.
Lemma PtmsiSignature_lenok : forall m x, wf_ie 112 PtmsiSignature_value u32 x -> PtmsiSignature_len m x = Ok (length (PtmsiSignature_marshal x)).
Proof. intros m x H. destruct x as [t ln i v]. destruct H as (_ & _ & Hl & Hn & Hv). apply len_const_exact. cbn [ie_v] in *. unfold PtmsiSignature_value in *. lens. Qed.
Lemma PtmsiSignature_safe : forall m b, returns (PtmsiSignature_unmarshal m b).
Proof. ie_safe2. Qed.

Lemma rab_flags a b c d n : n < 16 -> N.land (N.lor (flag a 128 + flag b 64 + flag c 32 + flag d 16) n) 15 = n.
Proof. intros H. destruct a, b, c, d; cases_lt 16%nat H. Qed.

(* RabContext *)
Lemma RabContext_rt : forall m x r, wf_ie 124 RabContext_value RabContext_ok x ->
  RabContext_unmarshal m (RabContext_marshal x ++ r) = Ok x.
Proof.
  ie_rt. destruct v as [n d u s q]. destruct Hv as (H1 & H2 & H3 & H4 & H5). unfold RabContext_value. cbn [rc_nsapi rc_dlg rc_ulg rc_dlp rc_ulp] in *. rewrite <- !app_assoc. hd. rd. rewrite rab_flags by assumption. fin.
Qed.
Lemma RabContext_lenok : forall m x, wf_ie 124 RabContext_value RabContext_ok x -> RabContext_len m x = Ok (length (RabContext_marshal x)).
Proof. intros m x H. destruct x as [t ln i v]. destruct H as (_ & _ & Hl & Hn & Hv). apply len_const_exact. cbn [ie_v] in *. unfold RabContext_value in *. lens. Qed.
Lemma RabContext_safe : forall m b, returns (RabContext_unmarshal m b).
Proof. ie_safe2. Qed.

(* RanNasCause *)
Lemma RanNasCause_rt : forall m x r, wf_ie 172 RanNasCause_value RanNasCause_ok x ->
  RanNasCause_unmarshal m (RanNasCause_marshal x ++ r) = Ok x.
Proof.
  ie_rt. unfold RanNasCause_value in *. destruct v as [c|i|i|i|i|]; [destruct c as [i|i|i|i|i|i]; cbn [s1ap_enc] in *|..]; cbn [RanNasCause_ok] in Hv; cbn [app];
    (rewrite need_ok by lens2; rewrite hdr4_cons, Hbe; ckl Hl Hn; rewrite !at_cons, at_0; cbn [bind];
     rewrite ?at_0; cbn [bind]; cbv zeta;
     try (match goal with |- context [enc_be 2 i] => change (enc_be 2 i) with [(i / 256 ^ N.of_nat 1) mod 256; (i / 256 ^ N.of_nat 0) mod 256] at 2; cbn [app]; rewrite at_0; cbn [bind] end);
     match goal with |- context [N.shiftr ?a 4] => let c := eval vm_compute in (N.shiftr a 4) in change (N.shiftr a 4) with c end; eqbs;
     rewrite ?need_ok by lens2; rd; fin).
Qed.
Lemma RanNasCause_lenok : forall m x, wf_ie 172 RanNasCause_value RanNasCause_ok x -> RanNasCause_len m x = Ok (length (RanNasCause_marshal x)).
Proof. intros m x H. exact (len_usize_exact _ _ _ x H). Qed.
Lemma RanNasCause_safe : forall m b, declared b <= 65531 -> returns (RanNasCause_unmarshal m b).
Proof. ie_safe2. Qed.

(* RatType *)
Lemma RatType_rt : forall m x r, wf_ie 82 RatType_value any x ->
  RatType_unmarshal m (RatType_marshal x ++ r) = Ok x.
Proof.
  ie_rt. unfold RatType_value. hd. rd. fin; destruct v; reflexivity.
Qed.
Lemma RatType_lenok : forall m x, wf_ie 82 RatType_value any x -> RatType_len m x = Ok (length (RatType_marshal x)).
Proof. intros m x H. destruct x as [t ln i v]. destruct H as (_ & _ & Hl & Hn & Hv). apply len_const_exact. cbn [ie_v] in *. unfold RatType_value in *. lens. Qed.
Lemma RatType_safe : forall m b, returns (RatType_unmarshal m b).
Proof. ie_safe2. Qed.

(* Recovery *)
Lemma Recovery_rt : forall m x r, wf_ie 3 Recovery_value byte x ->
  Recovery_unmarshal m (Recovery_marshal x ++ r) = Ok x.
Proof.
  ie_rt. unfold Recovery_value. hd. rd. fin.
Qed.
Lemma Recovery_lenok : forall m x, wf_ie 3 Recovery_value byte x -> Recovery_len m x = Ok (length (Recovery_marshal x)).
Proof. intros m x H. destruct x as [t ln i v]. destruct H as (_ & _ & Hl & Hn & Hv). apply len_const_exact. cbn [ie_v] in *. unfold Recovery_value in *. lens. Qed.
Lemma Recovery_safe : forall m b, returns (Recovery_unmarshal m b).
Proof. ie_safe2. Qed.

(* RemoteUeIpInformation *)
Lemma RemoteUeIpInformation_rt : forall m x r, wf_ie 193 RemoteUeIpInformation_value RemoteUeIpInformation_ok x ->
  RemoteUeIpInformation_unmarshal m (RemoteUeIpInformation_marshal x ++ r) = Ok x.
Proof.
  ie_rt. destruct v as [a|a|]; cbn [RemoteUeIpInformation_ok RemoteUeIpInformation_value] in *.
  - rewrite need_ok by lens2. rewrite hdr4_cons, Hbe. ckl Hl Hn. cbn [app]. rewrite !at_cons, at_0. cbn [bind]. eqbs.
    destruct (N.leb_spec 5 len) as [_|Q]; [|revert Hl Q; lens2]. rewrite !slice_cons, slice_here by lia. cbn [bind]. fin.
  - destruct Hv as (p & Hp & ->). rewrite (firstn_app_exact p) in * by lia. rewrite need_ok by lens2. rewrite hdr4_cons, Hbe. ckl Hl Hn. cbn [app]. rewrite !at_cons, at_0. cbn [bind]. eqbs.
    destruct (N.leb_spec 9 len) as [_|Q]; [|revert Hl Q; lens2]. rewrite !slice_cons, slice_here by lia. cbn [bind]. fin.
  - rewrite need_ok by lens2. rewrite hdr4_cons, Hbe. ckl Hl Hn. cbn [app]. rewrite !at_cons, !at_0. cbn [bind]. eqbs. fin.
Qed.
Lemma RemoteUeIpInformation_lenok : forall m x, wf_ie 193 RemoteUeIpInformation_value RemoteUeIpInformation_ok x -> RemoteUeIpInformation_len m x = Ok (length (RemoteUeIpInformation_marshal x)).
Proof. intros m x H. exact (len_u16_exact _ _ _ m x H). Qed.
Lemma RemoteUeIpInformation_safe : forall m b, declared b <= 65531 -> returns (RemoteUeIpInformation_unmarshal m b).
Proof. ie_safe2. Qed.
