(* V2ReadFactsE.v - the decoders of V2IeE.v against the grammar of V2ReadSpec.v *)
From Verif Require Import BaseFacts Digits Labels V2ReadSpec Octets V2ReadFacts V2ReadFactsB V2ReadFactsC V2ReadFactsD.
Local Open Scope N_scope.

Lemma opt_be_r f k e s c : (c <= length s)%nat -> simr s (opt_be_at f k e s c) (if_set f (number k) (skipn c s)).
Proof.
  intros Hc. unfold opt_be_at, if_set, need. destruct f; [|apply simr_ok; exact Hc]. unfold number, andthen. rewrite take_skipn by exact Hc.
  destruct (Nat.leb_spec (c + k) (length s)) as [Hl|Hl]; [|apply simr_err]. unfold be_at. rewrite slice_ok by lia. cbn [bind yield].
  rewrite be_list_base. replace (c + k - c)%nat with k by lia. apply simr_ok. exact Hl.
Qed.
Lemma MonitoringEventExtensionInfo_eq s : bytes s -> got (MonitoringEventExtensionInfo_unmarshal Debug s) = MonitoringEventExtensionInfo_reads s.
Proof. intros Hb. loosen s. destruct (fits _ _) eqn:Hf; [|reflexivity]. fixd 6%nat s.
  set (S0 := t :: a :: b :: c :: x :: x0 :: x1 :: x2 :: x3 :: x4 :: s) in *. unfold be_at. change (@slice GTPV2Error S0 5 (5 + 4)) with (@Ok GTPV2Error _ [x0; x1; x2; x3]).
  change (@at_ GTPV2Error S0 9) with (@Ok GTPV2Error _ x4). change (@at_ GTPV2Error S0 4) with (@Ok GTPV2Error _ x). cbn [bind]. rewrite be_list_base.
  unfold andthen at 1. cbn [take1]. unfold andthen at 1, number at 1, andthen at 1, take at 1. cbn [length Nat.leb firstn skipn yield].
  unfold utf8_, counted, andthen at 1 2 3. cbn [take1]. change s with (skipn 10 S0). assert (H10 : (10 <= length S0)%nat) by (unfold S0; cbn [length]; lia).
  rewrite take_skipn by exact H10. rewrite got_need. destruct (Nat.leb_spec (10 + N.to_nat x4) (length S0)) as [Hl|Hl].
  2: { unfold slice. rewrite (proj2 (Nat.leb_gt (10 + N.to_nat x4) (length S0))) by lia. rewrite andb_false_r. destruct (_ <=? _)%nat; reflexivity. }
  rewrite (proj2 (Nat.leb_le (9 + N.to_nat x4) _)) by lia. rewrite slice_ok by lia. cbn [bind]. replace (10 + N.to_nat x4 - 10)%nat with (N.to_nat x4) by lia. unfold utf8_or.
  destruct (utf8_strict _); [|reflexivity]. cbn [bind yield]. bits. eapply step_r; [apply opt_be_r; exact Hl|]. intros rm c1 H1. eapply step_r; [apply opt_be_r; exact H1|]. intros ext c2 H2. reflexivity. Qed.
Lemma MonitoringEventInformation_eq s : bytes s -> got (MonitoringEventInformation_unmarshal Debug s) = MonitoringEventInformation_reads s.
Proof. intros Hb. unf; hd s. rewrite got_need, got_hdr4. cbn [length].
  destruct (Nat.leb_spec 9 (4 + length s)) as [H9|H9].
  2: { replace (9 <=? S (S (S (S (length s)))))%nat with false by (symmetry; apply Nat.leb_gt; lia).
       do 5 (destruct s as [|?x s]; [reflexivity|]). cbn [length] in H9. lia. }
  replace (9 <=? S (S (S (S (length s)))))%nat with true by (symmetry; apply Nat.leb_le; lia). unfold element. change (match ?o with Some (v, _) => Some (mkIe 189 (256 * a + b) (low_half c) v) | None => None end) with (wrap (mkIe 189 (256 * a + b) (c mod 16)) o).
  set (S0 := t :: a :: b :: c :: s) in *. assert (HL : length S0 = (4 + length s)%nat) by reflexivity. change s with (skipn 4 S0). clearbody S0. bits.
  apply step_be; [lia|]. intros _. change (4 + 4)%nat with 8%nat. unfold utf8_.
  unfold andthen at 1 2. pose proof (lv_r S0 8 (IEInvalidLength 189)) as [H1 H2]. destruct (lv_at S0 8 _) as [[l k]| | |]; destruct (counted (skipn 8 S0)) as [[l' q]|]; try contradiction H1; cbn [bind]; try reflexivity.
  destruct H1 as [<- ->]. specialize (H2 _ _ eq_refl). unfold utf8_or. destruct (utf8_strict l); [|reflexivity]. cbn [bind yield]. rewrite got_need.
  destruct (Nat.leb_spec (k + 2) (length S0)) as [Hl|Hl].
  - apply step_be; [lia|]. intros _. eapply step_r; [apply opt_be_r; exact Hl|]. intros ext c2 Hc2. cbn [got yield wrap]. unfold std. rewrite land15. reflexivity.
  - unfold number, andthen. rewrite take_skipn by lia. rewrite (proj2 (Nat.leb_gt _ _)) by lia. reflexivity. Qed.
Lemma Msisdn_eq s : bytes s -> got (Msisdn_unmarshal Debug s) = Msisdn_reads s.
Proof. intros Hb. closes s. destruct (fits _ _) eqn:Hf; [|reflexivity]. pose proof (fits_inv _ _ Hf). unfold end16. rewrite (end16_fits _ _ Hf). cbn [bind]. rewrite ?slice4 by lia. cbn [bind got]. rewrite tbcd_number. reflexivity. Qed.
Lemma MappedUeUsageType_eq s : bytes s -> got (MappedUeUsageType_unmarshal Debug s) = MappedUeUsageType_reads s.
Proof. intros Hb. open_ 2%nat s. Qed.
Lemma NodeFeatures_eq s : bytes s -> got (NodeFeatures_unmarshal Debug s) = NodeFeatures_reads s.
Proof. intros Hb. open_ 1%nat s. Qed.
Lemma NodeIdentifier_eq s : bytes s -> got (NodeIdentifier_unmarshal Debug s) = NodeIdentifier_reads s.
Proof. intros Hb. loosen s. destruct s as [|x s]; [apply nothing_fits|]. cbn [length Nat.leb]. rewrite ?got_hdr4, ?got_checked. destruct (fits _ _) eqn:Hf; [|reflexivity]. unfold at_ at 1. cbn [nth_error bind].
  unfold counted at 1. unfold andthen at 1 2. cbn [take1]. set (S0 := t :: a :: b :: c :: x :: s) in *. assert (HL : length S0 = (5 + length s)%nat) by reflexivity. change s with (skipn 5 S0). clearbody S0.
  rewrite take_skipn by lia. rewrite got_need. destruct (Nat.leb_spec (5 + N.to_nat x) (length S0)) as [Hl|Hl].
  - destruct (Nat.leb_spec (5 + N.to_nat x + 1) (length S0)).
    + rewrite slice_ok by lia. cbn [bind]. replace (5 + N.to_nat x - 5)%nat with (N.to_nat x) by lia. eapply step_r; [apply lv_r|]. intros; reflexivity.
    + rewrite (@skipn_all2 N (5 + N.to_nat x)%nat S0) by lia. reflexivity.
  - rewrite (proj2 (Nat.leb_gt _ _)) by lia. reflexivity. Qed.
Lemma NodeNumber_eq s : bytes s -> got (NodeNumber_unmarshal Debug s) = NodeNumber_reads s.
Proof. intros Hb. loosen s. destruct s as [|x s]; [apply nothing_fits|]. cbn [length Nat.leb]. rewrite ?got_hdr4, ?got_checked. destruct (fits _ _) eqn:Hf; [|reflexivity]. unfold at_ at 1. cbn [nth_error bind].
  unfold counted at 1. unfold andthen at 1 2. cbn [take1]. set (S0 := t :: a :: b :: c :: x :: s) in *. assert (HL : length S0 = (5 + length s)%nat) by reflexivity. change s with (skipn 5 S0). clearbody S0.
  rewrite take_skipn by lia. rewrite (Nat.add_comm (N.to_nat x) 5). destruct (Nat.leb_spec (5 + N.to_nat x) (length S0)) as [Hl|Hl].
  - rewrite slice_ok by lia. cbn [bind]. replace (5 + N.to_nat x - 5)%nat with (N.to_nat x) by lia. destruct (firstn (N.to_nat x) (skipn 5 S0)) as [|y d]; [reflexivity|].
    unfold slice_from. cbn [length Nat.leb skipn bind got]. rewrite tbcd_number. reflexivity.
  - unfold slice. rewrite (proj2 (Nat.leb_gt (5 + N.to_nat x) (length S0))) by lia. rewrite andb_false_r. reflexivity. Qed.
Lemma NodeType_eq s : bytes s -> got (NodeType_unmarshal Debug s) = NodeType_reads s.
Proof. intros Hb. open_ 1%nat s. bys Hb. do 2 f_equal. per_octet x. Qed.
Lemma PdnAddressAllocation_eq s : bytes s -> got (PdnAddressAllocation_unmarshal Debug s) = PdnAddressAllocation_reads s.
Proof. intros Hb. closes s. destruct s as [|x s]; [apply nothing_fits|]. cbn [length Nat.leb]. rewrite ?got_hdr4, ?got_checked. destruct (fits _ _) eqn:Hf; [|reflexivity]. pose proof (fits_inv _ _ Hf) as [Hr Hl]. cbn [length] in Hl.
  unfold at_ at 1. cbn [nth_error bind]. destruct (N.to_nat (256 * a + b)) as [|n] eqn:En; [lia|]. cbn [firstn]. unfold within, andthen at 1. cbn [take1].
  assert (HF : forall k, (k <=? length (firstn n s))%nat = (k <=? n)%nat) by (intros k; rewrite firstn_length_le by lia; reflexivity).
  destruct (x =? 1); [|destruct (x =? 2); [|destruct (x =? 3); [|destruct (x =? 4); [reflexivity|destruct (x =? 5); reflexivity]]]].
  - unfold andthen, take. rewrite HF. destruct (N.leb_spec 5 (256 * a + b)).
    + rewrite (proj2 (Nat.leb_le _ _)) by lia. rewrite slice_ok by (cbn [length]; lia). cbn [bind got yield option_map fst]. rewrite firstn_firstn. replace (Nat.min 4 n) with 4%nat by lia. reflexivity.
    + rewrite (proj2 (Nat.leb_gt _ _)) by lia. reflexivity.
  - destruct (N.leb_spec 18 (256 * a + b)).
    + destruct n as [|n]; [lia|]. destruct s as [|p s]; [cbn in Hl; lia|]. cbn [length] in *. unfold at_. cbn [nth_error bind firstn]. unfold andthen, take. cbn [take1].
      rewrite slice_ok by (cbn [length]; lia). rewrite firstn_length_le by lia. rewrite (proj2 (Nat.leb_le _ _)) by lia. cbn [bind got yield option_map fst]. rewrite firstn_firstn. replace (Nat.min 16 n) with 16%nat by lia. reflexivity.
    + destruct n as [|n]; [reflexivity|]. destruct s as [|p s]; [reflexivity|]. cbn [firstn]. unfold andthen, take. cbn [take1]. rewrite firstn_length. rewrite (proj2 (Nat.leb_gt _ _)) by lia. reflexivity.
  - destruct (N.leb_spec 22 (256 * a + b)).
    + destruct n as [|n]; [lia|]. destruct s as [|p s]; [cbn in Hl; lia|]. cbn [length] in *. unfold at_. cbn [nth_error bind firstn]. unfold andthen, take. cbn [take1].
      rewrite !slice_ok by (cbn [length]; lia). rewrite firstn_length_le by lia. rewrite (proj2 (Nat.leb_le _ _)) by lia. rewrite skipn_length, firstn_length_le by lia. rewrite (proj2 (Nat.leb_le _ _)) by lia. assert (E4 : firstn 4 (skipn 16 (firstn n s)) = firstn 4 (skipn 16 s)) by (rewrite !firstn_skipn_comm, firstn_firstn; do 2 f_equal; lia).
      cbn [bind got yield option_map fst]. rewrite E4, firstn_firstn. replace (Nat.min 16 n) with 16%nat by lia. reflexivity.
    + destruct n as [|n]; [reflexivity|]. destruct s as [|p s]; [reflexivity|]. cbn [firstn]. unfold andthen, take. cbn [take1]. destruct (_ <=? _)%nat; [|reflexivity].
      rewrite skipn_length, firstn_length. rewrite (proj2 (Nat.leb_gt _ _)) by lia. reflexivity. Qed.
Lemma PacketFlowId_eq s : bytes s -> got (PacketFlowId_unmarshal Debug s) = PacketFlowId_reads s.
Proof. intros Hb. open_ 5%nat s. Qed.
Lemma PagingServiceInfo_eq s : bytes s -> got (PagingServiceInfo_unmarshal Debug s) = PagingServiceInfo_reads s.
Proof. intros Hb. opens s. fixd 2%nat s. cbn [length Nat.leb]. unfold at_. cbn [nth_error bind]. unfold yes_no, andthen at 1 2 3 4. cbn [take1]. unfold accept.
  destruct (N.eqb_spec x0 0) as [->|]; [reflexivity|]. destruct (N.eqb_spec x0 1) as [->|]; [|destruct (N.ltb_spec x0 2); [lia|reflexivity]].
  change (1 <? 2) with true. cbv iota. unfold andthen. cbn [yield]. unfold if_set, andthen. destruct s; reflexivity. Qed.
Lemma PC5QosFlow_eq s : bytes s -> got (PC5QosFlow_unmarshal Debug s) = PC5QosFlow_reads s.
Proof. intros Hb. loosen s. destruct (fits _ _) eqn:Hf; [|reflexivity]. fixd 10%nat s. run. arith. bits. unfold if_set. destruct (bit_at x 0); [|reflexivity]. destruct s; reflexivity. Qed.
Lemma Pco_eq s : bytes s -> got (Pco_unmarshal Debug s) = Pco_reads s.
Proof. intros Hb. closes s. destruct (fits _ _) eqn:Hf; [|reflexivity]. pose proof (fits_inv _ _ Hf). unfold end16. rewrite (end16_fits _ _ Hf). cbn [bind]. rewrite ?slice4 by lia. reflexivity. Qed.
Lemma PdnType_eq s : bytes s -> got (PdnType_unmarshal Debug s) = PdnType_reads s.
Proof. intros Hb. open_ 1%nat s. bys Hb. do 2 f_equal. per_octet x. Qed.
Lemma PduNumbers_eq s : bytes s -> got (PduNumbers_unmarshal Debug s) = PduNumbers_reads s.
Proof. intros Hb. open_ 9%nat s. Qed.
Lemma PgwFqdn_eq s : bytes s -> got (PgwFqdn_unmarshal Debug s) = PgwFqdn_reads s.
Proof. intros Hb. closes s. destruct (fits _ _) eqn:Hf; [|reflexivity]. pose proof (fits_inv _ _ Hf). rewrite slice4 by lia. cbn [bind]. rewrite got_bind, name_got. destruct (name_in _); reflexivity. Qed.
Lemma PlmnId_eq s : bytes s -> got (PlmnId_unmarshal Debug s) = PlmnId_reads s.
Proof. intros Hb. opens s. fixd 3%nat s. cbn [length Nat.leb]. rewrite plmn_at4. reflexivity. Qed.
Lemma PortNumber_eq s : bytes s -> got (PortNumber_unmarshal Debug s) = PortNumber_reads s.
Proof. intros Hb. open_ 2%nat s. Qed.

Lemma many_checked_r {A} (dec : list N -> res A) k p e : parses dec (fun _ => k) p -> forall n s c, bytes s -> (c <= length s)%nat ->
  simr s (many_checked dec k e n s c) (times n p (skipn c s)).
Proof.
  intros Hp. induction n as [|n IH]; intros s c Hs Hc; [apply simr_ok; exact Hc|]. cbn [many_checked times]. unfold need. rewrite (proj2 (Nat.leb_le _ _)) by exact Hc.
  rewrite slice_from_ok by exact Hc. cbn [bind]. pose proof (orelse_parses _ _ _ e Hp _ (bytes_skipn c _ Hs)) as H. cbv beta in H. unfold andthen at 1.
  destruct (p (skipn c s)) as [[x r]|].
  - destruct H as (-> & -> & Hl). rewrite skipn_length in Hl. cbn [bind]. rewrite skipn_skipn'. eapply step_r'; [apply IH; [exact Hs|lia]|]. intros xs c' Hc'. apply simr_ok. exact Hc'.
  - destruct (orelse _ _); try discriminate H; (split; [exact I|discriminate]).
Qed.
(* seven octets each, of which the last may be missing at the end *)
Lemma rai7 e : forall n s c, bytes s -> (c <= length s + 1)%nat ->
  sim s (many_checked Rai_dec 7 e n s c) (times n Rai7_ (skipn c s)) /\
  (forall l c', many_checked Rai_dec 7 e n s c = Ok (l, c') -> c' = (c + 7 * n)%nat /\ (c' <= length s + 1)%nat).
Proof.
  induction n as [|n IH]; intros s c Hs Hc.
  - split; [split; reflexivity|]. cbn [many_checked]. intros l c' H. injection H as _ <-. lia.
  - cbn [many_checked times]. unfold need. destruct (Nat.leb_spec c (length s)) as [Hle|Hgt].
    + rewrite slice_from_ok by exact Hle. cbn [bind]. pose proof (orelse_parses _ _ _ e Rai_parses _ (bytes_skipn c _ Hs)) as H. cbv beta in H.
      unfold andthen at 1, Rai7_ at 1, andthen at 1. destruct (Rai_ (skipn c s)) as [[x r]|].
      * destruct H as (-> & -> & Hl). rewrite skipn_length in Hl. cbn [bind]. unfold andthen at 1, pass. cbn [yield]. rewrite !skipn_skipn'.
        change (c + (6 + 1))%nat with (c + 7)%nat. destruct (IH s (c + 7)%nat Hs ltac:(lia)) as [H1 H2]. unfold andthen.
        destruct (many_checked Rai_dec 7 e n s (c + 7)) as [[l c1]| | |]; destruct (times n Rai7_ (skipn (c + 7) s)) as [[l' q]|]; try contradiction H1; cbn [bind]; try (split; [exact I|discriminate]).
        destruct H1 as [<- ->]. destruct (H2 _ _ eq_refl) as [E1 E2]. split; [split; reflexivity|]. intros l0 c0 H0. injection H0 as _ <-. lia.
      * destruct (orelse _ _); try discriminate H; (split; [exact I|discriminate]).
    + rewrite skipn_all2 by lia. split; [exact I|discriminate].
Qed.
Lemma many_checked_beyond {A} (dec : list N -> res A) k e n s c p : (length s < c)%nat -> p [] = None ->
  sim s (many_checked dec k e n s c) (times n p (skipn c s)) /\ (forall l c', many_checked dec k e n s c = Ok (l, c') -> n = 0%nat /\ c' = c).
Proof.
  intros Hc Hp. destruct n as [|n]; [split; [split; reflexivity|]; intros l c' H; injection H as _ <-; auto|].
  cbn [many_checked times]. unfold need. rewrite (proj2 (Nat.leb_gt _ _)) by exact Hc. rewrite skipn_all2 by lia. unfold andthen. rewrite Hp. split; [exact I|discriminate].
Qed.
Lemma PresenceReportingAreaAction_eq s : bytes s -> got (PresenceReportingAreaAction_unmarshal Debug s) = PresenceReportingAreaAction_reads s.
Proof. intros Hb. loosen s. destruct (fits _ _) eqn:Hf; [|reflexivity]. fixd 10%nat s.
  set (S0 := t :: a :: b :: c :: x :: x0 :: x1 :: x2 :: x3 :: x4 :: x5 :: x6 :: x7 :: x8 :: s) in *. cbn [length]. change (S (S (S (S (S (S (S (S (S (S (S (S (S (S (length s)))))))))))))))%nat with (length S0). unfold be_at. change (@slice GTPV2Error S0 5 (5 + 3)) with (@Ok GTPV2Error _ [x0; x1; x2]).
  change (@at_ GTPV2Error S0 4) with (@Ok GTPV2Error _ x). change (@at_ GTPV2Error S0 8) with (@Ok GTPV2Error _ x3). change (@at_ GTPV2Error S0 9) with (@Ok GTPV2Error _ x4). change (@at_ GTPV2Error S0 10) with (@Ok GTPV2Error _ x5).
  change (@at_ GTPV2Error S0 11) with (@Ok GTPV2Error _ x6). change (@at_ GTPV2Error S0 12) with (@Ok GTPV2Error _ x7). change (@at_ GTPV2Error S0 13) with (@Ok GTPV2Error _ x8). cbn [bind]. rewrite be_list_base.
  assert (HL : (14 <= length S0)%nat) by (unfold S0; cbn [length]; lia). assert (Es : s = skipn 14 S0) by reflexivity. assert (Hx0 : byte x) by (unfold S0 in Hb; bys Hb; assumption). clearbody S0.
  unfold andthen at 1. cbn [take1]. unfold andthen at 1, number at 1, andthen at 1, take at 1. cbn [length Nat.leb firstn skipn yield]. unfold andthen at 1 2 3 4 5 6. cbn [take1].
  rewrite Es. clear Es. rewrite got_need. rewrite (proj2 (Nat.leb_le _ _)) by exact HL.
  assert (Hx : negb (N.land (N.shiftr x 3) 1 =? 0) = bit_at x 3) by (per_octet x). rewrite Hx.
  rewrite shiftr4, land7, land15, !land63.
  eapply step_r; [apply many_checked_r; [apply Tai_parses|exact Hb|exact HL]|]. intros tai c1 H1. eapply step_r; [apply many_checked_r; [apply Macro_parses|exact Hb|exact H1]|]. intros mac c2 H2.
  eapply step_r; [apply many_checked_r; [apply Macro_parses|exact Hb|exact H2]|]. intros home c3 H3. eapply step_r; [apply many_checked_r; [apply Ecgi_parses|exact Hb|exact H3]|]. intros ecgi c4 H4.
  unfold andthen at 1. destruct (rai7 (IEInvalidLength 177) (N.to_nat (x3 mod 16)) S0 c4 Hb ltac:(lia)) as [R1 R2]. eapply step_c; [exact R1|]. intros rai c5 H5. apply R2 in H5 as [E5 H5]. rewrite skipn_length.
  destruct (Nat.leb_spec c5 (length S0)) as [Hle|Hgt].
  - replace (S (length S0 - c4) =? 7 * N.to_nat (x3 mod 16))%nat with false by (symmetry; apply Nat.eqb_neq; lia). cbn [andb].
    eapply step_r; [apply many_checked_r; [apply Sai_parses|exact Hb|exact Hle]|]. intros sai c6 H6. eapply step_r; [apply many_checked_r; [apply Cgi_parses|exact Hb|exact H6]|]. intros cgi c7 H7.
    rewrite (proj2 (Nat.leb_le _ _)) by exact H7. unfold andthen at 1 2. unfold at_. destruct (nth_error S0 c7) as [k|] eqn:Ek; [|rewrite (skipn_none _ _ Ek); reflexivity].
    rewrite (skipn_cons _ _ _ Ek). cbn [bind take1]. assert (H8 : (c7 < length S0)%nat) by (apply nth_error_Some; congruence). rewrite (Nat.add_1_r c7).
    destruct (many_checked_r _ _ _ (IEInvalidLength 177) ExtMacro_parses (N.to_nat k) S0 (S c7) Hb H8) as [M1 _].
    destruct (many_checked ExtMacroEnbId_dec 6 _ _ S0 (S c7)) as [[l k1]| | |]; destruct (times (N.to_nat k) ExtMacro_ (skipn (S c7) S0)) as [[l' q]|]; try contradiction M1; cbn [bind]; try reflexivity.
    destruct M1 as [<- _]. reflexivity.
  - replace (S (length S0 - c4) =? 7 * N.to_nat (x3 mod 16))%nat with true by (symmetry; apply Nat.eqb_eq; lia). cbn [andb].
    destruct (many_checked_beyond Sai_dec 7 (IEInvalidLength 177) (N.to_nat (x7 mod 64)) S0 c5 Sai_ Hgt eq_refl) as [M1 M2]. eapply step_c; [exact M1|]. intros sai c6 H6. apply M2 in H6 as [N5 ->].
    destruct (many_checked_beyond Cgi_dec 7 (IEInvalidLength 177) (N.to_nat (x8 mod 64)) S0 c5 Cgi_ Hgt eq_refl) as [M3 M4]. eapply step_c; [exact M3|]. intros cgi c7 H7. apply M4 in H7 as [N6 ->].
    replace (x7 mod 64 =? 0) with true by (symmetry; apply N.eqb_eq; lia). replace (x8 mod 64 =? 0) with true by (symmetry; apply N.eqb_eq; lia). cbn [andb].
    rewrite (proj2 (Nat.leb_gt _ _)) by exact Hgt. reflexivity. Qed.

Lemma presence_at s c a b d f r : skipn c s = a :: b :: d :: f :: r -> presence_area_at s c = Ok (presence_of (base256 [a; b; d]) f) /\ at_ s (c + 3) = Ok (f : N) :> res N.
Proof.
  intros H. assert (E : length (skipn c s) = (4 + length r)%nat) by (rewrite H; reflexivity). rewrite skipn_length in E.
  assert (En : nth_error s (c + 3) = Some f).
  { rewrite <- (firstn_skipn c s) at 1. rewrite H. rewrite nth_error_app2 by (rewrite firstn_length; lia). rewrite firstn_length_le by lia. replace (c + 3 - c)%nat with 3%nat by lia. reflexivity. }
  assert (Ea : at_ s (c + 3) = Ok (f : N) :> res N) by (unfold at_; rewrite En; reflexivity). split; [|exact Ea].
  unfold presence_area_at. rewrite Ea. unfold be_at. rewrite slice_ok by lia. cbn [bind]. rewrite be_list_base, H. replace (c + 3 - c)%nat with 3%nat by lia. cbn [firstn].
  unfold presence_of. bits. destruct (bit_at f 3); [reflexivity|]. destruct (bit_at f 1); destruct (bit_at f 0); reflexivity.
Qed.
Lemma presence_loop s : forall fuel q c, (length q <= fuel)%nat -> (c <= length s)%nat -> skipn c s = q -> presence_areas_loop fuel s c = Ok (presence_areas q).
Proof.
  induction fuel as [|fuel IH]; intros q c Hf Hc Hq; assert (E : length (skipn c s) = length q) by (rewrite Hq; reflexivity); rewrite skipn_length in E; cbn [presence_areas_loop].
  - destruct (Nat.ltb_spec (length s) (c + 4)); [|lia]. destruct q; [reflexivity|cbn in Hf; lia].
  - destruct q as [|a [|b [|d [|f r]]]]; cbn [length] in E, Hf; try (destruct (Nat.ltb_spec (length s) (c + 4)); [reflexivity|lia]).
    destruct (Nat.ltb_spec (length s) (c + 4)); [lia|]. destruct (presence_at _ _ _ _ _ _ _ Hq) as [-> ->]. cbn [bind presence_areas]. bits. destruct (bit_at f 2); [|reflexivity].
    rewrite (IH r (c + 4)%nat); [reflexivity|lia|lia|]. rewrite <- skipn_skipn', Hq. reflexivity.
Qed.
Lemma PresenceReportingAreaInformation_eq s : bytes s -> got (PresenceReportingAreaInformation_unmarshal Debug s) = PresenceReportingAreaInformation_reads s.
Proof. intros Hb. opens s. unfold andthen at 1, room. cbn [length]. change (12 <=? S (S (S (S (length s)))))%nat with (8 <=? length s)%nat. destruct (Nat.leb_spec 8 (length s)) as [H8|H8]; [|reflexivity].
  do 4 (destruct s as [|?x s]; [cbn in H8; lia|]). set (S0 := t :: a :: b :: c :: x :: x0 :: x1 :: x2 :: s) in *.
  destruct (presence_at S0 4 _ _ _ _ _ eq_refl) as [E1 E2]. change (4 + 3)%nat with 7%nat in E2. rewrite E1, E2. cbn [bind].
  unfold andthen at 1, number, andthen at 1, take. cbn [length Nat.leb firstn skipn yield]. unfold andthen. cbn [take1 the_rest]. bits. destruct (bit_at x2 2); [|reflexivity].
  match goal with |- context [presence_areas_loop ?f _ _] => rewrite (presence_loop S0 f s 8%nat) end; [reflexivity|unfold S0; cbn [length]; lia|unfold S0; cbn [length]; lia|reflexivity]. Qed.
Lemma PrivateExtension_eq s : bytes s -> got (PrivateExtension_unmarshal Debug s) = PrivateExtension_reads s.
Proof. intros Hb. unf; hd s. rewrite got_need. unfold checked_, element. cbn [length]. change (7 <=? S (S (S (S (length s)))))%nat with (3 <=? length s)%nat. unfold andthen at 1, room.
  destruct (Nat.leb_spec 3 (length s)) as [H3|H3]; [|destruct (fits _ _); reflexivity]. rewrite ?got_hdr4, ?got_checked. destruct (fits _ _) eqn:Hf; [|reflexivity]. pose proof (fits_inv _ _ Hf) as [Hr Hl].
  do 2 (destruct s as [|?x s]; [cbn in H3; lia|]). unfold be_at. change (@slice GTPV2Error (t :: a :: b :: c :: x :: x0 :: s) 4 (4 + 2)) with (@Ok GTPV2Error _ [x; x0]). cbn [bind]. rewrite be_list_base.
  unfold end16. rewrite (end16_fits _ _ Hf). cbn [bind]. unfold andthen at 1, accept. destruct (N.leb_spec 2 (256 * a + b)).
  - cbn [length] in Hl. rewrite slice_ok by (cbn [length]; lia). cbn [bind got]. unfold andthen, number, andthen, take. cbn [length Nat.leb firstn skipn yield]. rewrite (proj2 (Nat.leb_le _ _)) by lia.
    unfold std. rewrite land15. replace (4 + N.to_nat (256 * a + b) - 6)%nat with (N.to_nat (256 * a + b) - 2)%nat by lia. reflexivity.
  - unfold slice. rewrite (proj2 (Nat.leb_gt 6 (4 + N.to_nat (256 * a + b)))) by lia. reflexivity. Qed.
Lemma PSCellId_eq s : bytes s -> got (PSCellId_unmarshal Debug s) = PSCellId_reads s.
Proof. intros Hb. opens s. fixd 8%nat s. cbn [length Nat.leb]. rewrite plmn_at4. reflexivity. Qed.
Lemma Pti_eq s : bytes s -> got (Pti_unmarshal Debug s) = Pti_reads s.
Proof. intros Hb. open_ 1%nat s. Qed.
Lemma Ptmsi_eq s : bytes s -> got (Ptmsi_unmarshal Debug s) = Ptmsi_reads s.
Proof. intros Hb. open_ 4%nat s. Qed.
Lemma PtmsiSignature_eq s : bytes s -> got (PtmsiSignature_unmarshal Debug s) = PtmsiSignature_reads s.
Proof. intros Hb. open_ 4%nat s. Qed.
Lemma RabContext_eq s : bytes s -> got (RabContext_unmarshal Debug s) = RabContext_reads s.
Proof. intros Hb. open_ 9%nat s. Qed.
Lemma RanNasCause_eq s : bytes s -> got (RanNasCause_unmarshal Debug s) = RanNasCause_reads s.
Proof. intros Hb. loosen s. destruct s as [|x s]; [destruct (fits _ _); reflexivity|]. destruct s as [|y s]; [destruct (fits _ _); reflexivity|]. cbn [length Nat.leb]. rewrite ?got_hdr4, ?got_checked. destruct (fits _ _) eqn:Hf; [|reflexivity].
  unfold at_. cbn [nth_error bind]. rewrite shiftr4, land15. unfold andthen at 1. cbn [take1]. unfold andthen at 1, room. cbn [length Nat.leb].
  destruct (x / 16 =? 1).
  { unfold octet_as, andthen. cbn [take1 yield got wrap]. do 4 f_equal. bys Hb. assert (Hm : byte (x mod 16)) by (pose proof (N.mod_lt x 16); unfold byte; lia). unfold s1ap_dec, entry.
    revert Hm. generalize (x mod 16). intros z Hz. destruct (N.eqb_spec z 0) as [->|]; [reflexivity|]. destruct (N.eqb_spec z 1) as [->|]; [reflexivity|]. destruct (N.eqb_spec z 2) as [->|]; [reflexivity|].
    destruct (N.eqb_spec z 3) as [->|]; [reflexivity|]. destruct (N.eqb_spec z 4) as [->|]; [reflexivity|]. rewrite nth_overflow; [reflexivity|cbn [length]; lia]. }
  destruct (x / 16 =? 2); [reflexivity|]. destruct (x / 16 =? 3); [reflexivity|].
  destruct (x / 16 =? 4); [destruct s; [reflexivity|run; arith; reflexivity]|]. destruct (x / 16 =? 5); [destruct s; [reflexivity|run; arith; reflexivity]|]. reflexivity. Qed.
Lemma RatType_eq s : bytes s -> got (RatType_unmarshal Debug s) = RatType_reads s.
Proof. intros Hb. open_ 1%nat s. bys Hb. do 2 f_equal. per_octet x. Qed.
Lemma Recovery_eq s : bytes s -> got (Recovery_unmarshal Debug s) = Recovery_reads s.
Proof. intros Hb. open_ 1%nat s. Qed.
Lemma RemoteUeIpInformation_eq s : bytes s -> got (RemoteUeIpInformation_unmarshal Debug s) = RemoteUeIpInformation_reads s.
Proof. intros Hb. closes s. destruct s as [|x s]; [apply nothing_fits|]. cbn [length Nat.leb]. rewrite ?got_hdr4, ?got_checked. destruct (fits _ _) eqn:Hf; [|reflexivity]. pose proof (fits_inv _ _ Hf) as [Hr Hl]. cbn [length] in Hl.
  unfold at_ at 1. cbn [nth_error bind]. destruct (N.to_nat (256 * a + b)) as [|n] eqn:En; [lia|]. cbn [firstn]. unfold within, andthen at 1. cbn [take1].
  assert (HF : forall k, (k <=? length (firstn n s))%nat = (k <=? n)%nat) by (intros k; rewrite firstn_length_le by lia; reflexivity).
  destruct (N.eqb_spec x 1) as [->|]; [|destruct (N.eqb_spec x 2) as [->|]; [|destruct (x =? 0); reflexivity]].
  - change (1 =? 0) with false. change (1 =? 1) with true. cbv iota. unfold andthen, take. rewrite HF. destruct (N.leb_spec 5 (256 * a + b)).
    + rewrite (proj2 (Nat.leb_le _ _)) by lia. rewrite slice_ok by (cbn [length]; lia). cbn [bind got yield option_map fst]. rewrite firstn_firstn. replace (Nat.min 4 n) with 4%nat by lia. reflexivity.
    + rewrite (proj2 (Nat.leb_gt _ _)) by lia. reflexivity.
  - change (2 =? 0) with false. change (2 =? 1) with false. change (2 =? 2) with true. cbv iota. unfold andthen, take. rewrite HF. destruct (N.leb_spec 9 (256 * a + b)).
    + rewrite (proj2 (Nat.leb_le _ _)) by lia. rewrite slice_ok by (cbn [length]; lia). cbn [bind got yield option_map fst]. rewrite firstn_firstn. replace (Nat.min 8 n) with 8%nat by lia. reflexivity.
    + rewrite (proj2 (Nat.leb_gt _ _)) by lia. reflexivity. Qed.
