(* V2ReadFactsC.v - the element decoders of V2IeC.v against the grammar of V2ReadSpec.v *)
From Verif Require Import BaseFacts Digits Labels V2ReadSpec Octets V2ReadFacts V2ReadFactsB.
Local Open Scope N_scope.

Ltac loosen s := unf; hd s; rewrite ?got_need; cbn [length Nat.leb]; rewrite ?got_hdr4, ?loose_wrap, ?got_checked.
Lemma plmn_at4 t a b c x y z r : plmn_at (t :: a :: b :: c :: x :: y :: z :: r) 4 = Ok (plmn_of x y z).
Proof. exact (plmn_at_skip (t :: a :: b :: c :: x :: y :: z :: r) 4 x y z r eq_refl). Qed.
Lemma bit0_mod x : (x mod 2 =? 1) = bit_at x 0.
Proof. unfold bit_at. change (2 ^ 0) with 1. rewrite N.div_1_r. reflexivity. Qed.
Lemma bit6 x : (x / 64) mod 2 = if bit_at x 6 then 1 else 0.
Proof. unfold bit_at. change (2 ^ 6) with 64. destruct (N.eqb_spec ((x / 64) mod 2) 1); [assumption|]. pose proof (N.mod_lt (x / 64) 2). lia. Qed.
Lemma Fteid_eq s : bytes s -> got (Fteid_unmarshal Debug s) = Fteid_reads s.
Proof. intros Hb. loosen s. destruct (fits _ _) eqn:Hf; [|reflexivity]. fixd 5%nat s. bys Hb.
  cbv beta iota zeta delta [at_ be_at slice nth_error bind Nat.leb Nat.add Nat.sub length andb firstn skipn andthen take1 number take yield accept].
  arith. rewrite top_bit, bit6 by assumption.
  destruct (bit_at x 7), (bit_at x 6); cbn [orb if_set]; unfold andthen; (change (1 =? 1) with true || change (0 =? 1) with false);
    repeat change (1 =? 1) with true; repeat change (0 =? 1) with false; repeat change (1 =? 0) with false; repeat change (0 =? 0) with true; cbn [andb].
  - fixd 20%nat s. run. reflexivity.
  - fixd 4%nat s. run. reflexivity.
  - fixd 16%nat s. run. reflexivity.
  - reflexivity. Qed.
Lemma GlobalCnId_eq s : bytes s -> got (GlobalCnId_unmarshal Debug s) = GlobalCnId_reads s.
Proof. intros Hb. opens s. fixd 5%nat s. rewrite plmn_at4. unfold plmn_. run. arith. reflexivity. Qed.
Lemma GroupId_eq s : bytes s -> got (GroupId_unmarshal Debug s) = GroupId_reads s.
Proof. intros Hb. closes s. destruct (fits _ _) eqn:Hf; [|reflexivity]. pose proof (fits_inv _ _ Hf). rewrite (Nat.add_comm _ 4), slice4 by lia. reflexivity. Qed.
Lemma Guti_eq s : bytes s -> got (Guti_unmarshal Debug s) = Guti_reads s.
Proof. intros Hb. opens s. fixd 10%nat s. rewrite plmn_at4. unfold plmn_. run. arith. reflexivity. Qed.
Lemma HeaderCompressionConfiguration_eq s : bytes s -> got (HeaderCompressionConfiguration_unmarshal Debug s) = HeaderCompressionConfiguration_reads s.
Proof. intros Hb. open_ 4%nat s. bys Hb. do 4 f_equal. per_octet x. Qed.
Lemma HenbInfoReporting_eq s : bytes s -> got (HenbInfoReporting_unmarshal Debug s) = HenbInfoReporting_reads s.
Proof. intros Hb. unfold HenbInfoReporting_reads, yes_no. hd s. fixd 1%nat s. bys Hb. unfold HenbInfoReporting_unmarshal. run. arith. generalize (256 * a + b) (c mod 16). intros l i. per_octet x. Qed.
Lemma HopCounter_eq s : bytes s -> got (HopCounter_unmarshal Debug s) = HopCounter_reads s.
Proof. intros Hb. open_ 1%nat s. Qed.
Lemma Imsi_eq s : bytes s -> got (Imsi_unmarshal Debug s) = Imsi_reads s.
Proof. intros Hb. closes s. destruct s as [|x s]; [apply nothing_fits|]. cbn [length Nat.leb].
  destruct (fits _ _) eqn:Hf; [|reflexivity]. apply fits_inv in Hf. rewrite (Nat.add_comm _ 4). rewrite slice4 by lia. cbn [bind got option_map digits_].
  rewrite tbcd_number. reflexivity. Qed.
Lemma indication_conv v : Indication_convert v = indication_of v.
Proof. unfold Indication_convert, indication_of, flag_in. bits. reflexivity. Qed.
Lemma Indication_eq s : bytes s -> got (Indication_unmarshal Debug s) = Indication_reads s.
Proof. intros Hb. opens s. cbn [length Nat.leb]. unfold Indication_reads, element, andthen. set (n := N.to_nat (256 * a + b)). unfold take.
  destruct (Nat.leb_spec n (length s)).
  - rewrite (Nat.add_comm n 4), slice4 by assumption. cbn [bind got yield]. rewrite indication_conv. unfold std, low_half. arith. reflexivity.
  - unfold slice. rewrite (proj2 (Nat.leb_gt (n + 4) _)) by (cbn [length]; lia). rewrite andb_false_r. reflexivity. Qed.
Lemma IntegerNumber_eq s : bytes s -> got (IntegerNumber_unmarshal Debug s) = IntegerNumber_reads s.
Proof. intros Hb. closes s. destruct (fits _ _) eqn:Hf; [|reflexivity]. pose proof (fits_inv _ _ Hf). rewrite ?slice4 by lia. reflexivity. Qed.
Lemma Ip4Cp_eq s : bytes s -> got (Ip4Cp_unmarshal Debug s) = Ip4Cp_reads s.
Proof. intros Hb. open_ 5%nat s. Qed.
Lemma IpAddress_eq s : bytes s -> got (IpAddress_unmarshal Debug s) = IpAddress_reads s.
Proof. intros Hb. closes s. destruct (fits _ _) eqn:Hf; [|reflexivity]. apply fits_inv in Hf.
  rewrite firstn_length_le by lia. set (n := 256 * a + b) in *.
  destruct (N.eqb_spec n 4) as [->|]; [change (N.to_nat 4) with 4%nat in *; change 8%nat with (4 + 4)%nat; rewrite slice4 by lia; reflexivity|].
  destruct (N.eqb_spec n 16) as [->|].
  - change (N.to_nat 16) with 16%nat in *. rewrite got_need. rewrite (proj2 (Nat.leb_le _ _)) by (cbn [length]; lia).
    change 20%nat with (4 + 16)%nat; rewrite slice4 by lia; reflexivity.
  - destruct (Nat.eqb_spec (N.to_nat n) 4); [lia|]. destruct (Nat.eqb_spec (N.to_nat n) 16); [lia|]. reflexivity. Qed.
Lemma Ldn_eq s : bytes s -> got (Ldn_unmarshal Debug s) = Ldn_reads s.
Proof. intros Hb. closes s. destruct (fits _ _) eqn:Hf; [|reflexivity]. pose proof (fits_inv _ _ Hf). rewrite ?slice4 by lia. reflexivity. Qed.
Lemma MaxPacketLossRate_eq s : bytes s -> got (MaxPacketLossRate_unmarshal Debug s) = MaxPacketLossRate_reads s.
Proof. intros Hb. opens s. destruct s as [|x s]; [reflexivity|]. cbn [length Nat.leb]. unfold at_. cbn [nth_error bind]. unfold andthen at 1. cbn [take1]. bys Hb.
  arith. replace (x mod 4) with ((if bit_at x 1 then 2 else 0) + (if bit_at x 0 then 1 else 0)) by (per_octet x).
  destruct (bit_at x 1), (bit_at x 0); unfold if_set.
  - change (2 + 1) with 3. change (3 =? 0) with false. change (3 =? 1) with false. change (3 =? 2) with false. change (3 =? 3) with true. cbv iota. rewrite got_checked.
    fixd 4%nat s. rewrite fits_yes by (cbn [length]; lia). run. arith. reflexivity.
  - change (2 + 0) with 2. change (2 =? 0) with false. change (2 =? 1) with false. change (2 =? 2) with true. cbv iota. rewrite got_checked.
    fixd 2%nat s. rewrite fits_yes by (cbn [length]; lia). run. arith. reflexivity.
  - change (0 + 1) with 1. change (1 =? 0) with false. change (1 =? 1) with true. cbv iota. rewrite got_checked.
    fixd 2%nat s. rewrite fits_yes by (cbn [length]; lia). run. arith. reflexivity.
  - reflexivity. Qed.
Lemma MbmsDistributionAck_eq s : bytes s -> got (MbmsDistributionAck_unmarshal Debug s) = MbmsDistributionAck_reads s.
Proof. intros Hb. open_ 1%nat s. Qed.
Lemma MbmsFlags_eq s : bytes s -> got (MbmsFlags_unmarshal Debug s) = MbmsFlags_reads s.
Proof. intros Hb. open_ 1%nat s. bys Hb. generalize (256 * a + b) (c mod 16). intros l i. per_octet x. Qed.
Lemma MbmsFlowId_eq s : bytes s -> got (MbmsFlowId_unmarshal Debug s) = MbmsFlowId_reads s.
Proof. intros Hb. open_ 2%nat s. Qed.
Lemma multicast_typed s c : (c <= length s)%nat -> sim s (multicast_ip_at s c) (typed_address (skipn c s)).
Proof.
  intros Hc. unfold multicast_ip_at, typed_address. apply step_1'. intros k Hk. assert (c < length s)%nat by (apply nth_error_Some; congruence).
  change (64 * 0 + 4) with 4. change (64 * 1 + 16) with 80. destruct (N.eqb_spec k 4); [|destruct (N.eqb_spec k 80); [|exact I]]; unfold need, andthen; rewrite take_skipn by lia.
  - replace (S c + 4)%nat with (c + 5)%nat by lia. destruct (Nat.leb_spec (c + 5) (length s)); [|exact I].
    rewrite slice_ok by lia. cbn [bind sim yield]. split; [|reflexivity]. do 2 f_equal; [lia|]. f_equal. lia.
  - replace (S c + 16)%nat with (c + 17)%nat by lia. destruct (Nat.leb_spec (c + 17) (length s)); [|exact I].
    rewrite slice_ok by lia. cbn [bind sim yield]. split; [|reflexivity]. do 2 f_equal; [lia|]. f_equal. lia.
Qed.
Lemma multicast_range s c x c' : multicast_ip_at s c = Ok (x, c') -> (c' <= length s)%nat.
Proof.
  unfold multicast_ip_at. intros H. apply bind_ok in H as (k & _ & H). destruct (k =? 4); [|destruct (k =? 80); [|discriminate]]; unfold need in H.
  - destruct (Nat.leb_spec (c + 5) (length s)); [|discriminate]. apply bind_ok in H as (y & _ & H). injection H as _ <-. assumption.
  - destruct (Nat.leb_spec (c + 17) (length s)); [|discriminate]. apply bind_ok in H as (y & _ & H). injection H as _ <-. assumption.
Qed.
Lemma MbmsIpMulticastDistribution_eq s : bytes s -> got (MbmsIpMulticastDistribution_unmarshal Debug s) = MbmsIpMulticastDistribution_reads s.
Proof. intros Hb. unf. hd s. rewrite got_need, got_hdr4. unfold checked_, element. cbn [length].
  do 4 (destruct s as [|?x s]; [cbn [Nat.leb length]; destruct (fits _ _); reflexivity|]).
  cbn [Nat.leb length]. unfold be_at. change (slice (t :: a :: b :: c :: x :: x0 :: x1 :: x2 :: s) 4 (4 + 4)) with (@Ok GTPV2Error _ [x; x0; x1; x2]).
  cbn [bind]. rewrite got_checked, be_list_base. destruct (fits _ _); [|reflexivity].
  unfold number, andthen at 1 2, take. cbn [length Nat.leb firstn skipn yield]. set (S0 := t :: a :: b :: c :: x :: x0 :: x1 :: x2 :: s).
  change s with (skipn 8 S0). change (match ?o with Some (v, _) => Some (mkIe 142 (256 * a + b) (whole c) v) | None => None end) with (wrap (mkIe 142 (256 * a + b) c) o).
  eapply step_c; [apply multicast_typed; unfold S0; cbn [length]; lia|]. intros a1 k1 H1. apply multicast_range in H1.
  eapply step_c; [apply multicast_typed; exact H1|]. intros a2 k2 H2. apply multicast_range in H2.
  rewrite got_need. rewrite (proj2 (Nat.leb_le _ _)) by exact H2. unfold yes_no.
  unfold at_, andthen. destruct (nth_error S0 k2) as [k|] eqn:E; cbn [bind]; [rewrite (skipn_cons _ _ _ E)|rewrite (skipn_none _ _ E); reflexivity].
  cbn [take1]. unfold accept. destruct (N.eqb_spec k 0) as [->|]; [reflexivity|]. destruct (N.eqb_spec k 1) as [->|]; [reflexivity|].
  destruct (N.ltb_spec k 2); [lia|reflexivity]. Qed.
Lemma MbmsServiceArea_eq s : bytes s -> got (MbmsServiceArea_unmarshal Debug s) = MbmsServiceArea_reads s.
Proof. intros Hb. loosen s. destruct (fits _ _) eqn:Hf; [|reflexivity]. destruct s as [|x s]; [reflexivity|]. unfold at_. cbn [nth_error bind]. rewrite got_need.
  unfold andthen at 1. cbn [take1]. bys Hb. rewrite number2_chunks by exact Hb. replace (N.to_nat x + 1)%nat with (S (N.to_nat x)) by lia. cbn [length].
  destruct (Nat.leb_spec (2 * S (N.to_nat x)) (length s)).
  - rewrite (proj2 (Nat.leb_le _ _)) by lia. rewrite slice_ok by (cbn [length]; lia). cbn [bind got wrap]. cbn [skipn]. do 4 f_equal. lia.
  - rewrite (proj2 (Nat.leb_gt _ _)) by lia. reflexivity. Qed.
Lemma MbmsSessionDuration_eq s : bytes s -> got (MbmsSessionDuration_unmarshal Debug s) = MbmsSessionDuration_reads s.
Proof. intros Hb. open_ 3%nat s. bys Hb. do 3 f_equal. unfold base256. cbn [fold_left]. unfold byte in *. lia. Qed.
Lemma MbmsSessionId_eq s : bytes s -> got (MbmsSessionId_unmarshal Debug s) = MbmsSessionId_reads s.
Proof. intros Hb. open_ 1%nat s. Qed.
Lemma MbmsTimeToDataTransfer_eq s : bytes s -> got (MbmsTimeToDataTransfer_unmarshal Debug s) = MbmsTimeToDataTransfer_reads s.
Proof. intros Hb. open_ 1%nat s. Qed.
Lemma opt_if_there f s c : (c <= length s)%nat -> sim s (opt_at f s c) (if_there f (skipn c s)).
Proof.
  intros Hc. unfold opt_at, if_there. destruct (Nat.ltb_spec c (length s)) as [H|H].
  - destruct (nth_error s c) as [x|] eqn:E; [|apply nth_error_None in E; lia]. unfold at_. rewrite E, (skipn_cons _ _ _ E).
    destruct f; cbn [andb bind sim]; split; try reflexivity. symmetry. apply skipn_cons. exact E.
  - rewrite andb_false_r. rewrite skipn_all2 by lia. cbn [sim]. split; [reflexivity|]. symmetry. apply skipn_all2. lia.
Qed.
Lemma opt_range f s c x c' : (c <= length s)%nat -> opt_at f s c = Ok (x, c') -> (c' <= length s)%nat.
Proof.
  unfold opt_at. intros Hc H. destruct (Nat.ltb_spec c (length s)) as [L|L]; [|rewrite andb_false_r in H; injection H as _ <-; exact Hc].
  destruct f; cbn [andb] in H; [apply bind_ok in H as (y & _ & H); injection H as _ <-; exact L|injection H as _ <-; exact Hc].
Qed.
Lemma plmns_ind (P : list N -> Prop) : P [] -> (forall a, P [a]) -> (forall a b, P [a; b]) -> (forall a b c r, P r -> P (a :: b :: c :: r)) -> forall l, P l.
Proof.
  intros H0 H1 H2 H3. assert (forall n l, (length l <= n)%nat -> P l) as G; [|intros l; exact (G _ l (le_n _))].
  induction n as [|n IH]; intros l Hl; [destruct l; [exact H0|cbn in Hl; lia]|].
  destruct l as [|a [|b [|c r]]]; [exact H0|apply H1|apply H2|]. apply H3, IH. cbn in Hl. lia.
Qed.
Lemma plmns_loop q : forall fuel s c, (length q <= fuel)%nat -> (c <= length s)%nat -> skipn c s = q -> got (mdt_plmns_loop fuel s c) = plmns q.
Proof.
  induction q as [|x|x y|x y z r IH] using plmns_ind; intros fuel s c Hf Hc Hq.
  - assert (length (skipn c s) = 0%nat) as E by (rewrite Hq; reflexivity). rewrite skipn_length in E.
    destruct fuel; cbn [mdt_plmns_loop]; (destruct (Nat.ltb_spec c (length s)); [lia|reflexivity]).
  - assert (length (skipn c s) = 1%nat) as E by (rewrite Hq; reflexivity). rewrite skipn_length in E. cbn [length] in Hf.
    destruct fuel; [lia|]. cbn [mdt_plmns_loop]. destruct (Nat.ltb_spec c (length s)); [|lia]. rewrite got_need. destruct (Nat.leb_spec (c + 3) (length s)); [lia|reflexivity].
  - assert (length (skipn c s) = 2%nat) as E by (rewrite Hq; reflexivity). rewrite skipn_length in E. cbn [length] in Hf.
    destruct fuel; [lia|]. cbn [mdt_plmns_loop]. destruct (Nat.ltb_spec c (length s)); [|lia]. rewrite got_need. destruct (Nat.leb_spec (c + 3) (length s)); [lia|reflexivity].
  - assert (length (skipn c s) = (3 + length r)%nat) as E by (rewrite Hq; reflexivity). rewrite skipn_length in E. cbn [length] in Hf.
    destruct fuel; [lia|]. cbn [mdt_plmns_loop]. destruct (Nat.ltb_spec c (length s)); [|lia]. rewrite got_need. destruct (Nat.leb_spec (c + 3) (length s)); [|lia].
    rewrite (plmn_at_skip s c x y z r Hq). cbn [bind plmns]. rewrite got_bind. rewrite (IH fuel s (c + 3)%nat); [|lia|lia|].
    + destruct (plmns r); reflexivity.
    + rewrite <- skipn_skipn', Hq. reflexivity.
Qed.
Lemma MdtConfiguration_eq s : bytes s -> got (MdtConfiguration_unmarshal Debug s) = MdtConfiguration_reads s.
Proof. intros Hb. opens s. do 11 (destruct s as [|?x s]; [reflexivity|]).
  set (S0 := t :: a :: b :: c :: x :: x0 :: x1 :: x2 :: x3 :: x4 :: x5 :: x6 :: x7 :: x8 :: x9 :: s) in *. change (15 <=? length S0)%nat with true. cbv iota.
  assert (HJ : MdtJobType_of x = entry x [MdtJobType_ImmediateMdtonly; MdtJobType_LoggedMdtonly; MdtJobType_TraceOnly;
    MdtJobType_ImmediateMdtandTrace; MdtJobType_RlfReportsonly; MdtJobType_RcefReportsonly;
    MdtJobType_LoggedMbsfnMdt] MdtJobType_ImmediateMdtonly) by (assert (byte x) by (unfold S0 in Hb; bys Hb; assumption); per_octet x).
  change (@at_ GTPV2Error S0 4) with (@Ok GTPV2Error _ x). change (@slice GTPV2Error S0 5 9) with (@Ok GTPV2Error _ [x0; x1; x2; x3]). change (@at_ GTPV2Error S0 9) with (@Ok GTPV2Error _ x4). change (@at_ GTPV2Error S0 10) with (@Ok GTPV2Error _ x5).
  change (@at_ GTPV2Error S0 11) with (@Ok GTPV2Error _ x6). change (@at_ GTPV2Error S0 12) with (@Ok GTPV2Error _ x7). change (@at_ GTPV2Error S0 13) with (@Ok GTPV2Error _ x8). change (@at_ GTPV2Error S0 14) with (@Ok GTPV2Error _ x9).
  cbn [bind]. unfold andthen at 1. cbn [take1]. unfold andthen at 1, take at 1. cbn [length Nat.leb firstn skipn]. unfold andthen at 1 2 3 4 5. cbn [take1].
  unfold andthen at 1.
  assert (H0 : (15 <= length S0)%nat) by (unfold S0; cbn [length]; lia).
  (* the area *)
  assert (HA : sim S0 (if x9 =? 0 then Ok (None, 15%nat) else let? s := slice S0 15 (15 + N.to_nat x9) in Ok (Some s, (15 + N.to_nat x9)%nat))
     ((let! n := take1 in if n =? 0 then yield None else let! o := take (N.to_nat n) in yield (Some o)) (x9 :: s)) ).
  { unfold andthen at 1. cbn [take1]. destruct (x9 =? 0); [split; reflexivity|]. change s with (skipn 15 S0). unfold andthen. rewrite take_skipn by exact H0.
    destruct (Nat.leb_spec (15 + N.to_nat x9) (length S0)) as [Hl|Hl].
    - rewrite slice_ok by lia. cbn [bind sim yield]. split; [|reflexivity]. do 2 f_equal. lia.
    - unfold slice. rewrite (proj2 (Nat.leb_gt (15 + N.to_nat x9) (length S0))) by lia. rewrite andb_false_r. exact I. }
  eapply step_c; [exact HA|]. clear HA. intros area k Hk.
  assert (Hr : (k <= length S0)%nat).
  { destruct (x9 =? 0); [injection Hk as _ <-; exact H0|]. apply bind_ok in Hk as (y & Hy & Hk). injection Hk as _ <-. unfold slice in Hy.
    destruct (Nat.leb_spec (15 + N.to_nat x9) (length S0)); [lia|]. rewrite andb_false_r in Hy. discriminate. }
  apply step_1. intros f Hff. assert (Hlt : (k < length S0)%nat) by (apply nth_error_Some; congruence).
  arith. change ((f / 4) mod 2 =? 1) with (bit_at f 2). change ((f / 2) mod 2 =? 1) with (bit_at f 1). rewrite bit0_mod.
  eapply step_c; [apply opt_if_there; exact Hlt|]. intros rrm k1 H1. apply opt_range in H1; [|exact Hlt].
  eapply step_c; [apply opt_if_there; exact H1|]. intros lte k2 H2. apply opt_range in H2; [|exact H1].
  eapply step_c; [apply opt_if_there; exact H2|]. intros pos k3 H3. apply opt_range in H3; [|exact H2].
  unfold andthen at 1. destruct (f / 8 =? 1); [|cbn [bind got yield wrap]; rewrite HJ; reflexivity].
  unfold at_, andthen at 1. destruct (nth_error S0 k3) as [n|] eqn:En; [|rewrite (skipn_none _ _ En); reflexivity].
  rewrite (skipn_cons _ _ _ En). cbn [bind take1]. assert (Hlt3 : (k3 < length S0)%nat) by (apply nth_error_Some; congruence).
  unfold accept, andthen at 1. destruct (n <? 16); [|reflexivity]. unfold andthen at 1, room. rewrite skipn_length. unfold need.
  replace (N.to_nat n * 3 <=? length S0 - S k3)%nat with (k3 + 1 + N.to_nat n * 3 <=? length S0)%nat
    by (destruct (Nat.leb_spec (k3 + 1 + N.to_nat n * 3) (length S0)); destruct (Nat.leb_spec (N.to_nat n * 3) (length S0 - S k3)); reflexivity || lia).
  destruct (Nat.leb_spec (k3 + 1 + N.to_nat n * 3) (length S0)); [|reflexivity]. unfold andthen, the_rest.
  rewrite !got_bind, (Nat.add_1_r k3), (plmns_loop (skipn (S k3) S0) (length S0) S0 (S k3)) by (rewrite ?skipn_length; lia || reflexivity).
  destruct (plmns (skipn (S k3) S0)); [|reflexivity]. cbn [got yield wrap]. rewrite HJ. reflexivity. Qed.
Lemma Mei_eq s : bytes s -> got (Mei_unmarshal Debug s) = Mei_reads s.
Proof. intros Hb. closes s. destruct (fits _ _) eqn:Hf; [|reflexivity]. pose proof (fits_inv _ _ Hf). unfold end16. rewrite (end16_fits _ _ Hf). cbn [bind]. rewrite ?slice4 by lia. cbn [bind got]. rewrite tbcd_number. reflexivity. Qed.
Lemma Metric_eq s : bytes s -> got (Metric_unmarshal Debug s) = Metric_reads s.
Proof. intros Hb. open_ 1%nat s. bys Hb. do 2 f_equal. per_octet x. Qed.
Lemma MilliSecondTimeStamp_eq s : bytes s -> got (MilliSecondTimeStamp_unmarshal Debug s) = MilliSecondTimeStamp_reads s.
Proof. intros Hb. open_ 6%nat s. Qed.
