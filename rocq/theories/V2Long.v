(* V2Long.v - every element that declares more than 65531 octets, against V2LongSpec.v. *)
From Verif Require Import Base BaseFacts V2CrashSpec V2HangSpec V2LongSpec.
From Verif Require Export V2Hang.
Local Open Scope N_scope.

Lemma sum_wraps {E} d : 65531 < d -> d <= 65535 -> @add16 E Release d 4 = Ok (d + 4 - 65536).
Proof.
  intros H1 H2. unfold add16, ov. destruct (N.ltb_spec (d + 4) 65536); [lia|].
  replace ((d + 4) mod 65536) with (d + 4 - 65536) by (apply N.mod_unique with (q := 1); lia). reflexivity.
Qed.
Lemma sum_panics {E} d : 65531 < d -> @add16 E Debug d 4 = Panic.
Proof. intros H1. unfold add16, ov. destruct (N.ltb_spec (d + 4) 65536); [lia|]. reflexivity. Qed.
Lemma crash_checked_long {A} (P : Prop) m b e (k : res A) : 65531 < declared b -> declared b <= 65535 -> (4 <= length b)%nat ->
  (m = Debug -> P) -> (m = Release -> crash P k) -> crash P (checked m (declared b) b e k).
Proof.
  intros H1 H2 L D R. unfold checked, check_tliv_ie_buffer. rewrite (proj2 (N.eqb_neq _ _)) by lia. destruct m.
  - rewrite sum_panics by lia. apply crash_panic. auto.
  - rewrite sum_wraps by lia. cbn [bind]. destruct (Nat.leb_spec (N.to_nat (declared b + 4 - 65536)) (length b)); [auto|lia].
Qed.
Lemma crash_rel {A} (P : Prop) (r : res A) : crash P r -> crash (Release = Debug \/ P) r.
Proof. apply crash_ext. split; [auto|]. intros [H|H]; [discriminate H|exact H]. Qed.
Lemma crash_wrap {A} (P : Prop) b i (k : list N -> res A) : P -> (4 <= i)%nat -> 65531 < declared b -> declared b <= 65535 ->
  crash P (bind (end16 Release (declared b) 4) (fun e => bind (slice b i e) k)).
Proof.
  intros HP Hi H1 H2. unfold end16. rewrite sum_wraps by lia. cbn [bind]. unfold slice.
  replace (i <=? N.to_nat (declared b + 4 - 65536))%nat with false by (symmetry; apply Nat.leb_gt; lia). apply crash_panic. exact HP.
Qed.
Ltac long_start := intros m b Hb Hd; pose proof (declared_lt b Hb) as Hu; match goal with |- crash _ (?f _ _) => unfold f end;
  apply crash_need; [intros L|lia]; apply crash_hdr4; [lia|].
Ltac long_check := apply crash_checked_long; [assumption|assumption|lia|intros ->; split; [assumption|left; reflexivity]|intros ->; apply and_crash; [assumption|apply crash_rel]].
Ltac cut := long_start; long_check; cr; unfold cut_short; lia.
Ltac wrap := long_start; long_check; cr; apply crash_wrap; [exact I|lia|assumption|assumption].

Lemma Imsi_long : forall m b, bytes b -> 65531 < declared b -> crash ((5 <= length b)%nat /\ (m = Debug \/ cut_short b)) (Imsi_unmarshal m b).
Proof. cut. Qed.
Lemma AlternativeImsi_long : forall m b, bytes b -> 65531 < declared b -> crash ((5 <= length b)%nat /\ (m = Debug \/ cut_short b)) (AlternativeImsi_unmarshal m b).
Proof. cut. Qed.
Lemma Apco_long : forall m b, bytes b -> 65531 < declared b -> crash ((4 <= length b)%nat /\ (m = Debug \/ cut_short b)) (Apco_unmarshal m b).
Proof. cut. Qed.
Lemma BearerTft_long : forall m b, bytes b -> 65531 < declared b -> crash ((4 <= length b)%nat /\ (m = Debug \/ cut_short b)) (BearerTft_unmarshal m b).
Proof. cut. Qed.
Lemma TrafficAggregateDescription_long : forall m b, bytes b -> 65531 < declared b -> crash ((4 <= length b)%nat /\ (m = Debug \/ cut_short b)) (TrafficAggregateDescription_unmarshal m b).
Proof. cut. Qed.
Lemma Ldn_long : forall m b, bytes b -> 65531 < declared b -> crash ((4 <= length b)%nat /\ (m = Debug \/ cut_short b)) (Ldn_unmarshal m b).
Proof. cut. Qed.
Lemma IntegerNumber_long : forall m b, bytes b -> 65531 < declared b -> crash ((4 <= length b)%nat /\ (m = Debug \/ cut_short b)) (IntegerNumber_unmarshal m b).
Proof. cut. Qed.
Lemma GroupId_long : forall m b, bytes b -> 65531 < declared b -> crash ((4 <= length b)%nat /\ (m = Debug \/ cut_short b)) (GroupId_unmarshal m b).
Proof. cut. Qed.
Lemma Fcause_long : forall m b, bytes b -> 65531 < declared b -> crash ((5 <= length b)%nat /\ (m = Debug \/ cut_short b)) (Fcause_unmarshal m b).
Proof. long_start. apply crash_at; [intros _|lia]. long_check. cr; unfold cut_short; lia. Qed.
Lemma Mei_long : forall m b, bytes b -> 65531 < declared b -> crash ((4 <= length b)%nat /\ (m = Debug \/ always b)) (Mei_unmarshal m b).
Proof. wrap. Qed.
Lemma Msisdn_long : forall m b, bytes b -> 65531 < declared b -> crash ((4 <= length b)%nat /\ (m = Debug \/ always b)) (Msisdn_unmarshal m b).
Proof. wrap. Qed.
Lemma Pco_long : forall m b, bytes b -> 65531 < declared b -> crash ((4 <= length b)%nat /\ (m = Debug \/ always b)) (Pco_unmarshal m b).
Proof. wrap. Qed.
Lemma Epco_long : forall m b, bytes b -> 65531 < declared b -> crash ((4 <= length b)%nat /\ (m = Debug \/ always b)) (Epco_unmarshal m b).
Proof. wrap. Qed.
Lemma SourceRncPdcpContextInfo_long : forall m b, bytes b -> 65531 < declared b -> crash ((4 <= length b)%nat /\ (m = Debug \/ always b)) (SourceRncPdcpContextInfo_unmarshal m b).
Proof. wrap. Qed.
Lemma StnSr_long : forall m b, bytes b -> 65531 < declared b -> crash ((4 <= length b)%nat /\ (m = Debug \/ always b)) (StnSr_unmarshal m b).
Proof. long_start. long_check. apply crash_at; [intros _|intros; exact I]. apply crash_wrap; [exact I|lia|assumption|assumption]. Qed.
Lemma PrivateExtension_long : forall m b, bytes b -> 65531 < declared b -> crash ((7 <= length b)%nat /\ (m = Debug \/ always b)) (PrivateExtension_unmarshal m b).
Proof. long_start. long_check. apply crash_be_at; [intros _ v|intros; exact I]. apply crash_wrap; [exact I|lia|assumption|assumption]. Qed.
Lemma crash_name {A} b (k : nat) (f : list N -> res A) : (k <= N.to_nat (declared b))%nat -> (forall x, returns (f x)) ->
  crash (bad_name k b) (bind (slice b (4 + k) (4 + N.to_nat (declared b))) (fun o => bind (labels_decode o) f)).
Proof.
  intros Hk Hf. unfold bad_name, cut_short. apply crash_slice; [lia|intros L|auto].
  replace (firstn _ _) with (skipn k (value_of b)).
  2:{ unfold value_of. rewrite skipn_firstn_comm, skipn2. reflexivity. }
  apply (crash_ext (~ labels_fit (skipn k (value_of b)))); [split; [auto|intros [K|K]; [lia|exact K]]|].
  apply crash_bind_l; [apply labels_decode_crash|exact Hf].
Qed.
Lemma Apn_long : forall m b, bytes b -> 65531 < declared b -> crash ((4 <= length b)%nat /\ (m = Debug \/ bad_name 0 b)) (Apn_unmarshal m b).
Proof. long_start. long_check. apply (crash_name b 0); [lia|intros; exact I]. Qed.
Lemma Fqdn_long : forall m b, bytes b -> 65531 < declared b -> crash ((4 <= length b)%nat /\ (m = Debug \/ bad_name 0 b)) (Fqdn_unmarshal m b).
Proof. long_start. long_check. apply (crash_name b 0); [lia|intros; exact I]. Qed.
Lemma PgwFqdn_long : forall m b, bytes b -> 65531 < declared b -> crash ((4 <= length b)%nat /\ (m = Debug \/ bad_name 0 b)) (PgwFqdn_unmarshal m b).
Proof. long_start. long_check. apply (crash_name b 0); [lia|intros; exact I]. Qed.
Lemma ApnRelativeCapacity_long : forall m b, bytes b -> 65531 < declared b -> crash ((4 <= length b)%nat /\ (m = Debug \/ length b = 4%nat \/ bad_name 1 b)) (ApnRelativeCapacity_unmarshal m b).
Proof. long_start. long_check. apply crash_at; [intros L4|intros; left; lia]. cbv zeta. apply (crash_ext (bad_name 1 b)); [split; [auto|intros [K|K]; [lia|exact K]]|]. apply (crash_name b 1); [lia|intros; exact I]. Qed.
Lemma IpAddress_long : forall m b, bytes b -> 65531 < declared b -> crash ((4 <= length b)%nat /\ (m = Debug \/ never b)) (IpAddress_unmarshal m b).
Proof. long_start. long_check. cr; eqs; try lia; intros K; exact K. Qed.
Lemma crash_inner {A} P m n b e (k : res A) : (0 < n)%nat -> (n <= 1000)%nat -> ((4 + n <= length b)%nat -> crash P k) -> ((length b < 4 + n)%nat -> ~ P) ->
  crash P (checked m (N.of_nat n) b e k).
Proof.
  intros H0 H1 H K. unfold checked, check_tliv_ie_buffer. rewrite (proj2 (N.eqb_neq _ _)) by lia. rewrite add16_small by lia. cbn [bind].
  destruct (Nat.leb_spec (N.to_nat (N.of_nat n + 4)) (length b)); [apply H; lia|apply crash_err, K; lia].
Qed.
Lemma Fqcsid_long : forall m b, bytes b -> 65531 < declared b -> crash ((5 <= length b)%nat /\ (m = Debug \/ never b)) (Fqcsid_unmarshal m b).
Proof. 
  long_start. long_check. apply crash_at; [intros _|lia]. cbv zeta. assert (M : (N.to_nat (N.land (oct b 4) 15) < 16)%nat) by (rewrite and15; pose proof (N.mod_lt (oct b 4) 16); lia).
  set (n := N.to_nat _) in *. clearbody n. assert (X : ~ never b) by (intros K; exact K).
  repeat (apply crash_if; intros _; [apply crash_inner; [lia|lia|intros|auto]; cr; (lia || exact X)|]). apply crash_err, X.
 Qed.
Lemma RanNasCause_long : forall m b, bytes b -> 65531 < declared b -> crash ((6 <= length b)%nat /\ (m = Debug \/ never b)) (RanNasCause_unmarshal m b).
Proof. long_start. long_check. cr; try lia; intros K; exact K. Qed.
Lemma NodeIdentifier_long : forall m b, bytes b -> 65531 < declared b -> crash ((5 <= length b)%nat /\ (m = Debug \/ never b)) (NodeIdentifier_unmarshal m b).
Proof. long_start. long_check. cr; try lia; try (intros K; exact K). Qed.
Lemma PdnAddressAllocation_long : forall m b, bytes b -> 65531 < declared b -> crash ((5 <= length b)%nat /\ (m = Debug \/ ((oct b 4 = 1 /\ (length b < 9)%nat) \/ (oct b 4 = 2 /\ (length b < 22)%nat) \/ (oct b 4 = 3 /\ (length b < 26)%nat)))) (PdnAddressAllocation_unmarshal m b).
Proof. long_start. long_check. cr; eqs; repeat match goal with H : (_ <=? _) = true |- _ => apply N.leb_le in H | H : (_ <=? _) = false |- _ => apply N.leb_gt in H end; lia. Qed.
Lemma SgiPtpTunnelAddress_long : forall m b, bytes b -> 65531 < declared b -> crash ((5 <= length b)%nat /\ (m = Debug \/ never b)) (SgiPtpTunnelAddress_unmarshal m b).
Proof. 
  long_start. long_check. assert (X : ~ never b) by (intros K; exact K). apply crash_at; [intros _|lia].
  assert (U : forall (f : bool) n c, returns (opt_be_at f n (IEInvalidLength 213) b c)) by (intros [|] n c; [|exact I]; unfold opt_be_at; safe2).
  repeat (apply crash_if; intros _; [apply crash_need; [intros|auto]; apply crash_slice; [lia|intros|lia]; right; split; [exact X|]; apply returns_bind; [apply U|]; intros [p c] _; exact I|]).
  apply crash_err, X.
 Qed.
Lemma Uli_long : forall m b, bytes b -> 65531 < declared b -> crash ((4 <= length b)%nat /\ (m = Debug \/ (length b = 4%nat \/ (flag_at b 4 2 = true /\ 8 <= oct b 4 /\ length b = (5 + if_set (flag_at b 4 0) 7 + if_set (flag_at b 4 1) 7 + 6)%nat)))) (Uli_unmarshal m b).
Proof. 
  long_start. long_check. unfold flag_at. apply crash_at; [intros L4|intros; left; lia]. apply (crash_ext (N.testbit (oct b 4) 2 = true /\ 8 <= oct b 4 /\
    length b = (5 + if_set (N.testbit (oct b 4) 0) 7 + if_set (N.testbit (oct b 4) 1) 7 + 6)%nat)); [split; [auto|intros [K|K]; [lia|exact K]]|].
  apply crash_bind_l; [|intros; exact I].
  pose proof (to_flags_tail _ (oct_lt b 4 Hb)) as T. unfold to_flags. change [1; 2; 3; 4; 5; 6; 7; 8] with ([1; 2; 3] ++ [4; 5; 6; 7; 8]). rewrite filter_app.
  assert (A : Forall (fun k => 4 <= k <= 8) (filter (fun k => bit (oct b 4) (2 ^ (k - 1))) [4; 5; 6; 7; 8])).
  { apply Forall_forall. intros k K. apply filter_In in K as [K _]. cbn [In] in K. lia. }
  set (l := filter _ [4; 5; 6; 7; 8]) in *. clearbody l. cbn [filter]. rewrite !bit_pow2. change (1 - 1) with 0. change (2 - 1) with 1. change (3 - 1) with 2.
  set (x := oct b 4) in *. assert (G : forall c, (c <= length b)%nat -> forall P : Prop, ~ P -> crash P (loc_loop l b c)).
  { intros c Hc P HP. right. split; [exact HP|]. apply loc_tail_returns; assumption. }
  assert (G3 : forall c, (c <= length b)%nat -> N.testbit x 2 = true -> crash (true = true /\ 8 <= x /\ length b = (c + 6)%nat) (loc_loop (3 :: l) b c)).
  { intros c Hc _. apply crash_loc; [lia|exact Hc| |change (loc_need 3) with 6%nat; lia]. change (loc_need 3) with 6%nat. change (loc_step 3) with 7%nat. intros L6.
    destruct (Nat.leb_spec (c + 7) (length b)) as [L7|L7]; [apply G; lia|]. destruct (N.ltb_spec x 8) as [X|X].
    - rewrite (proj2 T X). apply crash_ok. lia.
    - destruct l as [|k l']; [apply proj1 in T; specialize (T eq_refl); lia|]. cbn [loc_loop]. unfold slice_from. destruct (Nat.leb_spec (c + 7) (length b)); [lia|]. apply crash_panic. split; [reflexivity|lia]. }
  destruct (N.testbit x 0), (N.testbit x 1), (N.testbit x 2) eqn:E2; cbn [if_set app];
    repeat (apply crash_loc; [lia|lia| |]; change (loc_need 1) with 7%nat; change (loc_need 2) with 7%nat; change (loc_step 1) with 7%nat; change (loc_step 2) with 7%nat; [intros|lia]).
  all: try (apply G; [lia|intros [? _]; discriminate]). all: apply G3; [lia|reflexivity].
 Qed.
Lemma Fteid_long : forall m b, bytes b -> 65531 < declared b -> crash ((4 <= length b)%nat /\ (m = Debug \/ (length b < 9 + if_set (flag_at b 4 7) 4 + if_set (flag_at b 4 6) 16)%nat)) (Fteid_unmarshal m b).
Proof. 
  long_start. long_check. unfold flag_at. apply crash_at; [intros L4|lia]. pose proof (shiftr_7_bit _ (oct_lt b 4 Hb)) as [E1 E0].
  apply crash_be_at; [intros|unfold if_set; destruct (N.testbit _ _), (N.testbit _ _); lia]. cbv zeta. rewrite E1, E0, !land_shift_1.
  destruct (N.testbit (oct b 4) 7), (N.testbit (oct b 4) 6); cbn [negb andb N.eqb Pos.eqb if_set]; cr; lia.
 Qed.
Lemma S103pdf_long : forall m b, bytes b -> 65531 < declared b -> crash ((4 <= length b)%nat /\ (m = Debug \/ (length b = 4%nat \/ (oct b 4 = 4 /\ (length b < 14)%nat) \/ (oct b 4 = 16 /\ (length b = 25 \/ length b = 25 + lof b 25)%nat)))) (S103pdf_unmarshal m b).
Proof. 
  long_start. long_check. cr; fold (lof b 13) in *; fold (lof b 25) in *; eqs; try lia.
 Qed.
Lemma S1udf_long : forall m b, bytes b -> 65531 < declared b -> crash ((4 <= length b)%nat /\ (m = Debug \/ ((length b < 6)%nat \/ (oct b 5 = 4 /\ (length b < 14)%nat) \/ (oct b 5 = 16 /\ (22 <= length b < 26)%nat)))) (S1udf_unmarshal m b).
Proof. long_start. long_check. cr; eqs; lia. Qed.
Lemma CompleteRequestMessage_long : forall m b, bytes b -> 65531 < declared b -> crash ((5 <= length b)%nat /\ (m = Debug \/ (oct b 4 < 2 /\ cut_short b))) (CompleteRequestMessage_unmarshal m b).
Proof. long_start. long_check. unfold cut_short. cr; eqs; lia. Qed.
Lemma Fcontainer_long : forall m b, bytes b -> 65531 < declared b -> crash ((5 <= length b)%nat /\ (m = Debug \/ (oct b 4 <> 0 /\ cut_short b))) (Fcontainer_unmarshal m b).
Proof. 
  long_start. long_check. unfold cut_short. apply crash_at; [intros _|lia]. cbv zeta. destruct (N.eqb_spec (oct b 4) 0) as [Z|Z]; [cbn [bind]; cr; lia|].
  repeat match goal with |- crash _ (bind (if ?c then _ else _) _) => destruct c end; rewrite bind_bind; cr; cbn [bind]; cr; lia.
 Qed.
Lemma MbmsServiceArea_long : forall m b, bytes b -> 65531 < declared b -> crash ((4 <= length b)%nat /\ (m = Debug \/ length b = 4%nat)) (MbmsServiceArea_unmarshal m b).
Proof. long_start. long_check. cr; lia. Qed.
Lemma MbmsIpMulticastDistribution_long : forall m b, bytes b -> 65531 < declared b -> crash ((8 <= length b)%nat /\ (m = Debug \/ (length b = 8%nat \/ exists n1, ip_size (oct b 8) = Some n1 /\ (length b = (9 + n1)%nat \/ exists n2, ip_size (oct b (9 + n1)) = Some n2 /\ length b = (10 + n1 + n2)%nat)))) (MbmsIpMulticastDistribution_unmarshal m b).
Proof. 
  long_start. apply crash_be_at; [intros _ teid|lia]. long_check. apply crash_multicast.
  - intros n1 E1 L1 x1. cbv beta iota. change (8 + 1 + n1)%nat with (9 + n1)%nat in *. apply crash_multicast.
    + intros n2 E2 L2 x2. cbv beta iota. replace (9 + n1 + 1 + n2)%nat with (10 + n1 + n2)%nat in * by lia.
      assert (Q : (length b = 8%nat \/ (exists n, ip_size (oct b 8) = Some n /\ (length b = (9 + n)%nat \/ (exists n', ip_size (oct b (9 + n)) = Some n' /\ length b = (10 + n + n')%nat)))) <-> length b = (10 + n1 + n2)%nat).
      { split; [|intros E; right; exists n1; split; [exact E1|right; exists n2; auto]].
        intros [E|(n & En & [E|(n' & En' & E)])]; [lia|rewrite E1 in En; injection En as <-; lia|].
        rewrite E1 in En; injection En as <-. rewrite E2 in En'. injection En' as <-. exact E. }
      apply (crash_ext _ _ _ (iff_sym Q)). apply crash_need; [intros|lia]. apply crash_at; [intros|lia]. cr; lia.
    + intros LL. right. exists n1. split; [exact E1|left; lia].
    + intros LL E2 [E|(n & En & [E|(n' & En' & E)])]; [lia|rewrite E1 in En; injection En as <-; lia|].
      rewrite E1 in En; injection En as <-. congruence.
    + intros n2 LL E2 L2 [E|(n & En & [E|(n' & En' & E)])]; [lia|rewrite E1 in En; injection En as <-; lia|].
      rewrite E1 in En; injection En as <-. rewrite E2 in En'. injection En' as <-. lia.
  - intros; left; lia.
  - intros LL E1 [E|(n & En & _)]; [lia|congruence].
  - intros n1 LL E1 L1 [E|(n & En & [E|(n' & En' & E)])]; [lia|rewrite E1 in En; injection En as <-; lia|rewrite E1 in En; injection En as <-; lia].
 Qed.
Lemma NodeNumber_long : forall m b, bytes b -> 65531 < declared b -> crash ((5 <= length b)%nat /\ (m = Debug \/ (lof b 4 = 0 \/ length b < 5 + lof b 4)%nat)) (NodeNumber_unmarshal m b).
Proof. 
  long_start. long_check. apply crash_at; [intros|lia]. fold (lof b 4). apply crash_slice; [lia|intros|lia].
  apply crash_slice_from; rewrite firstn_length, skipn_length; [intros; apply crash_ok; lia|lia].
 Qed.
Lemma PresenceReportingAreaAction_long : forall m b, bytes b -> 65531 < declared b -> crash ((4 <= length b)%nat /\ (m = Debug \/ (length b < 14 \/ length b = praa_end b)%nat)) (PresenceReportingAreaAction_unmarshal m b).
Proof. 
  intros m b Hb Hd; pose proof (declared_lt b Hb) as Hu. unfold PresenceReportingAreaAction_unmarshal, praa_end. cbv zeta. apply crash_need; [intros L|lia]. apply crash_hdr4; [lia|]. long_check.
  apply crash_at; [intros _|lia]. apply crash_be_at; [intros _ prai|lia]. do 6 (apply crash_at; [intros ?|lia]).
  apply crash_need; [intros L14|lia]. rewrite !and63, and15, N.shiftr_div_pow2. change (2 ^ 4) with 16. unfold low6.
  set (n1 := N.to_nat (oct b 8 / 16)). set (n2 := N.to_nat (oct b 9 mod 64)). set (n3 := N.to_nat (oct b 10 mod 64)). set (n4 := N.to_nat (oct b 11 mod 64)).
  set (n5 := N.to_nat (oct b 8 mod 16)). set (n6 := N.to_nat (oct b 12 mod 64)). set (n7 := N.to_nat (oct b 13 mod 64)). clearbody n1 n2 n3 n4 n5 n6 n7.
  many_step; [|lia]. many_step; [|lia]. many_step; [|lia]. many_step; [|lia]. many_step; [|lia]. many_step; [|lia]. many_step; [|lia].
  match goal with |- context [at_ b ?e] => set (c := e); assert (Ec : c = (14 + 5 * n1 + 6 * (n2 + n3) + 7 * (n4 + n5 + n6 + n7))%nat) by (unfold c; lia) end. clearbody c. rewrite <- Ec. clear Ec.
  apply crash_bind_l; [|intros; exact I]. destruct (Nat.leb_spec c (length b)); [|apply crash_ok; lia]. apply crash_at; [intros|intros; right; lia].
  many_step; [apply crash_ok; lia|lia].
 Qed.
Lemma RemoteUeIpInformation_long : forall m b, bytes b -> 65531 < declared b -> crash ((5 <= length b)%nat /\ (m = Debug \/ ((oct b 4 = 1 /\ (length b < 9)%nat) \/ (oct b 4 = 2 /\ (length b < 13)%nat)))) (RemoteUeIpInformation_unmarshal m b).
Proof. long_start. long_check. cr; eqs; repeat match goal with H : (_ <=? _) = true |- _ => apply N.leb_le in H | H : (_ <=? _) = false |- _ => apply N.leb_gt in H end; lia. Qed.
Lemma MonitoringEventExtensionInfo_long : forall m b, bytes b -> 65531 < declared b -> crash ((4 <= length b)%nat /\ (m = Debug \/ (length b < 10 \/ length b = 9 + lof b 9)%nat)) (MonitoringEventExtensionInfo_unmarshal m b).
Proof. 
  long_start. long_check. apply crash_be_at; [intros|lia]. apply crash_at; [intros|lia]. cbv zeta. fold (lof b 9).
  apply crash_need; [intros|lia]. apply crash_slice; [lia|intros|lia]. right. split; [lia|].
  assert (U : forall (f : bool) n c, returns (opt_be_at f n (IEInvalidLength 206) b c)).
  { intros [|] n c; [|exact I]. unfold opt_be_at. safe2. }
  apply returns_bind; [unfold utf8_or; destruct (utf8_strict _); exact I|]. intros id _. apply returns_at; [lia|]. intros x Hx.
  apply returns_bind; [apply U|]. intros [rm c] _. apply returns_bind; [apply U|]. intros [ext c'] _. exact I.
 Qed.
Lemma PC5QosFlow_long : forall m b, bytes b -> 65531 < declared b -> crash ((4 <= length b)%nat /\ (m = Debug \/ (length b < 14 + if_set (flag_at b 4 0) 1)%nat)) (PC5QosFlow_unmarshal m b).
Proof. long_start. long_check. unfold flag_at. rewrite <- bit_1. cr; unfold if_set in *; destruct (bit (oct b 4) 1); try lia; try discriminate. Qed.
Lemma SpecialIEWithTypeExt_long : forall m b, bytes b -> 65531 < declared b -> crash ((5 <= length b)%nat /\ (m = Debug \/ (length b = 5%nat \/ cut_short b))) (SpecialIEWithTypeExt_unmarshal m b).
Proof. long_start. unfold cut_short. apply crash_be_at; [intros|intros; split; [exact L|lia]]. long_check. cr; lia. Qed.
Lemma Unknown_long : forall m b, bytes b -> 65531 < declared b -> b <> [] -> crash (4 <= length b)%nat (Unknown_unmarshal m b).
Proof.
  intros m b Hb Hd Hn. pose proof (declared_lt b Hb) as Hu. unfold Unknown_unmarshal. destruct (Nat.leb_spec 4 (length b)) as [L|L].
  - apply crash_hdr4; [exact L|]. apply crash_checked_long; [assumption|assumption|exact L|auto|]. intros ->. apply crash_wrap; [exact L|lia|assumption|assumption].
  - rewrite (first_octet b _ Hn eq_refl). apply crash_err. lia.
Qed.
Lemma Grouped_long : forall dec m b, bytes b -> 65531 < declared b -> b <> [] -> crash (4 <= length b)%nat (GroupedIe_unmarshal dec m b).
Proof.
  intros dec m b Hb Hd Hn. pose proof (declared_lt b Hb) as Hu. unfold GroupedIe_unmarshal, MIN_IE_SIZE. rewrite (first_octet b _ Hn eq_refl). cbn [bind]. destruct (Nat.leb_spec 4 (length b)) as [L|L].
  - apply crash_hdr4; [exact L|]. apply crash_checked_long; [assumption|assumption|exact L|auto|]. intros ->. apply crash_wrap; [exact L|lia|assumption|assumption].
  - apply crash_err. lia.
Qed.

(* --- the element as a whole --- *)
Lemma long_in t n P (b : list N) m r : oct b 0 = t -> nth_error (filter (fun q => fst q =? t) long_table) 0 = Some (t, (n, P)) -> length (filter (fun q => fst q =? t) long_table) = 1%nat ->
  existsb (N.eqb t) unchecked_codes = false -> crash ((n <= length b)%nat /\ (m = Debug \/ P b)) r -> crash (A:=ie) (long_crashes m b) r.
Proof.
  intros T E1 E2 E3 C. subst t. destruct (filter (fun q => fst q =? oct b 0) long_table) as [|q [|? ?]] eqn:EF; try discriminate E2. cbn in E1. injection E1 as ->.
  assert (I1 : In (oct b 0, (n, P)) long_table) by (eapply proj1; apply filter_In; rewrite EF; left; reflexivity).
  assert (N1 : ~ In (oct b 0) unchecked_codes). { intros K. assert (E5 : existsb (N.eqb (oct b 0)) unchecked_codes = true) by (apply existsb_exists; exists (oct b 0); split; [exact K|apply N.eqb_refl]). congruence. }
  eapply crash_ext; [|exact C]. split; [intros [H1 H2]; left; exists n, P; auto|]. intros [(n' & P' & I' & H1 & H2)|[[K _]|(K & _)]].
  - assert (K : In (oct b 0, (n', P')) [(oct b 0, (n, P))]) by (rewrite <- EF; apply filter_In; split; [exact I'|cbn; apply N.eqb_refl]). destruct K as [K|[]]. injection K as <- <-. auto.
  - contradiction.
  - exfalso. apply K. change (oct b 0) with (fst (oct b 0, (n, P))). apply in_map, I1.
Qed.
Lemma not_long b : existsb (N.eqb (oct b 0)) (map fst long_table) = false -> ~ In (oct b 0) (map fst long_table).
Proof. intros H K. assert (E5 : existsb (N.eqb (oct b 0)) (map fst long_table) = true) by (apply existsb_exists; exists (oct b 0); split; [exact K|apply N.eqb_refl]). congruence. Qed.
Lemma un_in b : existsb (N.eqb (oct b 0)) unchecked_codes = true -> In (oct b 0) unchecked_codes.
Proof. intros H. apply existsb_exists in H as (x & H & E). apply N.eqb_eq in E. subst x. exact H. Qed.
Lemma long_un t (b : list N) m r : oct b 0 = t -> existsb (N.eqb t) (map fst long_table) = false -> existsb (N.eqb t) unchecked_codes = true -> crash (A:=ie) (overruns b) r -> crash (long_crashes m b) r.
Proof.
  intros <- E1 E2 C. apply not_long in E1. apply un_in in E2. eapply crash_ext; [|exact C]. split; [intros H; right; left; auto|].
  intros [(n & P & I' & _)|[[_ H]|(_ & K & _)]]; [|exact H|contradiction]. exfalso. apply E1. change (oct b 0) with (fst (oct b 0, (n, P))). apply in_map, I'.
Qed.
Lemma long_crash t P (b : list N) m r : oct b 0 = t -> existsb (N.eqb t) (map fst long_table) = false -> existsb (N.eqb t) unchecked_codes = true ->
  nth_error (filter (fun q => fst q =? t) crash_table) 0 = Some (t, P) -> length (filter (fun q => fst q =? t) crash_table) = 1%nat -> crash (A:=ie) (P b) r -> crash (long_crashes m b) r.
Proof.
  intros T E1 E2 E3 E4 C. apply (long_un t); [exact T|exact E1|exact E2|]. subst t. destruct (filter (fun q => fst q =? oct b 0) crash_table) as [|q [|? ?]] eqn:EF; try discriminate E4. cbn in E3. injection E3 as ->.
  eapply crash_ext; [|exact C]. split.
  - intros H. exists P. split; [|exact H]. eapply proj1. apply filter_In. rewrite EF. left. reflexivity.
  - intros (P' & I' & H). assert (K : In (oct b 0, P') [(oct b 0, P)]) by (rewrite <- EF; apply filter_In; split; [exact I'|cbn; apply N.eqb_refl]). destruct K as [K|[]]. injection K as <-. exact H.
Qed.
Lemma long_safe t (b : list N) m r : oct b 0 = t -> existsb (N.eqb t) (map fst long_table) = false -> existsb (N.eqb t) unchecked_codes = true ->
  existsb (N.eqb t) crash_codes = false -> returns r -> crash (A:=ie) (long_crashes m b) r.
Proof.
  intros T E1 E2 E3 C. apply (long_un t); [exact T|exact E1|exact E2|]. right. split; [|exact C]. intros (P & I' & _). subst t.
  eapply not_in_table; [|exact I']. intros K. assert (E5 : existsb (N.eqb (oct b 0)) crash_codes = true) by (apply existsb_exists; exists (oct b 0); split; [exact K|apply N.eqb_refl]). congruence.
Qed.
Lemma long_other (b : list N) m r : ~ In (oct b 0) (map fst long_table) -> ~ In (oct b 0) unchecked_codes -> crash (A:=ie) (4 <= length b)%nat r -> crash (long_crashes m b) r.
Proof.
  intros E1 E2 C. eapply crash_ext; [|exact C]. split; [intros H; right; right; auto|]. intros [(n & P & I' & _)|[[K _]|(_ & _ & H)]]; [|contradiction|exact H].
  exfalso. apply E1. change (oct b 0) with (fst (oct b 0, (n, P))). apply in_map, I'.
Qed.
Lemma long_group t (b : list N) m r : oct b 0 = t -> existsb (N.eqb t) (map fst long_table) = false -> existsb (N.eqb t) unchecked_codes = false -> crash (A:=ie) (4 <= length b)%nat r -> crash (long_crashes m b) r.
Proof.
  intros <- E1 E2 C. apply long_other; [apply not_long, E1| |exact C]. intros K. assert (E5 : existsb (N.eqb (oct b 0)) unchecked_codes = true) by (apply existsb_exists; exists (oct b 0); split; [exact K|apply N.eqb_refl]). congruence.
Qed.
Theorem decode_one_long dec m b : b <> [] -> bytes b -> 65531 < declared b -> crash (long_crashes m b) (decode_one dec m b).
Proof.
  intros Hn Hb Hd. assert (A : exists t, at_ b 0 = Ok (E:=GTPV2Error) t /\ oct b 0 = t) by (exists (oct b 0); split; [apply first_octet; auto|reflexivity]).
  destruct A as (t & A & T). unfold decode_one. rewrite A, bindOk.
  destruct (N.eqb_spec t 1) as [->|N1]; [eapply long_in; [exact T|reflexivity|reflexivity|reflexivity|]; apply crash_lift, Imsi_long; assumption|].
  destruct (N.eqb_spec t 2) as [->|N2]; [eapply long_safe; [exact T|reflexivity|reflexivity|reflexivity|]; apply returns_lift, Cause_safe|].
  destruct (N.eqb_spec t 3) as [->|N3]; [eapply long_safe; [exact T|reflexivity|reflexivity|reflexivity|]; apply returns_lift, Recovery_safe|].
  destruct (N.eqb_spec t 51) as [->|N51]; [eapply long_in; [exact T|reflexivity|reflexivity|reflexivity|]; apply crash_lift, StnSr_long; assumption|].
  destruct (N.eqb_spec t 56) as [->|N56]; [eapply long_safe; [exact T|reflexivity|reflexivity|reflexivity|]; apply returns_lift, SrvccCause_safe|].
  destruct (N.eqb_spec t 71) as [->|N71]; [eapply long_in; [exact T|reflexivity|reflexivity|reflexivity|]; apply crash_lift, Apn_long; assumption|].
  destruct (N.eqb_spec t 72) as [->|N72]; [eapply long_safe; [exact T|reflexivity|reflexivity|reflexivity|]; apply returns_lift, Ambr_safe|].
  destruct (N.eqb_spec t 73) as [->|N73]; [eapply long_safe; [exact T|reflexivity|reflexivity|reflexivity|]; apply returns_lift, Ebi_safe|].
  destruct (N.eqb_spec t 74) as [->|N74]; [eapply long_in; [exact T|reflexivity|reflexivity|reflexivity|]; apply crash_lift, IpAddress_long; assumption|].
  destruct (N.eqb_spec t 75) as [->|N75]; [eapply long_in; [exact T|reflexivity|reflexivity|reflexivity|]; apply crash_lift, Mei_long; assumption|].
  destruct (N.eqb_spec t 76) as [->|N76]; [eapply long_in; [exact T|reflexivity|reflexivity|reflexivity|]; apply crash_lift, Msisdn_long; assumption|].
  destruct (N.eqb_spec t 77) as [->|N77]; [eapply long_crash; [exact T|reflexivity|reflexivity|reflexivity|reflexivity|]; apply crash_lift, Indication_crash; assumption|].
  destruct (N.eqb_spec t 78) as [->|N78]; [eapply long_in; [exact T|reflexivity|reflexivity|reflexivity|]; apply crash_lift, Pco_long; assumption|].
  destruct (N.eqb_spec t 79) as [->|N79]; [eapply long_in; [exact T|reflexivity|reflexivity|reflexivity|]; apply crash_lift, PdnAddressAllocation_long; assumption|].
  destruct (N.eqb_spec t 80) as [->|N80]; [eapply long_safe; [exact T|reflexivity|reflexivity|reflexivity|]; apply returns_lift, BearerQos_safe|].
  destruct (N.eqb_spec t 81) as [->|N81]; [eapply long_safe; [exact T|reflexivity|reflexivity|reflexivity|]; apply returns_lift, FlowQos_safe|].
  destruct (N.eqb_spec t 82) as [->|N82]; [eapply long_safe; [exact T|reflexivity|reflexivity|reflexivity|]; apply returns_lift, RatType_safe|].
  destruct (N.eqb_spec t 83) as [->|N83]; [eapply long_safe; [exact T|reflexivity|reflexivity|reflexivity|]; apply returns_lift, ServingNetwork_safe|].
  destruct (N.eqb_spec t 84) as [->|N84]; [eapply long_in; [exact T|reflexivity|reflexivity|reflexivity|]; apply crash_lift, BearerTft_long; assumption|].
  destruct (N.eqb_spec t 85) as [->|N85]; [eapply long_in; [exact T|reflexivity|reflexivity|reflexivity|]; apply crash_lift, TrafficAggregateDescription_long; assumption|].
  destruct (N.eqb_spec t 86) as [->|N86]; [eapply long_in; [exact T|reflexivity|reflexivity|reflexivity|]; apply crash_lift, Uli_long; assumption|].
  destruct (N.eqb_spec t 87) as [->|N87]; [eapply long_in; [exact T|reflexivity|reflexivity|reflexivity|]; apply crash_lift, Fteid_long; assumption|].
  destruct (N.eqb_spec t 88) as [->|N88]; [eapply long_safe; [exact T|reflexivity|reflexivity|reflexivity|]; apply returns_lift, Tmsi_safe|].
  destruct (N.eqb_spec t 89) as [->|N89]; [eapply long_safe; [exact T|reflexivity|reflexivity|reflexivity|]; apply returns_lift, GlobalCnId_safe|].
  destruct (N.eqb_spec t 90) as [->|N90]; [eapply long_in; [exact T|reflexivity|reflexivity|reflexivity|]; apply crash_lift, S103pdf_long; assumption|].
  destruct (N.eqb_spec t 91) as [->|N91]; [eapply long_in; [exact T|reflexivity|reflexivity|reflexivity|]; apply crash_lift, S1udf_long; assumption|].
  destruct (N.eqb_spec t 92) as [->|N92]; [eapply long_safe; [exact T|reflexivity|reflexivity|reflexivity|]; apply returns_lift, DelayValue_safe|].
  destruct (N.eqb_spec t 93) as [->|N93]; [eapply long_group; [exact T|reflexivity|reflexivity|]; apply crash_lift; unfold BearerContext_unmarshal; (apply crash_bind_l; [apply Grouped_long; assumption|]); intros; cbv zeta; repeat match goal with |- returns (match ?x with _ => _ end) => destruct x end; exact I|].
  destruct (N.eqb_spec t 94) as [->|N94]; [eapply long_safe; [exact T|reflexivity|reflexivity|reflexivity|]; apply returns_lift, ChargingId_safe|].
  destruct (N.eqb_spec t 95) as [->|N95]; [eapply long_safe; [exact T|reflexivity|reflexivity|reflexivity|]; apply returns_lift, ChargingCharacteristics_safe|].
  destruct (N.eqb_spec t 96) as [->|N96]; [eapply long_safe; [exact T|reflexivity|reflexivity|reflexivity|]; apply returns_lift, TraceInformation_safe|].
  destruct (N.eqb_spec t 97) as [->|N97]; [eapply long_safe; [exact T|reflexivity|reflexivity|reflexivity|]; apply returns_lift, BearerFlags_safe|].
  destruct (N.eqb_spec t 99) as [->|N99]; [eapply long_safe; [exact T|reflexivity|reflexivity|reflexivity|]; apply returns_lift, PdnType_safe|].
  destruct (N.eqb_spec t 100) as [->|N100]; [eapply long_safe; [exact T|reflexivity|reflexivity|reflexivity|]; apply returns_lift, Pti_safe|].
  destruct ((103 <=? t) && (t <=? 108)) eqn:EM.
  { apply andb_prop in EM. destruct EM as [EM1 EM2]. apply N.leb_le in EM1, EM2. assert (CM : t = 103 \/ t = 104 \/ t = 105 \/ t = 106 \/ t = 107 \/ t = 108) by lia. clear EM1 EM2.
    destruct CM as [->|[->|[->|[->|[->| ->]]]]]; (eapply long_crash; [exact T|reflexivity|reflexivity|reflexivity|reflexivity|]); apply crash_lift; unfold MmContext_unmarshal; rewrite A; cbn [bind N.eqb Pos.eqb];
      (apply crash_bind_l; [|intros; exact I]); [apply MmGsmT_crash|apply MmUmtsCq_crash|apply MmGsmCq_crash|apply MmUmtsQ_crash|apply MmEps_crash|apply MmUmtsQq_crash]; assumption. }
  destruct (N.eqb_spec t 109) as [->|N109]; [eapply long_group; [exact T|reflexivity|reflexivity|]; apply crash_lift; unfold PdnConnections_unmarshal; (apply crash_bind_l; [apply Grouped_long; assumption|]); intros; cbv zeta; repeat match goal with |- returns (match ?x with _ => _ end) => destruct x end; exact I|].
  destruct (N.eqb_spec t 110) as [->|N110]; [eapply long_safe; [exact T|reflexivity|reflexivity|reflexivity|]; apply returns_lift, PduNumbers_safe|].
  destruct (N.eqb_spec t 111) as [->|N111]; [eapply long_safe; [exact T|reflexivity|reflexivity|reflexivity|]; apply returns_lift, Ptmsi_safe|].
  destruct (N.eqb_spec t 112) as [->|N112]; [eapply long_safe; [exact T|reflexivity|reflexivity|reflexivity|]; apply returns_lift, PtmsiSignature_safe|].
  destruct (N.eqb_spec t 113) as [->|N113]; [eapply long_safe; [exact T|reflexivity|reflexivity|reflexivity|]; apply returns_lift, HopCounter_safe|].
  destruct (N.eqb_spec t 114) as [->|N114]; [eapply long_safe; [exact T|reflexivity|reflexivity|reflexivity|]; apply returns_lift, UeTimeZone_safe|].
  destruct (N.eqb_spec t 115) as [->|N115]; [eapply long_safe; [exact T|reflexivity|reflexivity|reflexivity|]; apply returns_lift, TraceReference_safe|].
  destruct (N.eqb_spec t 116) as [->|N116]; [eapply long_in; [exact T|reflexivity|reflexivity|reflexivity|]; apply crash_lift, CompleteRequestMessage_long; assumption|].
  destruct (N.eqb_spec t 117) as [->|N117]; [eapply long_safe; [exact T|reflexivity|reflexivity|reflexivity|]; apply returns_lift, Guti_safe|].
  destruct (N.eqb_spec t 118) as [->|N118]; [eapply long_in; [exact T|reflexivity|reflexivity|reflexivity|]; apply crash_lift, Fcontainer_long; assumption|].
  destruct (N.eqb_spec t 119) as [->|N119]; [eapply long_in; [exact T|reflexivity|reflexivity|reflexivity|]; apply crash_lift, Fcause_long; assumption|].
  destruct (N.eqb_spec t 120) as [->|N120]; [eapply long_safe; [exact T|reflexivity|reflexivity|reflexivity|]; apply returns_lift, PlmnId_safe|].
  destruct (N.eqb_spec t 121) as [->|N121]; [eapply long_safe; [exact T|reflexivity|reflexivity|reflexivity|]; apply returns_lift, TargetIdentification_safe|].
  destruct (N.eqb_spec t 123) as [->|N123]; [eapply long_safe; [exact T|reflexivity|reflexivity|reflexivity|]; apply returns_lift, PacketFlowId_safe|].
  destruct (N.eqb_spec t 124) as [->|N124]; [eapply long_safe; [exact T|reflexivity|reflexivity|reflexivity|]; apply returns_lift, RabContext_safe|].
  destruct (N.eqb_spec t 125) as [->|N125]; [eapply long_in; [exact T|reflexivity|reflexivity|reflexivity|]; apply crash_lift, SourceRncPdcpContextInfo_long; assumption|].
  destruct (N.eqb_spec t 126) as [->|N126]; [eapply long_safe; [exact T|reflexivity|reflexivity|reflexivity|]; apply returns_lift, PortNumber_safe|].
  destruct (N.eqb_spec t 127) as [->|N127]; [eapply long_safe; [exact T|reflexivity|reflexivity|reflexivity|]; apply returns_lift, ApnRestriction_safe|].
  destruct (N.eqb_spec t 128) as [->|N128]; [eapply long_safe; [exact T|reflexivity|reflexivity|reflexivity|]; apply returns_lift, SelectionMode_safe|].
  destruct (N.eqb_spec t 129) as [->|N129]; [eapply long_crash; [exact T|reflexivity|reflexivity|reflexivity|reflexivity|]; apply crash_lift, SourceIdentification_crash; assumption|].
  destruct (N.eqb_spec t 131) as [->|N131]; [eapply long_safe; [exact T|reflexivity|reflexivity|reflexivity|]; apply returns_lift, ChangeReportingAction_safe|].
  destruct (N.eqb_spec t 132) as [->|N132]; [eapply long_in; [exact T|reflexivity|reflexivity|reflexivity|]; apply crash_lift, Fqcsid_long; assumption|].
  destruct (N.eqb_spec t 133) as [->|N133]; [eapply long_safe; [exact T|reflexivity|reflexivity|reflexivity|]; apply returns_lift, ChannelNeeded_safe|].
  destruct (N.eqb_spec t 134) as [->|N134]; [eapply long_safe; [exact T|reflexivity|reflexivity|reflexivity|]; apply returns_lift, EmlppPriority_safe|].
  destruct (N.eqb_spec t 135) as [->|N135]; [eapply long_safe; [exact T|reflexivity|reflexivity|reflexivity|]; apply returns_lift, NodeType_safe|].
  destruct (N.eqb_spec t 136) as [->|N136]; [eapply long_in; [exact T|reflexivity|reflexivity|reflexivity|]; apply crash_lift, Fqdn_long; assumption|].
  destruct (N.eqb_spec t 137) as [->|N137]; [eapply long_safe; [exact T|reflexivity|reflexivity|reflexivity|]; apply returns_lift, TransactionIdentifier_safe|].
  destruct (N.eqb_spec t 138) as [->|N138]; [eapply long_safe; [exact T|reflexivity|reflexivity|reflexivity|]; apply returns_lift, MbmsSessionDuration_safe|].
  destruct (N.eqb_spec t 139) as [->|N139]; [eapply long_in; [exact T|reflexivity|reflexivity|reflexivity|]; apply crash_lift, MbmsServiceArea_long; assumption|].
  destruct (N.eqb_spec t 140) as [->|N140]; [eapply long_safe; [exact T|reflexivity|reflexivity|reflexivity|]; apply returns_lift, MbmsSessionId_safe|].
  destruct (N.eqb_spec t 141) as [->|N141]; [eapply long_safe; [exact T|reflexivity|reflexivity|reflexivity|]; apply returns_lift, MbmsFlowId_safe|].
  destruct (N.eqb_spec t 142) as [->|N142]; [eapply long_in; [exact T|reflexivity|reflexivity|reflexivity|]; apply crash_lift, MbmsIpMulticastDistribution_long; assumption|].
  destruct (N.eqb_spec t 143) as [->|N143]; [eapply long_safe; [exact T|reflexivity|reflexivity|reflexivity|]; apply returns_lift, MbmsDistributionAck_safe|].
  destruct (N.eqb_spec t 144) as [->|N144]; [eapply long_safe; [exact T|reflexivity|reflexivity|reflexivity|]; apply returns_lift, RfspIndex_safe|].
  destruct (N.eqb_spec t 145) as [->|N145]; [eapply long_safe; [exact T|reflexivity|reflexivity|reflexivity|]; apply returns_lift, Uci_safe|].
  destruct (N.eqb_spec t 146) as [->|N146]; [eapply long_safe; [exact T|reflexivity|reflexivity|reflexivity|]; apply returns_lift, CSGInformationReportingAction_safe|].
  destruct (N.eqb_spec t 147) as [->|N147]; [eapply long_safe; [exact T|reflexivity|reflexivity|reflexivity|]; apply returns_lift, CsgId_safe|].
  destruct (N.eqb_spec t 148) as [->|N148]; [eapply long_safe; [exact T|reflexivity|reflexivity|reflexivity|]; apply returns_lift, CsgMembershipIndication_safe|].
  destruct (N.eqb_spec t 149) as [->|N149]; [eapply long_safe; [exact T|reflexivity|reflexivity|reflexivity|]; apply returns_lift, ServiceIndicator_safe|].
  destruct (N.eqb_spec t 150) as [->|N150]; [eapply long_safe; [exact T|reflexivity|reflexivity|reflexivity|]; apply returns_lift, DetachType_safe|].
  destruct (N.eqb_spec t 151) as [->|N151]; [eapply long_in; [exact T|reflexivity|reflexivity|reflexivity|]; apply crash_lift, Ldn_long; assumption|].
  destruct (N.eqb_spec t 152) as [->|N152]; [eapply long_safe; [exact T|reflexivity|reflexivity|reflexivity|]; apply returns_lift, NodeFeatures_safe|].
  destruct (N.eqb_spec t 153) as [->|N153]; [eapply long_safe; [exact T|reflexivity|reflexivity|reflexivity|]; apply returns_lift, MbmsTimeToDataTransfer_safe|].
  destruct (N.eqb_spec t 154) as [->|N154]; [eapply long_safe; [exact T|reflexivity|reflexivity|reflexivity|]; apply returns_lift, Throttling_safe|].
  destruct (N.eqb_spec t 155) as [->|N155]; [eapply long_safe; [exact T|reflexivity|reflexivity|reflexivity|]; apply returns_lift, Arp_safe|].
  destruct (N.eqb_spec t 156) as [->|N156]; [eapply long_safe; [exact T|reflexivity|reflexivity|reflexivity|]; apply returns_lift, EpcTimer_safe|].
  destruct (N.eqb_spec t 157) as [->|N157]; [eapply long_safe; [exact T|reflexivity|reflexivity|reflexivity|]; apply returns_lift, Spi_safe|].
  destruct (N.eqb_spec t 158) as [->|N158]; [eapply long_safe; [exact T|reflexivity|reflexivity|reflexivity|]; apply returns_lift, Tmgi_safe|].
  destruct (N.eqb_spec t 159) as [->|N159]; [eapply long_crash; [exact T|reflexivity|reflexivity|reflexivity|reflexivity|]; apply crash_lift, AdditionalMmContextForSrvcc_crash; assumption|].
  destruct (N.eqb_spec t 160) as [->|N160]; [eapply long_safe; [exact T|reflexivity|reflexivity|reflexivity|]; apply returns_lift, AdditionalFlagsSrvcc_safe|].
  destruct (N.eqb_spec t 162) as [->|N162]; [eapply long_crash; [exact T|reflexivity|reflexivity|reflexivity|reflexivity|]; apply crash_lift, MdtConfiguration_crash; assumption|].
  destruct (N.eqb_spec t 163) as [->|N163]; [eapply long_in; [exact T|reflexivity|reflexivity|reflexivity|]; apply crash_lift, Apco_long; assumption|].
  destruct (N.eqb_spec t 164) as [->|N164]; [eapply long_safe; [exact T|reflexivity|reflexivity|reflexivity|]; apply returns_lift, AbsoluteTimeMbmsDataTransfer_safe|].
  destruct (N.eqb_spec t 165) as [->|N165]; [eapply long_safe; [exact T|reflexivity|reflexivity|reflexivity|]; apply returns_lift, HenbInfoReporting_safe|].
  destruct (N.eqb_spec t 166) as [->|N166]; [eapply long_safe; [exact T|reflexivity|reflexivity|reflexivity|]; apply returns_lift, Ip4Cp_safe|].
  destruct (N.eqb_spec t 167) as [->|N167]; [eapply long_safe; [exact T|reflexivity|reflexivity|reflexivity|]; apply returns_lift, ChangeToReportFlags_safe|].
  destruct (N.eqb_spec t 168) as [->|N168]; [eapply long_safe; [exact T|reflexivity|reflexivity|reflexivity|]; apply returns_lift, ActionIndication_safe|].
  destruct (N.eqb_spec t 169) as [->|N169]; [eapply long_safe; [exact T|reflexivity|reflexivity|reflexivity|]; apply returns_lift, ActionIndication_safe|].
  destruct (N.eqb_spec t 170) as [->|N170]; [eapply long_safe; [exact T|reflexivity|reflexivity|reflexivity|]; apply returns_lift, UliTimestamp_safe|].
  destruct (N.eqb_spec t 171) as [->|N171]; [eapply long_safe; [exact T|reflexivity|reflexivity|reflexivity|]; apply returns_lift, MbmsFlags_safe|].
  destruct (N.eqb_spec t 172) as [->|N172]; [eapply long_in; [exact T|reflexivity|reflexivity|reflexivity|]; apply crash_lift, RanNasCause_long; assumption|].
  destruct (N.eqb_spec t 173) as [->|N173]; [eapply long_safe; [exact T|reflexivity|reflexivity|reflexivity|]; apply returns_lift, CnOperatorSelectionEntity_safe|].
  destruct (N.eqb_spec t 174) as [->|N174]; [eapply long_safe; [exact T|reflexivity|reflexivity|reflexivity|]; apply returns_lift, Twmi_safe|].
  destruct (N.eqb_spec t 175) as [->|N175]; [eapply long_in; [exact T|reflexivity|reflexivity|reflexivity|]; apply crash_lift, NodeNumber_long; assumption|].
  destruct (N.eqb_spec t 176) as [->|N176]; [eapply long_in; [exact T|reflexivity|reflexivity|reflexivity|]; apply crash_lift, NodeIdentifier_long; assumption|].
  destruct (N.eqb_spec t 177) as [->|N177]; [eapply long_in; [exact T|reflexivity|reflexivity|reflexivity|]; apply crash_lift, PresenceReportingAreaAction_long; assumption|].
  destruct (N.eqb_spec t 178) as [->|N178]; [eapply long_safe; [exact T|reflexivity|reflexivity|reflexivity|]; apply returns_lift, PresenceReportingAreaInformation_safe|].
  destruct (N.eqb_spec t 179) as [->|N179]; [eapply long_safe; [exact T|reflexivity|reflexivity|reflexivity|]; apply returns_lift, TwanIdTimeStamp_safe|].
  destruct (N.eqb_spec t 180) as [->|N180]; [eapply long_group; [exact T|reflexivity|reflexivity|]; apply crash_lift; unfold OverloadControlInfo_unmarshal; (apply crash_bind_l; [apply Grouped_long; assumption|]); intros; cbv zeta; repeat match goal with |- returns (match ?x with _ => _ end) => destruct x end; exact I|].
  destruct (N.eqb_spec t 181) as [->|N181]; [eapply long_group; [exact T|reflexivity|reflexivity|]; apply crash_lift; unfold LoadControl_unmarshal; (apply crash_bind_l; [apply Grouped_long; assumption|]); intros; cbv zeta; repeat match goal with |- returns (match ?x with _ => _ end) => destruct x end; exact I|].
  destruct (N.eqb_spec t 182) as [->|N182]; [eapply long_safe; [exact T|reflexivity|reflexivity|reflexivity|]; apply returns_lift, Metric_safe|].
  destruct (N.eqb_spec t 183) as [->|N183]; [eapply long_safe; [exact T|reflexivity|reflexivity|reflexivity|]; apply returns_lift, Sqn_safe|].
  destruct (N.eqb_spec t 184) as [->|N184]; [eapply long_in; [exact T|reflexivity|reflexivity|reflexivity|]; apply crash_lift, ApnRelativeCapacity_long; assumption|].
  destruct (N.eqb_spec t 185) as [->|N185]; [eapply long_safe; [exact T|reflexivity|reflexivity|reflexivity|]; apply returns_lift, WlanOffloadIndication_safe|].
  destruct (N.eqb_spec t 186) as [->|N186]; [eapply long_crash; [exact T|reflexivity|reflexivity|reflexivity|reflexivity|]; apply crash_lift, PagingServiceInfo_crash; assumption|].
  destruct (N.eqb_spec t 187) as [->|N187]; [eapply long_in; [exact T|reflexivity|reflexivity|reflexivity|]; apply crash_lift, IntegerNumber_long; assumption|].
  destruct (N.eqb_spec t 188) as [->|N188]; [eapply long_safe; [exact T|reflexivity|reflexivity|reflexivity|]; apply returns_lift, MilliSecondTimeStamp_safe|].
  destruct (N.eqb_spec t 189) as [->|N189]; [eapply long_safe; [exact T|reflexivity|reflexivity|reflexivity|]; apply returns_lift, MonitoringEventInformation_safe|].
  destruct (N.eqb_spec t 190) as [->|N190]; [eapply long_safe; [exact T|reflexivity|reflexivity|reflexivity|]; apply returns_lift, EcgiList_safe|].
  destruct (N.eqb_spec t 191) as [->|N191]; [eapply long_group; [exact T|reflexivity|reflexivity|]; apply crash_lift; unfold RemoteUeContext_unmarshal; (apply crash_bind_l; [apply Grouped_long; assumption|]); intros; cbv zeta; repeat match goal with |- returns (match ?x with _ => _ end) => destruct x end; exact I|].
  destruct (N.eqb_spec t 192) as [->|N192]; [eapply long_crash; [exact T|reflexivity|reflexivity|reflexivity|reflexivity|]; apply crash_lift, RemoteUserId_crash; assumption|].
  destruct (N.eqb_spec t 193) as [->|N193]; [eapply long_in; [exact T|reflexivity|reflexivity|reflexivity|]; apply crash_lift, RemoteUeIpInformation_long; assumption|].
  destruct (N.eqb_spec t 194) as [->|N194]; [eapply long_safe; [exact T|reflexivity|reflexivity|reflexivity|]; apply returns_lift, CIoTOptimizationSupportIndication_safe|].
  destruct (N.eqb_spec t 195) as [->|N195]; [eapply long_group; [exact T|reflexivity|reflexivity|]; apply crash_lift; unfold ScefPdnConnections_unmarshal; (apply crash_bind_l; [apply Grouped_long; assumption|]); intros; cbv zeta; repeat match goal with |- returns (match ?x with _ => _ end) => destruct x end; exact I|].
  destruct (N.eqb_spec t 196) as [->|N196]; [eapply long_safe; [exact T|reflexivity|reflexivity|reflexivity|]; apply returns_lift, HeaderCompressionConfiguration_safe|].
  destruct (N.eqb_spec t 197) as [->|N197]; [eapply long_in; [exact T|reflexivity|reflexivity|reflexivity|]; apply crash_lift, Epco_long; assumption|].
  destruct (N.eqb_spec t 198) as [->|N198]; [eapply long_safe; [exact T|reflexivity|reflexivity|reflexivity|]; apply returns_lift, ServingPlmnRateControl_safe|].
  destruct (N.eqb_spec t 199) as [->|N199]; [eapply long_safe; [exact T|reflexivity|reflexivity|reflexivity|]; apply returns_lift, Counter_safe|].
  destruct (N.eqb_spec t 200) as [->|N200]; [eapply long_safe; [exact T|reflexivity|reflexivity|reflexivity|]; apply returns_lift, MappedUeUsageType_safe|].
  destruct (N.eqb_spec t 201) as [->|N201]; [eapply long_safe; [exact T|reflexivity|reflexivity|reflexivity|]; apply returns_lift, SecondaryRatUsageDataReport_safe|].
  destruct (N.eqb_spec t 202) as [->|N202]; [eapply long_safe; [exact T|reflexivity|reflexivity|reflexivity|]; apply returns_lift, UpFunctionSelectionIndicationFlags_safe|].
  destruct (N.eqb_spec t 203) as [->|N203]; [eapply long_safe; [exact T|reflexivity|reflexivity|reflexivity|]; apply returns_lift, MaxPacketLossRate_safe|].
  destruct (N.eqb_spec t 204) as [->|N204]; [eapply long_safe; [exact T|reflexivity|reflexivity|reflexivity|]; apply returns_lift, ApnRateControlStatus_safe|].
  destruct (N.eqb_spec t 205) as [->|N205]; [eapply long_crash; [exact T|reflexivity|reflexivity|reflexivity|reflexivity|]; apply crash_lift, ExtendedTraceInformation_crash; assumption|].
  destruct (N.eqb_spec t 206) as [->|N206]; [eapply long_in; [exact T|reflexivity|reflexivity|reflexivity|]; apply crash_lift, MonitoringEventExtensionInfo_long; assumption|].
  destruct (N.eqb_spec t 207) as [->|N207]; [eapply long_safe; [exact T|reflexivity|reflexivity|reflexivity|]; apply returns_lift, AdditionalRrmPolicyIndex_safe|].
  destruct (N.eqb_spec t 208) as [->|N208]; [eapply long_group; [exact T|reflexivity|reflexivity|]; apply crash_lift; unfold V2xInformation_unmarshal; (apply crash_bind_l; [apply Grouped_long; assumption|]); intros; cbv zeta; repeat match goal with |- returns (match ?x with _ => _ end) => destruct x end; exact I|].
  destruct (N.eqb_spec t 209) as [->|N209]; [eapply long_group; [exact T|reflexivity|reflexivity|]; apply crash_lift; unfold PC5QosParameters_unmarshal; (apply crash_bind_l; [apply Grouped_long; assumption|]); intros; cbv zeta; repeat match goal with |- returns (match ?x with _ => _ end) => destruct x end; exact I|].
  destruct (N.eqb_spec t 210) as [->|N210]; [eapply long_safe; [exact T|reflexivity|reflexivity|reflexivity|]; apply returns_lift, ServicesAuthorized_safe|].
  destruct (N.eqb_spec t 211) as [->|N211]; [eapply long_safe; [exact T|reflexivity|reflexivity|reflexivity|]; apply returns_lift, BitRate_safe|].
  destruct (N.eqb_spec t 212) as [->|N212]; [eapply long_in; [exact T|reflexivity|reflexivity|reflexivity|]; apply crash_lift, PC5QosFlow_long; assumption|].
  destruct (N.eqb_spec t 213) as [->|N213]; [eapply long_in; [exact T|reflexivity|reflexivity|reflexivity|]; apply crash_lift, SgiPtpTunnelAddress_long; assumption|].
  destruct (N.eqb_spec t 214) as [->|N214]; [eapply long_group; [exact T|reflexivity|reflexivity|]; apply crash_lift; unfold PgwChangeInfo_unmarshal; (apply crash_bind_l; [apply Grouped_long; assumption|]); intros; cbv zeta; repeat match goal with |- returns (match ?x with _ => _ end) => destruct x end; exact I|].
  destruct (N.eqb_spec t 215) as [->|N215]; [eapply long_in; [exact T|reflexivity|reflexivity|reflexivity|]; apply crash_lift, PgwFqdn_long; assumption|].
  destruct (N.eqb_spec t 216) as [->|N216]; [eapply long_in; [exact T|reflexivity|reflexivity|reflexivity|]; apply crash_lift, GroupId_long; assumption|].
  destruct (N.eqb_spec t 217) as [->|N217]; [eapply long_safe; [exact T|reflexivity|reflexivity|reflexivity|]; apply returns_lift, PSCellId_safe|].
  destruct (N.eqb_spec t 218) as [->|N218]; [eapply long_safe; [exact T|reflexivity|reflexivity|reflexivity|]; apply returns_lift, UpSecurityPolicy_safe|].
  destruct (N.eqb_spec t 219) as [->|N219]; [eapply long_in; [exact T|reflexivity|reflexivity|reflexivity|]; apply crash_lift, AlternativeImsi_long; assumption|].
  destruct (N.eqb_spec t 254) as [->|N254]; [eapply long_in; [exact T|reflexivity|reflexivity|reflexivity|]; apply crash_lift, SpecialIEWithTypeExt_long; assumption|].
  destruct (N.eqb_spec t 255) as [->|N255]; [eapply long_in; [exact T|reflexivity|reflexivity|reflexivity|]; apply crash_lift, PrivateExtension_long; assumption|].
  assert (NM : ~ (103 <= t <= 108)). { intros [K1 K2]. apply N.leb_le in K1, K2. rewrite K1, K2 in EM. discriminate EM. }
  apply long_other.
  - rewrite T. intros C. cbn [In map fst long_table] in C. repeat (destruct C as [C|C]; [symmetry in C; contradiction|]). exact C.
  - rewrite T. intros C. cbn [In unchecked_codes] in C. repeat (destruct C as [C|C]; [first [symmetry in C; contradiction|lia]|]). exact C.
  - apply crash_lift, Unknown_long; assumption.
Qed.
