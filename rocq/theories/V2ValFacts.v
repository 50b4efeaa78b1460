(* V2ValFacts.v - the encoders of the model write the octets of V2ValSpec.v *)
From Verif Require Import Base BaseFacts DigitsFacts V2Base V2DecSpec V2DecFacts V2DecMore.
From Verif Require Export V2ValSpec.
From Coq Require Import Lia Permutation.
Local Open Scope N_scope.

(* ------------------------------------------------------------------------- *)
(* numbers *)

Lemma enc_be_S k n : enc_be (S k) n = (n / 256 ^ N.of_nat k) mod 256 :: enc_be k n.
Proof. reflexivity. Qed.
Lemma enc_be_snoc k n : enc_be (S k) n = enc_be k (n / 256) ++ [n mod 256].
Proof.
  revert n. induction k as [|k IH]; intros n.
  - rewrite enc_be_S. change (256 ^ N.of_nat 0) with 1. rewrite N.div_1_r. reflexivity.
  - rewrite (enc_be_S (S k)), IH, (enc_be_S k (n / 256)). cbn [app]. f_equal.
    rewrite N.div_div by (try apply N.pow_nonzero; lia). f_equal. f_equal. rewrite Nat2N.inj_succ, N.pow_succ_r'. reflexivity.
Qed.
Lemma num_ok k n : enc_be k n = num k n.
Proof. revert n. induction k as [|k IH]; intros n; [reflexivity|]. rewrite enc_be_snoc. cbn [num]. rewrite IH. reflexivity. Qed.
Lemma num1 v : v < 256 -> num 1 v = [v].
Proof. intros H. cbn [num app]. rewrite N.mod_small by exact H. reflexivity. Qed.

(* ------------------------------------------------------------------------- *)
(* rows of bits *)

Lemma octet_ok l n : fold_right (fun f s => fst f + s) 0 l = 8 -> Forall (fun f => snd f < 2 ^ fst f) l ->
  fold_left (fun acc f => acc * 2 ^ fst f + snd f) l 0 = n -> octet l = n.
Proof.
  intros H1 H2 H3. unfold octet. rewrite H1. cbn [N.eqb Pos.eqb andb].
  assert (E : forallb (fun f => snd f <? 2 ^ fst f) l = true).
  { apply forallb_forall. rewrite Forall_forall in H2. intros f Hf. apply N.ltb_lt, H2, Hf. }
  rewrite E. exact H3.
Qed.
Ltac octets_tac := apply octet_ok; [reflexivity|repeat constructor; cbn [fst snd]; try lia|cbn [fold_left fst snd]; try lia].

Lemma row_ok a b c d e f g h :
  flag a 128 + flag b 64 + flag c 32 + flag d 16 + flag e 8 + flag f 4 + flag g 2 + flag h 1 = row a b c d e f g h.
Proof. destruct a, b, c, d, e, f, g, h; reflexivity. Qed.
Lemma oct44 a b : a < 16 -> b < 16 -> octet [(4, a); (4, b)] = a * 16 + b.
Proof. intros. octets_tac. Qed.
Lemma low4 v : v < 16 -> octet [(4, 0); (4, v)] = v.
Proof. intros. octets_tac. Qed.
Lemma low2 v : v < 4 -> octet [(6, 0); (2, v)] = v.
Proof. intros. octets_tac. Qed.
Lemma low6 v : v < 64 -> octet [(2, 0); (6, v)] = v.
Proof. intros. octets_tac. Qed.
Lemma low3 v : v < 8 -> octet [(5, 0); (3, v)] = v.
Proof. intros. octets_tac. Qed.
Lemma lor_add a b k : b < 2 ^ k -> N.lor (a * 2 ^ k) b = a * 2 ^ k + b.
Proof.
  intros H. rewrite <- N.shiftl_mul_pow2. symmetry. rewrite N.add_nocarry_lxor; [apply N.lxor_lor|];
    apply N.bits_inj_0; intros n; rewrite N.land_spec; destruct (N.ltb_spec n k).
  all: try (rewrite N.shiftl_spec_low by assumption; reflexivity).
  all: destruct (N.eq_dec b 0) as [->|Hb]; [rewrite N.bits_0; apply Bool.andb_false_r|];
    rewrite (N.bits_above_log2 b n); [apply Bool.andb_false_r|]; apply N.log2_lt_pow2 in H; lia.
Qed.
Lemma shl8_mul a k : a < 2 ^ (8 - k) -> k <= 8 -> shl8 a k = a * 2 ^ k.
Proof.
  intros H K. unfold shl8. rewrite N.shiftl_mul_pow2. apply N.mod_small.
  apply N.lt_le_trans with (2 ^ (8 - k) * 2 ^ k).
  - apply N.mul_lt_mono_pos_r; [|exact H]. apply N.neq_0_lt_0, N.pow_nonzero. lia.
  - rewrite <- N.pow_add_r. replace (8 - k + k) with 8 by lia. reflexivity.
Qed.

(* ------------------------------------------------------------------------- *)
(* strings *)

Lemma sized_ok x : short x -> lv x = sized x.
Proof. intros H. unfold lv, sized. rewrite N.mod_small by exact H. reflexivity. Qed.
Lemma sized0_ok o : if_given short o -> match o with Some i => lv i | None => [0] end = sized0 o.
Proof. destruct o as [x|]; [apply sized_ok|reflexivity]. Qed.
Lemma every_ext {A} (f g : A -> list N) (P : A -> Prop) l : (forall x, P x -> f x = g x) -> Forall P l ->
  concat (map f l) = every g l.
Proof. intros H. unfold every. induction 1 as [|x l Hx Hl IH]; [reflexivity|]. cbn [map concat]. rewrite H, IH by exact Hx. reflexivity. Qed.
Lemma every_all {A} (f g : A -> list N) l : (forall x, f x = g x) -> concat (map f l) = every g l.
Proof. intros H. unfold every. f_equal. apply map_ext. exact H. Qed.
Lemma semi_ok s : digits s -> tbcd_encode s = semi_octets s.
Proof.
  intros H. rewrite tbcd_octets_ok by exact H. induction s as [|a|a b r IH] using list_pairs.
  - reflexivity.
  - inversion H as [|? ? Ha _]; subst. cbn [tbcd_octets semi_octets]. rewrite oct44 by lia. reflexivity.
  - inversion H as [|? ? Ha H']; subst. inversion H' as [|? ? Hb Hr]; subst.
    cbn [tbcd_octets semi_octets]. rewrite oct44, IH by (assumption || lia). reflexivity.
Qed.
Lemma semi_len s : (length (semi_octets s) = (length s + 1) / 2)%nat.
Proof.
  induction s as [|a|a b r IH] using list_pairs; [reflexivity|reflexivity|].
  cbn [semi_octets length]. rewrite IH. change (S (S (length r)) + 1)%nat with (2 + (length r + 1))%nat.
  replace (2 + (length r + 1))%nat with (length r + 1 + 1 * 2)%nat by lia. rewrite Nat.div_add by lia. lia.
Qed.
Lemma labels_ok s : labels_fit s -> labels_encode s = labels s.
Proof.
  intros H. unfold labels_encode, labels. eapply every_ext; [|exact H]. intros w Hw. cbv beta in Hw.
  unfold sized. rewrite N.mod_small by exact Hw. reflexivity.
Qed.
Lemma plmn_wire_ok p : plmn_fits p -> plmn_enc p = plmn_wire p.
Proof.
  intros [H1 H2]. unfold plmn_enc, plmn_wire. rewrite plmn_layout by assumption. cbv zeta.
  assert (D : forall x, x < 1000 -> x / 100 < 16 /\ x / 10 mod 10 < 16 /\ x mod 10 < 16).
  { intros x Hx. repeat split; try (eapply N.lt_trans; [apply N.mod_lt; lia|lia]). apply N.div_lt_upper_bound; lia. }
  destruct (D _ H1) as (A & B & C). destruct (p_three p).
  - destruct (D _ H2) as (A' & B' & C'). rewrite !oct44 by assumption. reflexivity.
  - assert (p_mnc p / 10 < 16) by (apply N.div_lt_upper_bound; lia).
    assert (p_mnc p mod 10 < 16) by (eapply N.lt_trans; [apply N.mod_lt; lia|lia]).
    rewrite !oct44 by (assumption || lia). reflexivity.
Qed.
Lemma addr_sized a : address_fits a -> match a with IpV4 o => 4 :: o | IpV6 o => 16 :: o end = sized (address a).
Proof. destruct a as [o|o]; cbn [address_fits address]; intros H; unfold sized, nlen; rewrite H; reflexivity. Qed.

(* ------------------------------------------------------------------------- *)
(* parts *)

Lemma given_one {A} (o : option A) : given o = one (is_some o).
Proof. destruct o; reflexivity. Qed.
Ltac plain := rewrite ?num_ok; rewrite ?plmn_wire_ok by assumption; reflexivity.
Lemma Cgi_w v : plmn_fits (cgi_plmn v) -> Cgi_enc v = Cgi_wire v.
Proof. intros. unfold Cgi_enc, Cgi_wire. plain. Qed.
Lemma Sai_w v : plmn_fits (sai_plmn v) -> Sai_enc v = Sai_wire v.
Proof. intros. unfold Sai_enc, Sai_wire. plain. Qed.
Lemma Rai_w v : plmn_fits (rai_plmn v) -> Rai_enc v = Rai_wire v.
Proof. intros. unfold Rai_enc, Rai_wire. plain. Qed.
Lemma Tai_w v : plmn_fits (tai_plmn v) -> Tai_enc v = Tai_wire v.
Proof. intros. unfold Tai_enc, Tai_wire. plain. Qed.
Lemma Ecgi_w v : plmn_fits (ecgi_plmn v) -> Ecgi_enc v = Ecgi_wire v.
Proof. intros. unfold Ecgi_enc, Ecgi_wire. plain. Qed.
Lemma Lai_w v : plmn_fits (lai_plmn v) -> Lai_enc v = Lai_wire v.
Proof. intros. unfold Lai_enc, Lai_wire. plain. Qed.
Lemma Macro_w v : plmn_fits (me_plmn v) -> MacroEnbId_enc v = Macro_wire v.
Proof. intros. unfold MacroEnbId_enc, Macro_wire. plain. Qed.
Lemma ExtMacro_w v : ExtMacro_fits v -> ExtMacroEnbId_enc v = ExtMacro_wire v.
Proof.
  intros [Hp Hi]. unfold ExtMacroEnbId_enc, ExtMacro_wire. cbv zeta. rewrite plmn_wire_ok by exact Hp. f_equal.
  cbn [num app]. f_equal. destruct (xe_smenb v); cbn [one].
  - assert (B : xe_id v / 65536 < 4) by (apply N.div_lt_upper_bound; [lia|]; cbn in Hi |- *; lia).
    rewrite (N.mod_small (xe_id v / 65536)) by lia. revert B. generalize (xe_id v / 65536). intros x Hx.
    assert (S : forallb (fun x => N.land (N.lor x 128) 131 =? octet [(1, 1); (2, 0); (5, x)]) (upto 4) = true) by (vm_compute; reflexivity).
    apply N.eqb_eq. exact (sweep 4 _ S x Hx).
  - assert (B : xe_id v / 65536 < 32) by (apply N.div_lt_upper_bound; [lia|]; cbn in Hi |- *; lia).
    rewrite (N.mod_small (xe_id v / 65536)) by lia. symmetry. octets_tac.
Qed.
Lemma Quint_w v : Quintuplet_fits v -> AuthQuintuplet_enc v = Quintuplet_wire v.
Proof. intros [H1 H2]. unfold AuthQuintuplet_enc, Quintuplet_wire. rewrite !sized_ok by assumption. reflexivity. Qed.
Lemma Quad_w v : Quadruplet_fits v -> AuthQuadruplet_enc v = Quadruplet_wire v.
Proof. intros [H1 H2]. unfold AuthQuadruplet_enc, Quadruplet_wire. rewrite !sized_ok by assumption. reflexivity. Qed.
Lemma AmbrMm_w v : AmbrMM_enc v = AmbrMm_wire v.
Proof. unfold AmbrMM_enc, AmbrMm_wire. plain. Qed.
Lemma Access_w v : [AccessRestrictionMM_to v] = Access_wire v.
Proof. destruct v as [[] [] [] [] [] [] [] []]; reflexivity. Qed.
Lemma ExtAccess_w o : ext_access_enc o = ExtAccess_wire o.
Proof. destruct o as [[[] [] [] [] []]|]; reflexivity. Qed.
Lemma land7 (v : N) : v < 8 -> N.land v 7 = v.
Proof. intros H. change 7 with (N.ones 3). rewrite N.land_ones. apply N.mod_small. exact H. Qed.
Lemma land15 (v : N) : v < 16 -> N.land v 15 = v.
Proof. intros H. change 15 with (N.ones 4). rewrite N.land_ones. apply N.mod_small. exact H. Qed.
Lemma land3 (v : N) : v < 4 -> N.land v 3 = v.
Proof. intros H. change 3 with (N.ones 2). rewrite N.land_ones. apply N.mod_small. exact H. Qed.
Lemma OldEps_w v : OldEps_fits v -> OldEpsSecurityContext_enc v = OldEps_wire v.
Proof.
  intros [H1 H2]. unfold OldEpsSecurityContext_enc, OldEps_wire. cbv zeta. rewrite land7 by exact H1.
  rewrite given_one. f_equal.
  set (c := match oe_ncc v with Some n => n | None => 0 end).
  assert (C : c < 8) by (subst c; destruct (oe_ncc v); [exact H2|lia]).
  transitivity (N.lor (N.lor (if is_some (oe_next_hop v) then 128 else 0) (shl8 (oe_ksi v) 3)) c).
  { subst c. destruct (oe_ncc v) as [n|]; [rewrite land7 by exact H2; reflexivity|]. rewrite N.lor_0_r. reflexivity. }
  revert C. generalize c. clear c H2. intros c C. revert H1 C. generalize (oe_ksi v). intros k H1 C.
  assert (S : forall b : bool, forallb (fun k => forallb (fun c =>
     N.lor (N.lor (if b then 128 else 0) (shl8 k 3)) c =? octet [(1, one b); (1, 0); (3, k); (3, c)]) (upto 8)) (upto 8) = true)
     by (intros []; vm_compute; reflexivity).
  apply N.eqb_eq. exact (sweep2 8 8 _ (S _) k c H1 C).
Qed.
Lemma RateMm_w v : length (rm_validity v) = 8%nat -> ApnRateControlStatusMM_enc v = RateMm_wire v.
Proof.
  intros H. unfold ApnRateControlStatusMM_enc, RateMm_wire. cbv zeta. rewrite !num_ok. f_equal. f_equal.
  unfold nlen. repeat rewrite app_length. rewrite <- !num_ok, !enc_be_length, H. lia.
Qed.
Lemma Rates_w o : Rates_fit o -> rates_enc o = Rates_wire o.
Proof.
  destruct o as [l|]; [|reflexivity]. cbn [Rates_fit if_given]. intros [H1 H2]. unfold rates_enc, Rates_wire.
  rewrite N.mod_small by exact H1. f_equal. unfold enc_all. eapply every_ext; [|exact H2]. exact RateMm_w.
Qed.

(* ------------------------------------------------------------------------- *)
(* elements *)

Lemma ActionIndication_w v : ActionIndication_value v = ActionIndication_wire v.
Proof. destruct v; reflexivity. Qed.
Lemma AdditionalFlagsSrvcc_w v : AdditionalFlagsSrvcc_value v = AdditionalFlagsSrvcc_wire v.
Proof. destruct v as [[] []]; reflexivity. Qed.
Lemma AdditionalMm_w v : AdditionalMm_fits v -> AdditionalMmContextForSrvcc_value v = AdditionalMm_wire v.
Proof.
  intros (H1 & H2 & H3). unfold AdditionalMmContextForSrvcc_value, AdditionalMm_wire.
  rewrite <- !sized0_ok by assumption. reflexivity.
Qed.
Lemma Ambr_w v : Ambr_value v = Ambr_wire v.
Proof. unfold Ambr_value, Ambr_wire. plain. Qed.
Lemma ApnRate_w v : ApnRateControlStatus_value v = ApnRate_wire v.
Proof. unfold ApnRateControlStatus_value, ApnRate_wire. plain. Qed.
Lemma ApnRelCap_w v : labels_fit (arc_name v) -> ApnRelativeCapacity_value v = ApnRelCap_wire v.
Proof. intros H. unfold ApnRelativeCapacity_value, ApnRelCap_wire. rewrite labels_ok by exact H. reflexivity. Qed.
Lemma ApnRestriction_w v : ApnRestriction_value v = ApnRestriction_wire v.
Proof. destruct v; reflexivity. Qed.
Lemma arp_bits pci pl pvi : pl < 16 -> pci < 2 -> pvi < 2 ->
  N.lor (N.lor (shl8 pci 6) (shl8 pl 2)) pvi = octet [(1, 0); (1, pci); (4, pl); (1, 0); (1, pvi)].
Proof.
  intros H1 H2 H3.
  assert (S : forallb (fun pci => forallb (fun pl => forallb (fun pvi =>
     N.lor (N.lor (shl8 pci 6) (shl8 pl 2)) pvi =? octet [(1, 0); (1, pci); (4, pl); (1, 0); (1, pvi)]) (upto 2)) (upto 16)) (upto 2) = true)
    by (vm_compute; reflexivity).
  apply N.eqb_eq. apply (sweep 2 (fun pvi => _ =? _) (sweep2 2 16 _ S pci pl H2 H1) pvi H3).
Qed.
Lemma Arp_w v : Arp_fits v -> Arp_value v = Arp_wire v.
Proof.
  intros H. unfold Arp_value, Arp_wire. f_equal. unfold Arp_fits in H.
  rewrite <- arp_bits by (try exact H; destruct (arp_pci v), (arp_pvi v); cbn; lia).
  destruct (arp_pci v), (arp_pvi v); cbn [one]; rewrite ?N.lor_0_r; try reflexivity.
Qed.
Lemma BearerFlags_w v : BearerFlags_value v = BearerFlags_wire v.
Proof. destruct v as [[] [] [] []]; reflexivity. Qed.
Lemma BearerQos_w v : BearerQos_fits v -> BearerQos_value v = BearerQos_wire v.
Proof.
  intros (H1 & H2 & H3). unfold BearerQos_value, BearerQos_wire. rewrite arp_bits by assumption. plain.
Qed.
Lemma Cause_w v : Cause_value v = Cause_wire v.
Proof. destruct v as [c [] [] [] [t|]]; reflexivity. Qed.
Lemma ChangeToReport_w v : ChangeToReportFlags_value v = ChangeToReport_wire v.
Proof. destruct v as [[] []]; reflexivity. Qed.
Lemma Ciot_w v : CIoTOptimizationSupportIndication_value v = Ciot_wire v.
Proof. destruct v as [[] [] [] []]; reflexivity. Qed.
Lemma CsgMembership_w v : CsgMembershipIndication_value v = CsgMembership_wire v.
Proof. destruct v; reflexivity. Qed.
Lemma Cnose_w v : CnOperatorSelectionEntity_value v = Cnose_wire v.
Proof. destruct v; reflexivity. Qed.
Lemma CompleteRequest_w v : CompleteRequestMessage_value v = CompleteRequest_wire v.
Proof. destruct v; reflexivity. Qed.
Lemma Counter_w v : Counter_value v = Counter_wire v.
Proof. unfold Counter_value, Counter_wire. plain. Qed.
Lemma DetachType_w v : DetachType_value v = DetachType_wire v.
Proof. destruct v; reflexivity. Qed.
Lemma Ebi_w v : half v -> Ebi_value v = Ebi_wire v.
Proof. intros H. unfold Ebi_value, Ebi_wire. rewrite low4 by exact H. reflexivity. Qed.
Lemma num2_mod n : num 2 (n mod 65536) = num 2 n.
Proof.
  cbn [num app]. change 65536 with (256 * 256). rewrite N.mod_mul_r by lia. f_equal; [|f_equal].
  - rewrite N.add_comm, N.mul_comm, N.div_add_l by lia. rewrite (N.div_small (n mod 256)) by (apply N.mod_lt; lia).
    rewrite N.add_0_r. apply N.mod_mod. lia.
  - rewrite N.add_comm, N.mul_comm, N.add_comm, N.mod_add by lia. apply N.mod_mod. lia.
Qed.
Lemma EcgiList_w v : EcgiList_fits v -> EcgiList_value v = EcgiList_wire v.
Proof.
  destruct v as [l|]; [|reflexivity]. cbn [EcgiList_fits if_given]. intros H. unfold EcgiList_value, EcgiList_wire.
  rewrite num_ok, num2_mod. f_equal. eapply every_ext; [|exact H]. exact Ecgi_w.
Qed.
Lemma bits35 u x : u < 8 -> x < 32 -> N.lor (shl8 u 5) x = octet [(3, u); (5, x)].
Proof.
  intros H1 H2. rewrite shl8_mul by (try lia; exact H1). rewrite lor_add by exact H2. symmetry. octets_tac.
Qed.
Lemma EpcTimer_w v : EpcTimer_fits v -> EpcTimer_value v = EpcTimer_wire v.
Proof.
  intros [H1 H2]. unfold EpcTimer_value, EpcTimer_wire. destruct (N.ltb_spec (et_value v) 127); [|lia].
  rewrite bits35 by assumption. reflexivity.
Qed.
Lemma ExtTrace_w v : ExtTrace_fits v -> ExtendedTraceInformation_value v = ExtTrace_wire v.
Proof.
  intros (H1 & H2 & H3 & H4 & H5). unfold ExtendedTraceInformation_value, ExtTrace_wire, ip_lv.
  rewrite !sized_ok by assumption. rewrite addr_sized by exact H5. plain.
Qed.
Lemma Fcause_w v : Fcause_value v = Fcause_wire v.
Proof. unfold Fcause_value, Fcause_wire. destruct (fc_type v); reflexivity. Qed.
Lemma Fcontainer_w v : Fcontainer_value v = Fcontainer_wire v.
Proof. destruct v; reflexivity. Qed.
Lemma FlowQos_w v : FlowQos_value v = FlowQos_wire v.
Proof. unfold FlowQos_value, FlowQos_wire. plain. Qed.
Lemma csids l : enc_all (enc_be 2) l = every (num 2) l.
Proof. apply every_all. intros. apply num_ok. Qed.
Lemma Fqcsid_w v : Fqcsid_fits v -> Fqcsid_value v = Fqcsid_wire v.
Proof.
  intros H. unfold Fqcsid_value, Fqcsid_wire. unfold Fqcsid_fits in H. cbv zeta.
  rewrite (N.mod_small (nlen _) 256), land15, csids by lia. revert H. generalize (nlen (fs_csid v)). intros n Hn.
  assert (S : forallb (fun n => (N.lor 16 n =? octet [(4, 1); (4, n)]) && (N.lor 32 n =? octet [(4, 2); (4, n)])) (upto 16) = true)
    by (vm_compute; reflexivity).
  pose proof (sweep 16 _ S n Hn) as E. cbv beta in E. apply Bool.andb_true_iff in E. destruct E as [E1 E2].
  apply N.eqb_eq in E1, E2. destruct (fs_node v) as [o|o|a]; cbn [app].
  - rewrite low4 by exact Hn. reflexivity.
  - rewrite E1. reflexivity.
  - rewrite E2, num_ok. reflexivity.
Qed.
Lemma opt_octets_w o : opt_octets o = opt (fun a => a) o.
Proof. destruct o; reflexivity. Qed.
Lemma opt_oct_w o : opt_oct o = opt (fun a => a) o.
Proof. destruct o; reflexivity. Qed.
Lemma Fteid_w v : Fteid_fits v -> Fteid_value v = Fteid_wire v.
Proof.
  intros [H1 H2]. unfold Fteid_value, Fteid_wire. rewrite num_ok, !opt_octets_w. f_equal.
  assert (S : forall a b : bool, (a || b = true)%bool -> forallb (fun i =>
     N.lor (match a, b with true, true => 192 | true, false => 128 | false, true => 64 | _, _ => 192 end) i =?
     octet [(1, one a); (1, one b); (6, i)]) (upto 64) = true)
    by (intros [] [] E; try discriminate; vm_compute; reflexivity).
  rewrite !given_one. apply N.eqb_eq.
  assert (E : (is_some (ft_v4 v) || is_some (ft_v6 v) = true)%bool).
  { destruct (ft_v4 v), (ft_v6 v); try reflexivity. destruct H2; congruence. }
  rewrite <- (sweep 64 _ (S _ _ E) (ft_if v) H1). destruct (ft_v4 v), (ft_v6 v); reflexivity.
Qed.
Lemma GlobalCn_w v : plmn_fits (gc_plmn v) -> GlobalCnId_value v = GlobalCn_wire v.
Proof. intros. unfold GlobalCnId_value, GlobalCn_wire. plain. Qed.
Lemma Guti_w v : plmn_fits (gu_plmn v) -> Guti_value v = Guti_wire v.
Proof. intros. unfold Guti_value, Guti_wire. plain. Qed.

(* the profile mask *)
Definition mask (has : N -> bool) : N := row false (has 260) (has 259) (has 258) (has 6) (has 4) (has 3) (has 2).
Lemma mask_step has p : (let i := mask has in if N.land i (rohc_bit p) =? 0 then i + rohc_bit p else i)
  = mask (fun q => (q =? p) || has q).
Proof.
  unfold mask, rohc_bit. cbv zeta.
  destruct (N.eqb_spec p 2) as [E|]; [subst; destruct (has 260), (has 259), (has 258), (has 6), (has 4), (has 3), (has 2); reflexivity|].
  destruct (N.eqb_spec p 3) as [E|]; [subst; destruct (has 260), (has 259), (has 258), (has 6), (has 4), (has 3), (has 2); reflexivity|].
  destruct (N.eqb_spec p 4) as [E|]; [subst; destruct (has 260), (has 259), (has 258), (has 6), (has 4), (has 3), (has 2); reflexivity|].
  destruct (N.eqb_spec p 6) as [E|]; [subst; destruct (has 260), (has 259), (has 258), (has 6), (has 4), (has 3), (has 2); reflexivity|].
  destruct (N.eqb_spec p 258) as [E|]; [subst; destruct (has 260), (has 259), (has 258), (has 6), (has 4), (has 3), (has 2); reflexivity|].
  destruct (N.eqb_spec p 259) as [E|]; [subst; destruct (has 260), (has 259), (has 258), (has 6), (has 4), (has 3), (has 2); reflexivity|].
  destruct (N.eqb_spec p 260) as [E|]; [subst; destruct (has 260), (has 259), (has 258), (has 6), (has 4), (has 3), (has 2); reflexivity|].
  rewrite N.land_0_r. cbn [N.eqb]. rewrite N.add_0_r.
  assert (E : forall q, In q [2; 3; 4; 6; 258; 259; 260] -> (q =? p) = false).
  { intros q Hq. apply N.eqb_neq. cbn in Hq. intros ->. intuition congruence. }
  rewrite !E by (cbn; tauto). reflexivity.
Qed.
Lemma mask_ext f g : (forall q, f q = g q) -> mask f = mask g.
Proof. intros H. unfold mask. rewrite !H. reflexivity. Qed.
Lemma mask_fold l has :
  fold_left (fun i p => if N.land i (rohc_bit p) =? 0 then i + rohc_bit p else i) l (mask has)
  = mask (fun q => existsb (N.eqb q) l || has q).
Proof.
  revert has. induction l as [|p l IH]; intros has; [reflexivity|]. cbn [fold_left].
  pose proof (mask_step has p) as E. cbv zeta in E. rewrite E, IH. apply mask_ext. intros q. cbn [existsb].
  destruct (q =? p), (existsb (N.eqb q) l), (has q); reflexivity.
Qed.
Lemma HdrCompr_w v : HeaderCompressionConfiguration_value v = HdrCompr_wire v.
Proof.
  unfold HeaderCompressionConfiguration_value, HdrCompr_wire. rewrite num_ok. cbv zeta. f_equal. f_equal.
  etransitivity; [exact (mask_fold (hc_profiles v) (fun _ => false))|]. unfold mask. rewrite !Bool.orb_false_r. reflexivity.
Qed.
Lemma flag_w v : [flag v 1] = flag_wire v.
Proof. destruct v; reflexivity. Qed.
Lemma Indication_w v : Indication_value v = Indication_wire v.
Proof.
  unfold Indication_value, Indication_wire. rewrite !row_ok. repeat f_equal.
  destruct (i_ltemsai v), (i_srtpi v), (i_upipsi v); reflexivity.
Qed.
Lemma opt_be_w k o : opt_be k o = opt (num k) o.
Proof. destruct o; cbn [opt_be opt]; [apply num_ok|reflexivity]. Qed.
Lemma MaxLoss_w v : MaxPacketLossRate_value v = MaxLoss_wire v.
Proof. destruct v as [[u|] [d|]]; cbn [MaxPacketLossRate_value MaxLoss_wire ml_ul ml_dl given opt]; rewrite ?num_ok; cbn [app]; rewrite ?app_nil_r; reflexivity. Qed.
Lemma two_bits_w v : quarter v -> [v] = two_bits_wire v.
Proof. intros H. unfold two_bits_wire. rewrite low2 by exact H. reflexivity. Qed.
Lemma MbmsAck_w v : quarter v -> MbmsDistributionAck_value v = two_bits_wire v.
Proof. intros H. unfold MbmsDistributionAck_value. rewrite land3 by exact H. apply two_bits_w, H. Qed.
Lemma MbmsFlags_w v : MbmsFlags_value v = MbmsFlags_wire v.
Proof. destruct v as [[] []]; reflexivity. Qed.
Lemma Multicast_w v : MbmsIpMulticastDistribution_value v = Multicast_wire v.
Proof.
  unfold MbmsIpMulticastDistribution_value, Multicast_wire. rewrite num_ok.
  destruct (mm_a1 v), (mm_a2 v), (mm_hc v); reflexivity.
Qed.
Lemma MbmsSa_w v : MbmsSa_fits v -> MbmsServiceArea_value v = MbmsSa_wire v.
Proof.
  intros H. unfold MbmsServiceArea_value, MbmsSa_wire. unfold MbmsSa_fits in H.
  destruct (Nat.eqb_spec (length v) 0) as [E|E]; [unfold nlen in H; rewrite E in H; cbn in H; lia|].
  rewrite N.mod_small by lia. rewrite csids. reflexivity.
Qed.
Lemma MbmsSd_w v : MbmsSd_fits v -> MbmsSessionDuration_value v = MbmsSd_wire v.
Proof.
  intros [H1 H2]. unfold MbmsSessionDuration_value, MbmsSd_wire. rewrite num_ok. f_equal.
  rewrite N.shiftl_mul_pow2. change (2 ^ 7) with 128. change (2 ^ 17) with 131072 in H1. rewrite N.mod_small by lia.
  change 128 with (2 ^ 7). apply lor_add. exact H2.
Qed.
Lemma opt1_w o : if_given (fun x => x < 256) o -> opt1 o = opt (num 1) o.
Proof. destruct o as [x|]; [|reflexivity]. cbn [if_given opt1 opt]. intros H. rewrite num1 by exact H. reflexivity. Qed.
Lemma Mdt_w v : Mdt_fits v -> MdtConfiguration_value v = Mdt_wire v.
Proof.
  intros (H1 & H2 & H3 & H4 & H5). unfold MdtConfiguration_value, Mdt_wire.
  rewrite sized0_ok by exact H1. rewrite !opt1_w by assumption. rewrite !given_one.
  assert (E1 : forall a b c d, flag a 1 + flag b 2 + flag c 4 + flag d 8 = octet [(4, 0); (1, one d); (1, one c); (1, one b); (1, one a)])
    by (intros [] [] [] []; reflexivity).
  rewrite E1.
  assert (E2 : match md_plmns v with Some l => nlen l mod 256 :: enc_all plmn_enc l | None => [] end
    = opt (fun l => nlen l :: every plmn_wire l) (md_plmns v)).
  { destruct (md_plmns v) as [l|]; [|reflexivity]. cbn [if_given opt] in H5 |- *. destruct H5 as [H5 H6].
    rewrite N.mod_small by exact H5. f_equal. eapply every_ext; [|exact H6]. exact plmn_wire_ok. }
  rewrite E2. destruct (md_job v); reflexivity.
Qed.
