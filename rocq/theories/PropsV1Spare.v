(* PropsV1Spare.v - C87 (GTPv1): octets and bits of a header that carry nothing are ignored by the receiver. *)
From Verif Require Import Base BaseFacts V1U V1CHdr V1CIe V1CMsg.
Local Open Scope N_scope.
Notation length := List.length.

(* --- specification --------------------------------------------------------------------------------------------------- *)
(* Bit 3 of the first octet is spare (TS 29.060 6, TS 29.281 5.1). If one of the flags E, S, PN (bits 2, 1, 0) is set, four octets follow
   the first eight: two of a sequence number, which is not to be evaluated unless S is set, one N-PDU number (PN) and one extension
   header type (E). [spare_only b b']: the packets differ in nothing else. *)
Definition first_octets (f f' : N) : Prop := f / 16 = f' / 16 /\ f mod 8 = f' mod 8.
Definition spare_only (b b' : list N) : Prop :=
  exists f f' mandatory rest, length mandatory = 7%nat /\ first_octets f f' /\
  ((f mod 8 = 0 /\ b = f :: mandatory ++ rest /\ b' = f' :: mandatory ++ rest) \/
   (f mod 8 <> 0 /\ exists s1 s2 n x s1' s2' n' x',
     b = f :: mandatory ++ s1 :: s2 :: n :: x :: rest /\ b' = f' :: mandatory ++ s1' :: s2' :: n' :: x' :: rest /\
     (N.testbit f 1 = true -> s1 = s1' /\ s2 = s2') /\ (N.testbit f 0 = true -> n = n') /\ (N.testbit f 2 = true -> x = x'))).
Definition sequence_flag (b : list N) : Prop := N.testbit (nth 0 b 0) 1 = true.
Definition no_flag (b : list N) : Prop := nth 0 b 0 mod 8 = 0.

(* --- proofs ---------------------------------------------------------------------------------------------------------- *)
Definition later (n : nat) (b b' : list N) : Prop := length b = length b' /\ skipn n b = skipn n b'.
Lemma skipn_add {A} n k (b : list A) : skipn (n + k) b = skipn k (skipn n b).
Proof. revert b. induction n as [|n IH]; intros b; [reflexivity|]. destruct b; [cbn; rewrite skipn_nil; reflexivity|]. cbn. apply IH. Qed.
Lemma later_skipn n b b' k : later n b b' -> (n <= k)%nat -> skipn k b = skipn k b'.
Proof. intros [_ S] L. replace k with (n + (k - n))%nat by lia. rewrite !skipn_add, S. reflexivity. Qed.
Lemma later_from n b b' k : later n b b' -> (n <= k)%nat -> slice_from (E:=GTPV1Error) b k = slice_from b' k.
Proof. intros H L. unfold slice_from. rewrite (later_skipn n b b' k H L), (proj1 H). reflexivity. Qed.
Lemma later_at n b b' k : later n b b' -> (n <= k)%nat -> at_ (E:=GTPV1Error) b k = at_ b' k.
Proof.
  intros H L. unfold at_. replace k with (k + 0)%nat by lia. rewrite <- !nth_error_skipn, (later_skipn n b b' k H L). reflexivity.
Qed.
Lemma later_slice n b b' i j : later n b b' -> (n <= i)%nat -> slice (E:=GTPV1Error) b i j = slice b' i j.
Proof. intros H L. unfold slice. rewrite (later_skipn n b b' i H L), (proj1 H). reflexivity. Qed.

(* flags *)
Lemma bits_eq f f' i : first_octets f f' -> i <> 3 -> N.testbit f i = N.testbit f' i.
Proof.
  intros [A B] H. destruct (N.lt_ge_cases i 3) as [L|L].
  - change 8 with (2 ^ 3) in B. rewrite <- (N.mod_pow2_bits_low f 3 i L), B, N.mod_pow2_bits_low by exact L. reflexivity.
  - assert (4 <= i) as K by lia. change 16 with (2 ^ 4) in A. replace i with (i - 4 + 4) by lia. rewrite <- !N.div_pow2_bits, A. reflexivity.
Qed.
Lemma land_eq f f' k : first_octets f f' -> N.testbit k 3 = false -> N.land f k = N.land f' k.
Proof.
  intros H K. apply N.bits_inj. intros i. rewrite !N.land_spec. destruct (N.eq_dec i 3) as [->|Q]; [rewrite K, !andb_false_r; reflexivity|]. rewrite (bits_eq f f' i H Q). reflexivity.
Qed.
Lemma shiftr_eq f f' k : first_octets f f' -> 4 <= k -> N.shiftr f k = N.shiftr f' k.
Proof. intros H K. apply N.bits_inj. intros i. rewrite !N.shiftr_spec'. apply bits_eq; [exact H|lia]. Qed.
Lemma bit_eq f f' k : first_octets f f' -> k <> 3 -> N.land (N.shiftr f k) 1 = N.land (N.shiftr f' k) 1.
Proof.
  intros H K. apply N.bits_inj. intros i. rewrite !N.land_spec, !N.shiftr_spec'. destruct (N.eq_dec i 0) as [->|Q]; [rewrite (bits_eq f f' _ H) by lia; reflexivity|].
  replace (N.testbit 1 i) with false; [rewrite !andb_false_r; reflexivity|]. symmetry. apply (N.bits_above_log2 1). change (N.log2 1) with 0. lia.
Qed.
Lemma seven (l : list N) : length l = 7%nat -> exists a b c d e f g, l = [a; b; c; d; e; f; g].
Proof. intros H. do 7 (destruct l as [|? l]; [discriminate H|]). destruct l; [eauto 10|discriminate H]. Qed.
Lemma mod8 f : f mod 8 = N.land f 7. Proof. change 7 with (N.ones 3). rewrite N.land_ones. reflexivity. Qed.
Lemma flag_1 f k : N.land (N.shiftr f k) 1 = N.b2n (N.testbit f k).
Proof. change 1 with (N.ones 1). rewrite N.land_ones. change (2 ^ 1) with 2. rewrite <- N.bit0_mod, N.shiftr_spec'. reflexivity. Qed.
Lemma flag_0 f : N.land f 1 = N.b2n (N.testbit f 0).
Proof. rewrite <- (flag_1 f 0), N.shiftr_0_r. reflexivity. Qed.
Lemma b2n_1 c : (N.b2n c =? 1) = c. Proof. destruct c; reflexivity. Qed.

(* GTPv1-C header *)
Lemma chdr_spare m b b' : spare_only b b' -> chdr_unmarshal m b = chdr_unmarshal m b'.
Proof.
  intros (f & f' & md & r & L7 & F & H). destruct (seven md L7) as (mt & l1 & l2 & t1 & t2 & t3 & t4 & ->). destruct H as [(Z & -> & ->)|(Z & s1 & s2 & n & x & s1' & s2' & n' & x' & -> & -> & HS & HP & HE)].
  - unfold chdr_unmarshal. cbn [app length Nat.ltb Nat.leb at_ nth_error bind]. rewrite (shiftr_eq f f' 5 F), (bit_eq f f' 4 F) by lia. rewrite (mod8 f) in Z. rewrite <- (land_eq f f' 7 F) by reflexivity. rewrite Z, N.eqb_refl. reflexivity.
  - unfold chdr_unmarshal. cbn [app length Nat.ltb Nat.leb at_ nth_error bind]. rewrite (shiftr_eq f f' 5 F), (bit_eq f f' 4 F) by lia. rewrite <- (land_eq f f' 7 F) by reflexivity. rewrite mod8 in Z.
    rewrite <- (bit_eq f f' 2 F), <- (bit_eq f f' 1 F) by lia. rewrite <- (land_eq f f' 1 F) by reflexivity. cbv zeta. rewrite !flag_1, flag_0, !b2n_1.
    unfold slice_from. cbn [app length Nat.leb skipn bind Nat.ltb].
    assert (A : (if N.testbit f 1 then Ok (E:=GTPV1Error) (Some (be16 s1 s2)) else Ok None) = (if N.testbit f 1 then Ok (Some (be16 s1' s2')) else Ok None)) by (destruct (N.testbit f 1); [destruct (HS eq_refl) as [-> ->]|]; reflexivity).
    assert (B : (if N.testbit f 0 then Ok (E:=GTPV1Error) (Some n) else Ok None) = (if N.testbit f 0 then Ok (Some n') else Ok None)) by (destruct (N.testbit f 0); [rewrite (HP eq_refl)|]; reflexivity).
    rewrite A, B. destruct (N.testbit f 2); [rewrite (HE eq_refl)|]; reflexivity.
Qed.
Lemma csum_le m l s : chdr_len m l = Ok s -> (8 <= s)%nat /\ (is_some (c_sqn l) || is_some (c_npdu l) || is_some (c_ext l) = true -> 12 <= s)%nat.
Proof.
  unfold chdr_len. destruct (c_ext l) as [x|].
  - destruct (cext_len_sum m x) as [k| | |]; cbn [bind]; intros H; try discriminate H. apply Ok_inj in H. subst s. split; intros; lia.
  - cbn [is_some]. rewrite orb_false_r. destruct (_ || _); intros H; apply Ok_inj in H; subst s; split; try intros; try discriminate; lia.
Qed.
Lemma chdr_flags m b h : chdr_unmarshal m b = Ok h -> N.land (nth 0 b 0) 7 <> 0 -> is_some (c_sqn h) || is_some (c_npdu h) || is_some (c_ext h) = true.
Proof.
  intros H Z. unfold chdr_unmarshal in H. destruct (length b <? 8)%nat; [discriminate H|]. destruct b as [|f b]; [discriminate H|]. cbn [nth] in Z. cbn [at_ nth_error bind] in H.
  destruct (_ && _) in H; [|discriminate H].
  repeat match type of H with bind (at_ ?b ?i) _ = _ => destruct (at_ b i) as [?| | |]; try discriminate H; cbn [bind] in H end.
  cbv zeta in H. rewrite (proj2 (N.eqb_neq _ _) Z), !flag_1, flag_0, !b2n_1 in H.
  do 3 (match type of H with bind ?r _ = Ok _ => let o := fresh "o" in let E := fresh "E" in destruct r as [o| | |] eqn:E; try discriminate H; cbn [bind] in H end). apply Ok_inj in H. subst h. cbn [c_sqn c_npdu c_ext].
  Ltac some E := repeat (match type of E with bind ?r _ = _ => destruct r; try discriminate E; cbn [bind] in E | (if ?c then _ else _) = _ => destruct c; try discriminate E end); apply Ok_inj in E; subst; reflexivity.
  assert (is_some o = N.testbit f 1) as -> by (destruct (N.testbit f 1); some E).
  assert (is_some o0 = N.testbit f 0) as -> by (destruct (N.testbit f 0); some E0).
  assert (is_some o1 = N.testbit f 2) as -> by (destruct (N.testbit f 2); some E1).
  destruct (N.testbit f 1) eqn:Q1; [reflexivity|]. destruct (N.testbit f 0) eqn:Q0; [reflexivity|]. destruct (N.testbit f 2) eqn:Q2; [reflexivity|].
  exfalso. apply Z. apply N.bits_inj. intros i. rewrite N.land_spec, N.bits_0.
  destruct (N.eq_dec i 0) as [->|Z0]; [rewrite Q0; reflexivity|]. destruct (N.eq_dec i 1) as [->|Z1]; [rewrite Q1; reflexivity|]. destruct (N.eq_dec i 2) as [->|Z2]; [rewrite Q2; reflexivity|].
  rewrite (N.bits_above_log2 7 i) by (change (N.log2 7) with 2; lia). apply andb_false_r.
Qed.
(* where the packets agree from *)
Lemma spare_later b b' : spare_only b b' -> exists n, later n b b' /\ (n = 8%nat \/ (n = 12%nat /\ N.land (nth 0 b 0) 7 <> 0 /\ N.land (nth 0 b' 0) 7 <> 0)).
Proof.
  intros (f & f' & md & r & L7 & F & H). destruct (seven md L7) as (mt & l1 & l2 & t1 & t2 & t3 & t4 & ->).
  destruct H as [(Z & -> & ->)|(Z & s1 & s2 & n & x & s1' & s2' & n' & x' & -> & -> & _)].
  - exists 8%nat. split; [split; reflexivity|auto].
  - exists 12%nat. split; [split; reflexivity|]. right. cbn [nth]. rewrite <- (land_eq f f' 7 F) by reflexivity. rewrite mod8 in Z. auto.
Qed.
(* what a GTPv1-C message decoder reads after the header lies in what the packets have in common *)
Lemma c_common m b b' : spare_only b b' -> exists n, later n b b' /\ chdr_unmarshal m b = chdr_unmarshal m b' /\
  forall h s, chdr_unmarshal m b' = Ok h -> chdr_len m h = Ok s -> (n <= s)%nat.
Proof.
  intros H. destruct (spare_later b b' H) as (n & L & C). exists n. split; [exact L|]. split; [apply chdr_spare; exact H|]. intros h s E S. apply csum_le in S. destruct S as [S8 S12].
  destruct C as [->|(-> & _ & Z)]; [exact S8|]. apply S12. exact (chdr_flags m b' h E Z).
Qed.
Lemma msg1_loop_later T m f n b b' : later n b b' -> forall cur inc c fs, (n <= cur)%nat -> msg1_loop T m f b cur inc c fs = msg1_loop T m f b' cur inc c fs.
Proof.
  intros L. induction f as [|f IH]; intros cur inc c fs H; [reflexivity|]. cbn [msg1_loop]. rewrite (proj1 L), (later_at n b b' cur L H), (later_from n b b' cur L H).
  destruct (_ <=? _)%nat; [reflexivity|]. destruct (at_ b' cur) as [t| | |]; cbn [bind]; try reflexivity. destruct (t <? inc); [reflexivity|]. destruct (find_arm (t_arms T) t) as [a|]; [|reflexivity].
  destruct (slice_from b' cur) as [r| | |]; cbn [bind]; try reflexivity. destruct (ie1_unmarshal (a_kind a) m r) as [i| | |]; try reflexivity.
  destruct (next_count m (c t)) as [k| | |]; cbn [bind]; try reflexivity. destruct (ie1_len m i) as [l| | |]; cbn [bind]; try reflexivity. apply IH. lia.
Qed.
Theorem C87_gtpv1c : forall m b b', spare_only b b' ->
  (forall T, msg1_unmarshal T m b = msg1_unmarshal T m b') /\
  Vns_unmarshal m b = Vns_unmarshal m b' /\ CEchoReq_unmarshal m b = CEchoReq_unmarshal m b' /\
  CEchoResp_unmarshal m b = CEchoResp_unmarshal m b' /\ CSup_unmarshal m b = CSup_unmarshal m b'.
Proof.
  intros m b b' H. destruct (c_common m b b' H) as (n & L & U & S). split; [|split; [|split; [|split]]].
  - intros T. unfold msg1_unmarshal. rewrite U, (proj1 L). destruct (chdr_unmarshal m b') as [h| | |] eqn:E; cbn [bind]; try reflexivity. destruct (negb _); [reflexivity|].
    destruct (add16 m (c_length h) 8) as [t| | |]; cbn [bind]; try reflexivity. destruct (_ <=? _)%nat; [|reflexivity]. destruct (chdr_len m h) as [s| | |] eqn:K; cbn [bind]; try reflexivity.
    rewrite (msg1_loop_later T m _ n b b' L) by exact (S h s eq_refl K). reflexivity.
  - unfold Vns_unmarshal. rewrite U. reflexivity.
  - unfold CEchoReq_unmarshal. rewrite U, (proj1 L). destruct (chdr_unmarshal m b') as [h| | |] eqn:E; cbn [bind]; try reflexivity. destruct (_ =? _); [|reflexivity]. destruct (_ <? _)%nat; [|reflexivity].
    destruct (chdr_len m h) as [s| | |] eqn:K; cbn [bind]; try reflexivity. rewrite (later_from n b b' s L) by exact (S h s eq_refl K). reflexivity.
  - unfold CEchoResp_unmarshal. rewrite U, (proj1 L). destruct (chdr_unmarshal m b') as [h| | |] eqn:E; cbn [bind]; try reflexivity. destruct (_ =? _); [|reflexivity]. destruct (_ <? _)%nat; [|reflexivity].
    destruct (chdr_len m h) as [s| | |] eqn:K; cbn [bind]; try reflexivity. pose proof (S h s eq_refl K) as Q. rewrite (later_from n b b' s L Q), (later_at n b b' s L Q). cbv zeta. rewrite (later_from n b b' (s + 2) L) by lia. reflexivity.
  - unfold CSup_unmarshal. rewrite U, (proj1 L). destruct (chdr_unmarshal m b') as [h| | |] eqn:E; cbn [bind]; try reflexivity. destruct (negb _); [reflexivity|].
    destruct (add16 m (c_length h) 8) as [t| | |]; cbn [bind]; try reflexivity. destruct (_ <=? _)%nat; [|reflexivity]. destruct (chdr_len m h) as [s| | |] eqn:K; cbn [bind]; try reflexivity.
    pose proof (S h s eq_refl K) as Q. rewrite (later_from n b b' s L Q), (later_at n b b' s L Q). reflexivity.
Qed.
(* GTP-U *)
Lemma masked_eq f f' k j : first_octets f f' -> N.testbit k 3 = false -> N.shiftr (N.land f k) j = N.shiftr (N.land f' k) j.
Proof. intros H K. rewrite (land_eq f f' k H K). reflexivity. Qed.
Lemma hdr_spare m b b' : spare_only b b' -> sequence_flag b \/ no_flag b -> hdr_unmarshal m b = hdr_unmarshal m b'.
Proof.
  intros (f & f' & md & r & L7 & F & H) G. destruct (seven md L7) as (mt & l1 & l2 & t1 & t2 & t3 & t4 & ->). destruct H as [(Z & -> & ->)|(Z & s1 & s2 & n & x & s1' & s2' & n' & x' & -> & -> & HS & HP & HE)].
  - unfold hdr_unmarshal. cbn [app length Nat.leb at_ nth_error bind]. rewrite (shiftr_eq f f' 5 F), (masked_eq f f' 16 4 F) by (try reflexivity; lia). unfold hdr_flags.
    rewrite <- (land_eq f f' 1 F), <- (masked_eq f f' 2 1 F), <- (masked_eq f f' 4 2 F) by reflexivity. rewrite mod8 in Z.
    assert (forall k, N.land 7 k = k -> N.land f k = 0) as Q by (intros k K; rewrite <- K, N.land_assoc, Z; apply N.land_0_l). rewrite (Q 1), (Q 2), (Q 4) by reflexivity. reflexivity.
  - destruct G as [G|G]; [|exfalso; apply Z; exact G]. unfold sequence_flag in G. cbn [nth] in G. destruct (HS G) as [<- <-].
    unfold hdr_unmarshal. cbn [app length Nat.leb at_ nth_error bind]. rewrite (shiftr_eq f f' 5 F), (masked_eq f f' 16 4 F) by (try reflexivity; lia). unfold hdr_flags.
    rewrite <- (land_eq f f' 1 F), <- (masked_eq f f' 2 1 F), <- (masked_eq f f' 4 2 F) by reflexivity.
    assert (B : forall k, N.shiftr (N.land f (N.shiftl 1 k)) k = N.b2n (N.testbit f k)) by (intros k; rewrite N.shiftr_land, N.shiftr_shiftl_l by lia; rewrite N.sub_diag, N.shiftl_0_r; apply flag_1).
    change (N.land f 2) with (N.land f (N.shiftl 1 1)). change (N.land f 4) with (N.land f (N.shiftl 1 2)). rewrite !B, flag_0, G. cbn [N.b2n].
    destruct (N.testbit f 0), (N.testbit f 2); cbn [N.b2n]; unfold hdr_optional, slice_from; cbn [app length Nat.leb at_ nth_error skipn bind];
      try rewrite (HP eq_refl); try rewrite (HE eq_refl); reflexivity.
Qed.
Lemma usum_le m l s : get_header_size m l = Ok s -> (8 <= s)%nat /\ (is_some (sequence_number l) = true -> 12 <= s)%nat.
Proof.
  unfold get_header_size. destruct (extension_headers l) as [x|].
  - destruct (ext_len_sum m x) as [k| | |]; cbn [bind]; intros H; try discriminate H. apply Ok_inj in H. subst s. split; intros; lia.
  - destruct (is_some (sequence_number l)), (is_some (npdu_number l)); cbn [orb]; intros H; apply Ok_inj in H; subst s; split; try intros; try discriminate; lia.
Qed.
Lemma hdr_sequence m b h : hdr_unmarshal m b = Ok h -> sequence_flag b -> is_some (sequence_number h) = true.
Proof.
  intros H G. unfold sequence_flag in G. unfold hdr_unmarshal in H. destruct (_ <=? _)%nat; [|discriminate H]. destruct b as [|f b]; [discriminate H|]. cbn [nth] in G. cbn [at_ nth_error bind] in H.
  destruct (_ && _) in H; [|discriminate H].
  repeat match type of H with bind (at_ ?b ?i) _ = _ => destruct (at_ b i) as [?| | |]; try discriminate H; cbn [bind] in H | (if ?c then _ else _) = _ => destruct c; try discriminate H end.
  unfold hdr_flags in H. assert (B : forall k, N.shiftr (N.land f (N.shiftl 1 k)) k = N.b2n (N.testbit f k)) by (intros k; rewrite N.shiftr_land, N.shiftr_shiftl_l by lia; rewrite N.sub_diag, N.shiftl_0_r; apply flag_1).
  change (N.land f 2) with (N.land f (N.shiftl 1 1)) in H. change (N.land f 4) with (N.land f (N.shiftl 1 2)) in H. rewrite !B, flag_0, G in H. cbn [N.b2n] in H.
  assert (exists np ex, hdr_optional m (f :: b) a (be16 a0 a1) (be32 a2 a3 a4 a5) np ex = Ok h) as (np & ex & K) by (destruct (N.testbit f 0), (N.testbit f 2); cbn [N.b2n] in H; eauto). clear H.
  unfold hdr_optional in K. repeat (match type of K with bind ?r _ = _ => destruct r; try discriminate K; cbn [bind] in K | (if ?c then _ else _) = _ => destruct c; try discriminate K end); apply Ok_inj in K; subst h; reflexivity.
Qed.
Lemma u_common m b b' : spare_only b b' -> sequence_flag b \/ no_flag b -> exists n, later n b b' /\ hdr_unmarshal m b = hdr_unmarshal m b' /\
  forall h s, hdr_unmarshal m b' = Ok h -> get_header_size m h = Ok s -> (n <= s)%nat.
Proof.
  intros H G. destruct (spare_later b b' H) as (n & L & C). exists n. split; [exact L|]. pose proof (hdr_spare m b b' H G) as U. split; [exact U|]. intros h s E S. apply usum_le in S. destruct S as [S8 S12].
  destruct C as [->|(-> & Z & _)]; [exact S8|]. destruct G as [G|G]; [|exfalso; apply Z; rewrite <- mod8; exact G]. apply S12. rewrite <- U in E. exact (hdr_sequence m b h E G).
Qed.
Lemma ei_loop_later m f n b b' : later n b b' -> forall s, (n <= ei_cursor s)%nat -> ei_loop m f b s = ei_loop m f b' s.
Proof.
  intros L. induction f as [|f IH]; intros s H; [reflexivity|]. cbn [ei_loop]. rewrite (proj1 L), (later_at n b b' _ L H), (later_from n b b' _ L H).
  destruct (_ <=? _)%nat; [reflexivity|]. destruct (at_ b' _) as [t| | |]; cbn [bind]; try reflexivity. destruct (t <? _); [reflexivity|].
  destruct (slice_from b' _) as [r| | |]; cbn [bind]; try reflexivity. destruct (t =? TEID_DATA); [|destruct (t =? GSN_ADDRESS); [|destruct (t =? PRIVATE_EXTENSION); [|reflexivity]]].
  - destruct (Teid_unmarshal r) as [i| | |]; try reflexivity. destruct (count m (V1U.c_teid s)) as [k| | |]; cbn [bind]; try reflexivity. apply IH. cbn [ei_cursor]. lia.
  - destruct (Gsn_unmarshal m r) as [i| | |]; try reflexivity. destruct (count m (c_gsn s)) as [k| | |]; cbn [bind]; try reflexivity. destruct (Gsn_len m i) as [l| | |]; cbn [bind]; try reflexivity. apply IH. cbn [ei_cursor]. lia.
  - destruct (Pe_unmarshal m r) as [i| | |]; try reflexivity. destruct (count m (c_pe s)) as [k| | |]; cbn [bind]; try reflexivity. destruct (Pe_len m i) as [l| | |]; cbn [bind]; try reflexivity. apply IH. cbn [ei_cursor]. lia.
Qed.
Theorem C87_gtpu_partial : forall m b b', spare_only b b' -> sequence_flag b \/ no_flag b ->
  Gpdu_unmarshal m b = Gpdu_unmarshal m b' /\ EchoRequest_unmarshal m b = EchoRequest_unmarshal m b' /\ EndMarker_unmarshal m b = EndMarker_unmarshal m b' /\
  EchoResponse_unmarshal m b = EchoResponse_unmarshal m b' /\ ErrorIndication_unmarshal m b = ErrorIndication_unmarshal m b' /\ SupExtNotif_unmarshal m b = SupExtNotif_unmarshal m b'.
Proof.
  intros m b b' H G. destruct (u_common m b b' H G) as (n & L & U & S).
  assert (SI : forall mt, Simple_unmarshal mt m b = Simple_unmarshal mt m b').
  { intros mt. unfold Simple_unmarshal. rewrite U, (proj1 L). destruct (hdr_unmarshal m b') as [h| | |] eqn:E; cbn [bind]; try reflexivity. destruct (negb _); [reflexivity|]. destruct (_ <? _)%nat; [|reflexivity].
    destruct (get_header_size m h) as [s| | |] eqn:K; cbn [bind]; try reflexivity. rewrite (later_from n b b' s L) by exact (S h s eq_refl K). reflexivity. }
  split; [|split; [apply SI|split; [apply SI|split; [|split]]]].
  - unfold Gpdu_unmarshal. rewrite U, (proj1 L). destruct (hdr_unmarshal m b') as [h| | |] eqn:E; cbn [bind]; try reflexivity. destruct (negb _); [reflexivity|].
    destruct (add16 m (h_length h) 8) as [t| | |]; cbn [bind]; try reflexivity. destruct (_ <=? _)%nat; [|reflexivity]. destruct (get_header_size m h) as [s| | |] eqn:K; cbn [bind]; try reflexivity.
    rewrite (later_slice n b b' s _ L) by exact (S h s eq_refl K). reflexivity.
  - unfold EchoResponse_unmarshal. rewrite U, (proj1 L). destruct (hdr_unmarshal m b') as [h| | |] eqn:E; cbn [bind]; try reflexivity. destruct (negb _); [reflexivity|]. destruct (_ <? _)%nat; [|reflexivity].
    destruct (get_header_size m h) as [s| | |] eqn:K; cbn [bind]; try reflexivity. pose proof (S h s eq_refl K) as Q. rewrite (later_from n b b' s L Q), (later_at n b b' s L Q). cbv zeta. rewrite (later_from n b b' (s + 2) L) by lia. reflexivity.
  - unfold ErrorIndication_unmarshal. rewrite U, (proj1 L). destruct (hdr_unmarshal m b') as [h| | |] eqn:E; cbn [bind]; try reflexivity. destruct (negb _); [reflexivity|].
    destruct (add16 m (h_length h) 8) as [t| | |]; cbn [bind]; try reflexivity. destruct (_ <=? _)%nat; [|reflexivity]. destruct (get_header_size m h) as [s| | |] eqn:K; cbn [bind]; try reflexivity.
    rewrite (ei_loop_later m _ n b b' L) by exact (S h s eq_refl K). reflexivity.
  - unfold SupExtNotif_unmarshal. rewrite U, (proj1 L). destruct (hdr_unmarshal m b') as [h| | |] eqn:E; cbn [bind]; try reflexivity. destruct (negb _); [reflexivity|].
    destruct (add16 m (h_length h) 8) as [t| | |]; cbn [bind]; try reflexivity. destruct (_ <=? _)%nat; [|reflexivity]. destruct (get_header_size m h) as [s| | |] eqn:K; cbn [bind]; try reflexivity.
    pose proof (S h s eq_refl K) as Q. rewrite (later_from n b b' s L Q), (later_at n b b' s L Q). reflexivity.
Qed.
(* Without the S flag GTP-U evaluates the octets of the sequence number, of the N-PDU number and of the extension header type whatever
   the other flags are: the first two show in the message, the third makes the receiver refuse it, or crash. *)
Theorem C87_gtpu_refuted : forall m s1 s2 s1' s2' n n',
  let b s1 s2 n x := [49; 1; 0; 4; 0; 0; 0; 9; s1; s2; n; x] in let e s1 s2 n := [52; 1; 0; 4; 0; 0; 0; 9; s1; s2; n; 0] in
  spare_only (b s1 s2 n 0) (b s1' s2' n 192) /\ spare_only (e s1 s2 n) (e s1' s2' n') /\
  EchoRequest_unmarshal m (b s1 s2 n 0) = Ok (mkSimple (mkHdr 1 4 9 (Some (be16 s1 s2)) (Some n) (Some [])) None) /\
  EchoRequest_unmarshal m (b s1' s2' n 192) = Panic /\
  EchoRequest_unmarshal m (e s1 s2 n) = Ok (mkSimple (mkHdr 1 4 9 (Some (be16 s1 s2)) (Some n) (Some [])) None).
Proof.
  intros m s1 s2 s1' s2' n n' b e. split; [|split; [|split; [|split]]].
  - exists 49, 49, [1; 0; 4; 0; 0; 0; 9], []. split; [reflexivity|]. split; [split; reflexivity|]. right. split; [discriminate|]. exists s1, s2, n, 0, s1', s2', n, 192. repeat split; try reflexivity; discriminate.
  - exists 52, 52, [1; 0; 4; 0; 0; 0; 9], []. split; [reflexivity|]. split; [split; reflexivity|]. right. split; [discriminate|]. exists s1, s2, n, 0, s1', s2', n', 0. repeat split; try reflexivity; discriminate.
  - destruct m; reflexivity.
  - destruct m; reflexivity.
  - destruct m; reflexivity.
Qed.

(* --- non-vacuity ------------------------------------------------------------------------------------------------------ *)
(* an echo response with sequence number, in which the spare bit and the two unused octets are set *)
Definition plain : list N := [50; 2; 0; 6; 0; 0; 0; 0; 0; 7; 0; 0; 14; 6].
Definition marked : list N := [58; 2; 0; 6; 0; 0; 0; 0; 0; 7; 5; 192; 14; 6].
Example C87_v1_example : spare_only plain marked /\ sequence_flag plain /\ forall m,
  (exists u, EchoResponse_unmarshal m marked = Ok u) /\ (exists c, CEchoResp_unmarshal m marked = Ok c).
Proof.
  split; [|split; [reflexivity|intros m; destruct m; split; eexists; reflexivity]].
  exists 50, 58, [2; 0; 6; 0; 0; 0; 0], [14; 6]. split; [reflexivity|]. split; [split; reflexivity|]. right. split; [discriminate|].
  exists 0, 7, 0, 0, 0, 7, 5, 192. repeat split; try reflexivity; discriminate.
Qed.

Print Assumptions C87_gtpv1c.
Print Assumptions C87_gtpu_partial.
Print Assumptions C87_gtpu_refuted.
