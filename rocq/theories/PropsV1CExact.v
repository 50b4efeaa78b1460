(* PropsV1CExact.v - C61, continued: the condition under which a received element can be sent on is exact. *)
From Verif Require Import Base BaseFacts Octets DigitsFacts Labels LabelsFacts LabelsLen V1USpec V1UFacts V1CIeFacts V1CForwardSpec V1CReadFacts V1CForward PropsV1CRead.
Local Open Scope N_scope.
Notation length := List.length.

Lemma bind_inv {A B} (r : res A) (k : A -> res B) x : bind r k = Ok x -> exists a, r = Ok a /\ k a = Ok x.
Proof. destruct r; try discriminate. cbn [bind]. eauto. Qed.
Lemma slice_inv {E} b i j s : @slice E b i j = Ok s -> (j <= length b)%nat /\ s = firstn (j - i) (skipn i b).
Proof.
  unfold slice. destruct (Nat.leb_spec j (length b)); [|rewrite andb_false_r; discriminate]. destruct (i <=? j)%nat; [|discriminate]. cbn [andb].
  intros H'. apply Ok_inj in H'. auto.
Qed.
Lemma tlv_cons {A} (value : A -> list N) x : let n := nlen (value (tlv_v x)) mod 65536 in
  tlv_marshal value x = tlv_t x :: (n / 256) mod 256 :: n mod 256 :: value (tlv_v x).
Proof. cbv zeta. unfold tlv_marshal. cbn [app enc16]. rewrite set_tlv_cons. reflexivity. Qed.
Lemma var_inv {A} T k m t a c v (x : Tlv A) : var_unmarshal T k m (t :: a :: c :: v) = Ok x ->
  tlv_length x = be16 a c /\ k (be16 a c) (t :: a :: c :: v) = Ok (tlv_v x) /\ (m = Debug -> be16 a c <= 65532 /\ (N.to_nat (be16 a c) <= length v)%nat).
Proof.
  unfold var_unmarshal. destruct (Nat.leb_spec 3 (length (t :: a :: c :: v))) as [_|H]; [|cbn [length] in H; lia].
  unfold at_. cbn [nth_error bind]. cbv zeta. unfold check_tlv_ie_buffer. intros H. apply bind_inv in H as (ok & C & H). destruct ok; [|discriminate H].
  apply bind_inv in H as (w & W & H). apply Ok_inj in H. subst x. cbn [tlv_length tlv_v]. split; [reflexivity|]. split; [exact W|]. intros ->.
  destruct (N.eqb_spec (be16 a c) 0); [discriminate C|]. apply bind_inv in C as (s & S & C). apply Ok_inj in C. unfold add16, ov in S.
  destruct (N.ltb_spec (be16 a c + 3) 65536); [|discriminate S]. apply Ok_inj in S. subst s. apply Nat.leb_le in C. cbn [length] in C. split; lia.
Qed.
Lemma be16_len n : be16 ((n mod 65536) / 256 mod 256) ((n mod 65536) mod 256) = n mod 65536.
Proof. unfold be16. pose proof (N.mod_lt n 65536 ltac:(lia)). generalize dependent (n mod 65536). intros k K. lia. Qed.

Theorem C61_exact : forall i s t, bytes s -> says1 i s -> nth_error s 0 = Some t -> code_kind t = Some (kind1_of i) ->
  ((forall m r, (ie1_t i = 255 -> r = []) -> ie1_unmarshal (kind1_of i) m (ie1_marshal i ++ r) = Ok (with_true_length i)) <-> resendable i).
Proof.
  intros i s t B Sy Ht Hk. split; [|intros R m r E; exact (C61_element_partial m i s t r B Sy Ht Hk R E)].
  intros F. specialize (F Debug [] ltac:(reflexivity)). rewrite app_nil_r in F.
  apply (C60_element_reading Debug) in Sy; [|exact B|left; reflexivity].
  destruct i; try exact I; cbn [resendable kind1_of ie1_unmarshal ie1_marshal with_true_length] in *;
    apply bind_inv in F as (y & F & Q); apply bind_inv in Sy as (z & Sy & Qz); apply Ok_inj in Q; apply Ok_inj in Qz; injection Q as Q; injection Qz as Qz; subst y z.
  - unfold Imsi_unmarshal, tv_unmarshal, tv_marshal, Imsi_value in F. destruct (Nat.leb_spec 9 (length (tv_t x :: tbcd_encode (tv_v x)))) as [L|L]; [|discriminate F].
    cbn [length] in L. pose proof (tbcd_encode_most (tv_v x)) as T. unfold nlen. lia.
  - rewrite tlv_cons in F. unfold Apn_unmarshal in F. apply var_inv in F as (F1 & F2 & F3). specialize (F3 eq_refl) as [F3 F4]. rewrite be16_len in F1, F2, F3, F4.
    cbn [with_size tlv_length tlv_v] in F1, F2. unfold Apn_value in F1, F3, F4.
    assert (R : bytes (tlv_v x) /\ nlen (tlv_v x) <= 65532).
    { unfold Apn_unmarshal in Sy. destruct s as [|s0 [|s1 [|s2 s]]]; try discriminate Sy. apply var_inv in Sy as (_ & S2 & S3). specialize (S3 eq_refl) as [S3 S4].
      apply bind_inv in S2 as (d & Hd & S2). apply slice_inv in Hd as [_ Hd]. apply labels_decode_bytes in S2 as [S5 S6].
      - split; [exact S5|]. unfold nlen. rewrite S6, Hd, firstn_length. clear - S3. lia.
      - rewrite Hd. apply bytes_firstn, bytes_skipn, B. }
    destruct R as [R1 R2]. pose proof (utf8_twice _ R1) as T. destruct (utf8_len (tlv_v x)) as [U1 U2]. apply U2. unfold name_size, nlen in F1, R2. rewrite labels_encode_len in F1.
    destruct (N.lt_ge_cases (N.of_nat (S (length (utf8 (tlv_v x))))) 65536) as [L|L]; [rewrite N.mod_small in F1 by exact L; lia|].
    pose proof (N.div_mod (N.of_nat (S (length (utf8 (tlv_v x))))) 65536 ltac:(lia)) as V. rewrite <- F1 in V. lia.
  - rewrite tlv_cons in F. unfold Msisdn_unmarshal in F. apply var_inv in F as (_ & F2 & _). apply bind_inv in F2 as (y & _ & F2). cbv zeta in F2.
    destruct (_ || _)%bool; [|discriminate F2]. apply bind_inv in F2 as (d & Hd & _). apply slice_inv in Hd as [L _]. unfold Msisdn_value in L. cbn [length] in L.
    pose proof (tbcd_encode_most (ms_digits (tlv_v x))) as T. unfold nlen. lia.
  - rewrite tlv_cons in F. unfold Imei_unmarshal, Imei_value in F. destruct (Nat.leb_spec 11 (length (tlv_t x :: (nlen (tbcd_encode (tlv_v x)) mod 65536 / 256) mod 256 :: (nlen (tbcd_encode (tlv_v x)) mod 65536) mod 256 :: tbcd_encode (tlv_v x)))) as [L|L]; [|discriminate F].
    cbn [length] in L. pose proof (tbcd_encode_most (tlv_v x)) as T. unfold nlen. lia.
  - rewrite tlv_cons in F. unfold Uci_unmarshal, fixed_unmarshal in F. destruct (Nat.leb _ _); [|discriminate F]. cbn [at_ nth_error] in F. unfold at_ in F. cbn [nth_error bind] in F.
    apply bind_inv in F as (v & Hv & F). apply Ok_inj in F. apply (f_equal tlv_v) in F. cbn [with_size tlv_v] in F. subst v.
    apply bind_inv in Hv as (p & _ & Hv). apply bind_inv in Hv as (c & Hc & Hv). apply bind_inv in Hv as (f & _ & Hv). apply Ok_inj in Hv.
    assert (E : uci_csgid (tlv_v x) = c) by (rewrite <- Hv; reflexivity).
    assert (Bd : N.land (uci_csgid (tlv_v x)) 134217727 < 2 ^ 27) by (change 134217727 with (N.ones 27); rewrite N.land_ones; apply N.mod_lt; lia).
    rewrite E. assert (P : exists a b c, plmn_octets (uci_plmn (tlv_v x)) = [a; b; c]) by (destruct (uci_plmn (tlv_v x)) as [[mc mn] []]; do 3 eexists; reflexivity).
    destruct P as (p0 & p1 & p2 & P). unfold Uci_value in Hc. rewrite P in Hc. unfold be32_at, at_ in Hc. cbn [app enc32 nth_error plus bind] in Hc. apply Ok_inj in Hc.
    rewrite be32_enc in Hc by (unfold u32; lia). lia.
  - rewrite tlv_cons in F. unfold CPe_unmarshal in F. apply var_inv in F as (F1 & _ & F3). specialize (F3 eq_refl) as [F3 _]. rewrite be16_len in F1, F3.
    cbn [with_size tlv_length tlv_v] in F1. lia.
Qed.
Print Assumptions C61_exact.
(* an IMSI of fifteen digits and one of five, as received *)
Example C61_exact_cases : let s := [2; 33; 67; 101; 135; 9; 33; 67; 245] in let s' := [2; 33; 67; 245; 255; 255; 255; 255; 255] in
  let i := I1_Imsi (mkTv 2 [49; 50; 51; 52; 53; 54; 55; 56; 57; 48; 49; 50; 51; 52; 53]) in let i' := I1_Imsi (mkTv 2 [49; 50; 51; 52; 53]) in
  bytes s /\ says1 i s /\ resendable i /\ bytes s' /\ says1 i' s' /\ ~ resendable i'.
Proof.
  cbv zeta. assert (B : bytes [2; 33; 67; 101; 135; 9; 33; 67; 245]) by (repeat constructor). assert (B' : bytes [2; 33; 67; 245; 255; 255; 255; 255; 255]) by (repeat constructor).
  split; [exact B|]. split; [apply (says1_iff Debug); [exact B|left; reflexivity|vm_compute; reflexivity]|]. split; [vm_compute; discriminate|].
  split; [exact B'|]. split; [apply (says1_iff Debug); [exact B'|left; reflexivity|vm_compute; reflexivity]|]. intros H. vm_compute in H. congruence.
Qed.
