(* V1UReadFacts.v - what GTP-U decoding makes of received octets, in the terms of
   V1UWireSpec.v. *)
From Verif Require Import BaseFacts V1USpec V1UFacts V1USafety V1USafety2 V1USafety3 V1UWireSpec.
From Coq Require Import Sorted.
Local Open Scope N_scope.

(* ------------------------------------------------------------------------- *)
(* Extension headers *)

Lemma ext_unmarshal_meaning m t l v r :
  t <> 0 -> 1 <= l <= 63 -> nlen v + 2 = 4 * l -> (1 <= length r)%nat ->
  ext_unmarshal m (t :: l :: v ++ r) = Ok (ext_meaning t l v (v ++ r)).
Proof.
  intros Ht Hl Hv Hr. unfold nlen in Hv.
  assert (Hc : forall A (k : N -> N -> res A), ext_checked m (t :: l :: v ++ r) k = k l (l * 4)).
  { intros. apply ext_checked_ok; [lia|rewrite app_length; lia]. }
  assert (Hblob : forall ty, Blob_unmarshal ty m (t :: l :: v ++ r) = Ok (mkBlobExt ty l v)).
  { intros. unfold Blob_unmarshal. rewrite Hc.
    change (t :: l :: v ++ r) with ([t; l] ++ v ++ r).
    rewrite slice_app_mid; [reflexivity|reflexivity|cbn; lia]. }
  assert (Hn : exists a b c w, v ++ r = a :: b :: c :: w).
  { destruct v as [|a [|b v]]; cbn in Hv; try lia. cbn.
    destruct v as [|c v]; cbn; [destruct r as [|c r]; [cbn in Hr; lia|]|]; eauto. }
  destruct Hn as (a & b & c & w & Hn).
  assert (Hnum : forall ty, Num16_unmarshal ty m (t :: l :: v ++ r) = Ok (mkNumExt ty l (256 * a + b))).
  { intros. unfold Num16_unmarshal. rewrite Hc, Hn. unfold at_. cbn [nth_error bind]. unfold be16. rewrite (N.mul_comm a). reflexivity. }
  assert (Hsci : Sci_unmarshal m (t :: l :: v ++ r) = Ok (mkNumExt SCI l a)).
  { unfold Sci_unmarshal. rewrite Hc, Hn. reflexivity. }
  assert (Hlong : t = 3 \/ t = 130 -> Long_unmarshal m (t :: l :: v ++ r) = Ok (mkNumExt t l (65536 * a + 256 * b + c))).
  { intros Hor. unfold Long_unmarshal. unfold at_ at 1. cbn [nth_error bind].
    replace ((t =? LONG_PDCP_PDU_NUMBER_I) || (t =? LONG_PDCP_PDU_NUMBER_II)) with true
      by (destruct Hor as [-> | ->]; reflexivity).
    rewrite Hc, Hn. unfold at_. cbn [nth_error bind]. do 2 f_equal. unfold be32. lia. }
  unfold ext_meaning. rewrite Hn. cbn [nth].
  unfold ext_unmarshal. unfold at_ at 1. cbn [nth_error bind]. rewrite <- Hn.
  rewrite !Hnum, Hsci, !Hblob. unfold Unknown_unmarshal, at_; cbn [nth_error bind]. rewrite Hblob. cbn [bind].
  unfold NO_MORE_EXTENSION_HEADERS, PDCP_PDU_NUMBER, UDP_PORT, LONG_PDCP_PDU_NUMBER_I, LONG_PDCP_PDU_NUMBER_II, SCI, RAN_CONTAINER,
    XW_RAN_CONTAINER, NR_RAN_CONTAINER, PDU_SESSION_CONTAINER.
  destruct (N.eqb_spec t 0) as [E|_]; [contradiction|].
  destruct (N.eqb_spec t 192); [reflexivity|]. destruct (N.eqb_spec t 64); [reflexivity|].
  destruct (N.eqb_spec t 3) as [->|_]; [rewrite Hlong by auto; reflexivity|].
  destruct (N.eqb_spec t 130) as [->|_]; [rewrite Hlong by auto; reflexivity|]. cbn [orb].
  repeat (match goal with |- context[t =? ?k] => destruct (N.eqb_spec t k); [reflexivity|] end). reflexivity.
Qed.
Lemma ext_meaning_more t l v w : ext_meaning t l v w <> NoMoreExtensionHeaders.
Proof. unfold ext_meaning. repeat (match goal with |- context[if ?c then _ else _] => destruct c end); discriminate. Qed.
Lemma ext_meaning_len m t l v w : 1 <= l <= 63 -> nlen v + 2 = 4 * l -> ext_len m (ext_meaning t l v w) = Ok (2 + length v)%nat.
Proof.
  intros Hl Hv. unfold nlen in Hv. assert (Hlen : ext_len_of m l = Ok (2 + length v)%nat).
  { unfold ext_len_of. rewrite mul8_small by lia. cbn [bind]. f_equal. lia. }
  unfold ext_meaning. repeat (match goal with |- context[if ?c then _ else _] => destruct c end); exact Hlen.
Qed.
Lemma chain_is_chain b l r : chain_is b l r -> ext_chain b.
Proof. induction 1; constructor; assumption. Qed.
Lemma chain_chain_is b : ext_chain b -> exists l r, chain_is b l r.
Proof. induction 1 as [r|t l v r Ht Hl Hv Hr (xs & q & IH)]; eexists _, _; [apply chain_is_end|apply chain_is_more; eassumption]. Qed.
Lemma chain_is_rest m b l r : chain_is b l r -> exists n, ext_len_sum m l = Ok n /\ (n < length b)%nat /\ skipn (S n) b = r.
Proof.
  induction 1 as [r|t l v q xs r Ht Hl Hv Hr (n & Hn & Hlt & Hs)].
  - exists 0%nat. cbn. split; [reflexivity|]. split; [lia|reflexivity].
  - cbn [ext_len_sum]. rewrite ext_meaning_len by assumption. rewrite Hn. cbn [bind]. eexists. split; [reflexivity|].
    split; [cbn [length]; rewrite app_length; lia|]. rewrite <- Hs.
    change (t :: l :: v ++ q) with ((t :: l :: v) ++ q). rewrite skipn_app, skipn_all2 by (cbn [length]; lia).
    cbn [app]. f_equal. cbn [length]. lia.
Qed.

Lemma ext_loop_is m b l r : chain_is b l r -> forall pre fuel data,
  (length b < fuel)%nat -> ext_loop m fuel (pre ++ b) (length pre) data = Ok (data ++ l).
Proof.
  induction 1 as [r|t l v q xs r Ht Hl Hv Hr IH]; intros pre fuel data Hf;
    (destruct fuel as [|fuel]; [lia|]); cbn [ext_loop];
    rewrite slice_from_ok, skipn_app_exact by (reflexivity || (rewrite app_length; lia)); cbn [bind].
  - rewrite app_nil_r. reflexivity.
  - rewrite ext_unmarshal_meaning by (try assumption; apply chain_nonempty; eapply chain_is_chain; eassumption). cbn [bind].
    pose proof (ext_meaning_more t l v (v ++ q)) as He. pose proof (ext_meaning_len m t l v (v ++ q) Hl Hv) as E2.
    set (e := ext_meaning t l v (v ++ q)) in *. clearbody e.
    assert (HH : ext_loop m fuel (pre ++ t :: l :: v ++ q) (length pre + (2 + length v)) (data ++ [e]) = Ok (data ++ e :: xs)).
    { replace (pre ++ t :: l :: v ++ q) with ((pre ++ t :: l :: v) ++ q) by (rewrite <- app_assoc; reflexivity).
      replace (length pre + (2 + length v))%nat with (length (pre ++ t :: l :: v)) by (rewrite app_length; cbn; lia).
      cbn [length] in Hf. rewrite app_length in Hf. rewrite IH by lia. rewrite <- app_assoc. reflexivity. }
    destruct e; try (exfalso; apply He; reflexivity); rewrite E2; exact HH.
Qed.
Lemma unmarshal_ext_is m b l r : chain_is b l r -> unmarshal_ext_hdr m b = Ok l.
Proof. intros H. exact (ext_loop_is m b l r H [] (S (length b)) [] ltac:(lia)). Qed.
Lemma unmarshal_ext_debug b l : unmarshal_ext_hdr Debug b = Ok l <-> exists r, chain_is b l r.
Proof.
  split; [|intros (r & H); exact (unmarshal_ext_is _ _ _ _ H)]. intros H.
  destruct (chain_chain_is b) as (l' & r & Hl'); [apply unmarshal_ext_debug_iff; eauto|].
  rewrite (unmarshal_ext_is _ _ _ _ Hl') in H. apply Ok_inj in H. subst. eauto.
Qed.

(* ------------------------------------------------------------------------- *)
(* The header *)

Definition version_ok (b0 : N) : bool :=
  Bool.eqb ((N.shiftr b0 5 =? 1) && (N.shiftr (N.land b0 16) 4 =? 1)) ((b0 / 32 =? 1) && N.testbit b0 4).
Lemma version_sweep b0 : byte b0 ->
  (N.shiftr b0 5 =? 1) && (N.shiftr (N.land b0 16) 4 =? 1) = ((b0 / 32 =? 1) && N.testbit b0 4).
Proof. intros H. apply eqb_prop. exact (sweep 256 version_ok ltac:(vm_compute; reflexivity) b0 H). Qed.

Lemma header_is_ok m b h r : bytes b -> header_is b h r -> hdr_unmarshal m b = Ok h.
Proof.
  intros Hb H. destruct H as [b0 t l1 l2 a b' c d r Hv Ht Hl HS HP HE|b0 t l1 l2 a b' c d s1 s2 n x q xs r Hv Ht Hl Ho Hx].
  - unfold hdr_unmarshal. cbn [length Nat.leb]. unfold at_. cbn [nth_error bind].
    apply bytes_cons in Hb as [Hb0 Hb]. rewrite version_sweep by exact Hb0. rewrite Hv, Ht. change (1 =? 1) with true. cbn [andb].
    unfold be16, be32. rewrite (N.mul_comm l1). destruct (N.eqb_spec (256 * l1 + l2) 0); [contradiction|].
    rewrite hdr_flags_eq by exact Hb0. unfold has_optional. rewrite HS, HP, HE. cbn [orb].
    replace (((a * 256 + b') * 256 + c) * 256 + d) with (16777216 * a + 65536 * b' + 256 * c + d) by lia. reflexivity.
  - unfold hdr_unmarshal. cbn [length Nat.leb]. unfold at_. cbn [nth_error bind].
    apply bytes_cons in Hb as [Hb0 Hb]. rewrite version_sweep by exact Hb0. rewrite Hv, Ht. change (1 =? 1) with true. cbn [andb].
    unfold be16, be32. rewrite (N.mul_comm l1). destruct (N.eqb_spec (256 * l1 + l2) 0); [contradiction|].
    rewrite hdr_flags_eq by exact Hb0. unfold has_optional. rewrite Ho.
    unfold hdr_optional. rewrite slice_from_ok by (cbn [length]; lia). cbn [skipn bind length Nat.leb].
    unfold at_. cbn [nth_error bind]. rewrite slice_from_ok by (cbn [length]; lia). cbn [skipn bind].
    replace (((a * 256 + b') * 256 + c) * 256 + d) with (16777216 * a + 65536 * b' + 256 * c + d) by lia.
    unfold be16. rewrite (N.mul_comm s1). unfold walks_extensions in *.
    destruct (flag_S b0) eqn:HS; cbn [andb negb].
    + assert (Hn : (if flag_PN b0 then Ok (Some n) else @Ok GTPV1Error _ None) = Ok (if negb (flag_PN b0) then None else Some n))
        by (destruct (flag_PN b0); reflexivity). rewrite Hn. cbn [bind].
      destruct (flag_E b0); [rewrite (unmarshal_ext_is m _ _ _ Hx); reflexivity|reflexivity].
    + cbn [orb] in Ho. rewrite Ho in Hx |- *. cbn [bind]. rewrite (unmarshal_ext_is m _ _ _ Hx). reflexivity.
Qed.
Lemma header_is_rest m b h r : header_is b h r ->
  exists n, get_header_size m h = Ok n /\ (n <= length b)%nat /\ skipn n b = r.
Proof.
  intros H. destruct H as [b0 t l1 l2 a b' c d r Hv Ht Hl HS HP HE|b0 t l1 l2 a b' c d s1 s2 n x q xs r Hv Ht Hl Ho Hx];
    unfold get_header_size; cbn [extension_headers sequence_number npdu_number is_some orb].
  - exists 8%nat. cbn [length]. split; [reflexivity|]. split; [lia|reflexivity].
  - destruct (walks_extensions b0).
    + destruct (chain_is_rest m _ _ _ Hx) as (k & -> & Hk & Hr). cbn [bind]. eexists. split; [reflexivity|]. cbn [length] in *.
      split; [lia|]. replace (8 + 2 + 1 + k + 1)%nat with (11 + S k)%nat by lia. exact Hr.
    + exists 12%nat. cbn [length]. split; [reflexivity|]. split; [lia|exact Hx].
Qed.

Lemma header_is_debug b h : bytes b -> hdr_unmarshal Debug b = Ok h -> exists r, header_is b h r.
Proof.
  intros Hb H. destruct (hdr_inv _ _ _ H) as (b0 & l1 & l2 & t1 & t2 & t3 & t4 & r & E & Hl & Hnz & Ht & V1 & V2 & F).
  assert (Hb0 : byte b0) by (eapply (nth_error_bytes b 0); [exact Hb|rewrite E; reflexivity]).
  pose proof (version_sweep b0 Hb0) as Hv. rewrite V1, V2 in Hv. change ((1 =? 1) && (1 =? 1)) with true in Hv. symmetry in Hv.
  apply andb_prop in Hv as [Hv Hv4]. apply N.eqb_eq in Hv.
  rewrite hdr_flags_eq in F by exact Hb0. unfold has_optional in F.
  unfold be16 in Hl. unfold be32 in Ht.
  replace (l1 * 256 + l2) with (256 * l1 + l2) in Hl by lia.
  replace (((t1 * 256 + t2) * 256 + t3) * 256 + t4) with (16777216 * t1 + 65536 * t2 + 256 * t3 + t4) in Ht by lia.
  rewrite Hl in Hnz.
  destruct (flag_S b0 || flag_PN b0 || flag_E b0) eqn:Ho.
  - unfold hdr_optional in F. rewrite E in F. rewrite slice_from_ok in F by (cbn [length]; lia). cbn [skipn bind] in F.
    destruct (Nat.leb_spec 4 (length r)) as [H4|]; [|discriminate].
    destruct r as [|s1 [|s2 [|n [|x r]]]]; cbn [length] in H4; try lia. unfold at_ in F. cbn [nth_error bind] in F.
    rewrite slice_from_ok in F by (cbn [length]; lia). cbn [skipn bind] in F. unfold be16 in F. rewrite (N.mul_comm s1) in F.
    rewrite E. rewrite Hl, Ht in F.
    assert (G : exists xs q, (if walks_extensions b0 then chain_is (x :: r) xs q else r = q) /\
       h = mkHdr (msgtype h) (256 * l1 + l2) (16777216 * t1 + 65536 * t2 + 256 * t3 + t4) (Some (256 * s1 + s2))
           (if flag_S b0 && negb (flag_PN b0) then None else Some n) (if walks_extensions b0 then Some xs else None)).
    { unfold walks_extensions. destruct (flag_S b0) eqn:HS; cbn [andb] in *.
      - assert (Hn : (if flag_PN b0 then Ok (Some n) else @Ok GTPV1Error _ None) = Ok (if negb (flag_PN b0) then None else Some n))
          by (destruct (flag_PN b0); reflexivity). rewrite Hn in F. cbn [bind] in F. clear Hn.
        destruct (flag_E b0).
        + apply bind_ok in F as (xs & Hx & F). apply unmarshal_ext_debug in Hx as (q & Hx). apply Ok_inj in F. exists xs, q. split; [exact Hx|symmetry; exact F].
        + apply Ok_inj in F. exists [], r. split; [reflexivity|symmetry; exact F].
      - cbn [orb] in Ho. rewrite Ho. cbn [bind] in F. apply bind_ok in F as (xs & Hx & F). apply unmarshal_ext_debug in Hx as (q & Hx).
        apply Ok_inj in F. exists xs, q. split; [exact Hx|symmetry; exact F]. }
    destruct G as (xs & q & Hx & ->). cbn [msgtype]. exists q. apply header_long; assumption.
  - apply orb_false_iff in Ho as [Ho HE]. apply orb_false_iff in Ho as [HS HP].
    apply Ok_inj in F. rewrite E. rewrite <- F. cbn [msgtype]. rewrite Hl, Ht. exists r. apply header_short; assumption.
Qed.
Lemma header_is_det b h h' r r' : bytes b -> header_is b h r -> header_is b h' r' -> h = h' /\ r = r'.
Proof.
  intros Hb H H'. pose proof (header_is_ok Debug _ _ _ Hb H) as E. pose proof (header_is_ok Debug _ _ _ Hb H') as E'.
  rewrite E in E'. apply Ok_inj in E'. subst h'. split; [reflexivity|].
  destruct (header_is_rest Debug _ _ _ H) as (n & Hn & _ & <-). destruct (header_is_rest Debug _ _ _ H') as (n' & Hn' & _ & <-).
  rewrite Hn in Hn'. apply Ok_inj in Hn'. subst. reflexivity.
Qed.

(* ------------------------------------------------------------------------- *)
(* Private extensions *)

Lemma pe_is m s x : private_at s x -> Pe_unmarshal m s = Ok x.
Proof.
  intros (t & l1 & l2 & i1 & i2 & v & -> & Hl & Hs & ->). unfold nlen in Hs. unfold Pe_unmarshal. cbn [length Nat.leb]. unfold at_. cbn [nth_error bind].
  unfold be16. rewrite (N.mul_comm l1). destruct (N.eqb_spec (256 * l1 + l2) 0); [lia|].
  rewrite check_tlv_ok; [|lia|lia|cbn [length] in *; lia]. cbn [bind].
  rewrite slice_from_ok by (cbn [length]; lia). cbn [skipn bind]. rewrite (N.mul_comm i1). reflexivity.
Qed.
Lemma pe_debug s x : Pe_unmarshal Debug s = Ok x -> private_at s x.
Proof.
  unfold Pe_unmarshal. destruct (Nat.leb_spec 3 (length s)) as [H3|]; [|discriminate].
  destruct s as [|t [|l1 [|l2 s]]]; cbn [length] in H3; try lia. unfold at_ at 1 2. cbn [nth_error bind]. unfold be16 at 1 2 3.
  rewrite (N.mul_comm l1). destruct (N.eqb_spec (256 * l1 + l2) 0) as [|Hnz]; [discriminate|].
  unfold check_tlv_ie_buffer. destruct (N.eqb_spec (256 * l1 + l2) 0); [contradiction|]. unfold add16, ov.
  destruct (N.ltb_spec (256 * l1 + l2 + 3) 65536) as [Hlt|]; [|discriminate]. cbn [bind].
  destruct (Nat.leb_spec (N.to_nat (256 * l1 + l2 + 3)) (length (t :: l1 :: l2 :: s))) as [Hle|]; [|discriminate].
  destruct s as [|i1 [|i2 v]]; try discriminate. unfold at_. cbn [nth_error bind].
  rewrite slice_from_ok by (cbn [length]; lia). cbn [skipn bind]. intros E. apply Ok_inj in E.
  exists t, l1, l2, i1, i2, v. split; [reflexivity|]. split; [lia|]. split; [unfold nlen; lia|].
  rewrite <- E. unfold be16. rewrite (N.mul_comm i1). reflexivity.
Qed.
Lemma private_opt_iff s o : optional (Pe_unmarshal Debug s) = Ok o <-> private_opt s o.
Proof.
  split.
  - destruct o as [x|].
    + cbn [private_opt]. intros H. apply pe_debug. destruct (Pe_unmarshal Debug s); cbn in H; try discriminate. apply Ok_inj in H. congruence.
    + intros H. destruct (Pe_unmarshal Debug s) as [x|e| |] eqn:E; cbn in H; try discriminate. clear H.
      cbn [private_opt]. destruct s as [|t [|l1 [|l2 s]]]; try exact I. revert E. unfold Pe_unmarshal. cbn [length Nat.leb]. unfold at_ at 1 2. cbn [nth_error bind].
      unfold be16 at 1 2 3. rewrite (N.mul_comm l1). destruct (N.eqb_spec (256 * l1 + l2) 0) as [|Hnz]; [auto|].
      unfold check_tlv_ie_buffer. destruct (N.eqb_spec (256 * l1 + l2) 0); [contradiction|]. unfold add16, ov.
      destruct (N.ltb_spec (256 * l1 + l2 + 3) 65536) as [Hlt|]; [|discriminate]. cbn [bind].
      destruct (Nat.leb_spec (N.to_nat (256 * l1 + l2 + 3)) (length (t :: l1 :: l2 :: s))) as [Hle|Hle].
      * destruct s as [|i1 [|i2 v]]; try discriminate.
      * intros _. right. unfold nlen. lia.
  - destruct o as [x|]; cbn [private_opt].
    + intros H. rewrite (pe_is Debug s x H). reflexivity.
    + intros H. assert (E : exists e, Pe_unmarshal Debug s = Err e); [|destruct E as (e & ->); reflexivity].
      unfold Pe_unmarshal. destruct s as [|t [|l1 [|l2 s]]]; try (eexists; reflexivity). cbn [length Nat.leb]. unfold at_ at 1 2. cbn [nth_error bind].
      unfold be16 at 1 2. rewrite (N.mul_comm l1). destruct (N.eqb_spec (256 * l1 + l2) 0) as [|Hnz]; [eauto|].
      destruct H as [|[H1 H2]]; [contradiction|]. unfold check_tlv_ie_buffer. destruct (N.eqb_spec (256 * l1 + l2) 0); [contradiction|].
      rewrite add16_small by lia. cbn [bind]. unfold nlen in H2.
      destruct (Nat.leb_spec (N.to_nat (256 * l1 + l2 + 3)) (length (t :: l1 :: l2 :: s))); [lia|]. eauto.
Qed.

(* ------------------------------------------------------------------------- *)
(* Error Indication *)

Lemma gsn_v4 m a b c d r : Gsn_unmarshal m (133 :: 0 :: 4 :: a :: b :: c :: d :: r) = Ok (mkGsn 133 4 (V4 a b c d)).
Proof. unfold Gsn_unmarshal. cbn [length Nat.leb]. unfold at_. cbn [nth_error bind]. change (be16 0 4) with 4. cbn [N.eqb].
  rewrite check_tlv_ok; [|lia|lia|cbn [length]; lia]. reflexivity. Qed.
Lemma gsn_v6 m o r : length o = 16%nat -> Gsn_unmarshal m (133 :: 0 :: 16 :: o ++ r) = Ok (mkGsn 133 16 (V6 o)).
Proof.
  intros Ho. unfold Gsn_unmarshal. cbn [length Nat.leb]. unfold at_. cbn [nth_error bind]. change (be16 0 16) with 16. cbn [N.eqb].
  rewrite check_tlv_ok; [|lia|lia|cbn [length]; rewrite app_length; lia]. cbn [bind N.eqb Pos.eqb]. cbv iota. rewrite app_length, Ho. cbn [Nat.leb Nat.add].
  change (133 :: 0 :: 16 :: o ++ r) with ([133; 0; 16] ++ o ++ r). rewrite slice_app_mid by (rewrite ?Ho; reflexivity). reflexivity.
Qed.
Lemma gsn_debug s x : bytes s -> Gsn_unmarshal Debug s = Ok x ->
  (exists t a b c d r, s = t :: 0 :: 4 :: a :: b :: c :: d :: r /\ x = mkGsn 133 4 (V4 a b c d)) \/
  (exists t o r, s = t :: 0 :: 16 :: o ++ r /\ length o = 16%nat /\ x = mkGsn 133 16 (V6 o)).
Proof.
  intros Hb. unfold Gsn_unmarshal. destruct (Nat.leb_spec 3 (length s)) as [H3|]; [|discriminate].
  destruct s as [|t [|l1 [|l2 s]]]; cbn [length] in H3; try lia. unfold at_ at 1 2. cbn [nth_error bind].
  apply bytes_cons in Hb as [_ Hb]. apply bytes_cons in Hb as [Hl1 Hb]. apply bytes_cons in Hb as [Hl2 Hb]. unfold byte in Hl1, Hl2.
  destruct (N.eqb_spec (be16 l1 l2) 0) as [|Hnz]; [discriminate|].
  intros H. apply bind_ok in H as (ok & Hok & H). destruct ok; [|discriminate].
  unfold check_tlv_ie_buffer in Hok. destruct (N.eqb_spec (be16 l1 l2) 0); [contradiction|].
  apply bind_ok in Hok as (k & Hk & Hok). apply Ok_inj in Hok. apply Nat.leb_le in Hok.
  unfold be16 in *. unfold add16, ov in Hk. destruct (N.ltb_spec (l1 * 256 + l2 + 3) 65536); [|discriminate]. apply Ok_inj in Hk. subst k.
  destruct (N.eqb_spec (l1 * 256 + l2) 4) as [E4|].
  - assert (l1 = 0 /\ l2 = 4) as [-> ->] by lia. cbn [length] in Hok.
    destruct s as [|a [|b [|c [|d r]]]]; cbn [length] in Hok; try lia. unfold at_ in H. cbn [nth_error bind] in H. apply Ok_inj in H. left. subst x. eauto 10.
  - destruct (N.eqb_spec (l1 * 256 + l2) 16) as [E16|]; [|discriminate]. assert (l1 = 0 /\ l2 = 16) as [-> ->] by lia.
    destruct (Nat.leb_spec 19 (length (t :: 0 :: 16 :: s))) as [H19|]; [|discriminate].
    rewrite slice_ok in H by (cbn [length] in *; lia). cbn [bind skipn Nat.sub] in H. apply Ok_inj in H. right.
    exists t, (firstn 16 s), (skipn 16 s). rewrite firstn_skipn. split; [reflexivity|]. cbn [length] in H19.
    split; [rewrite firstn_length; lia|]. subst x. reflexivity.
Qed.

(* The state after the elements [l], as far as the result depends on it. *)
Definition count_of (c : option N) (n : nat) : Prop := (cnt c + n <= 255)%nat.
Definition after (s : EiState) (l : list uelem) (s' : EiState) : Prop :=
  is_some (c_teid s') = is_some (c_teid s) || negb (match teids l with [] => true | _ => false end) /\
  is_some (c_gsn s') = is_some (c_gsn s) || negb (match gsns l with [] => true | _ => false end) /\
  s_teid s' = (if is_some (c_teid s) then s_teid s else hd (s_teid s) (teids l)) /\
  s_gsn s' = (if is_some (c_gsn s) then s_gsn s else hd (s_gsn s) (gsns l)) /\
  s_pe s' = (if is_some (c_pe s) then s_pe s else match pes l with [] => s_pe s | x :: _ => Some x end).

Lemma count_inv c c' : count Debug c = Ok c' -> is_some c' = true /\ cnt c' = S (cnt c) /\ (cnt c' <= 255)%nat.
Proof.
  destruct c as [n|]; cbn [count].
  - unfold add8, ov. destruct (N.ltb_spec (n + 1) 256); [|discriminate]. cbn [bind]. intros E. apply Ok_inj in E. subst c'. cbn. lia.
  - intros E. apply Ok_inj in E. subst c'. cbn. lia.
Qed.

Lemma at_app_len {E} (a : list N) x r : @at_ E (a ++ x :: r) (length a) = Ok x.
Proof. unfold at_. rewrite nth_error_app2, Nat.sub_diag by lia. reflexivity. Qed.
Lemma skipn_add {A} (l : list A) n k : skipn (n + k) l = skipn k (skipn n l).
Proof. revert l. induction n as [|n IH]; intros l; [reflexivity|]. destruct l; [rewrite !skipn_nil; reflexivity|apply IH]. Qed.

Lemma ei_loop_is fuel : forall b s s', bytes b -> (ei_cursor s <= length b)%nat -> ei_loop Debug fuel b s = Ok s' ->
  exists l, carries (skipn (ei_cursor s) b) l /\ StronglySorted N.le (map ucode l) /\ Forall (fun t => ei_increment s <= t) (map ucode l) /\
    ((cnt (c_teid s) <= 255)%nat -> count_of (c_teid s) (length (teids l))) /\
    ((cnt (c_gsn s) <= 255)%nat -> count_of (c_gsn s) (length (gsns l))) /\
    ((cnt (c_pe s) <= 255)%nat -> count_of (c_pe s) (length (pes l))) /\ after s l s'.
Proof.
  induction fuel as [|fuel IH]; intros b s s' Hb Hc H; [discriminate|]. cbn [ei_loop] in H.
  destruct (Nat.leb_spec (length b) (ei_cursor s)) as [Hle|Hlt].
  - apply Ok_inj in H. subst s'. exists []. rewrite skipn_all2 by lia. split; [constructor|]. do 2 (split; [constructor|]).
    unfold count_of, after. cbn [length teids gsns pes flat_map negb hd]. rewrite !orb_false_r.
    repeat split; try lia; destruct (is_some _); reflexivity.
  - destruct (@at_lt GTPV1Error b (ei_cursor s) Hlt) as (t & Et & Ht). rewrite Et in H. cbn [bind] in H.
    destruct (N.ltb_spec t (ei_increment s)) as [|Hinc]; [discriminate|]. rewrite slice_from_ok in H by lia. cbn [bind] in H.
    assert (Hbs : bytes (skipn (ei_cursor s) b)) by (apply bytes_skipn; exact Hb).
    assert (Hhd : exists r, skipn (ei_cursor s) b = t :: r).
    { destruct (skipn (ei_cursor s) b) as [|y r] eqn:E; [apply (f_equal (@length N)) in E; rewrite skipn_length in E; cbn in E; lia|].
      exists r. f_equal. rewrite <- (Nat.add_0_r (ei_cursor s)), <- nth_error_skipn, E in Ht. injection Ht as ->. reflexivity. }
    destruct Hhd as (r0 & Er0). pose proof (skipn_length (ei_cursor s) b) as Hlen.
    assert (Hskip : forall k r, skipn (ei_cursor s) b = r -> skipn (ei_cursor s + k) b = skipn k r).
    { intros k r <-. apply skipn_add. }
    destruct (N.eqb_spec t TEID_DATA) as [Heq|Hn1].
    { subst t. destruct (Teid_unmarshal (skipn (ei_cursor s) b)) as [i| | |] eqn:Ei; try discriminate.
      apply bind_ok in H as (c & Hcn & H). destruct (count_inv _ _ Hcn) as (Hs & Hcs & Hb5).
      unfold Teid_unmarshal in Ei. destruct (Nat.ltb_spec 4 (length (skipn (ei_cursor s) b))) as [H5|]; [|discriminate].
      rewrite Er0 in Ei, H5. destruct r0 as [|x1 [|x2 [|x3 [|x4 r0]]]]; cbn [length] in H5; try lia.
      unfold at_ in Ei. cbn [nth_error bind] in Ei. apply Ok_inj in Ei.
      apply IH in H; [|exact Hb|cbn [ei_cursor]; rewrite Er0 in Hlen; cbn [length] in Hlen; lia].
      cbn [ei_cursor ei_increment c_teid c_gsn c_pe] in H. destruct H as (l & Hl & Hss & HF & K1 & K2 & K3 & HA).
      rewrite (Hskip 5%nat _ Er0) in Hl. cbn [skipn] in Hl.
      exists (UT i :: l). rewrite Er0. unfold TEID_DATA in *. split; [subst i; unfold be32; replace (((x1 * 256 + x2) * 256 + x3) * 256 + x4) with (16777216 * x1 + 65536 * x2 + 256 * x3 + x4) by lia; constructor; exact Hl|].
      cbn [map ucode]. split; [constructor; [exact Hss|exact HF]|].
      split; [constructor; [exact Hinc|]; eapply Forall_impl; [|exact HF]; cbv beta; intros; lia|].
      unfold count_of, after in *. cbn [s_teid s_gsn s_pe c_teid c_gsn c_pe] in HA. destruct HA as (A1 & A2 & A3 & A4 & A5).
      cbn [teids gsns pes flat_map app length] in *. fold (teids l) (gsns l) (pes l) in *. rewrite Hs in A1, A3. cbn [orb] in A1. rewrite A1, A2, A3, A4, A5.
      cbn [hd negb]. rewrite orb_true_r. repeat split; try assumption; try lia. }
    destruct (N.eqb_spec t GSN_ADDRESS) as [Heq|Hn2].
    { subst t. destruct (Gsn_unmarshal Debug (skipn (ei_cursor s) b)) as [i| | |] eqn:Ei; try discriminate.
      apply bind_ok in H as (c & Hcn & H). destruct (count_inv _ _ Hcn) as (Hs & Hcs & Hb5).
      apply bind_ok in H as (k & Hk & H).
      apply gsn_debug in Ei; [|exact Hbs].
      assert (Hex : exists r, skipn k (skipn (ei_cursor s) b) = r /\ (k <= length (skipn (ei_cursor s) b))%nat /\
                forall l, carries r l -> carries (skipn (ei_cursor s) b) (UG i :: l)).
      { unfold GSN_ADDRESS in *. destruct Ei as [(t & x1 & x2 & x3 & x4 & r & E & ->)|(t & o & r & E & Ho & ->)]; rewrite Er0 in E; injection E as <- E; rewrite Er0, E.
        - change (Ok 7%nat = @Ok GTPV1Error _ k) in Hk. apply Ok_inj in Hk. subst k. exists r. split; [reflexivity|]. split; [cbn [length]; lia|]. intros l Hl. constructor. exact Hl.
        - change (Ok 19%nat = @Ok GTPV1Error _ k) in Hk. apply Ok_inj in Hk. subst k. exists r.
          split; [change (133 :: 0 :: 16 :: o ++ r) with ([133; 0; 16] ++ o ++ r); rewrite app_assoc; apply skipn_app_exact; rewrite app_length, Ho; reflexivity|].
          split; [cbn [length]; rewrite app_length; lia|]. intros l Hl. constructor; [exact Ho|exact Hl]. }
      destruct Hex as (r & Hr & Hkl & Hcar).
      apply IH in H; [|exact Hb|cbn [ei_cursor]; lia].
      cbn [ei_cursor ei_increment c_teid c_gsn c_pe] in H. destruct H as (l & Hl & Hss & HF & K1 & K2 & K3 & HA).
      rewrite (Hskip k _ eq_refl), Hr in Hl.
      exists (UG i :: l). split; [apply Hcar, Hl|]. unfold GSN_ADDRESS in *.
      cbn [map ucode]. split; [constructor; [exact Hss|exact HF]|].
      split; [constructor; [exact Hinc|]; eapply Forall_impl; [|exact HF]; cbv beta; intros; lia|].
      unfold count_of, after in *. cbn [s_teid s_gsn s_pe c_teid c_gsn c_pe] in HA. destruct HA as (A1 & A2 & A3 & A4 & A5).
      cbn [teids gsns pes flat_map app length] in *. fold (teids l) (gsns l) (pes l) in *. rewrite Hs in A2, A4. cbn [orb] in A2. rewrite A1, A2, A3, A4, A5.
      cbn [hd negb]. rewrite orb_true_r. repeat split; try assumption; try lia. }
    destruct (N.eqb_spec t PRIVATE_EXTENSION) as [Heq|]; [subst t|discriminate].
    destruct (Pe_unmarshal Debug (skipn (ei_cursor s) b)) as [i| | |] eqn:Ei; try discriminate.
    apply bind_ok in H as (c & Hcn & H). destruct (count_inv _ _ Hcn) as (Hs & Hcs & Hb5).
    apply bind_ok in H as (k & Hk & H). apply pe_debug in Ei. pose proof Ei as (tt & l1 & l2 & i1 & i2 & v & E & Hll & Hls & Ex).
    assert (Hpl : pe_length i = 256 * l1 + l2) by (rewrite Ex; reflexivity).
    unfold Pe_len in Hk. rewrite Hpl, add16_small in Hk by lia. cbn [bind] in Hk. apply Ok_inj in Hk. unfold nlen in Hls.
    apply IH in H; [|exact Hb|cbn [ei_cursor]; lia].
    cbn [ei_cursor ei_increment c_teid c_gsn c_pe] in H. destruct H as (l & Hl & Hss & HF & K1 & K2 & K3 & HA).
    rewrite (Hskip k _ eq_refl) in Hl.
    exists (UP i :: l). split.
    { constructor; [exact Ei|rewrite Er0; reflexivity|]. rewrite Hpl. replace (N.to_nat (256 * l1 + l2) + 3)%nat with k by lia. exact Hl. }
    unfold PRIVATE_EXTENSION in *.
    cbn [map ucode]. split; [constructor; [exact Hss|exact HF]|].
    split; [constructor; [exact Hinc|]; eapply Forall_impl; [|exact HF]; cbv beta; intros; lia|].
    unfold count_of, after in *. cbn [s_teid s_gsn s_pe c_teid c_gsn c_pe] in HA. destruct HA as (A1 & A2 & A3 & A4 & A5).
    cbn [teids gsns pes flat_map app length] in *. fold (teids l) (gsns l) (pes l) in *. rewrite Hs in A5. rewrite A1, A2, A3, A4, A5.
    repeat split; try assumption; try lia.
Qed.

Lemma teid_is a b c d r : Teid_unmarshal (16 :: a :: b :: c :: d :: r) = Ok (mkTeid 16 (16777216 * a + 65536 * b + 256 * c + d)).
Proof. unfold Teid_unmarshal. cbn [length Nat.ltb Nat.leb]. unfold at_. cbn [nth_error bind]. unfold be32. do 2 f_equal. lia. Qed.
Lemma carries_counts m c : (cnt c < 255)%nat -> exists c', count m c = Ok c' /\ cnt c' = S (cnt c) /\ is_some c' = true.
Proof.
  intros H. destruct (count_ok m c H) as (c' & E & Hc). exists c'. split; [exact E|]. split; [exact Hc|].
  destruct c'; [reflexivity|cbn in Hc; lia].
Qed.
Lemma ei_loop_carries m r l : carries r l -> forall fuel pre s,
  ei_cursor s = length pre -> (length r < fuel)%nat ->
  StronglySorted N.le (map ucode l) -> Forall (fun t => ei_increment s <= t) (map ucode l) ->
  count_of (c_teid s) (length (teids l)) -> count_of (c_gsn s) (length (gsns l)) -> count_of (c_pe s) (length (pes l)) ->
  exists s', ei_loop m fuel (pre ++ r) s = Ok s' /\ after s l s'.
Proof.
  unfold count_of.
  induction 1 as [|a b c d r l Hc IH|a b c d r l Hc IH|o r l Ho Hc IH|s0 x l Hx H255 Hc IH];
    intros fuel pre s Hcur Hf Hss HF K1 K2 K3; (destruct fuel as [|fuel]; [lia|]); cbn [ei_loop].
  - rewrite app_nil_r. destruct (Nat.leb_spec (length pre) (ei_cursor s)); [|lia]. eexists. split; [reflexivity|].
    unfold after. cbn [teids gsns pes flat_map negb hd]. rewrite !orb_false_r.
    repeat split; destruct (is_some _); reflexivity.
  - rewrite Hcur, at_app_len. cbn [bind]. rewrite slice_from_ok, skipn_app_exact by (reflexivity || (rewrite app_length; lia)).
    destruct (Nat.leb_spec (length (pre ++ 16 :: a :: b :: c :: d :: r)) (length pre)) as [Hle|_]; [rewrite app_length in Hle; cbn [length] in Hle; lia|].
    cbn [map ucode teids gsns pes flat_map app length] in *. fold (teids l) (gsns l) (pes l) in *.
    inversion Hss as [|? ? Hss' HF']; subst. inversion HF as [|? ? Hi HF2]; subst.
    destruct (N.ltb_spec 16 (ei_increment s)); [lia|]. change (16 =? TEID_DATA) with true. cbv iota.
    cbn [bind]. rewrite teid_is.
    destruct (carries_counts m (c_teid s)) as (c' & -> & Hc' & Hs); [lia|]. cbn [bind].
    replace (pre ++ 16 :: a :: b :: c :: d :: r) with ((pre ++ [16; a; b; c; d]) ++ r) by (rewrite <- app_assoc; reflexivity).
    match goal with |- context[ei_loop m fuel _ ?st] => pose proof (IH fuel (pre ++ [16; a; b; c; d]) st) as IH' end.
    cbn [ei_cursor ei_increment c_teid c_gsn c_pe] in IH'.
    destruct IH' as (s' & E' & HA); try (rewrite ?app_length; cbn [length] in *; lia); try assumption.
    exists s'. split; [exact E'|].
    revert HA. unfold after. cbn [s_teid s_gsn s_pe c_teid c_gsn c_pe teids gsns pes flat_map app hd negb]. fold (teids l) (gsns l) (pes l).
    rewrite Hs. cbn [orb]. intros (A1 & A2 & A3 & A4 & A5). rewrite A1, A2, A3, A4, A5, orb_true_r. auto.
  - rewrite Hcur, at_app_len. cbn [bind]. rewrite slice_from_ok, skipn_app_exact by (reflexivity || (rewrite app_length; lia)).
    destruct (Nat.leb_spec (length (pre ++ 133 :: 0 :: 4 :: a :: b :: c :: d :: r)) (length pre)) as [Hle|_]; [rewrite app_length in Hle; cbn [length] in Hle; lia|].
    cbn [map ucode teids gsns pes flat_map app length] in *. fold (teids l) (gsns l) (pes l) in *.
    inversion Hss as [|? ? Hss' HF']; subst. inversion HF as [|? ? Hi HF2]; subst.
    destruct (N.ltb_spec 133 (ei_increment s)); [lia|]. change (133 =? TEID_DATA) with false. change (133 =? GSN_ADDRESS) with true. cbv iota.
    cbn [bind]. rewrite gsn_v4.
    destruct (carries_counts m (c_gsn s)) as (c' & -> & Hc' & Hs); [lia|]. cbn [bind].
    unfold Gsn_len. cbn [gsn_length]. rewrite add16_small by lia. cbn [bind]. change (N.to_nat (4 + 3)) with 7%nat.
    replace (pre ++ 133 :: 0 :: 4 :: a :: b :: c :: d :: r) with ((pre ++ [133; 0; 4; a; b; c; d]) ++ r) by (rewrite <- app_assoc; reflexivity).
    match goal with |- context[ei_loop m fuel _ ?st] => pose proof (IH fuel (pre ++ [133; 0; 4; a; b; c; d]) st) as IH' end.
    cbn [ei_cursor ei_increment c_teid c_gsn c_pe] in IH'.
    destruct IH' as (s' & E' & HA); try (rewrite ?app_length; cbn [length] in *; lia); try assumption.
    exists s'. split; [exact E'|].
    revert HA. unfold after. cbn [s_teid s_gsn s_pe c_teid c_gsn c_pe teids gsns pes flat_map app hd negb]. fold (teids l) (gsns l) (pes l).
    rewrite Hs. cbn [orb]. intros (A1 & A2 & A3 & A4 & A5). rewrite A1, A2, A3, A4, A5, orb_true_r. auto.
  - rewrite Hcur, at_app_len. cbn [bind]. rewrite slice_from_ok, skipn_app_exact by (reflexivity || (rewrite app_length; lia)).
    destruct (Nat.leb_spec (length (pre ++ 133 :: 0 :: 16 :: o ++ r)) (length pre)) as [Hle|_]; [rewrite app_length in Hle; cbn [length] in Hle; lia|].
    cbn [map ucode teids gsns pes flat_map app length] in *. fold (teids l) (gsns l) (pes l) in *.
    inversion Hss as [|? ? Hss' HF']; subst. inversion HF as [|? ? Hi HF2]; subst.
    destruct (N.ltb_spec 133 (ei_increment s)); [lia|]. change (133 =? TEID_DATA) with false. change (133 =? GSN_ADDRESS) with true. cbv iota.
    cbn [bind]. rewrite gsn_v6 by exact Ho.
    destruct (carries_counts m (c_gsn s)) as (c' & -> & Hc' & Hs); [lia|]. cbn [bind].
    unfold Gsn_len. cbn [gsn_length]. rewrite add16_small by lia. cbn [bind]. change (N.to_nat (16 + 3)) with 19%nat.
    replace (pre ++ 133 :: 0 :: 16 :: o ++ r) with ((pre ++ [133; 0; 16] ++ o) ++ r) by (rewrite <- !app_assoc; reflexivity).
    rewrite app_length in Hf.
    match goal with |- context[ei_loop m fuel _ ?st] => pose proof (IH fuel (pre ++ [133; 0; 16] ++ o) st) as IH' end.
    cbn [ei_cursor ei_increment c_teid c_gsn c_pe] in IH'.
    destruct IH' as (s' & E' & HA); try (rewrite ?app_length, ?Ho; cbn [length] in *; lia); try assumption.
    exists s'. split; [exact E'|].
    revert HA. unfold after. cbn [s_teid s_gsn s_pe c_teid c_gsn c_pe teids gsns pes flat_map app hd negb]. fold (teids l) (gsns l) (pes l).
    rewrite Hs. cbn [orb]. intros (A1 & A2 & A3 & A4 & A5). rewrite A1, A2, A3, A4, A5, orb_true_r. auto.
  - pose proof (pe_is m _ _ Hx) as Hp. pose proof Hx as (t & l1 & l2 & i1 & i2 & v & Es & Hl & Hs3 & Ex).
    rewrite Hcur. cbn [bind].
    assert (Hat : @at_ GTPV1Error (pre ++ s0) (length pre) = Ok 255) by (rewrite Es in H255 |- *; cbn [hd] in H255; subst t; apply at_app_len).
    rewrite Hat. cbn [bind]. rewrite slice_from_ok, skipn_app_exact by (reflexivity || (rewrite app_length; lia)). cbn [bind].
    assert (Hlen : (N.to_nat (pe_length x) + 3 <= length s0)%nat) by (rewrite Ex; cbn [pe_length]; unfold nlen in Hs3; lia).
    destruct (Nat.leb_spec (length (pre ++ s0)) (length pre)) as [Hle|_]; [rewrite app_length in Hle; lia|].
    cbn [map ucode teids gsns pes flat_map app length] in *. fold (teids l) (gsns l) (pes l) in *.
    inversion Hss as [|? ? Hss' HF']; subst. inversion HF as [|? ? Hi HF2]; subst.
    destruct (N.ltb_spec 255 (ei_increment s)); [lia|]. change (255 =? TEID_DATA) with false. change (255 =? GSN_ADDRESS) with false.
    change (255 =? PRIVATE_EXTENSION) with true. cbv iota. rewrite Hp.
    destruct (carries_counts m (c_pe s)) as (c' & -> & Hc' & Hs); [lia|]. cbn [bind].
    unfold Pe_len. set (x := mkPe 255 (256 * l1 + l2) (256 * i1 + i2) v) in *. assert (Hpl : pe_length x <= 65532) by (subst x; cbn [pe_length]; lia). clearbody x.
    rewrite add16_small by lia. cbn [bind]. replace (N.to_nat (pe_length x + 3)) with (N.to_nat (pe_length x) + 3)%nat by lia.
    set (k := (N.to_nat (pe_length x) + 3)%nat) in *. set (s0 := t :: l1 :: l2 :: i1 :: i2 :: v) in *. clearbody s0.
    replace (pre ++ s0) with ((pre ++ firstn k s0) ++ skipn k s0) by (rewrite <- app_assoc, firstn_skipn; reflexivity).
    match goal with |- context[ei_loop m fuel _ ?st] => pose proof (IH fuel (pre ++ firstn k s0) st) as IH' end.
    cbn [ei_cursor ei_increment c_teid c_gsn c_pe] in IH'.
    destruct IH' as (s' & E' & HA); try (rewrite ?app_length, ?firstn_length, ?skipn_length; cbn [length] in *; lia); try assumption.
    exists s'. split; [exact E'|].
    revert HA. unfold after. cbn [s_teid s_gsn s_pe c_teid c_gsn c_pe teids gsns pes flat_map app hd negb]. fold (teids l) (gsns l) (pes l).
    rewrite Hs. cbn [orb]. intros (A1 & A2 & A3 & A4 & A5). rewrite A1, A2, A3, A4, A5. auto.
Qed.
