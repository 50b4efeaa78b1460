(* V1CReadFacts.v - what the element decoders make of received octets, in the terms of
   V1CReadSpec.v. *)
From Verif Require Import BaseFacts Digits DigitsFacts Labels V1CSafeSpec V1CReadSpec Octets.
Local Open Scope N_scope.

(* ------------------------------------------------------------------------- *)
(* Frames *)

Lemma split_len {A} n (s : list A) : (n <= length s)%nat -> exists v r, s = v ++ r /\ length v = n.
Proof. intros H. exists (firstn n s), (skipn n s). split; [symmetry; apply firstn_skipn|apply firstn_length_le, H]. Qed.

Lemma tv_iff {A} T n (k : list N -> res A) (P : A -> list N -> Prop) :
  (forall x v, P x v -> length v = n) ->
  (forall ty v r x, bytes v -> length v = n -> (k (ty :: v ++ r) = Ok x <-> P x v)) ->
  forall s x, bytes s -> tv_unmarshal T (S n) k s = Ok x <-> tv_says T P x s.
Proof.
  intros HP Hk s x Hs. unfold tv_unmarshal, tv_says. destruct x as [t x]. cbn [tv_t tv_v]. split.
  - destruct s as [|ty s]; cbn [length]; [discriminate|]. destruct (Nat.leb_spec (S n) (S (length s))) as [Hl|]; [|discriminate].
    destruct (split_len n s ltac:(lia)) as (v & r & -> & Hv). intros H. apply bind_ok in H as (y & Hy & H).
    apply Ok_inj in H. injection H as <- <-. split; [reflexivity|]. exists ty, v, r. split; [reflexivity|].
    inversion Hs as [|? ? _ Hs']; subst. apply bytes_app in Hs' as [Hv' _]. apply (Hk ty v r); [exact Hv'|reflexivity|exact Hy].
  - intros (-> & ty & v & r & -> & Hx). pose proof (HP _ _ Hx) as Hl.
    inversion Hs as [|? ? _ Hs']; subst. apply bytes_app in Hs' as [Hv' _].
    rewrite (proj2 (Nat.leb_le _ _)) by (cbn [length]; rewrite app_length; lia).
    rewrite (proj2 (Hk ty v r x Hv' eq_refl) Hx). reflexivity.
Qed.

Lemma fix_iff {A} T n c (k : list N -> res A) (P : A -> list N -> Prop) :
  (c <= S (S (S n)))%nat -> (forall ty a b v, (length v < n)%nat -> (c <= S (S (S (length v))))%nat -> k (ty :: a :: b :: v) = Panic) ->
  (forall x v, P x v -> length v = n) ->
  (forall ty a b v r x, bytes v -> length v = n -> (k (ty :: a :: b :: v ++ r) = Ok x <-> P x v)) ->
  forall s x, bytes s -> fixed_unmarshal T c k s = Ok x <-> fix_says T P x s.
Proof.
  intros Hc Hp HP Hk s x Hs. unfold fixed_unmarshal, fix_says. destruct x as [t l x]. cbn [tlv_t tlv_v tlv_length]. split.
  - destruct (Nat.leb_spec c (length s)) as [Hl|]; [|discriminate].
    destruct s as [|ty [|a [|b s]]]; try discriminate. unfold at_. cbn [nth_error bind]. cbn [length] in Hl.
    destruct (Nat.lt_ge_cases (length s) n) as [Hn|Hn]; [rewrite Hp by assumption; discriminate|].
    destruct (split_len n s Hn) as (v & r & -> & Hv). intros H. apply bind_ok in H as (y & Hy & H).
    apply Ok_inj in H. injection H as <- <- <-. split; [reflexivity|]. exists ty, a, b, v, r. split; [reflexivity|].
    split; [unfold be16; lia|].
    inversion Hs as [|? ? _ H1]; subst. inversion H1 as [|? ? _ H2]; subst. inversion H2 as [|? ? _ H3]; subst.
    apply bytes_app in H3 as [Hv' _]. apply (Hk ty a b v r); [exact Hv'|reflexivity|exact Hy].
  - intros (-> & ty & a & b & v & r & -> & -> & Hx). pose proof (HP _ _ Hx) as Hl.
    inversion Hs as [|? ? _ H1]; subst. inversion H1 as [|? ? _ H2]; subst. inversion H2 as [|? ? _ H3]; subst.
    apply bytes_app in H3 as [Hv' _].
    rewrite (proj2 (Nat.leb_le _ _)) by (cbn [length]; rewrite app_length; lia).
    unfold at_. cbn [nth_error bind]. rewrite (proj2 (Hk ty a b v r x Hv' eq_refl) Hx). cbn [bind]. unfold be16. do 2 f_equal; lia.
Qed.

Lemma var_iff {A} T (k : N -> list N -> res A) (P : A -> list N -> Prop) m :
  (forall ty a b v r x, bytes v -> nlen v = 256 * a + b -> 1 <= nlen v <= 65532 ->
     (k (nlen v) (ty :: a :: b :: v ++ r) = Ok x <-> P x v)) ->
  forall s x, bytes s -> (m = Debug \/ declared s <= 65532) -> var_unmarshal T k m s = Ok x <-> var_says T 1 P x s.
Proof.
  intros Hk s x Hs Hm. unfold var_unmarshal, var_says. destruct x as [t l x]. cbn [tlv_t tlv_v tlv_length]. split.
  - destruct (Nat.leb_spec 3 (length s)) as [Hl|]; [|discriminate].
    destruct s as [|ty [|a [|b s]]]; try discriminate. unfold at_. cbn [nth_error bind]. cbn [length declared] in *.
    assert (E : be16 a b = 256 * a + b) by (unfold be16; lia). rewrite E. unfold check_tlv_ie_buffer.
    destruct (N.eqb_spec (256 * a + b) 0) as [|Hz]; [discriminate|].
    destruct (N.le_gt_cases (256 * a + b) 65532) as [Hle|Hgt].
    + rewrite add16_small by lia. cbn [bind]. cbn [length].
      destruct (Nat.leb_spec (N.to_nat (256 * a + b + 3)) (S (S (S (length s))))) as [Hb|]; [|discriminate].
      destruct (split_len (N.to_nat (256 * a + b)) s ltac:(lia)) as (v & r & -> & Hv).
      assert (Hn : nlen v = 256 * a + b) by (unfold nlen; lia). rewrite <- Hn. intros H. apply bind_ok in H as (y & Hy & H).
      apply Ok_inj in H. injection H as <- <- <-. split; [reflexivity|]. exists ty, a, b, v, r.
      split; [reflexivity|]. split; [exact Hn|]. split; [exact Hn|]. split; [lia|].
      inversion Hs as [|? ? _ H1]; subst. inversion H1 as [|? ? _ H2]; subst. inversion H2 as [|? ? _ H3]; subst.
      apply bytes_app in H3 as [Hv' _]. apply (Hk ty a b v r); [exact Hv'|exact Hn|lia|exact Hy].
    + destruct Hm as [->|Hm]; [|lia]. unfold add16, ov. destruct (N.ltb_spec (256 * a + b + 3) 65536); [lia|]. discriminate.
  - intros (-> & ty & a & b & v & r & -> & -> & Hn & Hr & Hx).
    inversion Hs as [|? ? _ H1]; subst. inversion H1 as [|? ? _ H2]; subst. inversion H2 as [|? ? _ H3]; subst.
    apply bytes_app in H3 as [Hv' _]. cbn [length Nat.leb]. unfold at_. cbn [nth_error bind].
    assert (E : be16 a b = nlen v) by (unfold be16; lia). rewrite E. unfold check_tlv_ie_buffer.
    destruct (N.eqb_spec (nlen v) 0); [lia|]. rewrite add16_small by lia. cbn [bind].
    rewrite (proj2 (Nat.leb_le _ _)) by (cbn [length]; rewrite app_length; unfold nlen; lia).
    rewrite (proj2 (Hk ty a b v r x Hv' Hn Hr) Hx). cbn [bind]. rewrite Hn. reflexivity.
Qed.

(* ------------------------------------------------------------------------- *)
(* Octets *)

Lemma land1 x : N.land x 1 = x mod 2. Proof. exact (N.land_ones x 1). Qed.
Lemma land3 x : N.land x 3 = x mod 4. Proof. exact (N.land_ones x 2). Qed.
Lemma land7 x : N.land x 7 = x mod 8. Proof. exact (N.land_ones x 3). Qed.
Lemma land15 x : N.land x 15 = x mod 16. Proof. exact (N.land_ones x 4). Qed.
Lemma land31 x : N.land x 31 = x mod 32. Proof. exact (N.land_ones x 5). Qed.
Lemma land127 x : N.land x 127 = x mod 128. Proof. exact (N.land_ones x 7). Qed.
Lemma shiftr2 x : N.shiftr x 2 = x / 4. Proof. exact (N.shiftr_div_pow2 x 2). Qed.
Lemma shiftr4 x : N.shiftr x 4 = x / 16. Proof. exact (N.shiftr_div_pow2 x 4). Qed.
Lemma shiftr5 x : N.shiftr x 5 = x / 32. Proof. exact (N.shiftr_div_pow2 x 5). Qed.
Lemma shiftr6 x : N.shiftr x 6 = x / 64. Proof. exact (N.shiftr_div_pow2 x 6). Qed.
Lemma shiftr7 x : N.shiftr x 7 = x / 128. Proof. exact (N.shiftr_div_pow2 x 7). Qed.
Lemma testbit_bit_of x n : N.testbit x n = bit_of x n.
Proof.
  unfold bit_of. destruct (N.testbit x n) eqn:E; symmetry.
  - apply N.eqb_eq. apply N.testbit_true in E. exact E.
  - apply N.eqb_neq. apply N.testbit_false in E. rewrite E. discriminate.
Qed.
Ltac arith := rewrite ?land1, ?land3, ?land7, ?land15, ?land31, ?land127, ?shiftr2, ?shiftr4, ?shiftr5, ?shiftr6, ?shiftr7 in *.
(* the octets of a value, one by one *)
Ltac octets Hv Hb :=
  match type of Hv with
  | length ?v = S _ =>
      let x := fresh "x" in destruct v as [|x v]; [discriminate Hv|]; cbn [length] in Hv; apply Nat.succ_inj in Hv;
      let h := fresh "By" in apply Forall_cons_iff in Hb as [h Hb]; octets Hv Hb
  | length ?v = O => destruct v; [clear Hv|discriminate Hv]
  end.
Ltac rd := cbn [app Nat.add nth_error]; unfold at_; cbn [Nat.add nth_error bind]; cbn [length]; cbn [Nat.leb].

Lemma oct2_be a b : byte a -> byte b -> forall v, num2_says v [a; b] <-> v = 256 * a + b.
Proof.
  unfold byte, num2_says, oct2. intros Ha Hb v. split; [intros [H ?]; injection H as E1 E2; lia|].
  intros ->. split; [|lia]. apply f_equal2; [lia|]. apply f_equal2; [lia|reflexivity].
Qed.
Lemma oct4_be a b c d : byte a -> byte b -> byte c -> byte d -> forall v, num4_says v [a; b; c; d] <-> v = 16777216 * a + 65536 * b + 256 * c + d.
Proof.
  unfold byte, num4_says, oct4. intros Ha Hb Hc Hd v. split; [intros [H ?]; injection H as E1 E2 E3 E4; lia|].
  intros ->. split; [|lia]. repeat (apply f_equal2; [lia|]). reflexivity.
Qed.
Lemma oct3_be a b c v : byte a -> byte b -> byte c -> (v < 16777216 /\ [a; b; c] = oct3 v) <-> v = 65536 * a + 256 * b + c.
Proof.
  unfold byte, oct3. intros Ha Hb Hc. split; [intros [H E]; injection E as E1 E2 E3; lia|].
  intros ->. split; [lia|]. repeat (apply f_equal2; [lia|]). reflexivity.
Qed.

Lemma filter_from_digit l : filter_map from_digit l = map (fun d => 48 + d) (decimals l).
Proof.
  unfold decimals. induction l as [|d l IH]; [reflexivity|]. cbn [filter_map filter]. unfold from_digit at 1.
  destruct (d <? 10); cbn [map]; rewrite IH; reflexivity.
Qed.
Lemma tbcd_number o : tbcd_decode o = number_of o.
Proof.
  unfold tbcd_decode, number_of, halves. rewrite filter_from_digit. do 3 f_equal. apply map_ext. intros x.
  rewrite land15, shiftr4. reflexivity.
Qed.
Lemma parse_decimal l : parse_dec (filter_map from_digit l) = decimal l.
Proof.
  rewrite filter_from_digit. unfold parse_dec, decimal. generalize 0 at 1 2. induction (decimals l) as [|d r IH]; intros a; [reflexivity|].
  cbn [map fold_left]. rewrite IH. f_equal. lia.
Qed.
Lemma plmn_decoded a b c r : @mcc_mnc_decode GTPV1Error (a :: b :: c :: r) =
  Ok (decimal [a mod 16; a / 16; b mod 16],
       (if b / 16 =? 15 then decimal [c mod 16; c / 16] else decimal [c mod 16; c / 16; b / 16]),
       negb (b / 16 =? 15)).
Proof.
  unfold mcc_mnc_decode. rd. arith. rewrite !parse_decimal. destruct (b / 16 =? 15); reflexivity.
Qed.
Lemma plmn_at_ok pre a b c r : plmn_at (pre ++ a :: b :: c :: r) (length pre) = Ok
  (decimal [a mod 16; a / 16; b mod 16],
       (if b / 16 =? 15 then decimal [c mod 16; c / 16] else decimal [c mod 16; c / 16; b / 16]),
       negb (b / 16 =? 15)).
Proof.
  unfold plmn_at. change (pre ++ a :: b :: c :: r) with (pre ++ [a; b; c] ++ r). rewrite slice_app_mid by reflexivity.
  cbn [bind]. apply plmn_decoded.
Qed.
Lemma plmn_says_iff a b c p : plmn_says p [a; b; c] <-> p = (decimal [a mod 16; a / 16; b mod 16],
       (if b / 16 =? 15 then decimal [c mod 16; c / 16] else decimal [c mod 16; c / 16; b / 16]),
       negb (b / 16 =? 15)).
Proof. split; [intros (x & y & z & E & ->); injection E as <- <- <-; reflexivity|intros ->; exists a, b, c; auto]. Qed.
Lemma plmn_says_len p o : plmn_says p o -> length o = 3%nat.
Proof. intros (a & b & c & -> & _). reflexivity. Qed.

(* ------------------------------------------------------------------------- *)
(* TV elements *)

Ltac same := split; [intros H; apply Ok_inj in H; subst|intros H].

Lemma Cause_iff s x : bytes s -> Cause_unmarshal s = Ok x <-> tv_says 1 octet_says x s.
Proof.
  revert s x. apply (tv_iff CAUSE 1); [intros x v ->; reflexivity|]. intros ty v r x Hb Hv. octets Hv Hb. rd.
  unfold octet_says. same; [reflexivity|]. injection H as ->. reflexivity.
Qed.
Lemma Recovery_iff s x : bytes s -> CRecovery_unmarshal s = Ok x <-> tv_says 14 octet_says x s.
Proof.
  revert s x. apply (tv_iff RECOVERY 1); [intros x v ->; reflexivity|]. intros ty v r x Hb Hv. octets Hv Hb. rd.
  unfold octet_says. same; [reflexivity|]. injection H as ->. reflexivity.
Qed.
Lemma Imsi_iff s x : bytes s -> Imsi_unmarshal s = Ok x <-> tv_says 2 digits8_says x s.
Proof.
  revert s x. apply (tv_iff IMSI 8); [intros x v [H _]; exact H|]. intros ty v r x Hb Hv.
  change (ty :: v ++ r) with ([ty] ++ v ++ r). rewrite slice_app_mid by (cbn [length]; rewrite ?Hv; reflexivity). cbn [bind].
  rewrite tbcd_number. unfold digits8_says. same; [auto|]. destruct H as [_ ->]. reflexivity.
Qed.
Lemma rai_says_len x v : rai_says x v -> length v = 6%nat.
Proof. intros (p & l & -> & Hp & Hl & _). rewrite !app_length, (plmn_says_len _ _ Hp), Hl. reflexivity. Qed.
Lemma Rai_iff s x : bytes s -> Rai_unmarshal s = Ok x <-> tv_says 3 rai_says x s.
Proof.
  revert s x. apply (tv_iff RAI 6); [exact rai_says_len|]. intros ty v r x Hb Hv. octets Hv Hb.
  cbn [app]. change (ty :: x0 :: x1 :: x2 :: ?q) with ([ty] ++ x0 :: x1 :: x2 :: q). change 1%nat with (length [ty]).
  rewrite plmn_at_ok. cbn [bind]. unfold be16_at. rd. unfold rai_says.
  same.
  - exists [x0; x1; x2], [x3; x4]. split; [reflexivity|]. split; [apply plmn_says_iff; reflexivity|].
    apply oct2_be; [assumption..|]. cbn [rai_lac]. unfold be16. lia.
  - destruct H as (p & l & E & Hp & Hl). destruct Hp as (a & b & c & -> & Hp). destruct Hl as [-> Hl]. cbn in E.
    injection E as -> -> -> E1 E2 ->. destruct x as [q l c']. cbn in *. rewrite Hp. do 2 f_equal. unfold be16. lia.
Qed.
Lemma Reordering_iff s x : bytes s -> Reordering_unmarshal s = Ok x <-> tv_says 8 reordering_says x s.
Proof.
  revert s x. apply (tv_iff REORDERING_REQUIRED 1); [intros x v (? & -> & _); reflexivity|]. intros ty v r x Hb Hv. octets Hv Hb. rd.
  arith. unfold reordering_says, low_says. same.
  - exists (x0 / 2). destruct (N.eqb_spec (x0 mod 2) 0); cbn [negb]; split; try lia; f_equal; lia.
  - destruct H as (p & E & Hl). injection E as ->. f_equal. destruct x; destruct (N.eqb_spec ((2 * p + 1) mod 2) 0); destruct (N.eqb_spec ((2 * p + 0) mod 2) 0); try reflexivity; lia.
Qed.
Lemma low_iff n x0 x : 0 < n -> @Ok GTPV1Error _ (x0 mod n) = Ok x <-> low_says n x [x0].
Proof.
  intros Hn. unfold low_says. same.
  - exists (x0 / n). split; [f_equal; apply N.div_mod; lia|apply N.mod_lt; lia].
  - destruct H as (p & E & Hl). injection E as ->. f_equal. rewrite N.add_comm, N.mul_comm, N.mod_add by lia. apply N.mod_small, Hl.
Qed.
Lemma SelectionMode_iff s x : bytes s -> SelectionMode_unmarshal s = Ok x <-> tv_says 15 (low_says 4) x s.
Proof.
  revert s x. apply (tv_iff SELECTION_MODE 1); [intros x v (? & -> & _); reflexivity|]. intros ty v r x Hb Hv. octets Hv Hb. rd.
  arith. apply low_iff. lia.
Qed.
Lemma Nsapi_iff s x : bytes s -> Nsapi_unmarshal s = Ok x <-> tv_says 20 (low_says 16) x s.
Proof.
  revert s x. apply (tv_iff NSAPI 1); [intros x v (? & -> & _); reflexivity|]. intros ty v r x Hb Hv. octets Hv Hb. rd.
  arith. apply low_iff. lia.
Qed.
Lemma ChargingChar_iff s x : bytes s -> ChargingChar_unmarshal s = Ok x <-> tv_says 26 cc_says x s.
Proof.
  revert s x. apply (tv_iff CHARGING_CHARACTERISTICS 2); [intros x v (? & ? & -> & _); reflexivity|]. intros ty v r x Hb Hv. octets Hv Hb. rd.
  arith. unfold cc_says. same.
  - exists (x0 / 16), x1. split; [f_equal|]; lia.
  - destruct H as (p & q & E & Hl). injection E as -> ->. f_equal. lia.
Qed.
Lemma Teid_iff s x : bytes s -> CTeid_unmarshal s = Ok x <-> exists r, s = tv_t x :: oct4 (tv_v x) ++ r /\ tv_v x < 4294967296.
Proof.
  intros Hs. unfold CTeid_unmarshal. split.
  - destruct (Nat.leb_spec 5 (length s)); [|discriminate]. destruct s as [|t [|a [|b [|c [|d r]]]]]; cbn [length] in *; try lia.
    unfold be32_at. rd. intros H'. apply Ok_inj in H'. subst x. exists r. cbn [tv_t tv_v]. unfold be32.
    repeat (apply Forall_cons_iff in Hs as [? Hs]). unfold byte in *.
    destruct (proj2 (oct4_be a b c d ltac:(assumption) ltac:(assumption) ltac:(assumption) ltac:(assumption) (((a * 256 + b) * 256 + c) * 256 + d)) ltac:(lia)) as [E L].
    rewrite <- E. split; [reflexivity|exact L].
  - intros (r & -> & Hl). unfold oct4, be32_at. rd. destruct x as [t v]. cbn [tv_t tv_v] in *. apply f_equal. apply f_equal. symmetry. unfold be32. lia.
Qed.
Lemma Teardown_iff s x : bytes s -> Teardown_unmarshal s = Ok x <-> tv_says 19 teardown_says x s.
Proof.
  revert s x. apply (tv_iff TEARDOWN_IND 1); [intros x v ->; reflexivity|]. intros ty v r x Hb Hv. octets Hv Hb. rd.
  unfold teardown_says. destruct (N.eqb_spec x0 254) as [->|]; [|destruct (N.eqb_spec x0 255) as [->|]].
  - same; [reflexivity|]. destruct x; [discriminate|reflexivity].
  - same; [reflexivity|]. destruct x; [reflexivity|discriminate].
  - split; [discriminate|]. destruct x; intros H; injection H; lia.
Qed.
Lemma num2_iff x0 x1 x : byte x0 -> byte x1 -> @Ok GTPV1Error _ (be16 x0 x1) = Ok x <-> num2_says x [x0; x1].
Proof. intros H0 H1. rewrite oct2_be by assumption. unfold be16. same; [lia|f_equal; lia]. Qed.
Lemma num4_iff a b c d x : byte a -> byte b -> byte c -> byte d -> @Ok GTPV1Error _ (be32 a b c d) = Ok x <-> num4_says x [a; b; c; d].
Proof. intros Ba Bb Bc Bd. rewrite oct4_be by assumption. unfold be32. same; [lia|f_equal; lia]. Qed.
Lemma TraceReference_iff s x : bytes s -> TraceReference_unmarshal s = Ok x <-> tv_says 27 num2_says x s.
Proof.
  revert s x. apply (tv_iff TRACE_REFERENCE 2); [intros x v (-> & _); reflexivity|]. intros ty v r x Hb Hv. octets Hv Hb. unfold be16_at. rd.
  apply num2_iff; assumption.
Qed.
Lemma TraceType_iff s x : bytes s -> TraceType_unmarshal s = Ok x <-> tv_says 28 num2_says x s.
Proof.
  revert s x. apply (tv_iff TRACE_TYPE 2); [intros x v (-> & _); reflexivity|]. intros ty v r x Hb Hv. octets Hv Hb. unfold be16_at. rd.
  apply num2_iff; assumption.
Qed.
Lemma ChargingId_iff s x : bytes s -> ChargingId_unmarshal s = Ok x <-> tv_says 127 charging_id_says x s.
Proof.
  revert s x. apply (tv_iff CHARGING_ID 4); [intros x v ((-> & _) & _); reflexivity|]. intros ty v r x Hb Hv. octets Hv Hb. unfold be32_at. rd.
  unfold charging_id_says. rewrite <- num4_iff by assumption. destruct (N.eqb_spec (be32 x0 x1 x2 x3) 0) as [E|E].
  - rewrite E. split; [discriminate|]. intros [H Hx]. apply Ok_inj in H. congruence.
  - split; [intros H; split; [exact H|apply Ok_inj in H; congruence]|intros [H _]; exact H].
Qed.

(* ------------------------------------------------------------------------- *)
(* TLV elements of variable length *)

Lemma take3 {E} ty a b v r n : n = (3 + length v)%nat -> @slice E (ty :: a :: b :: v ++ r) 3 n = Ok v.
Proof. intros ->. change (ty :: a :: b :: v ++ r) with ([ty; a; b] ++ v ++ r). apply slice_app_mid; reflexivity. Qed.
Lemma blob_iff T m s x : bytes s -> (m = Debug \/ declared s <= 65532) ->
  var_unmarshal T (blob_at m) m s = Ok x <-> var_says T 1 raw_says x s.
Proof.
  revert s x. apply var_iff. intros ty a b v r x Hb Hn Hr. unfold blob_at. rewrite add16_small by lia. cbn [bind].
  rewrite take3 by (unfold nlen; lia). unfold raw_says. same; [reflexivity|f_equal; assumption].
Qed.
Lemma Camel_iff m s x : bytes s -> (m = Debug \/ declared s <= 65532) -> Camel_unmarshal m s = Ok x <-> var_says 155 0 raw_says x s.
Proof.
  intros Hs Hm. unfold Camel_unmarshal, var_says, raw_says. destruct x as [t l x]. cbn [tlv_t tlv_v tlv_length]. split.
  - destruct (Nat.leb_spec 3 (length s)) as [Hl|]; [|discriminate].
    destruct s as [|ty [|a [|b s]]]; try discriminate. unfold at_. cbn [nth_error bind]. cbn [length declared] in *.
    assert (E : be16 a b = 256 * a + b) by (unfold be16; lia). rewrite E.
    destruct (N.le_gt_cases (256 * a + b) 65532) as [Hle|Hgt].
    + rewrite add16_small by lia. cbn [bind]. cbn [length].
      destruct (Nat.leb_spec (N.to_nat (256 * a + b + 3)) (S (S (S (length s))))) as [Hb|]; [|discriminate].
      destruct (split_len (N.to_nat (256 * a + b)) s ltac:(lia)) as (v & r & -> & Hv).
      assert (Hn : nlen v = 256 * a + b) by (unfold nlen; lia). rewrite take3 by lia. cbn [bind]. intros H.
      apply Ok_inj in H. injection H as <- <- <-. split; [reflexivity|]. exists ty, a, b, v, r.
      split; [reflexivity|]. split; [reflexivity|]. split; [exact Hn|]. split; [lia|reflexivity].
    + destruct Hm as [->|Hm]; [|lia]. unfold add16, ov. destruct (N.ltb_spec (256 * a + b + 3) 65536); [lia|]. discriminate.
  - intros (-> & ty & a & b & v & r & -> & -> & Hn & Hr & <-). cbn [length Nat.leb]. unfold at_. cbn [nth_error bind].
    assert (E : be16 a b = nlen v) by (unfold be16; lia). rewrite E.
    rewrite add16_small by lia. cbn [bind].
    rewrite (proj2 (Nat.leb_le _ _)) by (cbn [length]; rewrite app_length; unfold nlen; lia).
    rewrite take3 by (unfold nlen; lia). cbn [bind]. rewrite Hn. reflexivity.
Qed.

(* labels *)
Definition joined (ws : list (list N)) : list N := concat (map (fun w => w ++ [46]) ws).
Lemma labels_loop_exact {E} f d p : (length d <= f)%nat ->
  @labels_loop E f d = Ok p <-> exists ws, d = concat (map (fun w => nlen w :: w) ws) /\ p = joined ws.
Proof.
  revert d p. induction f as [|f IH]; intros d p Hf.
  - destruct d; [|cbn in Hf; lia]. cbn. same; [exists []; split; reflexivity|]. destruct H as (ws & Hw & ->).
    destruct ws; [reflexivity|discriminate].
  - destruct d as [|n d]; cbn [labels_loop].
    { same; [exists []; split; reflexivity|]. destruct H as (ws & Hw & ->). destruct ws; [reflexivity|discriminate]. }
    cbn [length] in Hf. destruct (Nat.leb_spec (N.to_nat n) (length d)) as [Hl|Hl].
    + split.
      * intros H. apply bind_ok in H as (q & Hq & H). apply Ok_inj in H. subst p. apply IH in Hq; [|rewrite skipn_length; lia].
        destruct Hq as (ws & Hd & ->). exists (firstn (N.to_nat n) d :: ws). split.
        -- cbn [map concat]. rewrite <- Hd. unfold nlen. rewrite firstn_length_le, N2Nat.id by lia. cbn [app]. f_equal. symmetry. apply firstn_skipn.
        -- unfold joined. cbn [map concat]. rewrite <- app_assoc. reflexivity.
      * intros (ws & Hd & ->). destruct ws as [|w ws]; [discriminate|]. cbn [map concat app] in Hd. injection Hd as -> Hd.
        assert (E1 : N.to_nat (nlen w) = length w) by (unfold nlen; lia). rewrite E1. subst d.
        rewrite skipn_app_exact, firstn_app_exact by reflexivity.
        assert (Hf' : (length (concat (map (fun w => nlen w :: w) ws)) <= f)%nat) by (rewrite app_length in Hf; lia).
        rewrite (proj2 (IH _ (joined ws) Hf') (ex_intro _ ws (conj eq_refl eq_refl))). cbn [bind].
        unfold joined. cbn [map concat]. rewrite <- app_assoc. reflexivity.
    + split; [discriminate|]. intros (ws & Hd & ->). destruct ws as [|w ws]; [discriminate|]. cbn [map concat app] in Hd. injection Hd as -> ->.
      rewrite app_length in Hl. unfold nlen in Hl. lia.
Qed.
Lemma joined_dotted ws : removelast (joined ws) = dotted ws.
Proof.
  unfold joined. induction ws as [|w [|u ws] IH]; [reflexivity|cbn [map concat dotted]; rewrite app_nil_r; apply removelast_last|].
  change (dotted (w :: u :: ws)) with (w ++ 46 :: dotted (u :: ws)). rewrite <- IH.
  change (concat (map (fun w0 => w0 ++ [46]) (w :: u :: ws))) with ((w ++ [46]) ++ concat (map (fun w0 => w0 ++ [46]) (u :: ws))).
  rewrite removelast_app; [rewrite <- app_assoc; reflexivity|]. cbn [map concat]. destruct u; discriminate.
Qed.
Lemma labels_decode_exact {E} d x : @labels_decode E d = Ok x <-> name_says x d.
Proof.
  unfold labels_decode, name_says. split.
  - intros H. apply bind_ok in H as (p & Hp & H). apply Ok_inj in H. subst x. apply labels_loop_exact in Hp; [|lia].
    destruct Hp as (ws & -> & ->). exists ws. split; [reflexivity|apply joined_dotted].
  - intros (ws & -> & ->). rewrite (proj2 (labels_loop_exact _ _ (joined ws) (le_n _))) by (exists ws; auto).
    cbn [bind]. f_equal. apply joined_dotted.
Qed.
Lemma Apn_iff m s x : bytes s -> (m = Debug \/ declared s <= 65532) -> Apn_unmarshal m s = Ok x <-> var_says 131 1 name_says x s.
Proof.
  revert s x. apply var_iff. intros ty a b v r x Hb Hn Hr. rewrite take3 by (unfold nlen; lia). cbn [bind]. apply labels_decode_exact.
Qed.

Lemma ip_iff T m s x : bytes s -> (m = Debug \/ declared s <= 65532) -> var_unmarshal T ip_at m s = Ok x <-> var_says T 1 ip_says x s.
Proof.
  revert s x. apply var_iff. intros ty a b v r x Hb Hn Hr. unfold ip_at, nlen.
  destruct (N.eqb_spec (N.of_nat (length v)) 4) as [E|E].
  - assert (Hv : length v = 4%nat) by lia. octets Hv Hb. rd. unfold ip_says. same; [reflexivity|].
    destruct x; [injection H as -> -> -> ->; reflexivity|destruct H; discriminate].
  - destruct (N.eqb_spec (N.of_nat (length v)) 16) as [E'|E'].
    + rewrite (proj2 (Nat.leb_le _ _)) by (cbn [length]; rewrite app_length; lia). rewrite take3 by lia. cbn [bind].
      unfold ip_says. same; [split; [reflexivity|lia]|]. destruct x; [subst v; cbn in E'; lia|]. destruct H as [-> _]. reflexivity.
    + split; [discriminate|]. destruct x; cbn [ip_says]; [intros ->; cbn in E; lia|intros [-> H]; lia].
Qed.
Lemma Qos_iff m s x : bytes s -> (m = Debug \/ declared s <= 65532) -> Qos_unmarshal m s = Ok x <-> var_says 135 1 qos_says x s.
Proof.
  revert s x. apply var_iff. intros ty a b v r x Hb Hn Hr. destruct v as [|y v]; [unfold nlen in Hr; cbn [length] in Hr; lia|]. unfold at_. cbn [app nth_error bind].
  rewrite add16_small by lia. cbn [bind].
  change (ty :: a :: b :: y :: v ++ r) with ([ty; a; b; y] ++ v ++ r). rewrite slice_app_mid by (cbn; unfold nlen; cbn [length]; lia).
  cbn [bind]. unfold qos_says. destruct (Nat.leb_spec 3 (length v)) as [L1|L1], (Nat.leb_spec (length v) 255) as [L2|L2]; cbn [andb];
    try (split; [discriminate|intros [E ?]; injection E as -> ->; lia]).
  same; [split; [reflexivity|cbn [qos_qos]; lia]|]. destruct H as [E _]. injection E as -> ->. destruct x; reflexivity.
Qed.

Lemma Eua_iff m s x : bytes s -> (m = Debug \/ declared s <= 65532) -> Eua_unmarshal m s = Ok x <-> var_says 128 1 eua_says x s.
Proof.
  revert s x. apply var_iff. intros ty a' b' w r x Hb _ Hr.
  destruct w as [|y [|z v]]; [unfold nlen in Hr; cbn [length] in Hr; lia| |].
  { split; [|intros (sp & ad & E & _); discriminate]. unfold at_. cbn [app nth_error bind]. change (nlen [y]) with 1.
    change (1 =? 2) with false. change (1 =? 6) with false. change (1 =? 18) with false. change (1 =? 22) with false. cbn [andb].
    destruct r; discriminate. }
  unfold at_. cbn [app nth_error bind]. rewrite land15.
  assert (El : nlen (y :: z :: v) = 2 + nlen v) by (unfold nlen; cbn [length]; lia). rewrite El.
  assert (S4 : length v = 4%nat -> @slice GTPV1Error (ty :: a' :: b' :: y :: z :: v ++ r) 5 9 = Ok v).
  { intros H. change (ty :: a' :: b' :: y :: z :: v ++ r) with ([ty; a'; b'; y; z] ++ v ++ r). apply slice_app_mid; cbn [length]; lia. }
  assert (S16 : length v = 16%nat -> @slice GTPV1Error (ty :: a' :: b' :: y :: z :: v ++ r) 5 21 = Ok v).
  { intros H. change (ty :: a' :: b' :: y :: z :: v ++ r) with ([ty; a'; b'; y; z] ++ v ++ r). apply slice_app_mid; cbn [length]; lia. }
  assert (S20 : forall p q, v = p ++ q -> length p = 4%nat -> length q = 16%nat ->
     @slice GTPV1Error (ty :: a' :: b' :: y :: z :: v ++ r) 5 9 = Ok p /\ @slice GTPV1Error (ty :: a' :: b' :: y :: z :: v ++ r) 9 25 = Ok q).
  { intros p q -> Hp Hq. split.
    - change (ty :: a' :: b' :: y :: z :: (p ++ q) ++ r) with ([ty; a'; b'; y; z] ++ (p ++ q) ++ r). rewrite <- app_assoc. apply slice_app_mid; cbn [length]; lia.
    - change (ty :: a' :: b' :: y :: z :: (p ++ q) ++ r) with ([ty; a'; b'; y; z] ++ (p ++ q) ++ r).
      rewrite <- app_assoc, app_assoc. apply slice_app_mid; rewrite app_length; cbn [length]; lia. }
  split.
  - destruct ((2 + nlen v =? 2) && (y mod 16 =? 0) && ((z =? 1) || (z =? 2))) eqn:C1.
    { intros H. apply Ok_inj in H. subst x. exists (y / 16), v. cbn [eua_org eua_nbr eua_v4 eua_v6]. split; [f_equal; lia|].
      split; [destruct v; [reflexivity|unfold nlen in C1; cbn [length] in C1; lia]|]. lia. }
    destruct ((2 + nlen v =? 2) && (y mod 16 =? 1) && ((z =? 33) || (z =? 87) || (z =? 141))) eqn:C2.
    { intros H. apply Ok_inj in H. subst x. exists (y / 16), v. cbn [eua_org eua_nbr eua_v4 eua_v6]. split; [f_equal; lia|].
      split; [destruct v; [reflexivity|unfold nlen in C2; cbn [length] in C2; lia]|]. lia. }
    destruct ((2 + nlen v =? 6) && (y mod 16 =? 1) && (z =? 33)) eqn:C3.
    { rewrite S4 by (unfold nlen in C3; lia). cbn [bind]. intros H. apply Ok_inj in H. subst x. exists (y / 16), v.
      cbn [eua_org eua_nbr eua_v4 eua_v6]. split; [f_equal; lia|]. split; [reflexivity|]. unfold nlen in C3. lia. }
    destruct ((2 + nlen v =? 18) && (y mod 16 =? 1) && (z =? 87)) eqn:C4.
    { rewrite S16 by (unfold nlen in C4; lia). cbn [bind]. intros H. apply Ok_inj in H. subst x. exists (y / 16), v.
      cbn [eua_org eua_nbr eua_v4 eua_v6]. split; [f_equal; lia|]. split; [reflexivity|]. unfold nlen in C4. lia. }
    destruct ((2 + nlen v =? 22) && (y mod 16 =? 1) && (z =? 141)) eqn:C5; [|discriminate].
    unfold nlen in C5. destruct (split_len 4 v ltac:(lia)) as (p & q & Ev & Hp).
    assert (Hq : length q = 16%nat) by (apply (f_equal (@length N)) in Ev; rewrite app_length in Ev; lia).
    destruct (S20 p q Ev Hp Hq) as [E1 E2]. rewrite E1, E2. cbn [bind]. intros H. apply Ok_inj in H. subst x. exists (y / 16), v.
    cbn [eua_org eua_nbr eua_v4 eua_v6]. split; [f_equal; lia|]. split; [exact Ev|]. lia.
  - destruct x as [org nbr v4 v6]. intros (sp & ad & E & H). cbn [eua_org eua_nbr eua_v4 eua_v6] in *. injection E as Ey -> ->.
    assert (Ho : org < 2) by (destruct v4, v6; lia). assert (Eo : y mod 16 = org) by lia. rewrite Eo. clear Ey Eo Hb Hr El.
    destruct v4 as [p|], v6 as [q|].
    + destruct H as (-> & Hp & Hq & -> & ->). destruct (S20 p q eq_refl Hp Hq) as [E1 E2]. rewrite E1, E2.
      unfold nlen. rewrite app_length, Hp, Hq. reflexivity.
    + destruct H as (-> & Hp & -> & ->). rewrite S4 by exact Hp. unfold nlen. rewrite Hp. reflexivity.
    + destruct H as (-> & Hp & -> & ->). rewrite S16 by exact Hp. unfold nlen. rewrite Hp. reflexivity.
    + destruct H as (-> & [[-> [-> | ->]]|[-> [-> |[-> | ->]]]]); reflexivity.
Qed.
Lemma Msisdn_iff m s x : bytes s -> (m = Debug \/ declared s <= 65532) -> Msisdn_unmarshal m s = Ok x <-> msisdn_says x s.
Proof.
  intros Hs Hm. unfold Msisdn_unmarshal, var_unmarshal, msisdn_says. destruct x as [t l x]. cbn [tlv_t tlv_v tlv_length].
  assert (Hoct : forall y, y < 256 -> N.shiftr (N.land y 128) 7 = y / 128 /\ N.shiftr (N.land y 112) 4 = (y / 16) mod 8).
  { intros y Hy. assert (Q := sweep 256 (fun y => (N.shiftr (N.land y 128) 7 =? y / 128) && (N.shiftr (N.land y 112) 4 =? (y / 16) mod 8)) ltac:(vm_compute; reflexivity) y Hy). cbv beta in Q. lia. }
  split.
  - destruct (Nat.leb_spec 3 (length s)) as [Hl|]; [|discriminate].
    destruct s as [|ty [|a [|b s]]]; try discriminate. unfold at_. cbn [nth_error bind]. cbn [length declared] in *.
    assert (E : be16 a b = 256 * a + b) by (unfold be16; lia). rewrite E. unfold check_tlv_ie_buffer.
    destruct (N.eqb_spec (256 * a + b) 0) as [|Hz]; [discriminate|].
    destruct (N.le_gt_cases (256 * a + b) 65532) as [Hle|Hgt].
    + rewrite add16_small by lia. cbn [bind]. cbn [length].
      destruct (Nat.leb_spec (N.to_nat (256 * a + b + 3)) (S (S (S (length s))))) as [Hb|]; [|discriminate].
      destruct s as [|y s]; [cbn [length] in Hb; lia|]. cbn [nth_error bind]. rewrite land15.
      destruct ((y mod 16 =? 1) || (y mod 16 =? 6)) eqn:Cp; [|discriminate].
      destruct (Nat.leb_spec 8 (length s)) as [H8|H8].
      * destruct (split_len 8 s H8) as (d & r & -> & Hd).
        change (ty :: a :: b :: y :: d ++ r) with ([ty; a; b; y] ++ d ++ r). rewrite slice_app_mid by (cbn [length]; lia).
        cbn [bind]. rewrite tbcd_number. intros H. apply Ok_inj in H. injection H as <- <- <-.
        apply Forall_cons_iff in Hs as [_ Hs]. apply Forall_cons_iff in Hs as [_ Hs]. apply Forall_cons_iff in Hs as [_ Hs].
        apply Forall_cons_iff in Hs as [Hy _]. destruct (Hoct y Hy) as [-> ->]. unfold byte in Hy. cbn [ms_ext ms_nature ms_plan ms_digits].
        split; [reflexivity|]. exists ty, a, b, d, r. split; [cbn [app]; do 3 f_equal; apply f_equal2; [lia|reflexivity]|].
        unfold nlen. cbn [app length] in *. repeat split; lia || reflexivity || assumption.
      * unfold slice. destruct (Nat.leb_spec 12 (length (ty :: a :: b :: y :: s))); [cbn [length] in *; lia|]. discriminate.
    + destruct Hm as [->|Hm]; [|lia]. unfold add16, ov. destruct (N.ltb_spec (256 * a + b + 3) 65536); [lia|]. discriminate.
  - intros (-> & ty & a & b & d & r & -> & He & Hna & Hp & Hd & Hdig & -> & Hr & Hn). destruct x as [e na p dg]. cbn [ms_ext ms_nature ms_plan ms_digits] in *.
    cbn [length Nat.leb]. unfold at_. cbn [nth_error bind].
    assert (E : be16 a b = 256 * a + b) by (unfold be16; lia). rewrite E. unfold check_tlv_ie_buffer.
    destruct (N.eqb_spec (256 * a + b) 0); [lia|]. rewrite add16_small by lia. cbn [bind].
    unfold nlen in Hn. rewrite (proj2 (Nat.leb_le _ _)) by (cbn [length] in *; lia). rewrite land15.
    set (y := 128 * e + 16 * na + p) in *. assert (Hy : y < 256) by lia. destruct (Hoct y Hy) as [-> ->].
    replace (y mod 16) with p by lia. replace (y / 128) with e by lia. replace ((y / 16) mod 8) with na by lia.
    replace ((p =? 1) || (p =? 6)) with true by lia.
    change (ty :: a :: b :: y :: d ++ r) with ([ty; a; b; y] ++ d ++ r). rewrite slice_app_mid by (cbn [length]; lia).
    cbn [bind]. rewrite tbcd_number, <- Hdig. reflexivity.
Qed.
Lemma Pe_iff m s x : bytes s -> (m = Debug \/ declared s <= 65532) -> CPe_unmarshal m s = Ok x <-> pe_says x s.
Proof.
  intros Hs Hm. unfold CPe_unmarshal, var_unmarshal, pe_says. destruct x as [t l x]. cbn [tlv_t tlv_v tlv_length]. split.
  - destruct (Nat.leb_spec 3 (length s)) as [Hl|]; [|discriminate].
    destruct s as [|ty [|a [|b s]]]; try discriminate. unfold at_. cbn [nth_error bind]. cbn [length declared] in *.
    assert (E : be16 a b = 256 * a + b) by (unfold be16; lia). rewrite E. unfold check_tlv_ie_buffer.
    destruct (N.eqb_spec (256 * a + b) 0) as [|Hz]; [discriminate|].
    destruct (N.le_gt_cases (256 * a + b) 65532) as [Hle|Hgt].
    + rewrite add16_small by lia. cbn [bind]. cbn [length].
      destruct (Nat.leb_spec (N.to_nat (256 * a + b + 3)) (S (S (S (length s))))) as [Hb|]; [|discriminate].
      unfold be16_at, at_. cbn [Nat.add nth_error]. destruct s as [|i [|j s]]; try discriminate. cbn [nth_error bind].
      rewrite slice_from_ok by (cbn [length]; lia). cbn [skipn bind]. intros H. apply Ok_inj in H. injection H as <- <- <-.
      split; [reflexivity|]. exists ty, a, b, i, j. cbn [pev_value pev_id]. unfold be16, nlen. cbn [length] in *. repeat split; lia.
    + destruct Hm as [->|Hm]; [|lia]. unfold add16, ov. destruct (N.ltb_spec (256 * a + b + 3) 65536); [lia|]. discriminate.
  - intros (-> & ty & a & b & i & j & -> & Hi & -> & Hr & Hn). destruct x as [id v]. cbn [pev_value pev_id] in *.
    cbn [length Nat.leb]. unfold at_. cbn [nth_error bind].
    assert (E : be16 a b = 256 * a + b) by (unfold be16; lia). rewrite E. unfold check_tlv_ie_buffer.
    destruct (N.eqb_spec (256 * a + b) 0); [lia|]. rewrite add16_small by lia. cbn [bind].
    unfold nlen in Hn. rewrite (proj2 (Nat.leb_le _ _)) by (cbn [length] in *; lia).
    unfold be16_at, at_. cbn [Nat.add nth_error bind]. rewrite slice_from_ok by (cbn [length]; lia). cbn [skipn bind].
    subst id. unfold be16. rewrite (N.mul_comm i). reflexivity.
Qed.

(* ------------------------------------------------------------------------- *)
(* TLV elements of fixed size *)

Lemma fix_iff' {A} T n (k : list N -> res A) (P : A -> list N -> Prop) :
  (forall x v, P x v -> length v = n) ->
  (forall ty a b v r x, bytes v -> length v = n -> (k (ty :: a :: b :: v ++ r) = Ok x <-> P x v)) ->
  forall s x, bytes s -> fixed_unmarshal T (S (S (S n))) k s = Ok x <-> fix_says T P x s.
Proof. intros H1 H2. apply (fix_iff T n); [lia|intros; lia|exact H1|exact H2]. Qed.

Lemma octet_iff T s x : bytes s -> fixed_unmarshal T 4 (fun b => at_ b 3) s = Ok x <-> fix_says T octet_says x s.
Proof. revert s x. apply (fix_iff' T 1); [intros x v ->; reflexivity|intros ty a b v r x Hb Hv; octets Hv Hb; rd]. unfold octet_says. same; [reflexivity|]. injection H as ->. reflexivity. Qed.
Lemma at_most_iff T n s x : bytes s ->
  fixed_unmarshal T 4 (fun b => let? x := at_ b 3 in if x <=? n then Ok x else Err IEIncorrect) s = Ok x <-> fix_says T (at_most_says n) x s.
Proof.
  revert s x. apply (fix_iff' T 1); [intros x v [-> _]; reflexivity|intros ty a b v r x Hb Hv; octets Hv Hb; rd]. unfold at_most_says. destruct (N.leb_spec x0 n).
  - split; [intros E; apply Ok_inj in E; subst; auto|intros [E _]; injection E as ->; reflexivity].
  - split; [discriminate|]. intros [E ?]. injection E as ->. lia.
Qed.
Lemma CsgInfo_iff s x : bytes s -> CsgInfo_unmarshal s = Ok x <-> fix_says 195 (low_says 8) x s.
Proof. revert s x. apply (fix_iff' CSG_INFO_REPORT 1); [intros x v (? & -> & _); reflexivity|intros ty a b v r x Hb Hv; octets Hv Hb; rd]. arith. apply low_iff. lia. Qed.
Lemma flags8_iff T s x : bytes s -> fixed_unmarshal T 4 (fun b => let? x := at_ b 3 in Ok (flags_of 8 x)) s = Ok x <-> fix_says T flags8_says x s.
Proof.
  revert s x. apply (fix_iff' T 1); [intros x v (? & -> & _); reflexivity|intros ty a b v r x Hb Hv; octets Hv Hb; rd]. unfold flags8_says, flags_of. cbn [seq rev app map].
  rewrite !testbit_bit_of. same; [exists x0; auto|]. destruct H as (y & E & ->). injection E as ->. reflexivity.
Qed.
Lemma flags3_iff T s x : bytes s -> fixed_unmarshal T 4 (fun b => let? x := at_ b 3 in Ok (flags_of 3 x)) s = Ok x <-> fix_says T flags3_says x s.
Proof.
  revert s x. apply (fix_iff' T 1); [intros x v (? & -> & _); reflexivity|intros ty a b v r x Hb Hv; octets Hv Hb; rd]. unfold flags3_says, flags_of. cbn [seq rev app map].
  rewrite !testbit_bit_of. same; [exists x0; auto|]. destruct H as (y & E & ->). injection E as ->. reflexivity.
Qed.
Lemma bool_iff T s x : bytes s -> fixed_unmarshal T 4 bool_at3 s = Ok x <-> fix_says T bool_says x s.
Proof.
  revert s x. apply (fix_iff' T 1); [intros x v ->; reflexivity|intros ty a b v r x Hb Hv; octets Hv Hb; rd]. unfold bool_at3. rd. unfold bool_says.
  destruct (N.eqb_spec x0 0) as [->|]; [|destruct (N.eqb_spec x0 1) as [->|]].
  - same; [reflexivity|]. destruct x; [discriminate|reflexivity].
  - same; [reflexivity|]. destruct x; [reflexivity|discriminate].
  - split; [discriminate|]. destruct x; intros H; injection H; lia.
Qed.
Lemma Restriction_iff s x : bytes s -> ApnRestriction_unmarshal s = Ok x <-> fix_says 149 restriction_says x s.
Proof.
  revert s x. apply (fix_iff' APNRESTRICTION 1); [intros x v ->; reflexivity|intros ty a b v r x Hb Hv; octets Hv Hb; rd]. unfold Restriction_dec, restriction_says.
  repeat (match goal with |- context[x0 =? ?c] => destruct (N.eqb_spec x0 c) as [->|]; [same; [reflexivity|destruct x; (reflexivity || discriminate)]|] end).
  split; [discriminate|]. destruct x; intros H; injection H; lia.
Qed.
Lemma Rat_iff s x : bytes s -> RatType_unmarshal s = Ok x <-> fix_says 151 rat_says x s.
Proof.
  revert s x. apply (fix_iff' RATTYPE 1); [intros x v ->; reflexivity|intros ty a b v r x Hb Hv; octets Hv Hb; rd]. unfold Rat_dec, rat_says.
  repeat (match goal with |- context[x0 =? ?c] => destruct (N.eqb_spec x0 c) as [->|]; [same; [reflexivity|destruct x; (reflexivity || discriminate)]|] end).
  split; [discriminate|]. destruct x; intros H; injection H; lia.
Qed.
Lemma Cnose_iff s x : bytes s -> Cnose_unmarshal s = Ok x <-> fix_says 216 cnose_says x s.
Proof.
  revert s x. apply (fix_iff' CNOSE 1); [intros x v (? & -> & _); reflexivity|intros ty a b v r x Hb Hv; octets Hv Hb; rd]. unfold cnose_says. destruct (N.eqb_spec x0 0) as [->|].
  - same; [exists 0; split; [reflexivity|]; split; [lia|reflexivity]|]. destruct H as (y & E & _ & ->). injection E as <-. reflexivity.
  - destruct ((x0 =? 1) || (x0 =? 2) || (x0 =? 3)) eqn:C.
    + same; [exists x0; split; [reflexivity|]; split; [lia|]; destruct (N.eqb_spec x0 0); [contradiction|reflexivity]|].
      destruct H as (y & E & _ & ->). injection E as <-. destruct (N.eqb_spec x0 0); [contradiction|reflexivity].
    + split; [discriminate|]. intros (y & E & Hy & _). injection E as <-. lia.
Qed.
Lemma Earp_iff s x : bytes s -> Earp_unmarshal s = Ok x <-> fix_says 191 earp_says x s.
Proof.
  revert s x. apply (fix_iff' EVOLVEDALLOCRETENTIONI 1); [intros x v (? & ? & -> & _); reflexivity|intros ty a b v r x Hb Hv; octets Hv Hb; rd]. arith. unfold earp_says, byte in *. same.
  - exists (x0 / 128), ((x0 / 2) mod 2). cbn [earp_vuln earp_level earp_cap]. split; [f_equal; lia|]. repeat split; lia.
  - destruct H as (s1 & s2 & E & ? & ? & ? & ? & ?). injection E as ->. destruct x as [v l c]. cbn [earp_vuln earp_level earp_cap] in *.
    f_equal. f_equal; lia.
Qed.
Lemma Backoff_iff s x : bytes s -> Backoff_unmarshal s = Ok x <-> fix_says 202 backoff_says x s.
Proof.
  revert s x. apply (fix_iff GGSN_BACKOFF 1); [lia| |intros x v (? & -> & _); reflexivity|].
  - intros ty a b v Hv _. destruct v; [reflexivity|cbn [length] in Hv; lia].
  - intros ty a b v r x Hb Hv. octets Hv Hb. rd. arith. unfold backoff_says, byte in *. same.
    + exists (x0 / 32). cbn [bo_unit bo_value]. split; [f_equal; lia|]. split; [lia|]. split; [lia|].
      destruct (N.leb_spec (x0 / 32) 4), (N.eqb_spec (x0 / 32) 7), (N.eqb_spec (x0 / 32) 5), (N.eqb_spec (x0 / 32) 6); cbn [orb]; lia.
    + destruct H as (u & E & Hu & Hv & Hd). injection E as ->. destruct x as [bu bv]. cbn [bo_unit bo_value] in *.
      replace ((32 * u + bv) / 32) with u by lia. replace ((32 * u + bv) mod 32) with bv by lia. subst bu.
      f_equal. f_equal. destruct (N.leb_spec u 4), (N.eqb_spec u 7), (N.eqb_spec u 5), (N.eqb_spec u 6); cbn [orb]; lia.
Qed.
Lemma Tz_iff s x : bytes s -> Tz_unmarshal s = Ok x <-> fix_says 153 tz_says x s.
Proof.
  revert s x. apply (fix_iff' MSTIMEZONETYPE 2); [intros x v (? & ? & ? & -> & _); reflexivity|]. intros ty a b v r x Hb Hv. octets Hv Hb. rd.
  arith. unfold tz_says, byte in *. same.
  - exists (x0 / 128), (x0 mod 128), (x1 / 4). cbn [tz_dst tz_zone]. split; [repeat (apply f_equal2; [lia|]); reflexivity|].
    split; [lia|]. split; [lia|]. split; [lia|]. destruct (N.eqb_spec (x0 / 128) 0), (N.eqb_spec (x0 / 128) 1); lia.
  - destruct H as (sg & n & sp & E & Hn & Hs & Hd & Hz). injection E as -> ->. destruct x as [z d]. cbn [tz_dst tz_zone] in *.
    replace ((128 * sg + n) / 128) with sg by lia. replace ((128 * sg + n) mod 128) with n by lia. replace ((4 * sp + d) mod 4) with d by lia.
    subst z. f_equal. f_equal. destruct (N.eqb_spec sg 0), (N.eqb_spec sg 1); lia.
Qed.
Lemma Mueut_iff s x : bytes s -> Mueut_unmarshal s = Ok x <-> fix_says 223 num2_says x s.
Proof.
  revert s x. apply (fix_iff' MUEUT 2); [intros x v (-> & _); reflexivity|]. intros ty a b v r x Hb Hv. octets Hv Hb. unfold be16_at. rd.
  apply num2_iff; assumption.
Qed.
Lemma UliTs_iff s x : bytes s -> UliTs_unmarshal s = Ok x <-> fix_says 214 num4_says x s.
Proof.
  revert s x. apply (fix_iff' ULI_TIMESTAMP 4); [intros x v (-> & _); reflexivity|]. intros ty a b v r x Hb Hv. octets Hv Hb. unfold be32_at. rd.
  apply num4_iff; assumption.
Qed.
Lemma Ambr_iff s x : bytes s -> Ambr_unmarshal s = Ok x <-> fix_says 198 ambr_says x s.
Proof.
  revert s x. apply (fix_iff' APNAMBR 8); [intros x v (_ & _ & ->); reflexivity|]. intros ty a b v r x Hb Hv. octets Hv Hb. unfold be32_at. rd.
  unfold ambr_says. destruct x as [u d]. cbn [ambr_ul ambr_dl].
  pose proof (oct4_be x0 x1 x2 x3 By By0 By1 By2 u) as H1. pose proof (oct4_be x4 x5 x6 x7 By3 By4 By5 By6 d) as H2. unfold num4_says in *. same.
  - assert (Eu : u = 16777216 * x0 + 65536 * x1 + 256 * x2 + x3) by (injection H; unfold be32; lia).
    assert (Ed : d = 16777216 * x4 + 65536 * x5 + 256 * x6 + x7) by (injection H; unfold be32; lia).
    apply H1 in Eu as [E1 L1]. apply H2 in Ed as [E2 L2]. rewrite <- E1, <- E2. auto.
  - destruct H as (L1 & L2 & E). injection E as -> -> -> -> -> -> -> ->. f_equal. unfold be32. f_equal; lia.
Qed.
Lemma Ati_iff s x : bytes s -> Ati_unmarshal s = Ok x <-> fix_says 162 ati_says x s.
Proof.
  revert s x. apply (fix_iff' ADDITIONALTRACEINFO 9); [intros x v (_ & _ & ->); reflexivity|]. intros ty a b v r x Hb Hv. octets Hv Hb.
  unfold be24_at, be16_at. rd. unfold ati_says. destruct x as [rf se ev de it ct]. cbn [ati_ref ati_session ati_events ati_depth ati_ifs ati_ctl].
  pose proof (oct3_be x0 x1 x2 rf By By0 By1) as H1. pose proof (oct2_be x3 x4 By2 By3 se) as H2. unfold num2_says in *. same.
  - injection H as Er Es -> -> -> ->. assert (Er' : rf = 65536 * x0 + 256 * x1 + x2) by (unfold be24 in Er; lia).
    assert (Es' : se = 256 * x3 + x4) by (unfold be16 in Es; lia). apply H1 in Er' as [L1 E1]. apply H2 in Es' as [E2 L2].
    rewrite <- E1, <- E2. auto.
  - destruct H as (L1 & L2 & E). injection E as -> -> -> -> -> -> -> -> ->. f_equal. unfold be24, be16. f_equal; lia.
Qed.
Lemma uli_says_len x v : uli_says x v -> length v = 8%nat.
Proof.
  intros (p & l & c & d & Hp & [-> _] & H). apply plmn_says_len in Hp.
  destruct (uli_loc x); destruct H as [-> _]; cbn [app length]; rewrite !app_length, Hp; reflexivity.
Qed.
Lemma Uli_iff s x : bytes s -> Uli_unmarshal s = Ok x <-> fix_says 152 uli_says x s.
Proof.
  revert s x. apply (fix_iff' ULI 8); [exact uli_says_len|]. intros ty a b v r x Hb Hv. octets Hv Hb.
  unfold at_ at 1. cbn [app nth_error bind]. destruct (N.leb_spec x0 2) as [L|L].
  - change (ty :: a :: b :: x0 :: x1 :: x2 :: x3 :: ?q) with ([ty; a; b; x0] ++ x1 :: x2 :: x3 :: q). change 4%nat with (length [ty; a; b; x0]) at 1.
    rewrite plmn_at_ok. cbn [bind]. unfold be16_at. rd. unfold uli_says. same.
    + cbn [uli_plmn uli_lac uli_loc]. exists [x1; x2; x3], [x4; x5], x6, x7. split; [apply plmn_says_iff; reflexivity|].
      split; [apply oct2_be; [assumption..|unfold be16; lia]|]. unfold be16.
      destruct (N.eqb_spec x0 0) as [->|]; [split; [reflexivity|lia]|]. destruct (N.eqb_spec x0 1) as [->|]; [split; [reflexivity|lia]|].
      replace x0 with 2 by lia. split; reflexivity.
    + destruct H as (p & l & c & d & (pa & pb & pc & -> & Hp) & [-> Hl] & H). destruct x as [pl lc loc]. cbn [uli_plmn uli_lac uli_loc] in *. subst pl.
      destruct loc; destruct H as [E ->]; cbn in E; injection E as -> -> -> -> E1 E2 -> ->; cbn [N.eqb]; f_equal; apply f_equal3; try reflexivity;
        unfold be16; try (apply f_equal); lia.
  - split; [discriminate|]. intros (p & l & c & d & (pa & pb & pc & -> & Hp) & [-> Hl] & H).
    destruct (uli_loc x); destruct H as [E _]; injection E; lia.
Qed.
Lemma uci_says_len x v : uci_says x v -> length v = 8%nat.
Proof. intros (p & c & a & s & m & -> & _ & _ & _ & Hp & [-> _] & _). rewrite !app_length, (plmn_says_len _ _ Hp). reflexivity. Qed.
Lemma Uci_iff s x : bytes s -> Uci_unmarshal s = Ok x <-> fix_says 194 uci_says x s.
Proof.
  revert s x. apply (fix_iff' UCI 8); [exact uci_says_len|]. intros ty a b v r x Hb Hv. octets Hv Hb. cbn [app].
  change (ty :: a :: b :: x0 :: x1 :: x2 :: ?q) with ([ty; a; b] ++ x0 :: x1 :: x2 :: q). change 3%nat with (length [ty; a; b]) at 1.
  rewrite plmn_at_ok. cbn [bind]. unfold be32_at. rd. rewrite land1.
  assert (E6 : N.shiftr (N.land x7 192) 6 = x7 / 64).
  { apply N.eqb_eq. exact (sweep 256 (fun y => N.shiftr (N.land y 192) 6 =? y / 64) ltac:(vm_compute; reflexivity) x7 By6). }
  rewrite E6. unfold uci_says, byte in *. same.
  - exists [x0; x1; x2], [x3; x4; x5; x6], (x7 / 64), ((x7 / 2) mod 32), (x7 mod 2). cbn [uci_plmn uci_csgid uci_mode uci_cmi].
    split; [cbn [app]; repeat (apply f_equal2; [lia|]); reflexivity|]. split; [lia|]. split; [lia|]. split; [lia|].
    split; [apply plmn_says_iff; reflexivity|]. split; [apply oct4_be; [assumption..|unfold be32; lia]|]. split; reflexivity.
  - destruct H as (p & c & am & sp & m & E & Ha & Hs & Hm & (pa & pb & pc & -> & Hp) & [-> Hc] & Hmo & Hcm). destruct x as [pl ci mo cm].
    cbn [uci_plmn uci_csgid uci_mode uci_cmi] in *. subst. cbn in E. injection E as -> -> -> E1 E2 E3 E4 ->.
    replace ((64 * am + 2 * sp + m) / 64) with am by lia. replace ((64 * am + 2 * sp + m) mod 2) with m by lia.
    replace (be32 x3 x4 x5 x6) with ci by (unfold be32; lia). reflexivity.
Qed.
Lemma Imei_iff s x : bytes s -> Imei_unmarshal s = Ok x <-> tlv_t x = 154 /\ tlv_length x = 8 /\
  exists ty a b v r, s = ty :: a :: b :: v ++ r /\ digits8_says (tlv_v x) v.
Proof.
  intros Hs. unfold Imei_unmarshal, digits8_says. destruct x as [t l x]. cbn [tlv_t tlv_length tlv_v]. split.
  - destruct (Nat.leb_spec 11 (length s)) as [Hl|]; [|discriminate]. destruct s as [|ty [|a [|b s]]]; try (cbn [length] in Hl; lia).
    destruct (split_len 8 s ltac:(cbn [length] in Hl; lia)) as (v & r & -> & Hv). rewrite take3 by lia. cbn [bind]. rewrite tbcd_number.
    intros H. apply Ok_inj in H. injection H as <- <- <-. split; [reflexivity|]. split; [reflexivity|]. exists ty, a, b, v, r. auto.
  - intros (-> & -> & ty & a & b & v & r & -> & Hv & ->). rewrite (proj2 (Nat.leb_le _ _)) by (cbn [length]; rewrite app_length; lia).
    rewrite take3 by lia. cbn [bind]. rewrite tbcd_number. reflexivity.
Qed.

(* ------------------------------------------------------------------------- *)
(* All kinds *)

Lemma wrap_iff {A} (r : res A) (c : A -> ie1) (x : A) : (forall y, c y = c x -> y = x) -> (let? y := r in Ok (c y)) = Ok (c x) <-> r = Ok x.
Proof.
  intros Hc. split; [|intros ->; reflexivity]. intros H. apply bind_ok in H as (y & Hy & H). apply Ok_inj in H. rewrite Hy. f_equal. apply Hc, H.
Qed.
Theorem says1_iff m i s : bytes s -> (m = Debug \/ declared s <= 65532) -> ie1_unmarshal (kind1_of i) m s = Ok i <-> says1 i s.
Proof.
  intros Hs Hm. destruct i; cbn [ie1_unmarshal kind1_of says1]; (rewrite wrap_iff by (intros y E; injection E as ->; reflexivity));
  first [ apply Cause_iff | apply Imsi_iff | apply Rai_iff | apply Reordering_iff | apply Recovery_iff | apply SelectionMode_iff | apply Teid_iff
        | apply Teardown_iff | apply Nsapi_iff | apply ChargingChar_iff | apply TraceReference_iff | apply TraceType_iff | apply ChargingId_iff
        | apply Eua_iff | apply Apn_iff | apply Msisdn_iff | apply Qos_iff | apply Camel_iff | apply Restriction_iff | apply Rat_iff | apply Uli_iff
        | apply Tz_iff | apply Imei_iff | apply Ati_iff | apply Earp_iff | apply Uci_iff | apply CsgInfo_iff | apply Ambr_iff | apply Backoff_iff
        | apply UliTs_iff | apply Cnose_iff | apply Mueut_iff | apply Pe_iff | apply blob_iff | apply ip_iff | apply octet_iff | apply at_most_iff
        | apply flags8_iff | apply flags3_iff | apply bool_iff ]; assumption.
Qed.
Lemma kind1_unmarshal k m s i : ie1_unmarshal k m s = Ok i -> kind1_of i = k.
Proof. destruct k; cbn [ie1_unmarshal]; intros H; apply bind_ok in H as (y & _ & H); apply Ok_inj in H; subst i; reflexivity. Qed.
