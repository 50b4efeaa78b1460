(* PropsUtils.v - C93: the public helper functions of src/gtpv1/utils.rs and src/gtpv2/utils.rs, called on their own with any arguments. *)
From Verif Require Import Base BaseFacts Digits DigitsFacts Encode Utils.
From Verif Require V1U V1Encode V2Base V2Encode.
Local Open Scope N_scope.
Notation length := List.length.

(* --- specification --------------------------------------------------------------------------------------------------- *)
(* the digits of TBCD octets in the order in which they are sent: the low half of an octet first *)
Definition halves (o : list N) : list N := flat_map (fun x => [x mod 16; x / 16]) o.
(* octets that are the TBCD digits of some number: decimal digits, and 15 in the last place of an odd number of them *)
Definition number_octets (o : list N) : Prop :=
  exists ds, Forall (fun d => d < 10) ds /\ (halves o = ds \/ halves o = ds ++ [15]).
(* three octets that are a PLMN identity: decimal digits, or 15 for the third digit of the MNC *)
Definition plmn_octets (b0 b1 b2 : N) : Prop :=
  b0 mod 16 < 10 /\ b0 / 16 < 10 /\ b1 mod 16 < 10 /\ (b1 / 16 < 10 \/ b1 / 16 = 15) /\ b2 mod 16 < 10 /\ b2 / 16 < 10.
(* the first three digits of a number of at most five *)
Definition first_three (n : N) : N := if n <? 1000 then n else if n <? 10000 then n / 10 else n / 100.
(* [b] with the octets i and i+1 replaced by the number n, most significant octet first *)
Definition with_number (b : list N) (i : nat) (n : N) : list N := firstn i b ++ [n / 256; n mod 256] ++ skipn (i + 2) b.

(* --- digits ---------------------------------------------------------------------------------------------------------- *)
Lemma halves_eq o : halves o = concat (map (fun x => [N.land x 15; N.shiftr x 4]) o).
Proof.
  unfold halves. rewrite flat_map_concat_map. f_equal. apply map_ext. intros x. f_equal; [|f_equal].
  - change 15 with (N.ones 4). rewrite N.land_ones. reflexivity.
  - rewrite N.shiftr_div_pow2. reflexivity.
Qed.
Lemma halves_app a b : halves (a ++ b) = halves a ++ halves b.
Proof. unfold halves. apply flat_map_app. Qed.
Lemma halves_length o : length (halves o) = (2 * length o)%nat.
Proof. induction o as [|x o IH]; [reflexivity|]. unfold halves in *. cbn [flat_map app length]. rewrite IH. lia. Qed.
Lemma halves_even o : Nat.even (length (halves o)) = true.
Proof. rewrite halves_length. rewrite Nat.even_mul. reflexivity. Qed.
Lemma pairs_halves o : bytes o -> tbcd_pairs (halves o) = o.
Proof.
  induction 1 as [|x o Hx Ho IH]; [reflexivity|]. unfold halves in *. cbn [flat_map app tbcd_pairs]. rewrite IH. f_equal. unfold byte in Hx.
  rewrite nibble_sum by lia. lia.
Qed.

(* tbcd_decode(): the digits among the halves of the octets, whatever the octets are. *)
Theorem C93_tbcd_decode : forall o, tbcd_decode o = map (N.add 48) (filter (fun d => d <? 10) (halves o)).
Proof.
  intros o. unfold tbcd_decode. rewrite <- halves_eq. induction (halves o) as [|d l IH]; [reflexivity|].
  cbn [filter_map filter]. unfold from_digit at 1. destruct (d <? 10); cbn [map]; rewrite IH; reflexivity.
Qed.
Print Assumptions C93_tbcd_decode.

Lemma filter_digits l : Forall (fun d => d < 10) l -> filter (fun d => d <? 10) l = l.
Proof. induction 1 as [|d l Hd Hl IH]; [reflexivity|]. cbn [filter]. rewrite (proj2 (N.ltb_lt _ _) Hd), IH. reflexivity. Qed.
Lemma to_digit_map l : Forall (fun d => d < 10) l -> filter_map to_digit (map (N.add 48) l) = l.
Proof.
  induction 1 as [|d l Hd Hl IH]; [reflexivity|]. cbn [map filter_map]. unfold to_digit at 1.
  destruct (N.leb_spec 48 (48 + d)); [|lia]. destruct (N.leb_spec (48 + d) 57); [|lia]. cbn [andb]. rewrite IH. f_equal. lia.
Qed.
(* Decoding octets and encoding the digits again gives the octets exactly if they are the octets of a number. *)
Theorem C93_tbcd_octets : forall o, bytes o -> (tbcd_encode (tbcd_decode o) = o <-> number_octets o).
Proof.
  intros o Ho. split.
  - intros E. set (ds := filter_map to_digit (tbcd_decode o)). assert (D : Forall (fun d => d < 10) ds) by apply digits_lt.
    exists ds. split; [exact D|]. rewrite <- E. unfold tbcd_encode. fold ds.
    assert (D16 : Forall (fun d => d < 16) ds) by (eapply Forall_impl; [|exact D]; cbn; intros; lia).
    destruct (Nat.odd (length ds)) eqn:O.
    + right. rewrite halves_eq. apply decode_pairs.
      * apply Forall_app. split; [exact D16|]. repeat constructor.
      * rewrite app_length. cbn [length]. rewrite Nat.add_1_r, Nat.even_succ. exact O.
    + left. rewrite halves_eq. apply decode_pairs; [exact D16|]. rewrite <- Nat.negb_odd, O. reflexivity.
  - intros (ds & D & [E|E]).
    + rewrite C93_tbcd_decode, E, filter_digits by exact D. unfold tbcd_encode. rewrite to_digit_map by exact D.
      assert (O : Nat.odd (length ds) = false). { rewrite <- E, <- Nat.negb_even, halves_even. reflexivity. }
      rewrite O, <- E. apply pairs_halves, Ho.
    + rewrite C93_tbcd_decode, E, filter_app, filter_digits by exact D. change (filter (fun d => d <? 10) [15]) with (@nil N). rewrite app_nil_r.
      unfold tbcd_encode. rewrite to_digit_map by exact D.
      assert (O : Nat.odd (length ds) = true).
      { pose proof (halves_even o) as V. rewrite E, app_length in V. cbn [length] in V. rewrite Nat.add_1_r, Nat.even_succ in V. exact V. }
      rewrite O, <- E. apply pairs_halves, Ho.
Qed.
Print Assumptions C93_tbcd_octets.
Example C93_tbcd_cases : tbcd_encode (tbcd_decode [33; 243]) = [33; 243] /\ tbcd_encode (tbcd_decode [33; 255]) = [33] /\ tbcd_encode (tbcd_decode [26; 50]) = [33; 243].
Proof. repeat split. Qed.

(* --- PLMN identities -------------------------------------------------------------------------------------------------- *)
Lemma parse_small l : (length l <= 3)%nat -> parse_dec (filter_map from_digit l) < 10 ^ N.of_nat (length l).
Proof.
  assert (B : forall d c, from_digit d = Some c -> c - 48 < 10 /\ 48 <= c). { unfold from_digit. intros d c H. destruct (N.ltb_spec d 10); [|discriminate]. injection H as <-. lia. }
  intros L. destruct l as [|a [|b [|c [|d l]]]]; cbn [length] in L; try lia; cbn [filter_map];
    repeat match goal with |- context [from_digit ?x] => let E := fresh "E" in destruct (from_digit x) eqn:E; [apply B in E|] end;
    unfold parse_dec; cbn [fold_left length]; lia.
Qed.
Lemma plmn_enc_bound mcc mnc (three : bool) : mcc < 1000 -> mnc < (if three then 1000 else 100) ->
  exists b0 b1 b2, mcc_mnc_encode mcc mnc three = [b0; b1; b2] /\ plmn_octets b0 b1 b2.
Proof.
  intros A B. rewrite plmn_layout by assumption. destruct three; cbv zeta; do 3 eexists; (split; [reflexivity|]);
    unfold plmn_octets; repeat split; try lia.
Qed.
(* mcc_mnc_decode() panics on fewer than three octets, and otherwise looks at three octets only. What it returns is encoded as the same octets
   exactly if these are a PLMN identity. *)
Theorem C93_plmn_short : forall E (o : list N), (length o < 3)%nat -> mcc_mnc_decode (E:=E) o = Panic.
Proof. intros E [|a [|b [|c o]]] L; cbn [length] in L; try lia; reflexivity. Qed.
Print Assumptions C93_plmn_short.
Theorem C93_plmn_octets : forall E b0 b1 b2 rest, byte b0 -> byte b1 -> byte b2 ->
  exists mcc mnc three, mcc_mnc_decode (E:=E) (b0 :: b1 :: b2 :: rest) = Ok (mcc, mnc, three) /\ mcc < 1000 /\ mnc < 1000 /\
    (mcc_mnc_encode mcc mnc three = [b0; b1; b2] <-> plmn_octets b0 b1 b2).
Proof.
  intros E b0 b1 b2 rest H0 H1 H2. unfold byte in *. unfold mcc_mnc_decode, at_. cbn [nth_error bind].
  assert (L : forall x, N.land x 15 = x mod 16) by (intros x; change 15 with (N.ones 4); apply N.land_ones).
  assert (R : forall x, N.shiftr x 4 = x / 16) by (intros x; rewrite N.shiftr_div_pow2; reflexivity).
  rewrite !L, !R. set (cd := [b0 mod 16; b0 / 16; b1 mod 16]).
  destruct (N.eqb_spec (b1 / 16) 15) as [T|T]; cbn [negb].
  - rewrite app_nil_r. set (nd := [b2 mod 16; b2 / 16]).
    pose proof (parse_small cd ltac:(cbn; lia)) as Pc. change (10 ^ N.of_nat (length cd)) with 1000 in Pc.
    pose proof (parse_small nd ltac:(cbn; lia)) as Pn. change (10 ^ N.of_nat (length nd)) with 100 in Pn.
    do 3 eexists. split; [reflexivity|]. split; [exact Pc|]. split; [lia|]. split.
    + intros En. destruct (plmn_enc_bound _ _ false Pc Pn) as (c0 & c1 & c2 & Ec & P). rewrite En in Ec. injection Ec as -> -> ->. exact P.
    + intros (A & B & C & D & F & G). rewrite plmn_layout by (try exact Pc; exact Pn). unfold cd, nd. rewrite parse3, parse2 by assumption. cbv zeta.
      f_equal; [lia|]. f_equal; [lia|]. f_equal. lia.
  - set (nd := [b2 mod 16; b2 / 16] ++ [b1 / 16]).
    pose proof (parse_small cd ltac:(cbn; lia)) as Pc. change (10 ^ N.of_nat (length cd)) with 1000 in Pc.
    pose proof (parse_small nd ltac:(cbn; lia)) as Pn. change (10 ^ N.of_nat (length nd)) with 1000 in Pn.
    do 3 eexists. split; [reflexivity|]. split; [exact Pc|]. split; [exact Pn|]. split.
    + intros En. destruct (plmn_enc_bound _ _ true Pc Pn) as (c0 & c1 & c2 & Ec & P). rewrite En in Ec. injection Ec as -> -> ->. exact P.
    + intros (A & B & C & D & F & G). rewrite plmn_layout by (try exact Pc; exact Pn). unfold cd, nd. cbn [app]. rewrite !parse3 by (try assumption; lia). cbv zeta.
      f_equal; [lia|]. f_equal; [lia|]. f_equal. lia.
Qed.
Print Assumptions C93_plmn_octets.
Example C93_plmn_cases : plmn_octets 98 242 32 /\ mcc_mnc_decode (E:=V2Base.GTPV2Error) [98; 242; 32] = Ok (262, 2, false) /\
  mcc_mnc_decode (E:=V2Base.GTPV2Error) [107; 242; 32] = Ok (62, 2, false) /\ mcc_mnc_encode 62 2 false = [96; 242; 32].
Proof. split; [unfold plmn_octets; repeat split; try lia|repeat split]. Qed.

(* mcc_mnc_encode() takes any u16: of a number of four or five digits it sends the first three, as it does for the number these make. *)
Lemma dec_three f n : 100 <= n < 1000 -> dec_digits (S (S (S f))) n = three_digits n.
Proof.
  intros H. cbn [dec_digits]. destruct (N.ltb_spec n 10); [lia|]. destruct (N.ltb_spec (n / 10) 10); [lia|].
  destruct (N.ltb_spec (n / 10 / 10) 10); [|lia]. unfold three_digits. cbn [app]. f_equal. rewrite N.div_div by lia. reflexivity.
Qed.
Lemma large_digits n : 1000 <= n < 65536 -> exists r, to_digits n = three_digits (first_three n) ++ r.
Proof.
  intros H. unfold to_digits, first_three. cbv zeta. destruct (N.ltb_spec n 1000); [lia|]. destruct (N.ltb_spec n 10000) as [S|S].
  - assert (E : dec_digits 5 n = three_digits (n / 10) ++ [n mod 10]).
    { change (dec_digits 5 n) with (if n <? 10 then [n] else dec_digits 4 (n / 10) ++ [n mod 10]). destruct (N.ltb_spec n 10); [lia|].
      rewrite dec_three by lia. reflexivity. }
    rewrite E. eexists. reflexivity.
  - assert (E : dec_digits 5 n = (three_digits (n / 100) ++ [n / 10 mod 10]) ++ [n mod 10]).
    { change (dec_digits 5 n) with (if n <? 10 then [n] else (if n / 10 <? 10 then [n / 10] else dec_digits 3 (n / 10 / 10) ++ [(n / 10) mod 10]) ++ [n mod 10]).
      destruct (N.ltb_spec n 10); [lia|]. destruct (N.ltb_spec (n / 10) 10); [lia|]. rewrite N.div_div by lia. rewrite dec_three by lia. reflexivity. }
    rewrite E, <- app_assoc. eexists. reflexivity.
Qed.
Lemma first_three_small n : n < 65536 -> first_three n < 1000 /\ (1000 <= n -> 100 <= first_three n).
Proof. intros H. unfold first_three. destruct (N.ltb_spec n 1000); [lia|]. destruct (N.ltb_spec n 10000); lia. Qed.
Theorem C93_plmn_large_refuted : forall mcc mnc three, mcc < 65536 -> mnc < 65536 ->
  mcc_mnc_encode mcc mnc three = mcc_mnc_encode (first_three mcc) (first_three mnc) three.
Proof.
  intros mcc mnc three Hc Hn.
  assert (C : forall i, (i < 3)%nat -> nth i (pad_front (3 - length (to_digits mcc)) (to_digits mcc)) 0 =
    nth i (pad_front (3 - length (to_digits (first_three mcc))) (to_digits (first_three mcc))) 0).
  { intros i Hi. destruct (N.ltb_spec mcc 1000) as [S|S]; [unfold first_three; rewrite (proj2 (N.ltb_lt _ _) S); reflexivity|].
    rewrite (leq_eq _ _ (sweep 1000 _ mcc_digits_sweep _ (proj1 (first_three_small mcc Hc)))).
    destruct (large_digits mcc ltac:(lia)) as (r & ->). cbn [three_digits app length Nat.sub pad_front]. destruct i as [|[|[|i]]]; try lia; reflexivity. }
  unfold mcc_mnc_encode. cbv zeta. rewrite (C 0%nat), (C 1%nat), (C 2%nat) by lia.
  destruct (N.ltb_spec mnc 1000) as [S|S]; [assert (F : first_three mnc = mnc) by (unfold first_three; rewrite (proj2 (N.ltb_lt _ _) S); reflexivity); rewrite F; reflexivity|].
  destruct (first_three_small mnc Hn) as [F1 F2]. specialize (F2 S).
  rewrite (proj2 (N.leb_le 100 mnc)) by lia. rewrite (proj2 (N.leb_le 100 (first_three mnc))) by exact F2. rewrite !orb_true_r. cbn [andb].
  pose proof (leq_eq _ _ (sweep 1000 _ mnc_digits_sweep _ F1)) as W. cbv beta in W. rewrite W.
  destruct (large_digits mnc ltac:(lia)) as (r & ->). reflexivity.
Qed.
Print Assumptions C93_plmn_large_refuted.
Example C93_plmn_large_case : mcc_mnc_decode (E:=V2Base.GTPV2Error) (mcc_mnc_encode 26201 12345 false) = Ok (262, 123, true).
Proof. reflexivity. Qed.

(* --- length fields ---------------------------------------------------------------------------------------------------- *)
Lemma set_two b i x y : (i + 2 <= length b)%nat -> set_nth (set_nth b i x) (i + 1) y = firstn i b ++ [x; y] ++ skipn (i + 2) b.
Proof.
  revert b. induction i as [|i IH]; intros b H.
  - destruct b as [|p [|q b]]; cbn [length] in H; try lia. reflexivity.
  - destruct b as [|p b]; cbn [length] in H; [lia|]. cbn [set_nth Nat.add firstn skipn app]. f_equal. apply IH. lia.
Qed.
Lemma size_octets n : n mod 65536 / 256 mod 256 = n mod 65536 / 256 /\ (n mod 65536) mod 256 = n mod 65536 mod 256.
Proof. split; [apply N.mod_small; lia|reflexivity]. Qed.
Lemma set_size_spec {E} m k i b : set_size (E:=E) m k i b =
  if (length b <? i + 2)%nat then Panic
  else if k <=? nlen b then Ok (with_number b i ((nlen b - k) mod 65536))
  else match m with Debug => Panic | Release => Ok (with_number b i ((18446744073709551616 + nlen b - k) mod 65536)) end.
Proof.
  assert (L : forall b i x, length (set_nth b i x) = length b) by (induction b0; intros [|j] x; cbn [set_nth length]; [reflexivity..|f_equal; apply IHb0]).
  assert (P : forall n, (let? b := put (E:=E) b i (n mod 65536 / 256 mod 256) in put b (i + 1) ((n mod 65536) mod 256)) =
    if (length b <? i + 2)%nat then Panic else Ok (with_number b i (n mod 65536))).
  { intros n. unfold put. destruct (Nat.ltb_spec (length b) (i + 2)) as [S|S].
    - destruct (Nat.ltb_spec i (length b)); [|reflexivity]. cbn [bind]. rewrite L. destruct (Nat.ltb_spec (i + 1) (length b)); [lia|reflexivity].
    - destruct (Nat.ltb_spec i (length b)); [|lia]. cbn [bind]. rewrite L. destruct (Nat.ltb_spec (i + 1) (length b)); [|lia].
      rewrite set_two by lia. unfold with_number. rewrite (proj1 (size_octets n)). reflexivity. }
  unfold set_size, sub_usize. destruct (k <=? nlen b); [cbn [bind]; apply P|]. destruct m; cbn [bind].
  - destruct (_ <? _)%nat; reflexivity.
  - apply P.
Qed.
(* The four functions that write a length field, on any buffer. *)
Theorem C93_set_msg_length : forall m b, V2Encode.set_msg_length_checked m b =
  if (length b <? 4)%nat then Panic else Ok (with_number b 2 ((nlen b - 4) mod 65536)).
Proof.
  intros m b. unfold V2Encode.set_msg_length_checked. rewrite set_size_spec. cbn [Nat.add]. destruct (Nat.ltb_spec (length b) 4); [reflexivity|].
  destruct (N.leb_spec 4 (nlen b)); [reflexivity|unfold nlen in *; lia].
Qed.
Print Assumptions C93_set_msg_length.
Theorem C93_set_tlv_ie_length : forall m b, V1Encode.set_tlv_ie_length_checked m b =
  if (length b <? 3)%nat then Panic else Ok (with_number b 1 ((nlen b - 3) mod 65536)).
Proof.
  intros m b. unfold V1Encode.set_tlv_ie_length_checked. rewrite set_size_spec. cbn [Nat.add]. destruct (Nat.ltb_spec (length b) 3); [reflexivity|].
  destruct (N.leb_spec 3 (nlen b)); [reflexivity|unfold nlen in *; lia].
Qed.
Print Assumptions C93_set_tlv_ie_length.
(* These two write a wrong length in release builds instead of panicking, if the buffer is too short for what they are for. *)
Theorem C93_set_tliv_ie_length_refuted : forall m b, V2Encode.set_tliv_ie_length_checked m b =
  if (length b <? 3)%nat then Panic
  else if (length b =? 3)%nat then match m with Debug => Panic | Release => Ok (with_number b 1 65535) end
  else Ok (with_number b 1 ((nlen b - 4) mod 65536)).
Proof.
  intros m b. unfold V2Encode.set_tliv_ie_length_checked. rewrite set_size_spec. cbn [Nat.add]. destruct (Nat.ltb_spec (length b) 3); [reflexivity|].
  destruct (Nat.eqb_spec (length b) 3) as [E|E]; destruct (N.leb_spec 4 (nlen b)); unfold nlen in *; try lia; [|reflexivity].
  rewrite E. reflexivity.
Qed.
Print Assumptions C93_set_tliv_ie_length_refuted.
Theorem C93_set_length_refuted : forall m b, V1Encode.set_length_checked m b =
  if (length b <? 4)%nat then Panic
  else if (length b <? 8)%nat then match m with Debug => Panic | Release => Ok (with_number b 2 (65528 + nlen b)) end
  else Ok (with_number b 2 ((nlen b - 8) mod 65536)).
Proof.
  intros m b. unfold V1Encode.set_length_checked. rewrite set_size_spec. cbn [Nat.add]. destruct (Nat.ltb_spec (length b) 4); [reflexivity|].
  destruct (Nat.ltb_spec (length b) 8) as [E|E]; destruct (N.leb_spec 8 (nlen b)); unfold nlen in *; try lia; [|reflexivity].
  destruct m; [reflexivity|]. f_equal. f_equal. lia.
Qed.
Print Assumptions C93_set_length_refuted.

(* The two functions that check a length: right for lengths that leave room for the octets in front of the value. *)
Theorem C93_check_tliv : forall m len b, len <= 65531 ->
  V2Base.check_tliv_ie_buffer m len b = Ok ((0 <? len) && (len + 4 <=? nlen b)).
Proof.
  intros m len b H. unfold V2Base.check_tliv_ie_buffer, add16, ov. destruct (N.eqb_spec len 0) as [->|Z]; [reflexivity|].
  destruct (N.ltb_spec (len + 4) 65536); [|lia]. cbn [bind]. f_equal. destruct (N.ltb_spec 0 len); [|lia]. cbn [andb]. unfold nlen.
  destruct (Nat.leb_spec (N.to_nat (len + 4)) (length b)); destruct (N.leb_spec (len + 4) (N.of_nat (length b))); try reflexivity; lia.
Qed.
Print Assumptions C93_check_tliv.
Theorem C93_check_tlv : forall m len b, len <= 65532 ->
  V1U.check_tlv_ie_buffer m len b = Ok ((0 <? len) && (len + 3 <=? nlen b)).
Proof.
  intros m len b H. unfold V1U.check_tlv_ie_buffer, add16, ov. destruct (N.eqb_spec len 0) as [->|Z]; [reflexivity|].
  destruct (N.ltb_spec (len + 3) 65536); [|lia]. cbn [bind]. f_equal. destruct (N.ltb_spec 0 len); [|lia]. cbn [andb]. unfold nlen.
  destruct (Nat.leb_spec (N.to_nat (len + 3)) (length b)); destruct (N.leb_spec (len + 3) (N.of_nat (length b))); try reflexivity; lia.
Qed.
Print Assumptions C93_check_tlv.
(* For all other lengths debug builds panic, and release builds accept any buffer of three (two) octets. *)
Theorem C93_check_refuted : forall len b, 65531 < len < 65536 ->
  V2Base.check_tliv_ie_buffer Debug len b = Panic /\ ((3 <= length b)%nat -> V2Base.check_tliv_ie_buffer Release len b = Ok true) /\
  (65532 < len -> V1U.check_tlv_ie_buffer Debug len b = Panic /\ ((2 <= length b)%nat -> V1U.check_tlv_ie_buffer Release len b = Ok true)).
Proof.
  intros len b H. unfold V2Base.check_tliv_ie_buffer, V1U.check_tlv_ie_buffer, add16, ov. destruct (N.eqb_spec len 0); [lia|].
  destruct (N.ltb_spec (len + 4) 65536); [lia|]. split; [reflexivity|]. split.
  - intros L. cbn [bind]. f_equal. apply Nat.leb_le. assert ((len + 4) mod 65536 = len + 4 - 65536) by (symmetry; apply (N.mod_unique _ _ 1); lia). lia.
  - intros G. destruct (N.ltb_spec (len + 3) 65536); [lia|]. split; [reflexivity|]. intros L. cbn [bind]. f_equal. apply Nat.leb_le.
    assert ((len + 3) mod 65536 = len + 3 - 65536) by (symmetry; apply (N.mod_unique _ _ 1); lia). lia.
Qed.
Print Assumptions C93_check_refuted.
Example C93_set_cases : V2Encode.set_tliv_ie_length_checked Release [1; 0; 0] = Ok [1; 255; 255] /\ V1Encode.set_length_checked Release [48; 26; 0; 0; 9] = Ok [48; 26; 255; 253; 9] /\
  V2Encode.set_msg_length_checked Debug [72; 1; 0; 0; 0; 0; 0; 1; 0; 0; 0; 0] = Ok [72; 1; 0; 8; 0; 0; 0; 1; 0; 0; 0; 0].
Proof. repeat split. Qed.
Example C93_check_case : V2Base.check_tliv_ie_buffer Release 65533 [1; 2; 3] = Ok true /\ V1U.check_tlv_ie_buffer Release 65535 [1; 2] = Ok true.
Proof. split; reflexivity. Qed.

(* from_slice(): the first four (eight) octets as a number, or a panic. *)
Theorem C93_from_slice : forall E (o : list N),
  from_slice_u32 (E:=E) o = (if (length o <? 4)%nat then Panic else
    Ok (nth 0 o 0 * 2 ^ 24 + nth 1 o 0 * 2 ^ 16 + nth 2 o 0 * 2 ^ 8 + nth 3 o 0)) /\
  from_slice_u64 (E:=E) o = (if (length o <? 8)%nat then Panic else
    Ok (nth 0 o 0 * 2 ^ 56 + nth 1 o 0 * 2 ^ 48 + nth 2 o 0 * 2 ^ 40 + nth 3 o 0 * 2 ^ 32 + nth 4 o 0 * 2 ^ 24 + nth 5 o 0 * 2 ^ 16 + nth 6 o 0 * 2 ^ 8 + nth 7 o 0)).
Proof.
  intros E o. unfold from_slice_u32, from_slice_u64, upto. split.
  - destruct o as [|a [|b [|c [|d o]]]]; try reflexivity. cbn [length Nat.leb Nat.ltb firstn bind from_be fold_left nth].
    change (from_be [a; b; c; d]) with ((((0 * 256 + a) * 256 + b) * 256 + c) * 256 + d). f_equal. lia.
  - destruct o as [|a [|b [|c [|d [|e [|f [|g [|h o]]]]]]]]; try reflexivity. cbn [length Nat.leb Nat.ltb firstn bind nth].
    change (from_be [a; b; c; d; e; f; g; h]) with ((((((((0 * 256 + a) * 256 + b) * 256 + c) * 256 + d) * 256 + e) * 256 + f) * 256 + g) * 256 + h). f_equal. lia.
Qed.
Print Assumptions C93_from_slice.
