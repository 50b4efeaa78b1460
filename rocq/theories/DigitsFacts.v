(* DigitsFacts.v - facts about Digits.v *)
From Verif Require Import BaseFacts.
From Verif Require Export Digits.
Local Open Scope N_scope.

Definition digit_char (c : N) : Prop := 48 <= c <= 57.

Lemma nibble_sweep : forallb (fun b => forallb (fun a =>
   (N.land (N.lor ((N.shiftl b 4) mod 256) a) 15 =? a) && (N.shiftr (N.lor ((N.shiftl b 4) mod 256) a) 4 =? b)
   && (N.lor ((N.shiftl b 4) mod 256) a <? 256))
   (upto 16)) (upto 16) = true.
Proof. vm_compute. reflexivity. Qed.
Lemma nibbles b a : b < 16 -> a < 16 ->
  let x := N.lor ((N.shiftl b 4) mod 256) a in N.land x 15 = a /\ N.shiftr x 4 = b /\ x < 256.
Proof.
  intros Hb Ha. pose proof (sweep2 16 16 _ nibble_sweep b a Hb Ha) as H. cbn zeta beta in H |- *. lia.
Qed.

Lemma to_from d : d < 10 -> from_digit d = Some (48 + d).
Proof. intros. unfold from_digit. destruct (N.ltb_spec d 10); [reflexivity|lia]. Qed.

Lemma decode_pairs l : Forall (fun d => d < 16) l -> Nat.even (length l) = true ->
  concat (map (fun x => [N.land x 15; N.shiftr x 4]) (tbcd_pairs l)) = l.
Proof.
  assert (H : forall n l, (length l <= n)%nat -> Forall (fun d => d < 16) l -> Nat.even (length l) = true ->
    concat (map (fun x => [N.land x 15; N.shiftr x 4]) (tbcd_pairs l)) = l).
  { induction n as [|n IH]; intros [|a [|b r]] Hn Hf He; try reflexivity; try discriminate; cbn [length] in Hn; try lia.
    cbn [tbcd_pairs map concat app]. inversion Hf as [|? ? Ha Hf']; subst. inversion Hf' as [|? ? Hb Hf'']; subst.
    destruct (nibbles b a Hb Ha) as (E1 & E2 & _). rewrite E1, E2. f_equal. f_equal. apply IH; auto. lia. }
  eauto.
Qed.

Lemma digits_lt s : Forall (fun d => d < 10) (filter_map to_digit s).
Proof.
  induction s as [|c s IH]; [constructor|]. cbn [filter_map]. unfold to_digit at 1.
  destruct (N.leb_spec 48 c), (N.leb_spec c 57); cbn [andb]; try exact IH. constructor; [lia|exact IH].
Qed.

Lemma filter_map_app {A B} (f : A -> option B) a b : filter_map f (a ++ b) = filter_map f a ++ filter_map f b.
Proof. induction a as [|x a IH]; [reflexivity|]. cbn. destruct (f x); cbn; rewrite IH; reflexivity. Qed.

Lemma from_digits l : Forall (fun d => d < 10) l -> filter_map from_digit l = map (N.add 48) l.
Proof.
  induction 1 as [|d l Hd Hl IH]; [reflexivity|]. cbn [filter_map map]. rewrite to_from, IH by assumption. reflexivity.
Qed.

Lemma digit_chars_back s : map (N.add 48) (filter_map to_digit s) = filter (fun c => (48 <=? c) && (c <=? 57)) s.
Proof.
  induction s as [|c s IH]; [reflexivity|]. cbn [filter_map filter]. unfold to_digit at 1.
  destruct (N.leb_spec 48 c), (N.leb_spec c 57); cbn [andb map]; rewrite ?IH; try reflexivity. f_equal. lia.
Qed.

Lemma tbcd_decode_encode s : tbcd_decode (tbcd_encode s) = filter (fun c => (48 <=? c) && (c <=? 57)) s.
Proof.
  unfold tbcd_decode, tbcd_encode. pose proof (digits_lt s) as Hd. rewrite <- digit_chars_back.
  destruct (Nat.odd _) eqn:Ho.
  - rewrite decode_pairs.
    + rewrite filter_map_app, from_digits by assumption. cbn. apply app_nil_r.
    + apply Forall_app. split; [eapply Forall_impl; [|exact Hd]; cbn; lia|repeat constructor].
    + rewrite app_length. cbn [length]. rewrite Nat.add_1_r, Nat.even_succ. exact Ho.
  - rewrite decode_pairs; [apply from_digits; assumption| |].
    + eapply Forall_impl; [|exact Hd]; cbn; lia.
    + rewrite <- Nat.negb_odd, Ho. reflexivity.
Qed.

Lemma digits_only_filter s : Forall digit_char s -> filter (fun c => (48 <=? c) && (c <=? 57)) s = s.
Proof.
  induction 1 as [|c s Hc Hs IH]; [reflexivity|]. cbn [filter]. unfold digit_char in Hc.
  destruct (N.leb_spec 48 c), (N.leb_spec c 57); try lia. cbn [andb]. rewrite IH. reflexivity.
Qed.

Lemma tbcd_pairs_length l : length (tbcd_pairs l) = (length l / 2)%nat.
Proof.
  assert (H : forall n l, (length l <= n)%nat -> length (tbcd_pairs l) = (length l / 2)%nat).
  { induction n as [|n IH]; intros [|a [|b r]] Hn; try reflexivity; cbn [length] in Hn; try lia.
    cbn [tbcd_pairs length]. rewrite IH by lia.
    lia. }
  eauto.
Qed.
Lemma filter_map_digits_length s : Forall digit_char s -> length (filter_map to_digit s) = length s.
Proof.
  induction 1 as [|c s Hc Hs IH]; [reflexivity|]. cbn [filter_map]. unfold to_digit at 1. unfold digit_char in Hc.
  destruct (N.leb_spec 48 c), (N.leb_spec c 57); try lia. cbn. congruence.
Qed.
Lemma tbcd_encode_length s : Forall digit_char s -> length (tbcd_encode s) = ((length s + 1) / 2)%nat.
Proof.
  intros H. unfold tbcd_encode. pose proof (filter_map_digits_length s H) as Hl. destruct (Nat.odd _) eqn:Ho.
  - rewrite tbcd_pairs_length, app_length, Hl. reflexivity.
  - rewrite tbcd_pairs_length, Hl. rewrite Hl in Ho.
    assert (He : Nat.even (length s) = true) by (rewrite <- Nat.negb_odd, Ho; reflexivity).
    apply Nat.even_spec in He as (k & ->). lia.
Qed.

Lemma tbcd_encode_bytes s : bytes (tbcd_encode s).
Proof.
  unfold tbcd_encode. set (l := if Nat.odd _ then _ else _).
  assert (Hl : Forall (fun d => d < 16) l).
  { unfold l. pose proof (digits_lt s) as Hd. destruct (Nat.odd _).
    - apply Forall_app. split; [eapply Forall_impl; [|exact Hd]; cbn; lia|repeat constructor].
    - eapply Forall_impl; [|exact Hd]; cbn; lia. }
  clearbody l. clear s.
  assert (H : forall n l, (length l <= n)%nat -> Forall (fun d => d < 16) l -> bytes (tbcd_pairs l)).
  { induction n as [|n IH]; intros [|a [|b r]] Hn Hf; try constructor; cbn [length] in Hn; try lia;
      inversion Hf as [|? ? Ha Hf']; subst; inversion Hf' as [|? ? Hb Hf'']; subst.
    - apply nibbles; assumption.
    - apply IH; [lia|assumption]. }
  eauto.
Qed.

(* ------------------------------------------------------------------- PLMN *)
Definition three_digits (n : N) : list N := [n / 100; (n / 10) mod 10; n mod 10].
Definition leq (a b : list N) : bool := (length a =? length b)%nat && forallb (fun p => fst p =? snd p) (combine a b).
Lemma leq_eq a b : leq a b = true -> a = b.
Proof.
  unfold leq. revert b; induction a as [|x a IH]; intros [|y b]; cbn; try discriminate; auto.
  intros H. apply andb_prop in H as [H1 H2]. apply andb_prop in H2 as [H2 H3]. apply N.eqb_eq in H2. subst.
  f_equal. apply IH. rewrite H1, H3. reflexivity.
Qed.
Lemma mcc_digits_sweep : forallb (fun n => leq (pad_front (3 - length (to_digits n)) (to_digits n)) (three_digits n)) (upto 1000) = true.
Proof. vm_compute. reflexivity. Qed.
Lemma mnc_digits_sweep : forallb (fun n =>
   leq (if (length (to_digits n) <? 3)%nat then 0 :: to_digits n else to_digits n) (three_digits n)) (upto 1000) = true.
Proof. vm_compute. reflexivity. Qed.
Lemma mnc2_digits_sweep : forallb (fun n => leq (to_digits n) [n / 10; n mod 10]) (upto 100) = true.
Proof. vm_compute. reflexivity. Qed.

Lemma parse3 a b c : a < 10 -> b < 10 -> c < 10 -> parse_dec (filter_map from_digit [a; b; c]) = a * 100 + b * 10 + c.
Proof. intros. cbn [filter_map]. rewrite !to_from by assumption. unfold parse_dec. cbn [fold_left]. lia. Qed.
Lemma parse2 a b : a < 10 -> b < 10 -> parse_dec (filter_map from_digit [a; b]) = a * 10 + b.
Proof. intros. cbn [filter_map]. rewrite !to_from by assumption. unfold parse_dec. cbn [fold_left]. lia. Qed.

Lemma plmn_roundtrip {E} mcc mnc three r : mcc < 1000 -> mnc < 1000 ->
  @mcc_mnc_decode E (mcc_mnc_encode mcc mnc three ++ r) = Ok (mcc, mnc, three || (100 <=? mnc)).
Proof.
  intros Hc Hn. unfold mcc_mnc_encode. cbv zeta.
  rewrite (leq_eq _ _ (sweep 1000 _ mcc_digits_sweep mcc Hc)). unfold three_digits at 1 2 3 4. cbn [nth].
  assert (D1 : mcc / 100 < 10) by lia. assert (D2 : (mcc / 10) mod 10 < 10) by lia. assert (D3 : mcc mod 10 < 10) by lia.
  unfold mcc_mnc_decode, at_. cbn [app nth_error bind].
  destruct (nibbles ((mcc / 10) mod 10) (mcc / 100) ltac:(lia) ltac:(lia)) as (A1 & A2 & _). rewrite A1, A2.
  destruct (three || (100 <=? mnc)) eqn:He; cbn [andb].
  - rewrite (leq_eq _ _ (sweep 1000 _ mnc_digits_sweep mnc Hn)). unfold three_digits. cbn [nth].
    destruct (nibbles (mnc mod 10) (mcc mod 10) ltac:(lia) ltac:(lia)) as (B1 & B2 & _). rewrite B1, B2.
    destruct (nibbles ((mnc / 10) mod 10) (mnc / 100) ltac:(lia) ltac:(lia)) as (C1 & C2 & _). rewrite C1, C2.
    destruct (N.eqb_spec (mnc mod 10) 15); [lia|]. cbn [negb app]. rewrite !parse3 by lia. repeat f_equal; lia.
  - apply orb_false_iff in He as [_ He]. apply N.leb_gt in He.
    rewrite (leq_eq _ _ (sweep 100 _ mnc2_digits_sweep mnc He)). cbn [nth].
    assert (B : N.lor 240 (mcc mod 10) = N.lor ((N.shiftl 15 4) mod 256) (mcc mod 10)) by reflexivity. rewrite B.
    destruct (nibbles 15 (mcc mod 10) ltac:(lia) ltac:(lia)) as (B1 & B2 & _). rewrite B1, B2.
    destruct (nibbles (mnc mod 10) (mnc / 10) ltac:(lia) ltac:(lia)) as (C1 & C2 & _). rewrite C1, C2.
    change (negb (15 =? 15)) with false. cbn [app]. rewrite parse3, parse2 by lia. repeat f_equal; lia.
Qed.

Lemma mcc_mnc_length mcc mnc three : length (mcc_mnc_encode mcc mnc three) = 3%nat.
Proof. reflexivity. Qed.

Lemma plmn_exact {E} mcc mnc three r : mcc < 1000 -> mnc < 1000 -> (three = true \/ mnc < 100) ->
  @mcc_mnc_decode E (mcc_mnc_encode mcc mnc three ++ r) = Ok (mcc, mnc, three).
Proof.
  intros A B C. rewrite plmn_roundtrip by assumption. repeat f_equal.
  destruct C as [->|C]; [reflexivity|]. destruct (N.leb_spec 100 mnc); [lia|]. apply orb_false_r.
Qed.

(* the 3GPP nibble layout of the three octets *)
Lemma plmn_layout mcc mnc (three : bool) : mcc < 1000 -> mnc < (if three then 1000 else 100) ->
  mcc_mnc_encode mcc mnc three =
  let m1 := mcc / 100 in let m2 := (mcc / 10) mod 10 in let m3 := mcc mod 10 in
  if three then [m2 * 16 + m1; (mnc mod 10) * 16 + m3; ((mnc / 10) mod 10) * 16 + mnc / 100]
  else [m2 * 16 + m1; 15 * 16 + m3; (mnc mod 10) * 16 + mnc / 10].
Proof.
  intros Hc Hn.
  assert (Hlor : forall b a, b < 16 -> a < 16 -> N.lor ((N.shiftl b 4) mod 256) a = b * 16 + a).
  { intros b a Hb Ha.
    assert (S : forallb (fun b => forallb (fun a => N.lor ((N.shiftl b 4) mod 256) a =? b * 16 + a) (upto 16)) (upto 16) = true)
      by (vm_compute; reflexivity).
    apply N.eqb_eq. exact (sweep2 16 16 _ S b a Hb Ha). }
  unfold mcc_mnc_encode. cbv zeta.
  rewrite (leq_eq _ _ (sweep 1000 _ mcc_digits_sweep mcc Hc)). unfold three_digits at 1 2 3 4. cbn [nth].
  destruct three; cbn [orb andb].
  - rewrite (leq_eq _ _ (sweep 1000 _ mnc_digits_sweep mnc Hn)). unfold three_digits. cbn [nth].
    rewrite !Hlor by lia. reflexivity.
  - destruct (N.leb_spec 100 mnc); [lia|]. cbn [andb].
    rewrite (leq_eq _ _ (sweep 100 _ mnc2_digits_sweep mnc Hn)). cbn [nth].
    change 240 with ((N.shiftl 15 4) mod 256). rewrite !Hlor by lia. reflexivity.
Qed.

(* TBCD: two digits per octet, the first in the low half; 15 fills up an odd number *)
Fixpoint tbcd_octets (s : list N) : list N :=
  match s with
  | a :: b :: r => (b - 48) * 16 + (a - 48) :: tbcd_octets r
  | [a] => [240 + (a - 48)]
  | [] => []
  end.
Lemma nibble_sum b a : b < 16 -> a < 16 -> N.lor ((N.shiftl b 4) mod 256) a = b * 16 + a.
Proof.
  intros Hb Ha.
  assert (S : forallb (fun b => forallb (fun a => N.lor ((N.shiftl b 4) mod 256) a =? b * 16 + a) (upto 16)) (upto 16) = true)
    by (vm_compute; reflexivity).
  apply N.eqb_eq. exact (sweep2 16 16 _ S b a Hb Ha).
Qed.
Lemma list_pairs {A} (P : list A -> Prop) : P [] -> (forall a, P [a]) -> (forall a b r, P r -> P (a :: b :: r)) ->
  forall l, P l.
Proof.
  intros H0 H1 H2. fix IH 1. intros [|a [|b r]]; [exact H0|apply H1|apply H2, IH].
Qed.
Lemma tbcd_octets_ok s : Forall digit_char s -> tbcd_encode s = tbcd_octets s.
Proof.
  assert (D : forall c, digit_char c -> to_digit c = Some (c - 48) /\ c - 48 < 16).
  { intros c Hc. unfold digit_char in Hc. unfold to_digit.
    destruct (N.leb_spec 48 c), (N.leb_spec c 57); try lia. cbn [andb]. split; [reflexivity|lia]. }
  unfold tbcd_encode. cbv zeta. induction s as [|a|a b r IH] using list_pairs; intros H.
  - reflexivity.
  - inversion H as [|? ? Ha _]; subst. destruct (D a Ha) as [E L]. cbn [filter_map]. rewrite E. cbn [length Nat.odd Nat.even negb app tbcd_pairs tbcd_octets].
    rewrite nibble_sum by lia. reflexivity.
  - inversion H as [|? ? Ha H']; subst. inversion H' as [|? ? Hb Hr]; subst.
    destruct (D a Ha) as [Ea La]. destruct (D b Hb) as [Eb Lb]. specialize (IH Hr).
    cbn [filter_map]. rewrite Ea, Eb. cbn [length tbcd_octets].
    change (Nat.odd (S (S ?n))) with (Nat.odd n). destruct (Nat.odd _); cbn [app tbcd_pairs]; rewrite nibble_sum by lia;
      rewrite IH; reflexivity.
Qed.
