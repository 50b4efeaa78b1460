(* V1CHdrErrFacts.v - GTPv1-C decoding of what is not a header, in the terms of V1CHdrErrSpec.v. *)
From Verif Require Import BaseFacts Octets V1USpec V1UFacts V1USafety V1USafety2 V1UErrSpec V1UReadFacts V1UErrFacts V1CHdr V1CHdrSafety
  V1CMsgReadFacts V1CHdrErrSpec.
Local Open Scope N_scope.

(* ----- extension headers ------------------------------------------------------------------------ *)
Lemma cext_checked_all m t b (o : forall A, res A) : t <> 0 ->
  (forall A (k : N -> N -> res A), ext_checked m (t :: b) k = o A) ->
  (forall A B (k : A -> res B), bind (o A) k = o B) ->
  cext_unmarshal m (t :: b) = o _.
Proof.
  intros Ht Hc Ho. unfold cext_unmarshal. unfold at_ at 1. cbn [nth_error bind].
  unfold NO_MORE_EXTENSION_HEADERS. destruct (N.eqb_spec t 0) as [|_]; [contradiction|].
  assert (H1 : forall ty, Num16_unmarshal ty m (t :: b) = o _) by (intros; apply Hc).
  assert (H3 : forall ty, Blob_unmarshal ty m (t :: b) = o _) by (intros; apply Hc).
  assert (H4 : Unknown_unmarshal m (t :: b) = o _) by (unfold Unknown_unmarshal, at_; cbn [nth_error bind]; apply H3).
  rewrite !H1, H4.
  repeat match goal with |- context[if t =? ?k then _ else _] => destruct (t =? k); [apply Ho|] end. apply Ho.
Qed.
Lemma cext_zero m t r : t <> 0 -> cext_unmarshal m (t :: 0 :: r) = Err ExtHeaderInvalidLength.
Proof. intros Ht. apply (cext_checked_all m t (0 :: r) (fun A => Err ExtHeaderInvalidLength) Ht); reflexivity. Qed.
Lemma cext_cut m t l r : t <> 0 -> 1 <= l <= 63 -> nlen r + 2 < 4 * l -> cext_unmarshal m (t :: l :: r) = Err ExtHeaderInvalidLength.
Proof.
  intros Ht Hl Hr. apply (cext_checked_all m t (l :: r) (fun A => Err ExtHeaderInvalidLength) Ht); [|reflexivity].
  intros A k. unfold ext_checked, at_. cbn [nth_error bind]. destruct (N.eqb_spec l 0); [lia|]. rewrite mul8_small by lia. cbn [bind].
  unfold nlen in Hr. cbn [length]. destruct (Nat.leb_spec (N.to_nat (l * 4)) (S (S (length r)))); [lia|reflexivity].
Qed.
Lemma cext_lone m t : t <> 0 -> cext_unmarshal m [t] = Panic.
Proof. intros Ht. apply (cext_checked_all m t [] (fun A => Panic) Ht); reflexivity. Qed.
Lemma cext_long t l r : t <> 0 -> 64 <= l -> cext_unmarshal Debug (t :: l :: r) = Panic.
Proof.
  intros Ht Hl. apply (cext_checked_all Debug t (l :: r) (fun A => Panic) Ht); [|reflexivity].
  intros A k. unfold ext_checked, at_. cbn [nth_error bind]. destruct (N.eqb_spec l 0); [lia|]. unfold mul8, ov.
  destruct (N.ltb_spec (l * 4) 256); [lia|reflexivity].
Qed.

(* also for a good one at the very end of the packet *)
Lemma cext_good m t l v r : t <> 0 -> 1 <= l <= 63 -> nlen v + 2 = 4 * l ->
  exists e, cext_unmarshal m (t :: l :: v ++ r) = Ok e /\ e <> CX_NoMore /\ cext_len m e = Ok (2 + length v)%nat.
Proof.
  intros Ht Hl Hv. unfold nlen in Hv.
  assert (Hlen : ext_len_of m l = Ok (2 + length v)%nat).
  { unfold ext_len_of. rewrite mul8_small by lia. cbn [bind]. f_equal. lia. }
  assert (Hc : forall A (k : N -> N -> res A), ext_checked m (t :: l :: v ++ r) k = k l (l * 4)).
  { intros. apply ext_checked_ok; [lia|rewrite app_length; lia]. }
  assert (Hblob : forall ty, exists w, Blob_unmarshal ty m (t :: l :: v ++ r) = Ok (mkBlobExt ty l w)).
  { intros. unfold Blob_unmarshal. rewrite Hc. rewrite slice_ok by (cbn [length]; rewrite ?app_length; lia). cbn [bind]. eexists. reflexivity. }
  destruct v as [|x [|y v]]; cbn [length] in Hv; try lia.
  assert (Hnum : forall ty, Num16_unmarshal ty m (t :: l :: (x :: y :: v) ++ r) = Ok (mkNumExt ty l (be16 x y))) by (intros; apply Hc).
  unfold cext_unmarshal. unfold at_ at 1. cbn [nth_error bind]. rewrite !Hnum.
  unfold Unknown_unmarshal, at_; cbn [nth_error bind]. destruct (Hblob t) as (w & ->). cbn [bind].
  unfold NO_MORE_EXTENSION_HEADERS. destruct (N.eqb_spec t 0) as [E|_]; [contradiction|].
  repeat match goal with |- context [t =? ?k] => destruct (t =? k);
    [eexists; split; [reflexivity|split; [discriminate|exact Hlen]]|] end.
  eexists. split; [reflexivity|split; [discriminate|exact Hlen]].
Qed.
Lemma cext_step m t l v q pre fuel data : t <> 0 -> 1 <= l <= 63 -> nlen v + 2 = 4 * l ->
  exists e, cext_loop m (S fuel) (pre ++ t :: l :: v ++ q) (length pre) data =
            cext_loop m fuel ((pre ++ t :: l :: v) ++ q) (length (pre ++ t :: l :: v)) (data ++ [e]).
Proof.
  intros Ht Hl Hv. destruct (cext_good m t l v q Ht Hl Hv) as (e & E1 & He & E2). exists e. cbn [cext_loop].
  rewrite slice_from_ok, skipn_app_exact by (reflexivity || (rewrite app_length; lia)). cbn [bind]. rewrite E1. cbn [bind].
  replace ((pre ++ t :: l :: v) ++ q) with (pre ++ t :: l :: v ++ q) by (rewrite <- app_assoc; reflexivity).
  replace (length (pre ++ t :: l :: v)) with (length pre + (2 + length v))%nat by (rewrite app_length; cbn; lia).
  destruct e; try (exfalso; apply He; reflexivity); rewrite E2; reflexivity.
Qed.
Lemma cext_loop_refused m b : chain_refused b -> forall pre fuel data,
  (length b < fuel)%nat -> cext_loop m fuel (pre ++ b) (length pre) data = Err ExtHeaderInvalidLength.
Proof.
  induction 1 as [t r Ht|t l r Ht Hl Hr|t l v q Ht Hl Hv Hr IH]; intros pre fuel data Hf; (destruct fuel as [|fuel]; [lia|]).
  1,2: cbn [cext_loop]; rewrite slice_from_ok, skipn_app_exact by (reflexivity || (rewrite app_length; lia)); cbn [bind].
  - rewrite cext_zero by exact Ht. reflexivity.
  - rewrite cext_cut by assumption. reflexivity.
  - destruct (cext_step m t l v q pre fuel data Ht Hl Hv) as (e & ->). apply IH. cbn [length] in Hf. rewrite app_length in Hf. lia.
Qed.
Lemma cext_loop_crashes b : chain_crashes b -> forall pre fuel data,
  (length b < fuel)%nat -> cext_loop Debug fuel (pre ++ b) (length pre) data = Panic.
Proof.
  induction 1 as [|t Ht|t l r Ht Hl|t l v q Ht Hl Hv Hr IH]; intros pre fuel data Hf; (destruct fuel as [|fuel]; [lia|]).
  1,2,3: cbn [cext_loop]; rewrite slice_from_ok, skipn_app_exact by (reflexivity || (rewrite app_length; lia)); cbn [bind].
  - reflexivity.
  - rewrite cext_lone by exact Ht. reflexivity.
  - rewrite cext_long by assumption. reflexivity.
  - destruct (cext_step Debug t l v q pre fuel data Ht Hl Hv) as (e & ->). apply IH. cbn [length] in Hf. rewrite app_length in Hf. lia.
Qed.
Lemma c_unmarshal_ext_refused m b : chain_refused b -> c_unmarshal_ext m b = Err ExtHeaderInvalidLength.
Proof. intros H. exact (cext_loop_refused m b H [] (S (length b)) [] ltac:(lia)). Qed.
Lemma c_unmarshal_ext_crashes b : chain_crashes b -> c_unmarshal_ext Debug b = Panic.
Proof. intros H. exact (cext_loop_crashes b H [] (S (length b)) [] ltac:(lia)). Qed.

(* ----- the header ------------------------------------------------------------------------------- *)
Lemma cversion_iff b0 : (N.shiftr b0 5 =? 1) && N.testbit b0 4 = true <-> gtp_version b0.
Proof. unfold gtp_version. rewrite N.shiftr_div_pow2. change (2 ^ 5) with 32. rewrite andb_true_iff, N.eqb_eq. reflexivity. Qed.
Lemma read_sqn_enough b (f : bool) : (8 <= length b)%nat -> (if f then 10 <= length b else True)%nat -> exists s, read_sqn b f = Ok s.
Proof.
  intros H8 H. destruct f; [|eexists; reflexivity]. unfold read_sqn. rewrite slice_from_ok by exact H8. cbn [bind]. rewrite skipn_length.
  destruct (Nat.ltb_spec (length b - 8) 2); [lia|]. unfold at_.
  destruct (nth_error b 8) eqn:E8; [|apply nth_error_None in E8; lia]. destruct (nth_error b 9) eqn:E9; [|apply nth_error_None in E9; lia].
  eexists. reflexivity.
Qed.
Lemma read_npdu_enough b (f : bool) : (8 <= length b)%nat -> (if f then 11 <= length b else True)%nat -> exists s, read_npdu b f = Ok s.
Proof.
  intros H8 H. destruct f; [|eexists; reflexivity]. unfold read_npdu. rewrite slice_from_ok by exact H8. cbn [bind]. rewrite skipn_length.
  destruct (Nat.ltb_spec (length b - 8) 3); [lia|]. unfold at_.
  destruct (nth_error b 10) eqn:E8; [|apply nth_error_None in E8; lia].
  eexists. reflexivity.
Qed.
Lemma read_ext_enough m b : (12 <= length b)%nat -> read_ext m b true = let? l := c_unmarshal_ext m (skipn 11 b) in Ok (Some l).
Proof.
  intros H. unfold read_ext. rewrite slice_from_ok by lia. cbn [bind]. rewrite skipn_length.
  destruct (Nat.ltb_spec (length b - 8) 4); [lia|]. rewrite slice_from_ok by lia. reflexivity.
Qed.
Lemma cheader_short m b0 mt l1 l2 t1 t2 t3 t4 r : let b := b0 :: mt :: l1 :: l2 :: t1 :: t2 :: t3 :: t4 :: r in
  gtp_version b0 -> nlen b < needed b0 -> chdr_unmarshal m b = Err HeaderInvalidLength.
Proof.
  intros b Hv Hn. unfold b at 1. rewrite chdr_unmarshal_eq, (proj2 (cversion_iff b0) Hv). fold b.
  assert (H8 : (8 <= length b)%nat) by (cbn; lia). unfold nlen in Hn. unfold needed, flag_S, flag_PN, flag_E in Hn. clearbody b.
  unfold read_sqn, read_npdu, read_ext. rewrite slice_from_ok by exact H8. cbn [bind]. rewrite skipn_length. unfold at_.
  destruct (N.testbit b0 1).
  1: destruct (Nat.ltb_spec (length b - 8) 2); [reflexivity|].
  1: destruct (nth_error b 8) eqn:E8; [|apply nth_error_None in E8; lia].
  1: destruct (nth_error b 9) eqn:E9; [|apply nth_error_None in E9; lia].
  all: cbn [bind].
  all: destruct (N.testbit b0 0); [destruct (Nat.ltb_spec (length b - 8) 3); [reflexivity|];
         destruct (nth_error b 10) eqn:E10; [|apply nth_error_None in E10; lia]|]; cbn [bind].
  all: destruct (N.testbit b0 2); [destruct (Nat.ltb_spec (length b - 8) 4); [reflexivity|lia]|lia].
Qed.
Lemma cheader_ext m b0 t l1 l2 x1 x2 x3 x4 s1 s2 n x q : let b := b0 :: t :: l1 :: l2 :: x1 :: x2 :: x3 :: x4 :: s1 :: s2 :: n :: x :: q in
  gtp_version b0 -> flag_E b0 = true ->
  exists s k, chdr_unmarshal m b = let? l := c_unmarshal_ext m (x :: q) in Ok (mkCHdr t (be16 l1 l2) (be32 x1 x2 x3 x4) s k (Some l)).
Proof.
  intros b Hv He. unfold b at 1. rewrite chdr_unmarshal_eq, (proj2 (cversion_iff b0) Hv). fold b.
  destruct (read_sqn_enough b (N.testbit b0 1)) as (s & ->); [cbn; lia|destruct (N.testbit b0 1); cbn; lia|].
  destruct (read_npdu_enough b (N.testbit b0 0)) as (k & ->); [cbn; lia|destruct (N.testbit b0 0); cbn; lia|].
  cbn [bind]. unfold flag_E in He. rewrite He, read_ext_enough by (cbn; lia). exists s, k. unfold b. cbn [skipn].
  destruct (c_unmarshal_ext m (x :: q)); reflexivity.
Qed.
Lemma cheader_refused_ok m b e : cheader_refused b e -> chdr_unmarshal m b = Err e.
Proof.
  intros H. destruct H as [b Hl|b0 r Hr Hv|b0 r Hv Hl|b0 t l1 l2 x1 x2 x3 x4 s1 s2 n q Hv He Hc].
  - unfold chdr_unmarshal. unfold nlen in Hl. destruct (Nat.ltb_spec (length b) 8); [reflexivity|lia].
  - unfold nlen in Hr. destruct r as [|x1 [|x2 [|x3 [|x4 [|x5 [|x6 [|x7 r]]]]]]]; cbn [length] in Hr; try lia.
    rewrite chdr_unmarshal_eq. destruct ((N.shiftr b0 5 =? 1) && N.testbit b0 4) eqn:E; [|reflexivity]. apply cversion_iff in E. contradiction.
  - destruct Hl as [H8 Hn]. pose proof H8 as H8'. unfold nlen in H8'.
    destruct r as [|x1 [|x2 [|x3 [|x4 [|x5 [|x6 [|x7 r]]]]]]]; cbn [length] in H8'; try lia. apply cheader_short; assumption.
  - destruct q as [|x q]; [inversion Hc|]. destruct (cheader_ext m b0 t l1 l2 x1 x2 x3 x4 s1 s2 n x q Hv He) as (s & k & ->).
    rewrite c_unmarshal_ext_refused by exact Hc. reflexivity.
Qed.
(* every packet is a header, is refused or stops the program *)
Lemma chain_is_ext b l r : chain_is b l r -> ext_chain b.
Proof. apply chain_is_chain. Qed.
Lemma cheader_total b : (exists h, chdr_unmarshal Debug b = Ok h) \/ (exists e, cheader_refused b e) \/ chdr_unmarshal Debug b = Panic.
Proof.
  destruct (N.lt_ge_cases (nlen b) 8) as [H8|H8]; [right; left; eexists; apply c_refused_short, H8|]. pose proof H8 as H8'. unfold nlen in H8'.
  destruct b as [|b0 [|x1 [|x2 [|x3 [|x4 [|x5 [|x6 [|x7 r]]]]]]]]; cbn [length] in H8'; try lia.
  destruct ((N.shiftr b0 5 =? 1) && N.testbit b0 4) eqn:Ev.
  2:{ right. left. eexists. apply c_refused_version; [unfold nlen in *; cbn [length] in *; lia|]. intros Hv. apply cversion_iff in Hv. congruence. }
  apply cversion_iff in Ev.
  destruct (N.lt_ge_cases (nlen (b0 :: x1 :: x2 :: x3 :: x4 :: x5 :: x6 :: x7 :: r)) (needed b0)) as [Hn|Hn].
  { right. left. eexists. apply c_refused_optional; [exact Ev|]. split; assumption. }
  destruct (flag_E b0) eqn:Ee.
  - assert (H12 : (4 <= length r)%nat) by (unfold needed in Hn; rewrite Ee in Hn; unfold nlen in Hn; cbn [length] in Hn; lia).
    destruct r as [|s1 [|s2 [|n [|x q]]]]; cbn [length] in H12; try lia.
    destruct (cheader_ext Debug b0 x1 x2 x3 x4 x5 x6 x7 s1 s2 n x q Ev Ee) as (s & k & E).
    destruct (chain_total (length (x :: q)) (x :: q) ltac:(lia)) as [(l & r & Hc)|[Hc|Hc]].
    + left. destruct (chain_cchain _ (chain_is_ext _ _ _ Hc)) as (l' & r' & Hc'). rewrite E, (c_unmarshal_ext_is _ _ _ _ Hc'). eexists. reflexivity.
    + right. left. eexists. apply c_refused_extensions; assumption.
    + right. right. rewrite E, c_unmarshal_ext_crashes by exact Hc. reflexivity.
  - left. rewrite chdr_unmarshal_eq, (proj2 (cversion_iff b0) Ev). set (b := b0 :: _) in *.
    unfold needed in Hn. rewrite Ee in Hn. unfold nlen in Hn.
    destruct (read_sqn_enough b (N.testbit b0 1)) as (s & ->); [cbn; lia| |].
    { unfold flag_S, flag_PN in Hn. destruct (N.testbit b0 1); [|exact I]. destruct (N.testbit b0 0); lia. }
    destruct (read_npdu_enough b (N.testbit b0 0)) as (k & ->); [cbn; lia| |].
    { unfold flag_PN in Hn. destruct (N.testbit b0 0); [|exact I]. lia. }
    unfold flag_E in Ee. rewrite Ee. eexists. reflexivity.
Qed.
Lemma header_says_det b h p h' p' : header_says b h p -> header_says b h' p' -> h' = h /\ p' = p.
Proof.
  intros H1 H2. destruct (header_says_ok Debug _ _ _ H1) as [A B]. destruct (header_says_ok Debug _ _ _ H2) as [A' B'].
  rewrite A in A'. apply Ok_inj in A'. subst h'. rewrite B in B'. apply Ok_inj in B'. auto.
Qed.
