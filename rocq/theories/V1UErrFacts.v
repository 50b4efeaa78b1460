(* V1UErrFacts.v - GTP-U decoding of what is not a header or message, in the terms of
   V1UErrSpec.v. *)
From Verif Require Import BaseFacts V1USpec V1UFacts V1USafety V1USafety2 V1USafety3 V1UWireSpec V1UReadFacts V1UErrSpec.
From Coq Require Import Sorted.
Local Open Scope N_scope.

(* ------------------------------------------------------------------------- *)
(* Extension headers *)

Lemma ext_checked_all m t b (o : forall A, res A) : t <> 0 ->
  (forall A (k : N -> N -> res A), ext_checked m (t :: b) k = o A) ->
  (forall A B (k : A -> res B), bind (o A) k = o B) ->
  ext_unmarshal m (t :: b) = o _.
Proof.
  intros Ht Hc Ho. unfold ext_unmarshal. unfold at_ at 1. cbn [nth_error bind].
  unfold NO_MORE_EXTENSION_HEADERS. destruct (N.eqb_spec t 0) as [|_]; [contradiction|].
  assert (H1 : forall ty, Num16_unmarshal ty m (t :: b) = o _) by (intros; apply Hc).
  assert (H2 : Sci_unmarshal m (t :: b) = o _) by apply Hc.
  assert (H3 : forall ty, Blob_unmarshal ty m (t :: b) = o _) by (intros; apply Hc).
  assert (H4 : Unknown_unmarshal m (t :: b) = o _) by (unfold Unknown_unmarshal, at_; cbn [nth_error bind]; apply H3).
  assert (H5 : (t =? LONG_PDCP_PDU_NUMBER_I) || (t =? LONG_PDCP_PDU_NUMBER_II) = true -> Long_unmarshal m (t :: b) = o _).
  { intros E. unfold Long_unmarshal. unfold at_ at 1. cbn [nth_error bind]. rewrite E. apply Hc. }
  rewrite !H1, H2, !H3, H4.
  destruct (t =? PDCP_PDU_NUMBER); [apply Ho|]. destruct (t =? UDP_PORT); [apply Ho|].
  destruct (t =? LONG_PDCP_PDU_NUMBER_I); [rewrite H5 by reflexivity; apply Ho|].
  destruct (t =? LONG_PDCP_PDU_NUMBER_II); [rewrite H5 by reflexivity; apply Ho|].
  repeat match goal with |- context[if t =? ?k then _ else _] => destruct (t =? k); [apply Ho|] end. apply Ho.
Qed.
Lemma ext_zero m t r : t <> 0 -> ext_unmarshal m (t :: 0 :: r) = Err ExtHeaderInvalidLength.
Proof. intros Ht. apply (ext_checked_all m t (0 :: r) (fun A => Err ExtHeaderInvalidLength) Ht); reflexivity. Qed.
Lemma ext_cut m t l r : t <> 0 -> 1 <= l <= 63 -> nlen r + 2 < 4 * l -> ext_unmarshal m (t :: l :: r) = Err ExtHeaderInvalidLength.
Proof.
  intros Ht Hl Hr. apply (ext_checked_all m t (l :: r) (fun A => Err ExtHeaderInvalidLength) Ht); [|reflexivity].
  intros A k. unfold ext_checked, at_. cbn [nth_error bind]. destruct (N.eqb_spec l 0); [lia|]. rewrite mul8_small by lia. cbn [bind].
  unfold nlen in Hr. cbn [length]. destruct (Nat.leb_spec (N.to_nat (l * 4)) (S (S (length r)))); [lia|reflexivity].
Qed.
Lemma ext_lone m t : t <> 0 -> ext_unmarshal m [t] = Panic.
Proof. intros Ht. apply (ext_checked_all m t [] (fun A => Panic) Ht); reflexivity. Qed.
Lemma ext_long t l r : t <> 0 -> 64 <= l -> ext_unmarshal Debug (t :: l :: r) = Panic.
Proof.
  intros Ht Hl. apply (ext_checked_all Debug t (l :: r) (fun A => Panic) Ht); [|reflexivity].
  intros A k. unfold ext_checked, at_. cbn [nth_error bind]. destruct (N.eqb_spec l 0); [lia|]. unfold mul8, ov.
  destruct (N.ltb_spec (l * 4) 256); [lia|reflexivity].
Qed.

Lemma ext_loop_refused m b : chain_refused b -> forall pre fuel data,
  (length b < fuel)%nat -> ext_loop m fuel (pre ++ b) (length pre) data = Err ExtHeaderInvalidLength.
Proof.
  induction 1 as [t r Ht|t l r Ht Hl Hr|t l v q Ht Hl Hv Hr IH]; intros pre fuel data Hf;
    (destruct fuel as [|fuel]; [lia|]); cbn [ext_loop];
    rewrite slice_from_ok, skipn_app_exact by (reflexivity || (rewrite app_length; lia)); cbn [bind].
  - rewrite ext_zero by exact Ht. reflexivity.
  - rewrite ext_cut by assumption. reflexivity.
  - assert (Hq : (1 <= length q)%nat) by (destruct Hr; cbn [length]; lia).
    rewrite ext_unmarshal_meaning by assumption. cbn [bind].
    pose proof (ext_meaning_more t l v (v ++ q)) as He. pose proof (ext_meaning_len m t l v (v ++ q) Hl Hv) as E2.
    set (e := ext_meaning t l v (v ++ q)) in *. clearbody e.
    assert (HH : ext_loop m fuel (pre ++ t :: l :: v ++ q) (length pre + (2 + length v)) (data ++ [e]) = Err ExtHeaderInvalidLength).
    { replace (pre ++ t :: l :: v ++ q) with ((pre ++ t :: l :: v) ++ q) by (rewrite <- app_assoc; reflexivity).
      replace (length pre + (2 + length v))%nat with (length (pre ++ t :: l :: v)) by (rewrite app_length; cbn; lia).
      cbn [length] in Hf. rewrite app_length in Hf. apply IH. lia. }
    destruct e; try (exfalso; apply He; reflexivity); rewrite E2; exact HH.
Qed.
(* a good one at the very end of the packet *)
Lemma ext_end m t l v : t <> 0 -> 1 <= l <= 63 -> nlen v + 2 = 4 * l ->
  (exists e, ext_unmarshal m (t :: l :: v) = Ok e /\ e <> NoMoreExtensionHeaders /\ ext_len m e = Ok (2 + length v)%nat) \/
  ext_unmarshal m (t :: l :: v) = Panic.
Proof.
  intros Ht Hl Hv. unfold nlen in Hv.
  assert (Hlen : ext_len_of m l = Ok (2 + length v)%nat).
  { unfold ext_len_of. rewrite mul8_small by lia. cbn [bind]. f_equal. lia. }
  assert (Hc : forall A (k : N -> N -> res A), ext_checked m (t :: l :: v) k = k l (l * 4)).
  { intros. apply ext_checked_ok; lia. }
  assert (Hblob : forall ty, Blob_unmarshal ty m (t :: l :: v) = Ok (mkBlobExt ty l v)).
  { intros. unfold Blob_unmarshal. rewrite Hc. rewrite slice_ok by (cbn [length]; lia). cbn [bind skipn]. rewrite firstn_all2 by lia. reflexivity. }
  destruct v as [|x [|y v]]; cbn [length] in Hv; try lia.
  assert (Hnum : forall ty, Num16_unmarshal ty m (t :: l :: x :: y :: v) = Ok (mkNumExt ty l (be16 x y))) by (intros; apply Hc).
  assert (Hsci : Sci_unmarshal m (t :: l :: x :: y :: v) = Ok (mkNumExt SCI l x)) by apply Hc.
  assert (Hunk : Unknown_unmarshal m (t :: l :: x :: y :: v) = Ok (mkBlobExt t l (x :: y :: v))) by (unfold Unknown_unmarshal, at_; cbn [nth_error bind]; apply Hblob).
  assert (Hlong : (t =? LONG_PDCP_PDU_NUMBER_I) || (t =? LONG_PDCP_PDU_NUMBER_II) = true ->
    Long_unmarshal m (t :: l :: x :: y :: v) = Panic \/ exists z, Long_unmarshal m (t :: l :: x :: y :: v) = Ok (mkNumExt t l z)).
  { intros E. unfold Long_unmarshal. change (@at_ GTPV1Error (t :: l :: x :: y :: v) 0) with (@Ok GTPV1Error N t). cbn [bind]. rewrite E, !Hc. unfold at_. cbn [nth_error bind].
    destruct v as [|z v]; [left; reflexivity|right; eexists; reflexivity]. }
  unfold ext_unmarshal. change (@at_ GTPV1Error (t :: l :: x :: y :: v) 0) with (@Ok GTPV1Error N t). cbn [bind]. unfold NO_MORE_EXTENSION_HEADERS. destruct (N.eqb_spec t 0) as [|_]; [contradiction|].
  rewrite !Hnum, Hsci, !Hblob, Hunk. cbn [bind].
  Ltac fine Hlen := left; eexists; split; [reflexivity|]; split; [discriminate|exact Hlen].
  destruct (t =? PDCP_PDU_NUMBER); [fine Hlen|]. destruct (t =? UDP_PORT); [fine Hlen|].
  destruct (t =? LONG_PDCP_PDU_NUMBER_I).
  { destruct (Hlong eq_refl) as [->|(z & ->)]; [right; reflexivity|fine Hlen]. }
  destruct (t =? LONG_PDCP_PDU_NUMBER_II).
  { destruct (Hlong eq_refl) as [->|(z & ->)]; [right; reflexivity|fine Hlen]. }
  repeat match goal with |- context[if t =? ?k then _ else _] => destruct (t =? k); [fine Hlen|] end. fine Hlen.
Qed.
Lemma ext_loop_crashes b : chain_crashes b -> forall pre fuel data,
  (length b < fuel)%nat -> ext_loop Debug fuel (pre ++ b) (length pre) data = Panic.
Proof.
  induction 1 as [|t Ht|t l r Ht Hl|t l v q Ht Hl Hv Hr IH]; intros pre fuel data Hf;
    (destruct fuel as [|fuel]; [lia|]); cbn [ext_loop];
    rewrite slice_from_ok, skipn_app_exact by (reflexivity || (rewrite app_length; lia)); cbn [bind].
  - reflexivity.
  - rewrite ext_lone by exact Ht. reflexivity.
  - rewrite ext_long by assumption. reflexivity.
  - assert (HH : forall e, ext_loop Debug fuel (pre ++ t :: l :: v ++ q) (length pre + (2 + length v)) (data ++ [e]) = Panic).
    { intros e. replace (pre ++ t :: l :: v ++ q) with ((pre ++ t :: l :: v) ++ q) by (rewrite <- app_assoc; reflexivity).
      replace (length pre + (2 + length v))%nat with (length (pre ++ t :: l :: v)) by (rewrite app_length; cbn; lia).
      cbn [length] in Hf. rewrite app_length in Hf. apply IH. lia. }
    assert (G : (exists e, ext_unmarshal Debug (t :: l :: v ++ q) = Ok e /\ e <> NoMoreExtensionHeaders /\ ext_len Debug e = Ok (2 + length v)%nat) \/
                ext_unmarshal Debug (t :: l :: v ++ q) = Panic).
    { destruct q as [|z q]; [rewrite app_nil_r; apply ext_end; assumption|]. left. eexists.
      split; [apply ext_unmarshal_meaning; try assumption; cbn [length]; lia|]. split; [apply ext_meaning_more|apply ext_meaning_len; assumption]. }
    destruct G as [(e & -> & He & E2) | -> ]; [|reflexivity]. cbn [bind].
    destruct e; try (exfalso; apply He; reflexivity); rewrite E2; apply HH.
Qed.
Lemma chain_total n : forall b, (length b <= n)%nat -> (exists l r, chain_is b l r) \/ chain_refused b \/ chain_crashes b.
Proof.
  induction n as [|n IH]; intros [|t b] Hn; try (right; right; constructor; fail); cbn [length] in Hn; [lia|].
  destruct (N.eq_dec t 0) as [->|Ht]; [left; eexists _, _; constructor|].
  destruct b as [|l b]; [right; right; constructor; exact Ht|]. cbn [length] in Hn.
  destruct (N.eq_dec l 0) as [->|Hl]; [right; left; constructor; exact Ht|].
  destruct (N.le_gt_cases 64 l) as [H64|H64]; [right; right; constructor; assumption|].
  destruct (N.lt_ge_cases (nlen b + 2) (4 * l)) as [Hc|Hc]; [right; left; apply refused_cut_ext; [exact Ht|lia|exact Hc]|].
  set (k := (4 * N.to_nat l - 2)%nat). unfold nlen in Hc. rewrite <- (firstn_skipn k b).
  assert (Hk : nlen (firstn k b) + 2 = 4 * l) by (unfold nlen; rewrite firstn_length; lia).
  destruct (IH (skipn k b)) as [(xs & r & Hx)|[Hx|Hx]]; [rewrite skipn_length; lia|left; eexists _, _|right; left|right; right].
  - apply chain_is_more; [exact Ht|lia|exact Hk|exact Hx].
  - apply refused_later_ext; [exact Ht|lia|exact Hk|exact Hx].
  - apply crash_later_ext; [exact Ht|lia|exact Hk|exact Hx].
Qed.

(* ------------------------------------------------------------------------- *)
(* The header *)

Lemma version_iff b0 : byte b0 -> (N.shiftr b0 5 =? 1) && (N.shiftr (N.land b0 16) 4 =? 1) = true <-> gtp_version b0.
Proof.
  intros H. rewrite version_sweep by exact H. unfold gtp_version. rewrite andb_true_iff, N.eqb_eq. reflexivity.
Qed.
Lemma walks_some b0 : walks_extensions b0 = true -> some_flag b0 = true.
Proof. unfold walks_extensions, some_flag. destruct (flag_S b0), (flag_PN b0), (flag_E b0); auto. Qed.
Lemma walks_arm b0 : some_flag b0 = true -> (if flag_S b0 then flag_E b0 else true) = walks_extensions b0.
Proof. unfold walks_extensions, some_flag. destruct (flag_S b0), (flag_PN b0), (flag_E b0); auto. Qed.
Lemma header_reads m b0 t l1 l2 a b c d r : byte b0 -> gtp_version b0 -> 256 * l1 + l2 <> 0 ->
  hdr_unmarshal m (b0 :: t :: l1 :: l2 :: a :: b :: c :: d :: r) =
  if some_flag b0 then hdr_optional m (b0 :: t :: l1 :: l2 :: a :: b :: c :: d :: r) t (256 * l1 + l2) (be32 a b c d)
    (if flag_S b0 then flag_PN b0 else true) (walks_extensions b0)
  else Ok (mkHdr t (256 * l1 + l2) (be32 a b c d) None None None).
Proof.
  intros Hb Hv Hl. unfold hdr_unmarshal. cbn [length Nat.leb]. unfold at_. cbn [nth_error bind].
  rewrite (proj2 (version_iff b0 Hb) Hv). unfold be16. rewrite (N.mul_comm l1). destruct (N.eqb_spec (256 * l1 + l2) 0); [contradiction|].
  rewrite hdr_flags_eq by exact Hb. unfold has_optional. fold (some_flag b0). destruct (some_flag b0) eqn:E; [|reflexivity].
  rewrite (walks_arm b0 E). reflexivity.
Qed.
Lemma optional_reads m b0 t l1 l2 a b c d s1 s2 n x q mt len td np :
  hdr_optional m (b0 :: t :: l1 :: l2 :: a :: b :: c :: d :: s1 :: s2 :: n :: x :: q) mt len td np true =
  let? i := unmarshal_ext_hdr m (x :: q) in Ok (mkHdr mt len td (Some (be16 s1 s2)) (if np then Some n else None) (Some i)).
Proof.
  unfold hdr_optional. rewrite slice_from_ok by (cbn [length]; lia). cbn [skipn bind length Nat.leb].
  unfold at_. cbn [nth_error bind]. rewrite slice_from_ok by (cbn [length]; lia). cbn [skipn bind]. destruct np; reflexivity.
Qed.
Lemma header_refused_ok m b e : bytes b -> header_refused b e -> hdr_unmarshal m b = Err e.
Proof.
  intros Hb H. destruct H as [b H|b0 r Hr Hv|b0 t r Hr Hv|b0 t l1 l2 r Hv Hl Hf Hr|b0 t l1 l2 a b c d s1 s2 n q Hv Hl Hw Hq].
  - unfold hdr_unmarshal. unfold nlen in H. destruct (Nat.leb_spec 8 (length b)); [lia|reflexivity].
  - unfold hdr_unmarshal. unfold nlen in Hr. destruct (Nat.leb_spec 8 (length (b0 :: r))) as [|H]; [|cbn [length] in H; lia].
    unfold at_ at 1. cbn [nth_error bind]. apply bytes_cons in Hb as [Hb0 _]. pose proof (version_iff b0 Hb0) as Hi.
    destruct ((N.shiftr b0 5 =? 1) && (N.shiftr (N.land b0 16) 4 =? 1)); [exfalso; apply Hv, Hi; reflexivity|reflexivity].
  - unfold hdr_unmarshal. unfold nlen in Hr. destruct (Nat.leb_spec 8 (length (b0 :: t :: 0 :: 0 :: r))) as [|H]; [|cbn [length] in H; lia].
    unfold at_. cbn [nth_error bind]. apply bytes_cons in Hb as [Hb0 _]. rewrite (proj2 (version_iff b0 Hb0) Hv). reflexivity.
  - unfold nlen in Hr. destruct r as [|a [|b [|c [|d r]]]]; cbn [length] in Hr; try lia. apply bytes_cons in Hb as [Hb0 _].
    rewrite header_reads, Hf by assumption. unfold hdr_optional. rewrite slice_from_ok by (cbn [length]; lia). cbn [skipn bind].
    destruct (Nat.leb_spec 4 (length r)); [lia|reflexivity].
  - apply bytes_cons in Hb as [Hb0 _]. rewrite header_reads by assumption. rewrite (walks_some b0 Hw), Hw.
    assert (Hx : exists x q', q = x :: q') by (destruct Hq; eauto). destruct Hx as (x & q' & ->). rewrite optional_reads.
    pose proof (ext_loop_refused m _ Hq [] (S (length (x :: q'))) [] ltac:(lia)) as E. cbn [app] in E. unfold unmarshal_ext_hdr.
    change (length (@nil N)) with 0%nat in E. rewrite E. reflexivity.
Qed.
Lemma header_crashes_ok b : bytes b -> header_crashes b -> hdr_unmarshal Debug b = Panic.
Proof.
  intros Hb H. destruct H as [b0 t l1 l2 a b c d s1 s2 n x q Hv Hl Hw Hq].
  apply bytes_cons in Hb as [Hb0 _]. rewrite header_reads by assumption. rewrite (walks_some b0 Hw), Hw, optional_reads.
  pose proof (ext_loop_crashes _ Hq [] (S (length (x :: q))) [] ltac:(lia)) as E. cbn [app] in E. unfold unmarshal_ext_hdr.
  change (length (@nil N)) with 0%nat in E. rewrite E. reflexivity.
Qed.
Lemma header_total b : (exists h r, header_is b h r) \/ (exists e, header_refused b e) \/ header_crashes b.
Proof.
  destruct (N.lt_ge_cases (nlen b) 8) as [H8|H8]; [right; left; eexists; constructor; exact H8|].
  unfold nlen in H8. do 8 (destruct b as [|? b]; [cbn [length] in H8; lia|]). clear H8.
  match goal with |- context[header_is (?x0 :: ?x1 :: ?x2 :: ?x3 :: ?x4 :: ?x5 :: ?x6 :: ?x7 :: b)] => rename x0 into b0; rename x1 into t; rename x2 into l1; rename x3 into l2 end.
  assert (Hd : gtp_version b0 \/ ~ gtp_version b0).
  { unfold gtp_version. destruct (N.eq_dec (b0 / 32) 1), (N.testbit b0 4); tauto || (right; intros []; discriminate) || (right; intros []; contradiction). }
  destruct Hd as [Hv|Hv]; [|right; left; eexists; apply refused_version; [unfold nlen; cbn [length]; lia|exact Hv]].
  destruct (N.eq_dec (256 * l1 + l2) 0) as [Hz|Hz].
  { assert (l1 = 0 /\ l2 = 0) as [-> ->] by lia. right; left; eexists. apply refused_zero; [unfold nlen; cbn [length]; lia|exact Hv]. }
  destruct (some_flag b0) eqn:Hf.
  - destruct (N.lt_ge_cases (nlen b) 4) as [H4|H4].
    { right; left; eexists. apply refused_optional; try assumption. unfold nlen in *. cbn [length]. lia. }
    unfold nlen in H4. destruct b as [|s1 [|s2 [|k [|x q]]]]; cbn [length] in H4; try lia.
    destruct Hv as [V1 V2]. destruct (walks_extensions b0) eqn:Hw.
    + destruct (chain_total _ (x :: q) (le_n _)) as [(xs & r & Hx)|[Hx|Hx]].
      * left. eexists _, r. apply (header_long _ _ _ _ _ _ _ _ _ _ _ _ _ xs); try assumption. rewrite Hw. exact Hx.
      * right; left; eexists. apply refused_extensions; try assumption. split; assumption.
      * right; right. apply crash_extensions; try assumption. split; assumption.
    + left. eexists _, q. apply (header_long _ _ _ _ _ _ _ _ _ _ _ _ _ []); try assumption. rewrite Hw. reflexivity.
  - destruct Hv as [V1 V2]. unfold some_flag in Hf. apply orb_false_iff in Hf as [Hf HE]. apply orb_false_iff in Hf as [HS HP].
    left. eexists _, b. apply header_short; assumption.
Qed.

(* ------------------------------------------------------------------------- *)
(* Private extensions and addresses *)

Lemma pe_crash_ok s : private_crashes s -> Pe_unmarshal Debug s = Panic.
Proof.
  destruct s as [|t [|l1 [|l2 v]]]; cbn [private_crashes]; try contradiction. intros H. unfold Pe_unmarshal. cbn [length Nat.leb].
  unfold at_ at 1 2. cbn [nth_error bind]. unfold be16 at 1 2. rewrite (N.mul_comm l1). destruct (N.eqb_spec (256 * l1 + l2) 0); [lia|].
  unfold check_tlv_ie_buffer. destruct (N.eqb_spec (256 * l1 + l2) 0); [contradiction|]. unfold add16, ov.
  destruct (N.ltb_spec (256 * l1 + l2 + 3) 65536); [|reflexivity]. destruct H as [H|[H1 H2]]; [lia|]. rewrite H1. cbn [bind].
  unfold nlen in H2. destruct v as [|x [|y v]]; cbn [length] in H2; try lia. reflexivity.
Qed.
Lemma pe_none_ok s : private_opt s None -> exists e, Pe_unmarshal Debug s = Err e.
Proof.
  intros H. apply private_opt_iff in H. destruct (Pe_unmarshal Debug s) as [x|e| |]; try discriminate. eauto.
Qed.
Lemma private_total s : (exists x, private_at s x) \/ private_opt s None \/ private_crashes s.
Proof.
  destruct s as [|t [|l1 [|l2 v]]]; try (right; left; exact I).
  destruct (N.eq_dec (256 * l1 + l2) 0); [right; left; left; assumption|].
  destruct (N.le_gt_cases 65533 (256 * l1 + l2)); [right; right; left; assumption|].
  destruct (N.lt_ge_cases (nlen (t :: l1 :: l2 :: v)) (256 * l1 + l2 + 3)) as [H1|H1]; [right; left; right; split; [lia|exact H1]|].
  destruct v as [|i1 [|i2 v]].
  - unfold nlen in H1. cbn [length] in H1. lia.
  - right; right; right. unfold nlen in *. cbn [length] in *. lia.
  - left. eexists. exists t, l1, l2, i1, i2, v. split; [reflexivity|]. split; [lia|]. split; [exact H1|reflexivity].
Qed.
Lemma gsn_refused_ok q : address_refused q -> exists e, Gsn_unmarshal Debug (133 :: q) = Err e.
Proof.
  intros H. unfold Gsn_unmarshal. destruct q as [|l1 [|l2 v]]; try (eexists; reflexivity). cbn [length Nat.leb].
  unfold at_ at 1 2. cbn [nth_error bind]. unfold be16. rewrite (N.mul_comm l1). cbn [address_refused] in H. cbv zeta in H.
  destruct (N.eqb_spec (256 * l1 + l2) 0); [eauto|]. destruct H as [|[Hl H]]; [contradiction|].
  unfold check_tlv_ie_buffer. destruct (N.eqb_spec (256 * l1 + l2) 0); [contradiction|]. rewrite add16_small by lia. cbn [bind length].
  unfold nlen in H. destruct (Nat.leb_spec (N.to_nat (256 * l1 + l2 + 3)) (S (S (S (length v))))) as [Hle|]; [|eauto].
  destruct (N.eqb_spec (256 * l1 + l2) 4); [lia|]. destruct (N.eqb_spec (256 * l1 + l2) 16); [lia|]. eauto.
Qed.
Lemma gsn_crash_ok l1 l2 q : 65533 <= 256 * l1 + l2 -> Gsn_unmarshal Debug (133 :: l1 :: l2 :: q) = Panic.
Proof.
  intros H. unfold Gsn_unmarshal. cbn [length Nat.leb]. unfold at_ at 1 2. cbn [nth_error bind]. unfold be16 at 1 2. rewrite (N.mul_comm l1).
  destruct (N.eqb_spec (256 * l1 + l2) 0); [lia|]. unfold check_tlv_ie_buffer. destruct (N.eqb_spec (256 * l1 + l2) 0); [contradiction|].
  unfold add16, ov. destruct (N.ltb_spec (256 * l1 + l2 + 3) 65536); [lia|reflexivity].
Qed.
Lemma gsn_total q : bytes q -> (exists e r, element (133 :: q) e r) \/ address_refused q \/
  (exists l1 l2 r, q = l1 :: l2 :: r /\ 65533 <= 256 * l1 + l2).
Proof.
  destruct q as [|l1 [|l2 v]]; try (right; left; exact I). intros Hb. apply bytes_cons in Hb as [B1 Hb]. apply bytes_cons in Hb as [B2 Hb]. unfold byte in *.
  destruct (N.le_gt_cases 65533 (256 * l1 + l2)); [right; right; eauto|].
  assert (D : address_refused (l1 :: l2 :: v) \/ (256 * l1 + l2 <= nlen v /\ (256 * l1 + l2 = 4 \/ 256 * l1 + l2 = 16))).
  { cbn [address_refused]. cbv zeta. lia. }
  destruct D as [D|[D1 D2]]; [auto|]. left. unfold nlen in D1. destruct D2 as [D2|D2].
  - assert (l1 = 0 /\ l2 = 4) as [-> ->] by lia. destruct v as [|a [|b [|c [|d v]]]]; cbn [length] in D1; try lia. eexists _, _. constructor.
  - assert (l1 = 0 /\ l2 = 16) as [-> ->] by lia. rewrite <- (firstn_skipn 16 v). eexists _, _. constructor. rewrite firstn_length. lia.
Qed.

(* ------------------------------------------------------------------------- *)
(* The elements of an Error Indication *)

Definition counter (s : EiState) (t : N) : nat :=
  if t =? 16 then cnt (c_teid s) else if t =? 133 then cnt (c_gsn s) else if t =? 255 then cnt (c_pe s) else 0%nat.
Lemma element_code s e r : element s e r -> hd 0 s = ucode e /\ (ucode e = 16 \/ ucode e = 133 \/ ucode e = 255).
Proof. destruct 1; cbn [hd ucode]; auto. Qed.
Lemma element_short s e r : element s e r -> exists k, r = skipn k s /\ (0 < k <= length s)%nat.
Proof.
  destruct 1 as [a b c d r|a b c d r|o r Ho|s x Hx Hh].
  - exists 5%nat. cbn [skipn length]. split; [reflexivity|lia].
  - exists 7%nat. cbn [skipn length]. split; [reflexivity|lia].
  - exists 19%nat. change (skipn 19 (133 :: 0 :: 16 :: o ++ r)) with (skipn 16 (o ++ r)). cbn [length]. rewrite skipn_app, (skipn_all2 o), Ho by lia. rewrite app_length. split; [reflexivity|lia].
  - eexists. split; [reflexivity|]. destruct Hx as (t & l1 & l2 & i1 & i2 & v & E & Hl & Hs & ->). cbn [pe_length]. unfold nlen in Hs. lia.
Qed.
Lemma count_full c : cnt c = 255%nat -> count Debug c = Panic.
Proof. destruct c as [n|]; cbn [cnt count]; [|lia]. intros H. unfold add8, ov. destruct (N.ltb_spec (n + 1) 256); [lia|reflexivity]. Qed.
Lemma count_more c : (cnt c < 255)%nat -> exists c', count Debug c = Ok c' /\ cnt c' = S (cnt c).
Proof. intros H. destruct (carries_counts Debug c H) as (c' & E & K & _). eauto. Qed.

(* one turn of the loop *)
Lemma ei_turn fuel pre s0 e r s : element s0 e r -> ei_cursor s = length pre -> ei_increment s <= ucode e ->
  ((counter s (ucode e) < 255)%nat -> exists s' k, ei_loop Debug (S fuel) (pre ++ s0) s = ei_loop Debug fuel ((pre ++ firstn k s0) ++ r) s' /\
     r = skipn k s0 /\ (0 < k <= length s0)%nat /\ ei_cursor s' = length (pre ++ firstn k s0) /\ ei_increment s' = ucode e /\
     forall t, counter s' t = (counter s t + if (t =? ucode e)%N then 1 else 0)%nat) /\
  (counter s (ucode e) = 255%nat -> ei_loop Debug (S fuel) (pre ++ s0) s = Panic).
Proof.
  intros He Hc Hi. pose proof (element_code _ _ _ He) as (Hh & _). pose proof (element_short _ _ _ He) as (k0 & _ & Hk0).
  assert (Hat : @at_ GTPV1Error (pre ++ s0) (length pre) = Ok (ucode e)).
  { destruct s0 as [|y s0]; [cbn [length] in Hk0; lia|]. cbn [hd] in Hh. subst y. apply at_app_len. }
  cbn [ei_loop]. rewrite Hc, Hat. cbn [bind]. rewrite slice_from_ok, skipn_app_exact by (reflexivity || (rewrite app_length; lia)). cbn [bind].
  destruct (Nat.leb_spec (length (pre ++ s0)) (length pre)) as [Hle|_]; [rewrite app_length in Hle; lia|].
  destruct (N.ltb_spec (ucode e) (ei_increment s)); [lia|]. clear Hat Hh k0 Hk0.
  assert (Hjoin : forall k, (pre ++ firstn k s0) ++ skipn k s0 = pre ++ s0) by (intros k; rewrite <- app_assoc, firstn_skipn; reflexivity).
  assert (Hcur : forall k, (k <= length s0)%nat -> (length pre + k)%nat = length (pre ++ firstn k s0)) by (intros k Hk; rewrite app_length, firstn_length; lia).
  destruct He as [a b c d r|a b c d r|o r Ho|s0 x Hx Hh]; cbn [ucode] in *.
  - change (16 =? TEID_DATA) with true. cbv iota. rewrite teid_is. unfold counter at 1 4. change (16 =? 16) with true. cbv iota. split; intros K.
    + destruct (count_more _ K) as (c' & -> & Hc'). cbn [bind]. eexists _, 5%nat. split; [rewrite <- (Hjoin 5%nat); reflexivity|].
      cbn [skipn ei_cursor ei_increment]. split; [reflexivity|]. cbn [length]. split; [lia|]. split; [rewrite app_length; reflexivity|]. split; [reflexivity|].
      intros t. unfold counter. cbn [c_teid c_gsn c_pe]. destruct (N.eqb_spec t 16); [lia|]. lia.
    + rewrite count_full by exact K. reflexivity.
  - change (133 =? TEID_DATA) with false. change (133 =? GSN_ADDRESS) with true. cbv iota. rewrite gsn_v4.
    unfold counter at 1 4. change (133 =? 16) with false. change (133 =? 133) with true. cbv iota. split; intros K.
    + destruct (count_more _ K) as (c' & -> & Hc'). cbn [bind]. unfold Gsn_len. cbn [gsn_length]. rewrite add16_small by lia. cbn [bind]. change (N.to_nat (4 + 3)) with 7%nat.
      eexists _, 7%nat. split; [rewrite <- (Hjoin 7%nat); reflexivity|].
      cbn [skipn ei_cursor ei_increment]. split; [reflexivity|]. cbn [length]. split; [lia|]. split; [rewrite app_length; reflexivity|]. split; [reflexivity|].
      intros t. unfold counter. cbn [c_teid c_gsn c_pe]. destruct (N.eqb_spec t 16), (N.eqb_spec t 133), (N.eqb_spec t 255); lia.
    + rewrite count_full by exact K. reflexivity.
  - change (133 =? TEID_DATA) with false. change (133 =? GSN_ADDRESS) with true. cbv iota. rewrite gsn_v6 by exact Ho.
    unfold counter at 1 4. change (133 =? 16) with false. change (133 =? 133) with true. cbv iota. split; intros K.
    + destruct (count_more _ K) as (c' & -> & Hc'). cbn [bind]. unfold Gsn_len. cbn [gsn_length]. rewrite add16_small by lia. cbn [bind]. change (N.to_nat (16 + 3)) with 19%nat.
      assert (Hsk : r = skipn 19 (133 :: 0 :: 16 :: o ++ r)) by (change (skipn 19 (133 :: 0 :: 16 :: o ++ r)) with (skipn 16 (o ++ r)); rewrite skipn_app, (skipn_all2 o), Ho by lia; reflexivity).
      eexists _, 19%nat. split; [rewrite <- (Hjoin 19%nat), <- Hsk; reflexivity|].
      cbn [ei_cursor ei_increment]. split; [exact Hsk|]. assert (Hlen : (19 <= length (133%N :: 0%N :: 16%N :: o ++ r))%nat) by (cbn [length]; rewrite app_length; lia).
      split; [lia|]. split; [apply Hcur; exact Hlen|]. split; [reflexivity|].
      intros t. unfold counter. cbn [c_teid c_gsn c_pe]. destruct (N.eqb_spec t 16), (N.eqb_spec t 133), (N.eqb_spec t 255); lia.
    + rewrite count_full by exact K. reflexivity.
  - change (255 =? TEID_DATA) with false. change (255 =? GSN_ADDRESS) with false. change (255 =? PRIVATE_EXTENSION) with true. cbv iota.
    rewrite (pe_is Debug _ _ Hx). pose proof Hx as (t & l1 & l2 & i1 & i2 & v & Es & Hl & Hs3 & Ex).
    unfold counter at 1 4. change (255 =? 16) with false. change (255 =? 133) with false. change (255 =? 255) with true. cbv iota. split; intros K.
    + destruct (count_more _ K) as (c' & -> & Hc'). cbn [bind].
      assert (Hpl : pe_length x <= 65532) by (rewrite Ex; cbn [pe_length]; lia).
      assert (Hk : (N.to_nat (pe_length x) + 3 <= length s0)%nat) by (rewrite Ex; cbn [pe_length]; unfold nlen in Hs3; lia).
      unfold Pe_len. rewrite add16_small by lia. cbn [bind]. replace (N.to_nat (pe_length x + 3)) with (N.to_nat (pe_length x) + 3)%nat by lia.
      eexists _, (N.to_nat (pe_length x) + 3)%nat. split; [rewrite (Hjoin (N.to_nat (pe_length x) + 3)%nat); reflexivity|].
      cbn [ei_cursor ei_increment]. split; [reflexivity|]. split; [lia|]. split; [apply Hcur; exact Hk|]. split; [reflexivity|].
      intros u. unfold counter. cbn [c_teid c_gsn c_pe]. destruct (N.eqb_spec u 16), (N.eqb_spec u 133), (N.eqb_spec u 255); lia.
    + rewrite count_full by exact K. reflexivity.
Qed.

Lemma same_cons t e l : same t (e :: l) = ((if (t =? ucode e)%N then 1 else 0) + same t l)%nat.
Proof. unfold same. cbn [filter]. rewrite (N.eqb_sym (ucode e)). destruct (t =? ucode e); reflexivity. Qed.
Lemma same_app t a l : same t (a ++ l) = (same t a + same t l)%nat.
Proof. unfold same. rewrite filter_app, app_length. reflexivity. Qed.
Definition latest (i : N) (l : list uelem) : N := fold_left (fun _ e => ucode e) l i.
Lemma latest_order l t : forall i, StronglySorted N.le (i :: map ucode l) -> (latest i l <= t <-> i <= t /\ in_order l t).
Proof.
  unfold in_order. induction l as [|e l IH]; intros i Hs; cbn [latest fold_left map] in *.
  - split; [intros H; split; [exact H|constructor]|tauto].
  - inversion Hs as [|? ? Hs' HF]; subst. inversion HF as [|? ? Hie HF']; subst. fold (latest (ucode e) l). rewrite (IH _ Hs'). split.
    + intros [H1 H2]. split; [lia|constructor; [exact H1|exact H2]].
    + intros [H1 H2]. inversion H2; subst. auto.
Qed.
Lemma ei_walk r l q : starts r l q -> forall fuel pre s, ei_cursor s = length pre -> (length r < fuel)%nat ->
  StronglySorted N.le (ei_increment s :: map ucode l) -> (forall t, (counter s t + same t l <= 255)%nat) ->
  exists fuel' pre' s', ei_loop Debug fuel (pre ++ r) s = ei_loop Debug fuel' (pre' ++ q) s' /\ ei_cursor s' = length pre' /\
    (length q < fuel')%nat /\ ei_increment s' = latest (ei_increment s) l /\ forall t, counter s' t = (counter s t + same t l)%nat.
Proof.
  induction 1 as [q|s0 e r l q He Hq IH]; intros fuel pre s Hc Hf Hs Hn.
  - exists fuel, pre, s. repeat split; try assumption. intros t. unfold same. cbn. lia.
  - destruct fuel as [|fuel]; [lia|]. cbn [map] in Hs. inversion Hs as [|? ? Hs' HF]; subst. inversion HF as [|? ? Hie HF']; subst.
    destruct (ei_turn fuel pre s0 e r s He Hc Hie) as [T _].
    destruct T as (s' & k & -> & Hr & Hk & Hc' & Hi' & Hn').
    { specialize (Hn (ucode e)). rewrite same_cons, N.eqb_refl in Hn. lia. }
    destruct (IH fuel (pre ++ firstn k s0) s') as (fuel' & pre' & s2 & -> & A1 & A2 & A3 & A4).
    + exact Hc'.
    + rewrite Hr, skipn_length. lia.
    + rewrite Hi'. exact Hs'.
    + intros t. specialize (Hn t). rewrite same_cons in Hn. rewrite Hn'. lia.
    + exists fuel', pre', s2. split; [reflexivity|]. repeat split; try assumption.
      * rewrite A3, Hi'. reflexivity.
      * intros t. rewrite A4, Hn', same_cons. lia.
Qed.
Lemma ei_stop l q o fuel pre s : stops l q o -> ei_cursor s = length pre ->
  (forall t, ei_increment s <= t <-> in_order l t) -> (forall t, counter s t = same t l) ->
  ei_loop Debug (S fuel) (pre ++ q) s = match o with Some e => Err e | None => Panic end.
Proof.
  intros H Hc Hi Hn.
  assert (Hany : in_order l 255) by (apply Forall_forall; intros [] _; cbn [ucode]; lia).
  assert (Hopen : forall t q, ei_loop Debug (S fuel) (pre ++ t :: q) s =
    if t <? ei_increment s then Err MessageInvalidMessageFormat
    else if t =? TEID_DATA then
          match Teid_unmarshal (t :: q) with
          | Ok i =>
            let? c := count Debug (c_teid s) in
            ei_loop Debug fuel (pre ++ t :: q) (mkEi (length pre + 5) t c (c_gsn s) (c_pe s)
              (if is_some (c_teid s) then s_teid s else i) (s_gsn s) (s_pe s))
          | Err _ => Err MessageMandatoryIEMissing
          | Panic => Panic | Diverge => Diverge
          end
        else if t =? GSN_ADDRESS then
          match Gsn_unmarshal Debug (t :: q) with
          | Ok i =>
            let? c := count Debug (c_gsn s) in
            let? l := Gsn_len Debug i in
            ei_loop Debug fuel (pre ++ t :: q) (mkEi (length pre + l) t (c_teid s) c (c_pe s)
              (s_teid s) (if is_some (c_gsn s) then s_gsn s else i) (s_pe s))
          | Err _ => Err MessageMandatoryIEMissing
          | Panic => Panic | Diverge => Diverge
          end
        else if t =? PRIVATE_EXTENSION then
          match Pe_unmarshal Debug (t :: q) with
          | Ok i =>
            let? c := count Debug (c_pe s) in
            let? l := Pe_len Debug i in
            ei_loop Debug fuel (pre ++ t :: q) (mkEi (length pre + l) t (c_teid s) (c_gsn s) c
              (s_teid s) (s_gsn s) (if is_some (c_pe s) then s_pe s else Some i))
          | Err _ => Err MessageOptionalIEIncorrect
          | Panic => Panic | Diverge => Diverge
          end
        else Err MessageInvalidMessageFormat).
  { intros t q0. cbn [ei_loop]. rewrite Hc, at_app_len. cbn [bind]. rewrite slice_from_ok, skipn_app_exact by (reflexivity || (rewrite app_length; lia)). cbn [bind].
    destruct (Nat.leb_spec (length (pre ++ t :: q0)) (length pre)) as [Hle|_]; [rewrite app_length in Hle; cbn [length] in Hle; lia|reflexivity]. }
  destruct H as [t q Ho|t q Ho Hu|q Ho Hl|q Ho Hl|q Hl|l1 l2 q Ho Hl|q Hl|s0 e r He Ho Hs]; try rewrite Hopen.
  - destruct (N.ltb_spec t (ei_increment s)) as [|Hle]; [reflexivity|]. apply Hi in Hle. contradiction.
  - apply Hi in Ho. destruct (N.ltb_spec t (ei_increment s)); [lia|]. cbn [In] in Hu. unfold TEID_DATA, GSN_ADDRESS, PRIVATE_EXTENSION.
    destruct (N.eqb_spec t 16); [subst; tauto|]. destruct (N.eqb_spec t 133); [subst; tauto|]. destruct (N.eqb_spec t 255); [subst; tauto|reflexivity].
  - apply Hi in Ho. destruct (N.ltb_spec 16 (ei_increment s)); [lia|]. change (16 =? TEID_DATA) with true. cbv iota. unfold Teid_unmarshal.
    unfold nlen in Hl. destruct (Nat.ltb_spec 4 (length (16 :: q))) as [H4|]; [cbn [length] in H4; lia|reflexivity].
  - apply Hi in Ho. destruct (N.ltb_spec 133 (ei_increment s)); [lia|]. change (133 =? TEID_DATA) with false. change (133 =? GSN_ADDRESS) with true. cbv iota.
    destruct (gsn_refused_ok q Hl) as (x & ->). reflexivity.
  - apply Hi in Hany. destruct (N.ltb_spec 255 (ei_increment s)); [lia|]. change (255 =? TEID_DATA) with false. change (255 =? GSN_ADDRESS) with false.
    change (255 =? PRIVATE_EXTENSION) with true. cbv iota. destruct (pe_none_ok _ Hl) as (x & ->). reflexivity.
  - apply Hi in Ho. destruct (N.ltb_spec 133 (ei_increment s)); [lia|]. change (133 =? TEID_DATA) with false. change (133 =? GSN_ADDRESS) with true. cbv iota.
    rewrite gsn_crash_ok by exact Hl. reflexivity.
  - apply Hi in Hany. destruct (N.ltb_spec 255 (ei_increment s)); [lia|]. change (255 =? TEID_DATA) with false. change (255 =? GSN_ADDRESS) with false.
    change (255 =? PRIVATE_EXTENSION) with true. cbv iota. rewrite pe_crash_ok by exact Hl. reflexivity.
  - apply Hi in Ho. destruct (ei_turn fuel pre s0 e r s He Hc Ho) as [_ T]. apply T. rewrite Hn. exact Hs.
Qed.

Lemma sorted_snoc l e : StronglySorted N.le (map ucode l) -> in_order l (ucode e) -> StronglySorted N.le (map ucode (l ++ [e])).
Proof.
  unfold in_order. induction l as [|x l IH]; cbn [map app]; intros Hs Ho; [repeat constructor|].
  inversion Hs as [|? ? Hs' HF]; subst. inversion Ho as [|? ? Hx Ho']; subst. constructor; [apply IH; assumption|].
  rewrite map_app. apply Forall_app. split; [exact HF|repeat constructor; exact Hx].
Qed.
Lemma walk_total n : forall r acc, (length r <= n)%nat -> bytes r -> walked acc ->
  exists l q, starts r l q /\ walked (acc ++ l) /\ (q = [] \/ exists o, stops (acc ++ l) q o).
Proof.
  induction n as [|n IH]; intros [|t r] acc Hn Hb Hw; try (exists [], []; rewrite app_nil_r; repeat split; [constructor|apply Hw|apply Hw|auto]; fail); cbn [length] in Hn; [lia|].
  assert (Hstop : forall o, stops acc (t :: r) o -> exists l q, starts (t :: r) l q /\ walked (acc ++ l) /\ (q = [] \/ exists o, stops (acc ++ l) q o)).
  { intros o Ho. exists [], (t :: r). rewrite app_nil_r. split; [constructor|]. split; [exact Hw|]. right. eauto. }
  assert (Hel : forall e q, element (t :: r) e q -> in_order acc (ucode e) -> exists l q, starts (t :: r) l q /\ walked (acc ++ l) /\ (q = [] \/ exists o, stops (acc ++ l) q o)).
  { intros e q He Ho. destruct (Nat.eq_dec (same (ucode e) acc) 255) as [Hs|Hs]; [apply (Hstop None); eapply crash_many; eassumption|].
    destruct (element_short _ _ _ He) as (k & Hk & Hk2). destruct Hw as [W1 W2].
    destruct (IH q (acc ++ [e])) as (l & q' & A & B & C).
    - rewrite Hk, skipn_length. cbn [length] in *. lia.
    - rewrite Hk. apply bytes_skipn. exact Hb.
    - split; [apply sorted_snoc; assumption|]. intros u. rewrite same_app, same_cons. specialize (W2 u). change (same u []) with 0%nat.
      destruct (N.eqb_spec u (ucode e)) as [->|]; lia.
    - rewrite <- app_assoc in B, C. exists (e :: l), q'. split; [econstructor; eassumption|]. split; [exact B|exact C]. }
  assert (Hdec : in_order acc t \/ ~ in_order acc t).
  { unfold in_order. clear. induction acc as [|x acc IH]; [left; constructor|]. destruct (N.le_gt_cases (ucode x) t) as [Hx|Hx].
    - destruct IH as [IH|IH]; [left; constructor; assumption|right; intros F; inversion F; contradiction].
    - right. intros F. inversion F; subst. lia. }
  destruct Hdec as [Ho|Ho]; [|apply (Hstop (Some MessageInvalidMessageFormat)); apply stop_order; exact Ho].
  pose proof Hb as Hb'. apply bytes_cons in Hb' as [Bt Hb'].
  destruct (N.eq_dec t 16) as [->|H16].
  { destruct (N.lt_ge_cases (nlen r) 4) as [H4|H4]; [eapply Hstop; apply stop_teid; assumption|].
    unfold nlen in H4. destruct r as [|a [|b [|c [|d r]]]]; cbn [length] in H4; try lia. eapply Hel; [apply el_teid|exact Ho]. }
  destruct (N.eq_dec t 133) as [->|H133].
  { destruct (gsn_total r Hb') as [(e & q & He)|[Hr|(l1 & l2 & q & -> & Hl)]].
    - eapply Hel; [exact He|]. pose proof (element_code _ _ _ He) as (<- & _). exact Ho.
    - eapply Hstop. apply stop_gsn; assumption.
    - eapply Hstop. apply crash_gsn; assumption. }
  destruct (N.eq_dec t 255) as [->|H255].
  { destruct (private_total (255 :: r)) as [(x & Hx)|[Hx|Hx]].
    - eapply Hel; [apply (el_pe _ x); [exact Hx|reflexivity]|exact Ho].
    - eapply Hstop. apply stop_pe. exact Hx.
    - eapply Hstop. apply crash_pe. exact Hx. }
  eapply Hstop. apply stop_unknown; [exact Ho|]. cbn [In]. intuition congruence.
Qed.
Lemma starts_carries r l : starts r l [] <-> carries r l.
Proof.
  split.
  - intros H. remember [] as q eqn:Eq. induction H as [q|s e r l q He Hq IH]; [subst; constructor|]. specialize (IH Eq).
    destruct He; constructor; assumption.
  - induction 1 as [|a b c d r l Hc IH|a b c d r l Hc IH|o r l Ho Hc IH|s0 x l Hx H255 Hc IH]; econstructor; try eassumption; constructor; assumption.
Qed.
